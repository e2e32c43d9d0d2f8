(** The names of packages with Apple processors. *)
From Verif Require Import Base BaseProofs Text LinuxTextSpec ArmMachModel ArmMachSpec.
Open Scope nat_scope.

Lemma c_string_holds : forall s buffer, holds buffer s -> c_string buffer = Ok s.
Proof.
  induction s as [|c s IH]; intros buffer (Z & rest & ->); [reflexivity|]. cbn [app c_string].
  destruct (N.eqb_spec c 0) as [->|_]; [exfalso; apply Z; now left|]. rewrite (IH (s ++ 0%N :: rest)); [reflexivity|]. split; [|now exists rest].
  intros I. apply Z. now right.
Qed.
Lemma c_string_inv : forall buffer s, c_string buffer = Ok s -> holds buffer s.
Proof.
  induction buffer as [|c buffer IH]; intros s E; [discriminate|]. cbn [c_string] in E. destruct (N.eqb_spec c 0) as [->|Ne].
  - injection E as <-. split; [easy|]. now exists buffer.
  - destruct (c_string buffer) as [s'| |]; try discriminate. cbn [bind] in E. injection E as <-. destruct (IH s' eq_refl) as (Z & rest & ->).
    split; [|now exists rest]. intros [I|I]; contradiction.
Qed.

(** ** Digits *)
Lemma digit_char c : is_digit_char c = true <-> is_digit c.
Proof. unfold is_digit_char, is_digit. rewrite Bool.andb_true_iff, !N.leb_le. reflexivity. Qed.
Lemma digit_char_no c : is_digit_char c = false <-> ~ is_digit c.
Proof. rewrite <- digit_char. destruct (is_digit_char c); split; congruence. Qed.

Definition dec_from (v : N) (ds : list N) : N := fold_left (fun acc c => acc * 10 + (c - 48))%N ds v.
Lemma scan_digits_spec : forall s v, exists ds r, s = ds ++ r /\ Forall is_digit ds /\ ~ starts_with_digit r /\ scan_digits s v = (dec_from v ds, r).
Proof.
  induction s as [|c s IH]; intros v.
  - exists [], []. repeat split; [constructor|]. intros (c & t & E & _). discriminate.
  - cbn [scan_digits]. destruct (is_digit_char c) eqn:D.
    + destruct (IH (v * 10 + (c - 48))%N) as (ds & r & -> & F & R & ->). exists (c :: ds), r. repeat split; [constructor; [now apply digit_char|exact F]|exact R].
    + exists [], (c :: s). repeat split; [constructor|]. intros (c' & t & E & H). injection E as <- _. apply digit_char in H. congruence.
Qed.
Lemma scan_digits_exact : forall ds r v, Forall is_digit ds -> ~ starts_with_digit r -> scan_digits (ds ++ r) v = (dec_from v ds, r).
Proof.
  induction ds as [|d ds IH]; intros r v F R.
  - cbn [app]. destruct r as [|c r]; [reflexivity|]. cbn [scan_digits]. destruct (is_digit_char c) eqn:D; [|reflexivity].
    exfalso. apply R. exists c, r. split; [reflexivity|now apply digit_char].
  - inversion F as [|? ? Hd F']. subst. cbn [app scan_digits]. apply digit_char in Hd. rewrite Hd. now apply IH.
Qed.

Lemma skip_spaces_suffix : forall s, exists b, s = b ++ skip_spaces s.
Proof.
  induction s as [|c s (b & E)]; [now exists []|]. cbn [skip_spaces]. destruct (is_space_char c); [|now exists []].
  exists (c :: b). cbn. now f_equal.
Qed.

Definition suffix (r s : list N) : Prop := exists b, s = b ++ r.
Lemma suffix_refl s : suffix s s. Proof. now exists []. Qed.
Lemma suffix_trans r s t : suffix r s -> suffix s t -> suffix r t.
Proof. intros (b & ->) (c & ->). exists (c ++ b). now rewrite app_assoc. Qed.
Lemma suffix_cons c s : suffix s (c :: s). Proof. now exists [c]. Qed.

Lemma scan_u32_defined s whole : suffix s whole -> small_numbers whole ->
  exists r, scan_u32 s = Ok r /\ match r with Some (_, rest) => suffix rest whole | None => True end.
Proof.
  intros S M. unfold scan_u32.
  assert (S1 : suffix (skip_spaces s) whole).
  { eapply suffix_trans; [|exact S]. destruct (skip_spaces_suffix s) as (b & E). now exists b. }
  revert S1. generalize (skip_spaces s) as s1. intros s1 S1.
  assert (X : exists neg s2, match s1 with
     | c :: rest => if (c =? 43)%N then (false, rest) else if (c =? 45)%N then (true, rest) else (false, s1)
     | [] => (false, s1) end = (neg, s2) /\ suffix s2 whole).
  { destruct s1 as [|c rest]; [now exists false, []|]. destruct (c =? 43)%N; [|destruct (c =? 45)%N].
    - exists false, rest. split; [reflexivity|]. eapply suffix_trans; [apply suffix_cons|exact S1].
    - exists true, rest. split; [reflexivity|]. eapply suffix_trans; [apply suffix_cons|exact S1].
    - now exists false, (c :: rest). }
  destruct X as (neg & s2 & -> & S2). destruct s2 as [|c s2]; [now exists None|]. destruct (is_digit_char c) eqn:D; [|now exists None].
  destruct (scan_digits_spec (c :: s2) 0) as (ds & r & E & F & R & ->).
  assert (V : (dec_from 0 ds < two32)%N).
  { destruct S2 as (b & ->). rewrite E in M. exact (M b ds r eq_refl F). }
  destruct (N.ltb_spec (dec_from 0 ds) two32); [|lia]. eexists. split; [reflexivity|]. eapply suffix_trans; [|exact S2]. now exists ds.
Qed.
Lemma scan_name_suffix : forall w s n r, scan_name w s = (n, r) -> s = n ++ r.
Proof.
  induction w as [|w IH]; intros s n r E; cbn [scan_name] in E; [now injection E as <- <-|].
  destruct s as [|c s]; [now injection E as <- <-|]. destruct ((c =? 44)%N || is_digit_char c); [now injection E as <- <-|].
  destruct (scan_name w s) as (n', r') eqn:Q. injection E as <- <-. cbn. f_equal. now apply IH.
Qed.
Lemma scan_machine_defined s : small_numbers s -> exists r, scan_machine s = Ok r.
Proof.
  intros M. unfold scan_machine. destruct (scan_name 9 s) as (name, rest) eqn:E. apply scan_name_suffix in E.
  destruct name as [|x name]; [now exists None|].
  destruct (scan_u32_defined rest s (ex_intro _ _ E) M) as (mj & -> & HS). cbn [bind]. destruct mj as [(major, r1)|]; [|now exists None].
  destruct r1 as [|c r1]; [now exists None|]. destruct (c =? 44)%N; [|now exists None].
  destruct (scan_u32_defined r1 s (suffix_trans _ _ _ (suffix_cons c r1) HS) M) as (mn & -> & _). cbn [bind]. destruct mn as [(minor, r2)|]; [|now exists None].
  now eexists.
Qed.

Lemma name_defined a : strings_defined (aa_brand a) (aa_machine a) -> exists name, package_name a = Ok name.
Proof.
  unfold strings_defined, package_name, name_from_brand, name_from_machine. destruct (aa_brand a) as [buffer|].
  - intros (s & H). rewrite (c_string_holds s buffer H). cbn [bind]. now eexists.
  - cbn [bind]. destruct (aa_machine a) as [buffer|]; [|intros _; now exists []]. intros (s & H & M). rewrite (c_string_holds s buffer H). cbn [bind].
    destruct (scan_machine_defined s M) as (r & ->). cbn [bind]. destruct r as [[[name major] minor]|]; [|now eexists].
    destruct (chip_model name major minor) as (model, x). destruct (model =? 0)%N; now eexists.
Qed.

(** ** Length and zero bytes *)
Lemma in_firstn_in {A} (x : A) : forall n l, In x (firstn n l) -> In x l.
Proof. induction n as [|n IH]; intros [|y l] H; cbn in H; try contradiction. destruct H as [->|H]; [now left|right; now apply IH]. Qed.
Lemma decimal_digits : forall fuel n, Forall is_digit (decimal fuel n).
Proof.
  induction fuel as [|fuel IH]; intros n; [constructor|]. cbn [decimal]. destruct (N.ltb_spec n 10).
  - repeat constructor; unfold is_digit; lia.
  - apply Forall_app. split; [apply IH|]. repeat constructor; assert (n mod 10 < 10)%N by (apply N.mod_lt; lia); unfold is_digit; lia.
Qed.
Lemma ok_same {A} (x y : A) : Ok x = Ok y -> x = y.
Proof. congruence. Qed.
Lemma name_clean a name : package_name a = Ok name -> length name <= 47 /\ ~ In 0%N name.
Proof.
  unfold package_name, name_from_brand. destruct (aa_brand a) as [buffer|].
  - destruct (c_string buffer) as [s| |] eqn:E; try discriminate. cbn [bind]. intros Q. apply ok_same in Q. subst name. apply c_string_inv in E. destruct E as (Z & _).
    split; [rewrite firstn_length; unfold name_max; lia|]. intros I. apply Z. now apply in_firstn_in in I.
  - cbn [bind]. unfold name_from_machine. destruct (aa_machine a) as [buffer|].
    2: { cbn [bind]. intros Q. apply ok_same in Q. subst name. split; [cbn; lia|easy]. }
    destruct (c_string buffer) as [s| |]; try discriminate. cbn [bind]. destruct (scan_machine s) as [r| |]; try discriminate. cbn [bind].
    destruct r as [[[dev major] minor]|]. 2: { cbn [bind]. intros Q. apply ok_same in Q. subst name. split; [cbn; lia|easy]. }
    destruct (chip_model dev major minor) as (model, x). destruct (model =? 0)%N.
    { cbn [bind]. intros Q. apply ok_same in Q. subst name. split; [cbn; lia|easy]. }
    cbn [bind]. intros Q. apply ok_same in Q. subst name. split; [rewrite firstn_length; unfold name_max; lia|].
    intros I. change 47 with (name_max - 1) in I. apply in_firstn_in in I. rewrite !in_app_iff in I. destruct I as [I|[I|I]].
    + cbn in I. intuition discriminate.
    + pose proof (decimal_digits 10 model) as F. rewrite Forall_forall in F. apply F in I. unfold is_digit in I. lia.
    + destruct x; cbn in I; intuition discriminate.
Qed.

(** ** Devices *)
Lemma scan_name_exact : forall w name c r, length name <= w -> Forall (fun c => c <> 44%N /\ ~ is_digit c) name -> is_digit c ->
  scan_name w (name ++ c :: r) = (name, c :: r).
Proof.
  induction w as [|w IH]; intros name c r L F D.
  - destruct name; [reflexivity|cbn in L; lia].
  - destruct name as [|x name]; cbn [app scan_name].
    + apply digit_char in D. rewrite D, Bool.orb_true_r. reflexivity.
    + inversion F as [|? ? (H1 & H2) F']. subst. destruct (N.eqb_spec x 44); [contradiction|]. apply digit_char_no in H2. rewrite H2. cbn [orb].
      rewrite IH by (cbn in L; try lia; assumption). reflexivity.
Qed.
Lemma digit_facts c : is_digit c -> is_space_char c = false /\ (c =? 43)%N = false /\ (c =? 45)%N = false /\ is_digit_char c = true.
Proof.
  intros D. pose proof (proj2 (digit_char c) D) as E. unfold is_digit in D. unfold is_space_char. repeat split; [|apply N.eqb_neq; lia|apply N.eqb_neq; lia|exact E].
  destruct (N.eqb_spec c 32), (N.leb_spec 9 c), (N.leb_spec c 13); cbn; try reflexivity; lia.
Qed.
Lemma scan_u32_exact ds r : is_decimal ds -> (dec_value ds < two32)%N -> ~ starts_with_digit r -> scan_u32 (ds ++ r) = Ok (Some (dec_value ds, r)).
Proof.
  intros (NE & F) V R. destruct ds as [|d ds]; [now destruct NE|]. inversion F as [|? ? D F']. subst. destruct (digit_facts d D) as (E1 & E2 & E3 & E4).
  unfold scan_u32. cbn [app skip_spaces]. rewrite E1, E2, E3, E4. change (d :: ds ++ r) with ((d :: ds) ++ r).
  rewrite (scan_digits_exact (d :: ds) r 0 F R). change (dec_from 0 (d :: ds)) with (dec_value (d :: ds)). destruct (N.ltb_spec (dec_value (d :: ds)) two32); [reflexivity|lia].
Qed.
Lemma scan_device name ds es r : device_name name -> is_decimal ds -> (dec_value ds < two32)%N -> is_decimal es -> (dec_value es < two32)%N ->
  ~ starts_with_digit r -> scan_machine (name ++ ds ++ 44%N :: es ++ r) = Ok (Some (name, dec_value ds, dec_value es)).
Proof.
  intros ((L0 & L9) & F) D V D' V' R. unfold scan_machine. destruct ds as [|d ds]; [now destruct D as (D & _)|].
  assert (Hd : is_digit d) by (destruct D as (_ & D); now inversion D).
  cbn [app]. rewrite (scan_name_exact 9 name d (ds ++ 44%N :: es ++ r) L9 F Hd). destruct name as [|x name]; [cbn in L0; lia|].
  change (d :: ds ++ 44%N :: es ++ r) with ((d :: ds) ++ 44%N :: es ++ r). rewrite scan_u32_exact; [|exact D|exact V|].
  2: { intros (c & t & E & H). injection E as <- _. unfold is_digit in H. lia. }
  cbn [bind]. rewrite N.eqb_refl, (scan_u32_exact es r D' V' R). reflexivity.
Qed.

Lemma name_of_device a buffer name ds es r : aa_brand a = None -> aa_machine a = Some buffer -> holds buffer (name ++ ds ++ 44%N :: es ++ r) ->
  device_name name -> is_decimal ds -> (dec_value ds < two32)%N -> is_decimal es -> (dec_value es < two32)%N -> ~ starts_with_digit r ->
  package_name a = Ok (let '(model, x) := chip_model name (dec_value ds) (dec_value es) in
    if (model =? 0)%N then [] else firstn 47 (text "Apple A" ++ decimal 10 model ++ if x then text "X" else [])).
Proof.
  intros EB EM H DN D V D' V' R. unfold package_name, name_from_brand, name_from_machine. rewrite EB, EM. cbn [bind]. rewrite (c_string_holds _ _ H). cbn [bind].
  rewrite (scan_device name ds es r DN D V D' V' R). cbn [bind]. destruct (chip_model name (dec_value ds) (dec_value es)) as (model, x).
  destruct (model =? 0)%N; reflexivity.
Qed.

(** ** Printed numbers *)
Lemma dec_value_snoc ds d : dec_value (ds ++ [d]) = (dec_value ds * 10 + (d - 48))%N.
Proof. unfold dec_value. now rewrite fold_left_app. Qed.
Lemma decimal_value : forall fuel n, (n < 10 ^ N.of_nat fuel)%N -> 0 < fuel -> dec_value (decimal fuel n) = n /\ decimal fuel n <> [] /\
  (forall r, decimal fuel n = 48%N :: r -> n = 0%N) /\ length (decimal fuel n) <= fuel.
Proof.
  induction fuel as [|fuel IH]; intros n B Z; [lia|]. cbn [decimal]. destruct (N.ltb_spec n 10) as [L|L].
  - cbn [dec_value fold_left length]. unfold dec_value. cbn [fold_left]. repeat split; [lia|discriminate| |lia]. intros r E. assert (48 + n = 48)%N by congruence. lia.
  - assert (F : 0 < fuel).
    { destruct fuel; [|lia]. change (10 ^ N.of_nat 1)%N with 10%N in B. lia. }
    assert (B' : (n / 10 < 10 ^ N.of_nat fuel)%N).
    { rewrite Nat2N.inj_succ, N.pow_succ_r' in B. apply N.div_lt_upper_bound; [lia|exact B]. }
    destruct (IH (n / 10)%N B' F) as (V & NE & Z0 & LE). rewrite dec_value_snoc, V. pose proof (N.div_mod n 10 ltac:(lia)) as DM.
    repeat split.
    + lia.
    + destruct (decimal fuel (n / 10)); discriminate.
    + intros r E. destruct (decimal fuel (n / 10)) as [|x xs] eqn:Q; [now destruct NE|]. cbn [app] in E. injection E as -> _. pose proof (Z0 xs eq_refl). 
      assert (1 <= n / 10)%N by (apply N.div_le_lower_bound; lia). lia.
    + rewrite app_length. cbn [length]. lia.
Qed.
Lemma decimal_numeral n : (n < two32)%N -> numeral n (decimal 10 n).
Proof.
  intros B. destruct (decimal_value 10 n) as (V & NE & Z & _); [unfold two32 in B; change (10 ^ N.of_nat 10)%N with 10000000000%N; lia|lia|].
  split; [split; [exact NE|apply decimal_digits]|]. split; [exact V|]. intros r E. pose proof (Z r E). subst n. cbn in E. now injection E.
Qed.

(** ** The claims *)
Lemma name_brand a buffer s : aa_brand a = Some buffer -> holds buffer s -> package_name a = Ok (firstn 47 s).
Proof. intros E H. unfold package_name, name_from_brand. rewrite E, (c_string_holds s buffer H). reflexivity. Qed.

Lemma letters_device s : forallb (fun c => negb (c =? 44)%N && negb (is_digit_char c)) s = true -> 0 < length s <= 9 -> device_name s.
Proof.
  intros F L. split; [exact L|]. apply Forall_forall. intros c I. rewrite forallb_forall in F. specialize (F c I). apply Bool.andb_true_iff in F.
  destruct F as (F1 & F2). apply Bool.negb_true_iff in F1, F2. apply N.eqb_neq in F1. apply digit_char_no in F2. now split.
Qed.

Lemma name_iphone a buffer major ds es r : aa_brand a = None -> aa_machine a = Some buffer ->
  holds buffer (text "iPhone" ++ ds ++ 44%N :: es ++ r) -> is_decimal ds -> dec_value ds = major -> (major + 1 < two32)%N ->
  is_decimal es -> (dec_value es < two32)%N -> ~ starts_with_digit r ->
  exists digits, numeral (major + 1) digits /\ package_name a = Ok (text "Apple A" ++ digits).
Proof.
  intros EB EM H D EV V D' V' R. exists (decimal 10 (major + 1)). split; [now apply decimal_numeral|].
  rewrite (name_of_device a buffer (text "iPhone") ds es r EB EM H); [|apply letters_device; [reflexivity|cbn; lia]|exact D|unfold two32 in *; lia|exact D'|exact V'|exact R].
  rewrite EV. unfold chip_model. change (same_text (text "iPhone") (text "iPhone")) with true. cbv iota beta zeta.
  rewrite u32_small by exact V. destruct (N.eqb_spec (major + 1) 0); [lia|]. f_equal. rewrite app_nil_r. apply firstn_all2.
  rewrite app_length. destruct (decimal_value 10 (major + 1)) as (_ & _ & _ & LE); [unfold two32 in V; change (10 ^ N.of_nat 10)%N with 10000000000%N; lia|lia|].
  change (length (text "Apple A")) with 7. lia.
Qed.

Lemma name_devices a buffer name major first last chip ds es r : In (name, major, (first, last), chip) apple_devices ->
  aa_brand a = None -> aa_machine a = Some buffer -> holds buffer (name ++ ds ++ 44%N :: es ++ r) ->
  is_decimal ds -> dec_value ds = major -> is_decimal es -> (first <= dec_value es <= last)%N -> ~ starts_with_digit r ->
  package_name a = Ok chip.
Proof.
  intros I EB EM H D EV D' LV R.
  assert (X : device_name name /\ (major < two32)%N /\ (last < two32)%N).
  { cbn [In apple_devices] in I. repeat destruct I as [I|I]; try contradiction; injection I as <- <- <- <- <-;
      (split; [apply letters_device; [reflexivity|cbn; lia]|split; unfold two32; lia]). }
  destruct X as (DN & V1 & V2). rewrite (name_of_device a buffer name ds es r EB EM H DN D); [|lia|exact D'|lia|exact R]. rewrite EV. f_equal.
  cbn [In apple_devices] in I. repeat destruct I as [I|I]; try contradiction; injection I as <- <- <- <- <-; revert LV; generalize (dec_value es) as minor; intros minor LV;
    assert (L : In minor (map N.of_nat (seq 0 13))) by (apply in_map_iff; exists (N.to_nat minor); split; [lia|apply in_seq; lia]);
    cbn [map seq In] in L; repeat destruct L as [L|L]; try contradiction; subst minor; cbn in LV; try (exfalso; lia); reflexivity.
Qed.

Lemma same_text_eq : forall x y, same_text x y = true -> x = y.
Proof.
  induction x as [|c x IH]; intros [|d y] E; cbn in E; try discriminate; [reflexivity|]. apply Bool.andb_true_iff in E. destruct E as (E1 & E2).
  apply N.eqb_eq in E1. subst. f_equal. now apply IH.
Qed.
Lemma name_others a buffer name ds es r : ~ In name [text "iPhone"; text "iPad"; text "iPod"] ->
  aa_brand a = None -> aa_machine a = Some buffer -> holds buffer (name ++ ds ++ 44%N :: es ++ r) -> device_name name ->
  is_decimal ds -> (dec_value ds < two32)%N -> is_decimal es -> (dec_value es < two32)%N -> ~ starts_with_digit r -> package_name a = Ok [].
Proof.
  intros I EB EM H DN D V D' V' R. rewrite (name_of_device a buffer name ds es r EB EM H DN D V D' V' R). unfold chip_model.
  destruct (same_text name (text "iPhone")) eqn:E1; [apply same_text_eq in E1; exfalso; apply I; subst; cbn; tauto|].
  destruct (same_text name (text "iPad")) eqn:E2; [apply same_text_eq in E2; exfalso; apply I; subst; cbn; tauto|].
  destruct (same_text name (text "iPod")) eqn:E3; [apply same_text_eq in E3; exfalso; apply I; subst; cbn; tauto|]. reflexivity.
Qed.
Lemma name_unknown a : aa_brand a = None -> aa_machine a = None -> package_name a = Ok [].
Proof. intros E1 E2. unfold package_name, name_from_brand, name_from_machine. now rewrite E1, E2. Qed.
