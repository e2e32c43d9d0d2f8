(** ARM /proc/cpuinfo: one line. *)
From Verif Require Import Base BaseProofs Text LinuxTextModel LinuxTextSpec LinuxTextProofs CpulistProofs
  CpuinfoLineModel CpuinfoLineSpec CpuinfoLineProofs X86CpuinfoModel X86CpuinfoProofs ArmMidrModel ArmMidrProofs
  ArmClustersModel ArmMidrSpec ArmCpuinfoModel ArmCpuinfoSpec.
Open Scope N_scope.
Ltac Zify.zify_post_hook ::= Z.div_mod_to_equations.

(** ** The words of the feature list *)

Lemma words_from_word : forall w cur r, Forall (fun c => (c =? 32) = false) w -> words_from cur (w ++ r) = words_from (cur ++ w) r.
Proof.
  induction w as [|c w IH]; intros cur r H; [now rewrite app_nil_r|].
  apply Forall_cons_iff in H. destruct H as (Hc & H). cbn [app words_from]. rewrite Hc.
  rewrite (IH _ _ H). now rewrite <- app_assoc.
Qed.

Lemma words_from_spaces : forall s r, Forall (fun c => negb (c =? 32) = false) s -> words_from [] (s ++ r) = words_from [] r.
Proof.
  induction s as [|c s IH]; intros r H; [reflexivity|]. apply Forall_cons_iff in H. destruct H as (Hc & H).
  cbn [app words_from]. apply negb_false_iff in Hc. rewrite Hc. now apply IH.
Qed.

Lemma slice_mid (a w r : list N) : slice (a ++ w ++ r) (length a) (length a + length w) = w.
Proof.
  unfold slice. rewrite skipn_app, skipn_all, Nat.sub_diag. cbn [skipn app].
  replace (length a + length w - length a)%nat with (length w) by lia.
  rewrite firstn_app, firstn_all, Nat.sub_diag. cbn. apply app_nil_r.
Qed.

Lemma scan_here stop a b fuel : (length b < fuel)%nat -> exists b1 b2, b = b1 ++ b2 /\ Forall (fun c => stop c = false) b1 /\
    (b2 = [] \/ exists c t, b2 = c :: t /\ stop c = true) /\
    forall line k, line = a ++ b -> k = length a -> scan_fwd fuel stop line k = Ok (length a + length b1)%nat.
Proof.
  intros H. destruct (scan_fwd_spec stop fuel a b H) as (b1 & b2 & E & F & G & S).
  exists b1, b2. repeat split; auto. intros line k -> ->. exact S.
Qed.

Lemma features_loop_words arm32 : forall fuel a r p, (length r < fuel)%nat ->
  (exists c t, r = c :: t /\ c <> 32) -> (exists t c, r = t ++ [c] /\ c <> 32) ->
  features_loop fuel arm32 (a ++ r) (length a) p = Ok (fold_left (fun p w => add_feature arm32 w p) (words r) p).
Proof.
  induction fuel as [|fuel IH]; intros a r p Hf (c & t & -> & Hc) (t0 & c0 & El & Hc0); [lia|].
  cbn [features_loop].
  remember (S (length (a ++ c :: t))) as fuel2 eqn:Ef.
  assert (N1 : (length t < fuel2)%nat) by (rewrite Ef, app_length; cbn; lia).
  destruct (scan_here (fun c => c =? chr_space) (a ++ [c]) t fuel2 N1) as (w & b2 & -> & Fw & G & S).
  rewrite S by (rewrite ?app_length, <- ?app_assoc; cbn; auto; lia). clear S. cbn [bind].
  rewrite app_length. cbn [length].
  replace (slice (a ++ c :: w ++ b2) (length a) (length a + 1 + length w)) with (c :: w).
  2:{ replace (length a + 1 + length w)%nat with (length a + length (c :: w))%nat by (cbn; lia).
      symmetry. apply (slice_mid a (c :: w) b2). }
  assert (N2 : (length b2 < fuel2)%nat).
  { rewrite app_length in N1. lia. }
  destruct (scan_here (fun c => negb (c =? chr_space)) (a ++ c :: w) b2 fuel2 N2) as (s & b3 & -> & Fs & G3 & S).
  rewrite S by (rewrite ?app_length, <- ?app_assoc; cbn; auto; lia). clear S. cbn [bind].
  assert (Hw : words (c :: w ++ s ++ b3) = words_from (c :: w) (s ++ b3)).
  { unfold words. cbn [words_from]. unfold chr_space in *. replace (c =? 32) with false by lia. cbn [app].
    now rewrite words_from_word. }
  destruct s as [|d s].
  - cbn [app] in *. rewrite app_length. cbn [length].
    replace (length a + Datatypes.S (length w) + 0 =? length a + 1 + length w)%nat with true
      by (symmetry; apply Nat.eqb_eq; lia).
    destruct b3 as [|d b3].
    + rewrite Hw. reflexivity.
    + exfalso. destruct G as [G|(d' & t' & G & Hd)]; [discriminate|]. injection G as <- <-.
      destruct G3 as [G3|(d' & t' & G3 & Hd')]; [discriminate|]. injection G3 as <- <-.
      rewrite Hd in Hd'. discriminate.
  - replace (length (a ++ c :: w) + length (d :: s) =? length a + 1 + length w)%nat with false
      by (symmetry; apply Nat.eqb_neq; rewrite app_length; cbn [length]; lia).
    destruct G3 as [->|(e & t & -> & He)].
    + exfalso. rewrite app_nil_r in El.
      assert (In c0 (d :: s)).
      { assert (L : last (c :: w ++ d :: s) 0 = c0) by (rewrite El; apply last_last).
        destruct (exists_last (l := d :: s)) as (u & x & Ex); [discriminate|]. rewrite Ex in L |- *.
        change (c :: w ++ u ++ [x]) with ((c :: w) ++ u ++ [x]) in L. rewrite app_assoc, last_last in L.
        subst. apply in_or_app. right. now left. }
      rewrite Forall_forall in Fs. apply Fs in H. apply negb_false_iff in H. unfold chr_space in H. lia.
    + replace (a ++ c :: w ++ (d :: s) ++ e :: t) with ((a ++ c :: w ++ d :: s) ++ e :: t)
        by (rewrite <- !app_assoc; cbn; now rewrite <- !app_assoc).
      replace (length (a ++ c :: w) + length (d :: s))%nat with (length (a ++ c :: w ++ d :: s))
        by (rewrite !app_length; cbn; rewrite app_length; cbn; lia).
      rewrite IH.
      * rewrite Hw. cbn [app words_from]. apply Forall_cons_iff in Fs. destruct Fs as (Fd & Fs).
        unfold chr_space in *. apply negb_false_iff in Fd. rewrite Fd. cbn [fold_left].
        rewrite words_from_spaces by exact Fs. reflexivity.
      * cbn in Hf. rewrite !app_length in Hf. cbn in Hf |- *. rewrite !app_length in Hf. cbn in Hf. lia.
      * exists e, t. split; [reflexivity|]. unfold chr_space in He. apply negb_true_iff in He. lia.
      * destruct (exists_last (l := e :: t)) as (u & x & Ex); [discriminate|]. exists u, x. split; [exact Ex|].
        rewrite Ex in El.
        assert (L : last (c :: w ++ (d :: s) ++ u ++ [x]) 0 = c0) by (rewrite El; apply last_last).
        change (c :: w ++ (d :: s) ++ u ++ [x]) with ((c :: w) ++ (d :: s) ++ u ++ [x]) in L.
        rewrite !app_assoc, last_last in L. now subst.
Qed.

Lemma value_ends line key value : key_value line key value ->
  (exists c t, value = c :: t /\ c <> 32) /\ (exists t c, value = t ++ [c] /\ c <> 32).
Proof.
  intros (k0 & kc & pad & sp1 & v0 & vc & sp2 & _ & _ & _ & _ & _ & _ & _ & -> & H1 & H2 & _). split; [|eauto].
  destruct v0 as [|c t]; cbn in *; eauto.
Qed.

Lemma parse_features_words arm32 line key value p : key_value line key value ->
  parse_features arm32 value p =
  Ok (fold_left (fun p w => add_feature arm32 w p) (words value) (add_aflag (N.lor af_features af_processor) p)).
Proof.
  intros H. destruct (value_ends _ _ _ H) as (H1 & H2). unfold parse_features.
  exact (features_loop_words arm32 (S (length value)) [] value _ (Nat.lt_succ_diag_r _) H1 H2).
Qed.

(** ** Hexadecimal values *)

Lemma hex_digit_exact c : hex_digit c = Some (nibble c) /\ is_hex c \/ hex_digit c = None /\ ~ is_hex c.
Proof.
  unfold hex_digit, nibble, is_hex.
  destruct (N.leb_spec 48 c), (N.leb_spec c 57), (N.leb_spec 65 c), (N.leb_spec c 70), (N.leb_spec 97 c), (N.leb_spec c 102);
    cbn; try lia; try (right; split; [reflexivity|lia]); left; (split; [f_equal; lia|lia]).
Qed.

Lemma nibble_lt c : is_hex c -> nibble c < 16.
Proof. unfold is_hex, nibble. intros H. destruct (N.leb_spec c 57), (N.leb_spec c 70); lia. Qed.

Lemma hex_digits_exact : forall ds acc, Forall is_hex ds -> acc * 16 ^ N.of_nat (length ds) + 16 ^ N.of_nat (length ds) <= two32 ->
  hex_digits acc ds = Some (fold_left (fun acc c => acc * 16 + nibble c) ds acc).
Proof.
  induction ds as [|c ds IH]; intros acc H Hb; [reflexivity|]. apply Forall_cons_iff in H. destruct H as (Hc & H).
  cbn [hex_digits fold_left]. destruct (hex_digit_exact c) as [(-> & _)|(_ & Hn)]; [|contradiction].
  pose proof (nibble_lt c Hc) as Hn. cbn [length] in Hb. rewrite Nat2N.inj_succ, N.pow_succ_r' in Hb.
  set (q := 16 ^ N.of_nat (length ds)) in *.
  assert (Hq : 1 <= q). { pose proof (N.pow_nonzero 16 (N.of_nat (length ds))). unfold q. lia. }
  assert (B : (acc * 16 + nibble c) * q + q <= two32) by nia.
  rewrite (u32_small (acc * 16)) by nia. rewrite u32_small by nia. apply IH; [exact H|exact B].
Qed.

Lemma hex_digits_bad : forall ds acc, ~ Forall is_hex ds -> hex_digits acc ds = None.
Proof.
  induction ds as [|c ds IH]; intros acc H; [exfalso; apply H; constructor|]. cbn.
  destruct (hex_digit_exact c) as [(-> & Hc)|(-> & _)]; [|reflexivity]. apply IH. intros F. apply H. now constructor.
Qed.

Lemma hex_value_good k v n : (k <= 3)%nat -> is_hexadecimal k v n -> hex_value_of 3 (2 + k) v = Some n.
Proof.
  intros Hk (ds & -> & Hne & Hl & Hf & ->). unfold hex_value_of. cbn [text String.list_ascii_of_string List.map app length].
  destruct ds as [|d ds]; [easy|]. set (l := d :: ds) in *. change (N_of_ascii "0") with 48. change (N_of_ascii "x") with 120.
  replace ((S (S (length l)) <? 3)%nat) with false by (symmetry; apply Nat.ltb_ge; cbn; lia).
  replace (2 + k <? S (S (length l)))%nat with false by (symmetry; apply Nat.ltb_ge; cbn in *; lia).
  cbn [orb]. replace ((48 =? 48) && (120 =? 120)) with true by reflexivity.
  rewrite hex_digits_exact; [reflexivity|exact Hf|].
  assert (length l <= 3)%nat by lia. rewrite N.mul_0_l, N.add_0_l.
  apply N.le_trans with (16 ^ 3); [apply N.pow_le_mono_r; lia|]. cbv. discriminate.
Qed.

Lemma hex_value_bad k v : (forall n, ~ is_hexadecimal k v n) -> hex_value_of 3 (2 + k) v = None.
Proof.
  intros H. unfold hex_value_of. destruct (Nat.ltb_spec (length v) 3) as [L1|L1]; [reflexivity|].
  destruct (Nat.ltb_spec (2 + k) (length v)) as [L2|L2]; [reflexivity|]. cbn [orb].
  destruct v as [|z [|x ds]]; try reflexivity. destruct (N.eqb_spec z 48) as [->|]; [|reflexivity].
  destruct (N.eqb_spec x 120) as [->|]; [|reflexivity]. cbn [andb]. apply hex_digits_bad. intros F.
  apply (H (hex_number ds)). exists ds. cbn in L1, L2. repeat split; auto; [|lia]. destruct ds; cbn in *; [lia|discriminate].
Qed.

(** ** The architecture *)

Lemma leading_digits sg letters : bytes letters -> ~ starts_with_digit letters -> forall ds acc, Forall is_digit ds ->
  leading_number sg (u32 acc) (ds ++ letters) = (u32 (fold_left (fun acc c => acc * 10 + (c - 48)) ds acc), letters).
Proof.
  intros Hb Hn. induction ds as [|d ds IH]; intros acc H.
  - destruct letters as [|c r]; [reflexivity|]. cbn [app leading_number fold_left].
    destruct (N.leb_spec 10 (digit_of sg c)) as [|L]; [reflexivity|]. exfalso. apply Hn. exists c, r. split; [reflexivity|].
    apply Forall_cons_iff in Hb. apply (digit_of_lt sg); tauto.
  - apply Forall_cons_iff in H. destruct H as (Hd & H). cbn [app leading_number fold_left].
    rewrite digit_of_digit by exact Hd. unfold is_digit in Hd. replace (10 <=? d - 48) with false by lia.
    rewrite <- (IH (acc * 10 + (d - 48)) H). f_equal. unfold u32, two32. lia.
Qed.

(** ** What a line does to a processor record *)

Definition tell (arm32 : bool) (s : said) (p : aproc) : aproc :=
  match s with
  | Named => add_aflag af_processor p
  | Field Implementer v => add_aflag (N.lor af_implementer af_processor) (with_amidr (midr_set_implementer (a_midr p) v) p)
  | Field Variant v => add_aflag (N.lor af_variant af_processor) (with_amidr (midr_set_variant (a_midr p) v) p)
  | Field PartNumber v => add_aflag (N.lor af_part af_processor) (with_amidr (midr_set_part (a_midr p) v) p)
  | Field Revision v => add_aflag (N.lor af_revision af_processor) (with_amidr (midr_set_revision (a_midr p) v) p)
  | Field Architecture _ => p
  | Arch v letters =>
      let flags := arch_letters arm32 (ar_architecture_flags (a_report p)) letters in
      with_amidr (midr_set_architecture (a_midr p) (midr_architecture_of arm32 v flags))
        (add_aflag (N.lor af_architecture af_processor)
          (with_areport (with_architecture v flags (a_report p)) p))
  | Feats ws => fold_left (fun p w => add_feature arm32 w p) ws (add_aflag (N.lor af_features af_processor) p)
  | L1 data which n =>
      let r := a_report p in
      let w := match which with CacheSize => L1Size | CacheWays => L1Assoc | CacheLine => L1Line | CacheSets => L1Sets end in
      add_aflag (N.lor (2 ^ cache_flag data which) af_processor)
        (with_areport (if data then with_dcache (with_l1_number w n (ar_dcache r)) r
                       else with_icache (with_l1_number w n (ar_icache r)) r) p)
  end.

Ltac keys := repeat first [rewrite bytes_eqb_refl | rewrite bytes_eqb_neq by discriminate].

Lemma processor_line_means arm32 sg line s : arm_line_means arm32 line (Says s) ->
  exists key value, split_line line = Ok (Some (key, value)) /\
    ~ In key [text "Hardware"; text "Revision"; text "processor"] /\
    forall p, processor_line arm32 sg key value p = Ok (tell arm32 s p).
Proof.
  intros H. inversion H as [|? v n Hkv Hx| |? key v n Hk Hkv Hx| |? v n Hkv Hx| |? v Hkv Hd Hv|
    |? v ds letters Hkv Ev Hb Hd Hn Hv|? Hkv|? v Hkv|? data which v Ha Hkv Hd Hv| | |]; subst.
  - exists (text "CPU part"), v. split; [now apply split_line_key_value|]. split; [now intros [E|[E|[E|[]]]]|].
    intros p. unfold processor_line. keys. unfold parse_cpu_part. change 5%nat with (2 + 3)%nat.
    now rewrite (hex_value_good 3 v n) by auto.
  - exists key, v. split; [now apply split_line_key_value|].
    split; [destruct Hk as [-> | ->]; now intros [E|[E|[E|[]]]]|].
    intros p. unfold processor_line. destruct Hk as [-> | ->]; keys; unfold parse_cpu_implementer;
      change 4%nat with (2 + 2)%nat; now rewrite (hex_value_good 2 v n) by auto.
  - exists (text "CPU variant"), v. split; [now apply split_line_key_value|]. split; [now intros [E|[E|[E|[]]]]|].
    intros p. unfold processor_line. keys. unfold parse_cpu_variant. change (hex_value_of 3 3 v) with (hex_value_of 3 (2 + 1) v).
    now rewrite (hex_value_good 1 v n) by auto.
  - exists (text "CPU revision"), v. split; [now apply split_line_key_value|]. split; [now intros [E|[E|[E|[]]]]|].
    intros p. unfold processor_line. keys. unfold parse_cpu_revision. rewrite (all_digits_decimal sg v Hd); [reflexivity|].
    unfold two32. lia.
  - exists (text "CPU architecture"), (ds ++ letters). split; [now apply split_line_key_value|].
    split; [now intros [E|[E|[E|[]]]]|].
    intros p. unfold processor_line. keys. unfold parse_cpu_architecture. destruct Hd as (Hne & Hd).
    rewrite bytes_eqb_neq.
    2:{ destruct ds as [|d ds]; [easy|]. apply Forall_cons_iff in Hd. intros E. injection E as E _.
        unfold is_digit in Hd. change (N_of_ascii "A") with 65 in E. lia. }
    unfold bytes in Hb. apply Forall_app in Hb. destruct Hb as (_ & Hb).
    pose proof (leading_digits sg letters Hb Hn ds 0 Hd) as L. change (u32 0) with 0 in L. rewrite L.
    fold (dec_value ds). rewrite u32_small by lia.
    replace (length letters =? length (ds ++ letters))%nat with false.
    2:{ symmetry. apply Nat.eqb_neq. rewrite app_length. destruct ds; [easy|]. cbn. lia. }
    replace (dec_value ds =? 0) with false by lia. reflexivity.
  - exists (text "CPU architecture"), (text "AArch64"). split; [now apply split_line_key_value|].
    split; [now intros [E|[E|[E|[]]]]|].
    intros p. unfold processor_line. keys. unfold parse_cpu_architecture. rewrite bytes_eqb_refl.
    cbn [tell arch_letters]. unfold midr_architecture_of. change (8 =? 6) with false. change (8 =? 5) with false.
    destruct arm32; reflexivity.
  - exists (text "Features"), v. split; [now apply split_line_key_value|]. split; [now intros [E|[E|[E|[]]]]|].
    intros p. unfold processor_line. keys. now apply (parse_features_words arm32 line (text "Features")).
  - exists (cache_key data which), v. split; [now apply split_line_key_value|].
    split; [destruct data, which; now intros [E|[E|[E|[]]]]|].
    intros p. unfold processor_line. destruct data, which; cbn [negb]; keys; unfold parse_cache_number;
      rewrite (all_digits_decimal sg v Hd Hv); reflexivity.
Qed.

Lemma cache_keys_exact k : In k [text "I size"; text "I sets"; text "D size"; text "D sets"; text "I assoc"; text "D assoc";
    text "I line length"; text "D line length"] <-> exists data which, k = cache_key data which.
Proof.
  split.
  - intros H. repeat (destruct H as [<-|H]; [first [now exists false, CacheSize|now exists false, CacheWays|
      now exists false, CacheLine|now exists false, CacheSets|now exists true, CacheSize|now exists true, CacheWays|
      now exists true, CacheLine|now exists true, CacheSets]|]). easy.
  - intros (data & which & ->). destruct data, which; cbn; tauto.
Qed.

Lemma bytes_eqb_true a b : bytes_eqb a b = true -> a = b.
Proof. unfold bytes_eqb. destruct (list_eq_dec N.eq_dec a b); [auto|discriminate]. Qed.

(** A key the parser does not use. *)
Lemma processor_line_other arm32 sg key value p : ~ In key plain_keys ->
  (arm32 = true -> forall data which, key <> cache_key data which) -> processor_line arm32 sg key value p = Ok p.
Proof.
  intros H1 H2. unfold processor_line.
  assert (K : forall k, In k plain_keys -> bytes_eqb key k = false).
  { intros k Hk. apply bytes_eqb_neq. intros ->. contradiction. }
  rewrite !K by (cbn; tauto). destruct arm32; [|reflexivity]. cbn [negb].
  assert (K2 : forall k, (exists data which, k = cache_key data which) -> bytes_eqb key k = false).
  { intros k (d & w & ->). apply bytes_eqb_neq. now apply H2. }
  rewrite !K2 by (apply cache_keys_exact; cbn; tauto). reflexivity.
Qed.

(** A line that means nothing leaves everything as it was. *)
Lemma processor_line_nothing arm32 sg line : arm_line_means arm32 line Nothing ->
  split_line line = Ok None \/
  exists key value, split_line line = Ok (Some (key, value)) /\
    ~ In key [text "Hardware"; text "Revision"; text "processor"] /\
    forall p, processor_line arm32 sg key value p = Ok p.
Proof.
  intros H. inversion H as [| |? v Hkv Hx| |? key v Hk Hkv Hx| |? v Hkv Hx| |? v Hkv Hb Hx| | | | | | |? Hno]; subst.
  - right. exists (text "CPU part"), v. split; [now apply split_line_key_value|]. split; [now intros [E|[E|[E|[]]]]|].
    intros p. unfold processor_line. keys. unfold parse_cpu_part. change 5%nat with (2 + 3)%nat. now rewrite hex_value_bad.
  - right. exists key, v. split; [now apply split_line_key_value|].
    split; [destruct Hk as [-> | ->]; now intros [E|[E|[E|[]]]]|].
    intros p. unfold processor_line. destruct Hk as [-> | ->]; keys; unfold parse_cpu_implementer;
      change 4%nat with (2 + 2)%nat; now rewrite hex_value_bad.
  - right. exists (text "CPU variant"), v. split; [now apply split_line_key_value|]. split; [now intros [E|[E|[E|[]]]]|].
    intros p. unfold processor_line. keys. unfold parse_cpu_variant. change (hex_value_of 3 3 v) with (hex_value_of 3 (2 + 1) v).
    now rewrite hex_value_bad.
  - right. exists (text "CPU revision"), v. split; [now apply split_line_key_value|]. split; [now intros [E|[E|[E|[]]]]|].
    intros p. unfold processor_line. keys. unfold parse_cpu_revision, parse_all_digits. now rewrite all_digits_bad.
  - destruct (split_line_total line) as [E|(key & value & E & Hkv)]; [now left|]. right. exists key, value.
    split; [exact E|]. destruct (Hno _ _ Hkv) as (H1 & H2). split.
    + intros Hi. apply H1. cbn in Hi |- *. tauto.
    + intros p. now apply processor_line_other.
Qed.
