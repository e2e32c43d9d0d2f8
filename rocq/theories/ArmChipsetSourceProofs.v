(** Every source of a text is read as the specification says. *)
From Verif Require Import Base BaseProofs Text LinuxTextSpec X86CpuinfoModel ArmClusterMidrModel ArmCpuinfoModel ArmChipsetModel ArmChipsetSpec ArmChipsetNameSpec
  ArmChipsetFitProofs ArmChipsetMatchProofs ArmChipsetReadProofs ArmChipsetOtherProofs ArmChipsetDeviceProofs.
From Verif Require ArmMachNameProofs ArmMachModel.
Import ArmMachNameProofs(decimal_numeral).
Import ArmMachModel(decimal).
Open Scope N_scope.

(** ** Names *)

Definition suffix_char (c : N) : bool := (65 <=? c) && (c <=? 90) || (c =? 45) || (c =? 47).
Definition named_check (c : chip) (name : list N) : bool :=
  existsb (fun '(series, vendor, vs) => (series =? chp_series c) && (vendor =? chp_vendor c) &&
    same name (text vs ++ decimal 10 (chp_model c) ++ until_nul (chp_suffix c))) series_names &&
  negb (chp_model c =? 0) && (chp_model c <? two32) && forallb suffix_char (until_nul (chp_suffix c)) && (length (until_nul (chp_suffix c)) <=? 8)%nat &&
  same (chp_suffix c) (padded (until_nul (chp_suffix c))).
Lemma suffix_char_iff c : suffix_char c = true <-> suffix_character c.
Proof. unfold suffix_char, suffix_character. rewrite !Bool.orb_true_iff, Bool.andb_true_iff, !N.leb_le, !N.eqb_eq. tauto. Qed.
Lemma named_check_ok c name : named_check c name = true -> named c name.
Proof.
  unfold named_check. rewrite !Bool.andb_true_iff, Bool.negb_true_iff, N.eqb_neq, N.ltb_lt, forallb_forall, Nat.leb_le, same_iff, existsb_exists.
  intros [[[[[([[series vendor] vs] & I & E) Z] B] F] L] P]. rewrite !Bool.andb_true_iff, !N.eqb_eq, same_iff in E. destruct E as [[-> ->] ->].
  exists vs, (decimal 10 (chp_model c)), (until_nul (chp_suffix c)). split; [exact I|]. split; [now apply decimal_numeral|]. split; [exact Z|]. split; [exact B|].
  split; [|reflexivity]. split; [|split; [exact L|exact P]]. apply Forall_forall. intros x J. apply suffix_char_iff. now apply F.
Qed.

(** ** Tables *)

Lemma strncmp_full : forall n w s pw ps, length pw = length ps -> ~ In 0 w -> ~ In 0 s -> (length w <= n)%nat -> (length s <= n)%nat ->
  strncmp_same n (pw ++ w ++ repeat 0 (n - length w)) (ps ++ s ++ [0]) (length ps) = Ok (same s w).
Proof.
  induction n as [|n IH]; intros w s pw ps L Zw Zs Lw Ls.
  - destruct w; [|cbn in Lw; lia]. destruct s; [|cbn in Ls; lia]. reflexivity.
  - destruct w as [|x w], s as [|y s]; cbn [length Nat.sub repeat app same strncmp_same].
    + rewrite rd_at. rewrite <- L, rd_at. reflexivity.
    + rewrite rd_at. rewrite <- L, rd_at. cbn [bind]. destruct (N.eqb_spec 0 y) as [<-|]; [destruct Zs; now left|reflexivity].
    + rewrite rd_at. rewrite <- L, rd_at. cbn [bind]. destruct (N.eqb_spec x 0) as [->|]; [destruct Zw; now left|reflexivity].
    + rewrite rd_at. rewrite <- L, rd_at. cbn [bind]. rewrite (N.eqb_sym y x). destruct (N.eqb_spec x y) as [<-|]; [|reflexivity]. cbn [negb].
      destruct (N.eqb_spec x 0) as [->|]; [destruct Zw; now left|]. specialize (IH w s (pw ++ [x]) (ps ++ [x])). rewrite !app_length in IH. cbn [length] in IH.
      rewrite !Nat.add_1_r, <- !app_assoc in IH. cbn [app] in IH. rewrite L.
      apply IH; [congruence|intros I; apply Zw; now right|intros I; apply Zs; now right|cbn in Lw; lia|cbn in Ls; lia].
Qed.
Lemma plain_no_nul s : plain s -> ~ In 0 s.
Proof. intros P I. unfold plain in P. rewrite Forall_forall in P. specialize (P 0 I). lia. Qed.
Lemma prefix_end w s : ~ In 0 w -> same s (firstn (length s) w) = true -> exists c, rd (w ++ [0]) (length s) = Ok c /\ (c =? 0) = same s w.
Proof.
  intros Z E. apply same_iff in E. assert (L : (length s <= length w)%nat) by (rewrite E, firstn_length; lia).
  destruct (Nat.eq_dec (length s) (length w)) as [Q|Q].
  - exists 0. rewrite Q, rd_at. split; [reflexivity|]. rewrite Q, firstn_all in E. symmetry. now apply same_iff.
  - unfold rd. rewrite nth_error_app1 by lia. destruct (nth_error w (length s)) as [c|] eqn:E'; [|apply nth_error_None in E'; lia]. exists c. split; [reflexivity|].
    apply nth_error_In in E'. destruct (N.eqb_spec c 0) as [->|]; [contradiction|]. symmetry. apply Bool.not_true_iff_false. rewrite same_iff. intros ->. lia.
Qed.
Definition wanted (arm32 : bool) (s : list N) (e : special) : bool := compiled arm32 (sp_only32 e) && same s (sp_platform e).
Lemma find_special_value arm32 s : plain s -> forall l, Forall (fun e => ~ In 0 (sp_platform e)) l -> find_special arm32 s l = Ok (find (wanted arm32 s) l).
Proof.
  intros P. apply plain_no_nul in P. induction l as [|e l IH]; intros F; [reflexivity|]. inversion F as [|? ? Ze F']; subst. cbn [find_special find]. unfold wanted at 1.
  destruct (compiled arm32 (sp_only32 e)); cbn [andb]; [|now apply IH].
  pose proof (strncmp_prefix (sp_platform e) s [] [] eq_refl P Ze) as C. cbn [app length] in C. rewrite C. cbn [bind].
  destruct (same s (firstn (length s) (sp_platform e))) eqn:E.
  - destruct (prefix_end _ _ Ze E) as (c & -> & Q). cbn [bind]. rewrite Q. destruct (same s (sp_platform e)); [reflexivity|now apply IH].
  - destruct (same s (sp_platform e)) eqn:E'; [|now apply IH]. apply same_iff in E'. subst s. rewrite firstn_all in E. rewrite (proj2 (same_iff _ _) eq_refl) in E. discriminate.
Qed.
Definition row_check (suffix : N -> list N) (e : special) (d : device) : bool :=
  Bool.eqb (sp_only32 e) (dv_only32 d) && same (sp_platform e) (text (dv_text d)) && negb (existsb (N.eqb 0) (sp_platform e)) &&
  match special_chip suffix e with Ok c => named_check c (text (dv_name d)) | _ => false end.
Fixpoint rows_check (suffix : N -> list N) (l : list special) (ds : list device) : bool :=
  match l, ds with [], [] => true | e :: l', d :: ds' => row_check suffix e d && rows_check suffix l' ds' | _, _ => false end.
Lemma row_ok suffix e d : row_check suffix e d = true ->
  sp_only32 e = dv_only32 d /\ sp_platform e = text (dv_text d) /\ ~ In 0 (sp_platform e) /\ exists c, special_chip suffix e = Ok c /\ named c (text (dv_name d)).
Proof.
  unfold row_check. rewrite !Bool.andb_true_iff, Bool.eqb_true_iff, same_iff, Bool.negb_true_iff. intros [[[-> E] Z] K]. split; [reflexivity|]. split; [exact E|]. split.
  - intros I. assert (existsb (N.eqb 0) (sp_platform e) = true) by (apply existsb_exists; exists 0; split; [exact I|reflexivity]). congruence.
  - destruct (special_chip suffix e) as [c| |]; [|discriminate..]. exists c. split; [reflexivity|]. now apply named_check_ok.
Qed.
Lemma rows_find arm32 suffix s : forall l ds, rows_check suffix l ds = true ->
  match find (wanted arm32 s) l with
  | Some e => exists c, special_chip suffix e = Ok c /\ listed arm32 ds s c
  | None => forall c, ~ listed arm32 ds s c
  end.
Proof.
  induction l as [|e l IH]; intros [|d ds] R; try discriminate; cbn [find].
  - intros c (d & [] & _).
  - cbn [rows_check] in R. apply Bool.andb_true_iff in R. destruct R as [R R']. apply row_ok in R. destruct R as (O & E & _ & c & C & M). unfold wanted at 1.
    destruct (compiled arm32 (sp_only32 e) && same s (sp_platform e)) eqn:W.
    + apply Bool.andb_true_iff in W. destruct W as [W W']. apply compiled_iff in W. apply same_iff in W'. exists c. split; [exact C|]. exists d. split; [now left|].
      split; [now rewrite <- O|]. split; [congruence|exact M].
    + specialize (IH ds R'). destruct (find (wanted arm32 s) l) as [e'|].
      * destruct IH as (c' & C' & d' & I & K). exists c'. split; [exact C'|]. exists d'. split; [now right|exact K].
      * intros c' (d' & [<-|I] & K); [|apply (IH c'); now exists d']. destruct K as (B & -> & _). rewrite <- E in W. rewrite (proj2 (same_iff _ _) eq_refl), Bool.andb_true_r in W.
        rewrite <- O in B. apply compiled_iff in B. congruence.
Qed.
Lemma rows_no_nul suffix : forall l ds, rows_check suffix l ds = true -> Forall (fun e => ~ In 0 (sp_platform e)) l.
Proof.
  induction l as [|e l IH]; intros [|d ds] R; try discriminate; constructor; cbn [rows_check] in R; apply Bool.andb_true_iff in R; destruct R as [R R'].
  - now apply row_ok in R.
  - now apply (IH ds).
Qed.
Lemma from_table_reads arm32 suffix table ds s : rows_check suffix table ds = true -> plain s ->
  exists c, from_table arm32 suffix table s = Ok c /\ unless (listed arm32 ds) unrecognized s c.
Proof.
  intros R P. unfold from_table. rewrite (find_special_value arm32 s P table (rows_no_nul _ _ _ R)). cbn [bind]. pose proof (rows_find arm32 suffix s table ds R) as K.
  destruct (find (wanted arm32 s) table) as [e|].
  - destruct K as (c & C & L). exists c. split; [exact C|]. now left.
  - exists unknown_chip. split; [reflexivity|]. right. split; [exact K|reflexivity].
Qed.
Lemma hardware_rows : rows_check letter hardware_map hardware_devices = true. Proof. vm_compute. reflexivity. Qed.
Lemma tegra_rows : rows_check letter tegra_map tegra_devices = true. Proof. vm_compute. reflexivity. Qed.
Lemma board_rows : rows_check board_suffix board_map board_devices = true. Proof. vm_compute. reflexivity. Qed.
Lemma platform_rows : rows_check letter platform_map platform_devices = true. Proof. vm_compute. reflexivity. Qed.

Fixpoint amlogic_rows (l : list (bool * list N * N * N * list N)) (ds : list device) : bool :=
  match l, ds with
  | [], [] => true
  | (only32, platform, series, model, suffix) :: l', d :: ds' =>
      Bool.eqb only32 (dv_only32 d) && same platform (text (dv_text d)) && negb (existsb (N.eqb 0) platform) && (length platform <=? 6)%nat &&
      named_check (Chip ve_amlogic series model (padded suffix)) (text (dv_name d)) && amlogic_rows l' ds'
  | _, _ => false
  end.
Lemma find_amlogic_reads arm32 s : plain s -> (length s <= 6)%nat -> forall l ds, amlogic_rows l ds = true ->
  exists r, find_amlogic arm32 s l = Ok r /\ match r with Some c => listed arm32 ds s c | None => forall c, ~ listed arm32 ds s c end.
Proof.
  intros P Ls. apply plain_no_nul in P. induction l as [|[[[[o w] series] model] suffix] l IH]; intros [|d ds] R; try discriminate.
  - exists None. split; [reflexivity|]. intros c (d & [] & _).
  - cbn [amlogic_rows] in R. rewrite !Bool.andb_true_iff, Bool.eqb_true_iff, same_iff, Bool.negb_true_iff, Nat.leb_le in R. destruct R as [[[[[-> E] Z] Lw] M] R].
    apply named_check_ok in M. assert (Zw : ~ In 0 w).
    { intros I. assert (existsb (N.eqb 0) w = true) by (apply existsb_exists; exists 0; split; [exact I|reflexivity]). congruence. }
    destruct (IH ds R) as (r & Er & K).
    assert (Later : compiled arm32 (dv_only32 d) = false \/ s <> w -> match r with Some c => listed arm32 (d :: ds) s c | None => forall c, ~ listed arm32 (d :: ds) s c end).
    { intros No. destruct r as [c|].
      - destruct K as (d' & I & K). exists d'. split; [now right|exact K].
      - intros c (d' & [<-|I] & Q); [|apply (K c); now exists d']. destruct Q as (B & Es & _). apply compiled_iff in B. destruct No; congruence. }
    cbn [find_amlogic]. destruct (compiled arm32 (dv_only32 d)) eqn:W.
    + pose proof (strncmp_full 6 w s [] [] eq_refl Zw P Lw Ls) as C. cbn [app length] in C. rewrite C. cbn [bind]. destruct (same s w) eqn:S1.
      * apply same_iff in S1. subst s. eexists. split; [reflexivity|]. exists d. split; [now left|]. split; [now apply compiled_iff|]. split; [exact E|exact M].
      * exists r. split; [exact Er|]. apply Later. right. intros ->. rewrite (proj2 (same_iff _ _) eq_refl) in S1. discriminate.
    + exists r. split; [exact Er|]. apply Later. now left.
Qed.
Lemma amlogic_rows_ok : amlogic_rows amlogic_map amlogic_devices = true. Proof. vm_compute. reflexivity. Qed.
Lemma amlogic_short : forallb (fun d => (length (text (dv_text d)) <=? 6)%nat) amlogic_devices = true. Proof. vm_compute. reflexivity. Qed.
Lemma match_amlogic_reads arm32 s : plain s ->
  exists r, match_amlogic arm32 s = Ok r /\ match r with Some c => listed arm32 amlogic_devices s c | None => forall c, ~ listed arm32 amlogic_devices s c end.
Proof.
  intros P. unfold match_amlogic. destruct (Nat.leb_spec (length s) 6) as [L|L].
  - apply find_amlogic_reads; [exact P|exact L|exact amlogic_rows_ok].
  - exists None. split; [reflexivity|]. intros c (d & I & _ & -> & _). pose proof amlogic_short as F. rewrite forallb_forall in F. specialize (F d I). apply Nat.leb_le in F. lia.
Qed.

(** ** Attempts *)

(** A list of attempts finds a reading, if there is one. *)
Definition covers (fs : list (list N -> res (option chip))) (R : reading) : Prop :=
  forall s, plain s -> Forall (fun f => exists r, f s = Ok r /\ forall c, r = Some c -> R s c) fs /\
    forall c, R s c -> exists f c', In f fs /\ f s = Ok (Some c').
Lemma first_of_reads fs R : covers fs R -> forall s, plain s -> forall otherwise,
  (exists c, first_of fs s otherwise = Ok c /\ R s c) \/ (forall c, ~ R s c) /\ first_of fs s otherwise = otherwise.
Proof.
  intros H s P otherwise. destruct (H s P) as [F G]. clear H.
  assert (K : (exists c, first_of fs s otherwise = Ok c /\ R s c) \/ Forall (fun f => f s = Ok None) fs /\ first_of fs s otherwise = otherwise).
  { clear G. induction F as [|f fs (r & E & S1) F IH]; [right; split; [constructor|reflexivity]|]. cbn [first_of]. rewrite E. cbn [bind]. destruct r as [c|].
    - left. exists c. split; [reflexivity|now apply S1].
    - destruct IH as [IH|[IH E']]; [now left|right]. split; [constructor; assumption|exact E']. }
  destruct K as [K|[K E]]; [now left|right]. split; [|exact E]. intros c C. destruct (G c C) as (f & c' & I & E'). rewrite Forall_forall in K. rewrite (K f I) in E'. discriminate.
Qed.
Lemma covers_nil (R : reading) : (forall s c, ~ R s c) -> covers [] R.
Proof. intros H s P. split; [constructor|]. intros c C. destruct (H s c C). Qed.
Lemma covers_cons f fs r R (Q : reading) : reads f r -> covers fs R -> (forall s c, Q s c <-> r s c \/ R s c) -> covers (f :: fs) Q.
Proof.
  intros Hf Hfs E s P. pose proof (Hf s (plain_bytes s P)) as K. destruct (Hfs s P) as [F G]. destruct (f s) as [o| |] eqn:Ef; [|contradiction..]. split.
  - constructor; [exists o; split; [exact Ef|]; intros c C; apply E; left; now apply K|]. eapply Forall_impl; [|exact F]. cbv beta. intros g (r' & Er & Sr).
    exists r'. split; [exact Er|]. intros c C. apply E. right. now apply Sr.
  - intros c C. apply E in C. destruct C as [C|C].
    + apply K in C. subst o. exists f, c. split; [now left|exact Ef].
    + destruct (G c C) as (g & c' & I & E'). exists g, c'. split; [now right|exact E'].
Qed.
Fixpoint some_of (rs : list reading) : reading := match rs with [] => fun _ _ => False | r :: rs' => fun s c => r s c \/ some_of rs' s c end.
Lemma some_of_any rs s c : some_of rs s c <-> any rs s c.
Proof.
  unfold any. induction rs as [|r rs IH]; cbn [some_of].
  - split; [tauto|]. intros (r & [] & _).
  - rewrite IH. split.
    + intros [H|(r' & I & H)]; [exists r; split; [now left|exact H]|exists r'; split; [now right|exact H]].
    + intros (r' & [<-|I] & H); [now left|right; now exists r'].
Qed.
Lemma covers_some fs rs : Forall2 reads fs rs -> covers fs (some_of rs).
Proof. induction 1; [apply covers_nil; tauto|]. eapply covers_cons; [eassumption..|]. intros s c. cbn [some_of]. reflexivity. Qed.
Lemma covers_as fs R Q : (forall s c, R s c <-> Q s c) -> covers fs R -> covers fs Q.
Proof.
  intros E H s P. destruct (H s P) as [F G]. split; [|intros c C; apply (G c); now apply E].
  eapply Forall_impl; [|exact F]. cbv beta. intros f (r & Er & Sr). exists r. split; [exact Er|]. intros c C. apply E. now apply Sr.
Qed.
Lemma word_covers : covers word_attempts (any word_signatures).
Proof.
  apply covers_as with (R := some_of [either msm apq; sdm; sm; mt; kirin; rk]).
  - intros s c. rewrite <- some_of_any. cbn [some_of]. unfold either, word_signatures. cbn [some_of]. tauto.
  - apply covers_some. unfold word_attempts.
    repeat first [apply Forall2_nil | apply Forall2_cons; [first [exact msm_apq_reads | exact sdm_reads | exact sm_reads | exact mt_reads | exact kirin_reads | exact rk_reads]|]].
Qed.

(** ** Words *)

Definition separator (c : N) : Prop := c = 32 \/ c = 9 \/ c = 44.
(** As [starts_word], after something else. *)
Definition starts (at_start : bool) (before rest : list N) : Prop :=
  (before = [] /\ at_start = true \/ exists p c, before = p ++ [c] /\ separator c) /\ exists c r, rest = c :: r /\ is_letter c.
Lemma starts_true before rest : starts true before rest <-> starts_word before rest.
Proof. unfold starts, starts_word, separator. intuition. Qed.
Lemma starts_cons at_start c before rest : starts at_start (c :: before) rest <-> starts ((c =? 32) || (c =? 9) || (c =? 44)) before rest.
Proof.
  unfold starts. apply and_iff_compat_r.
  assert (T : (c =? 32) || (c =? 9) || (c =? 44) = true <-> separator c) by (rewrite !Bool.orb_true_iff, !N.eqb_eq; unfold separator; tauto). split.
  - intros [[E _]|(p & x & E & S1)]; [discriminate|]. destruct p as [|y p]; cbn [app] in E; injection E as -> ->; [left|right].
    + split; [reflexivity|now apply T].
    + now exists p, x.
  - intros [[-> E]|(p & x & -> & S1)]; right; [exists [], c|exists (c :: p), x]; (split; [reflexivity|]); [now apply T|exact S1].
Qed.
Definition earliest (at_start : bool) (R : reading) (s : list N) (c : chip) : Prop :=
  exists before rest, s = before ++ rest /\ starts at_start before rest /\ R rest c /\
    forall before' rest' c', s = before' ++ rest' -> starts at_start before' rest' -> R rest' c' -> (length before <= length before')%nat.
Lemma words_reads R : covers word_attempts R -> forall s at_start otherwise, plain s ->
  (exists c, words at_start s otherwise = Ok c /\ earliest at_start R s c) \/
  (forall before rest c, s = before ++ rest -> starts at_start before rest -> ~ R rest c) /\ words at_start s otherwise = otherwise.
Proof.
  intros H. induction s as [|x s IH]; intros at_start otherwise P.
  - right. split; [|reflexivity]. intros before rest c E (_ & y & r & -> & _). destruct before; discriminate.
  - pose proof P as P0. inversion P as [|? ? Px Ps]; subst.
    assert (Skip : (forall c, starts at_start [] (x :: s) -> ~ R (x :: s) c) -> forall next, next = ((x =? 32) || (x =? 9) || (x =? 44)) ->
      (exists c, words next s otherwise = Ok c /\ earliest at_start R (x :: s) c) \/
      (forall before rest c, x :: s = before ++ rest -> starts at_start before rest -> ~ R rest c) /\ words next s otherwise = otherwise).
    { intros No next ->. destruct (IH ((x =? 32) || (x =? 9) || (x =? 44)) otherwise Ps) as [(c & E & before & rest & -> & St & Rd & First)|[None1 E]].
      - left. exists c. split; [exact E|]. exists (x :: before), rest. split; [reflexivity|]. split; [now apply starts_cons|]. split; [exact Rd|].
        intros [|y before'] rest' c' E' St' Rd'.
        + cbn [app] in E'. subst rest'. destruct (No c' St' Rd').
        + cbn [app] in E'. injection E' as <- E'. cbn [length]. apply le_n_S. apply (First before' rest' c' E'); [now apply starts_cons in St'|exact Rd'].
      - right. split; [|exact E]. intros [|y before] rest c E' St Rd.
        + cbn [app] in E'. subst rest. exact (No c St Rd).
        + cbn [app] in E'. injection E' as <- E'. apply (None1 before rest c E'); [now apply starts_cons in St|exact Rd]. }
    cbn [words]. destruct ((x =? 32) || (x =? 9) || (x =? 44)) eqn:Sx.
    + apply Skip; [|reflexivity]. intros c (_ & y & r & E & L). injection E as <- <-. exfalso.
      rewrite !Bool.orb_true_iff, !N.eqb_eq in Sx. unfold is_letter in L. lia.
    + destruct (at_start && is_alphabetic x) eqn:A.
      * apply Bool.andb_true_iff in A. destruct A as [-> A]. apply alphabetic_iff in A; [|lia].
        destruct (first_of_reads word_attempts R H (x :: s) P0 (words false s otherwise)) as [(c & E & Rd)|[None1 E]].
        { left. exists c. split; [exact E|]. exists [], (x :: s). split; [reflexivity|]. split; [split; [left; split; reflexivity|now exists x, s]|].
          split; [exact Rd|]. intros; cbn; lia. }
        { rewrite E. apply Skip; [|reflexivity]. intros c _. apply None1. }
      * apply Skip; [|reflexivity]. intros c ([[_ ->]|(p & y & E & _)] & y' & r & E' & L); [|destruct p; discriminate]. injection E' as <- <-.
        apply alphabetic_iff in L; [|lia]. now rewrite L in A.
Qed.
Lemma earliest_first R s c : earliest true R s c -> first_word R s c.
Proof.
  intros (before & rest & -> & St & Rd & First). exists before, rest. split; [reflexivity|]. split; [now apply starts_true|]. split; [exact Rd|].
  intros before' rest' c' E St' Rd'. apply (First before' rest' c' E); [now apply starts_true|exact Rd'].
Qed.

(** ** Sources *)

Definition gives (f : list N -> res chip) (R : reading) : Prop := forall s, plain s -> exists c, f s = Ok c /\ R s c.
Lemma gives_unless fs R f Q : covers fs R -> gives f Q -> gives (fun s => first_of fs s (f s)) (unless R Q).
Proof.
  intros H G s P. destruct (first_of_reads fs R H s P (f s)) as [(c & E & Rc)|[No E]].
  - exists c. split; [exact E|now left].
  - destruct (G s P) as (c & E' & Qc). exists c. split; [congruence|]. right. split; assumption.
Qed.
Ltac covering := apply covers_some; cbn [app];
  repeat first [apply Forall2_nil | apply Forall2_cons; [first [exact msm_apq_reads | exact sdm_reads | exact sm_reads | exact mt_reads | exact mt_start_reads | exact kirin_reads
    | exact rk_reads | exact samsung_exynos_reads | exact exynos_reads | exact universal_reads | apply smdk_reads | exact sc_reads | exact t_reads | exact ums_reads
    | exact lc_reads | exact pxa_reads | apply sunxi_reads | exact bcm_reads | exact omap_reads | apply wmt_reads | exact tcc_reads | apply broadcom_reads | exact huawei_reads
    | apply omap4_reads | exact mp523x_reads]|]].
Ltac regroup := let s := fresh in let c := fresh in intros s c; rewrite <- some_of_any; cbn [some_of app]; unfold either; cbn [some_of app]; tauto.

Lemma from_hardware_gives arm32 cores frequency : gives (from_hardware arm32 cores frequency false) (hardware arm32 cores frequency).
Proof.
  intros s P. unfold from_hardware, hardware. set (fs := _ ++ _). set (rest := first_of _ _ _).
  assert (K : exists c, rest = Ok c /\ unless (any (hardware_signatures arm32 cores frequency)) (unless (listed arm32 hardware_devices) unrecognized) s c).
  { subst rest. apply (gives_unless fs _ (from_table arm32 letter hardware_map)); [|intros s' P'; now apply from_table_reads; [exact hardware_rows|]|exact P].
    subst fs. destruct arm32.
    - eapply covers_as; cycle 1; [covering|]. unfold hardware_signatures, if_arm32. regroup.
    - eapply covers_as; cycle 1; [covering|]. unfold hardware_signatures, if_arm32. regroup. }
  destruct (words_reads _ word_covers s true rest P) as [(c & E & F)|[No E]].
  - exists c. split; [exact E|]. left. now apply earliest_first.
  - destruct K as (c & E' & Kc). exists c. split; [congruence|]. right. split; [|exact Kc].
    intros c' (before & r & E1 & St & Rd & _). apply (No before r c' E1); [now apply starts_true|exact Rd].
Qed.
Lemma from_tegra_gives arm32 cores frequency : gives (from_hardware arm32 cores frequency true) (tegra_hardware arm32).
Proof. intros s P. apply from_table_reads; [exact tegra_rows|exact P]. Qed.
Lemma from_board_gives arm32 cores frequency : gives (from_board arm32 cores frequency) (board arm32 cores frequency).
Proof.
  apply gives_unless; [|intros s' P'; now apply from_table_reads; [exact board_rows|]].
  destruct arm32; (eapply covers_as; cycle 1; [covering|]); unfold board_signatures, if_arm32; regroup.
Qed.
Lemma gives_nothing : gives (fun _ => Ok unknown_chip) unrecognized.
Proof. intros s P. exists unknown_chip. split; reflexivity. Qed.
Lemma from_mediatek_gives : gives from_mediatek mediatek.
Proof. apply (gives_unless [match_mt false] mt_start (fun _ => Ok unknown_chip)); [|exact gives_nothing]. eapply covers_as; cycle 1; [covering|]. intros s c. cbn [some_of]. tauto. Qed.
Lemma from_arch_gives : gives from_arch arch.
Proof. apply (gives_unless [match_exynos] exynos (fun _ => Ok unknown_chip)); [|exact gives_nothing]. eapply covers_as; cycle 1; [covering|]. intros s c. cbn [some_of]. tauto. Qed.
Lemma from_chipname_gives arm32 : gives (from_chipname arm32) (chipname arm32).
Proof.
  apply (gives_unless _ _ (fun _ => Ok unknown_chip)); [|exact gives_nothing].
  destruct arm32; (eapply covers_as; cycle 1; [covering|]); unfold chipname_signatures, if_arm32; regroup.
Qed.
Lemma first_of_app fs gs s otherwise : first_of (fs ++ gs) s otherwise = first_of fs s (first_of gs s otherwise).
Proof. induction fs as [|f fs IH]; [reflexivity|]. cbn [app first_of]. destruct (f s) as [[c|]| |]; cbn [bind]; [reflexivity|exact IH|reflexivity..]. Qed.
Lemma from_platform_gives arm32 cores frequency : gives (from_platform arm32 cores frequency) (platform arm32 cores frequency).
Proof.
  intros s P. unfold from_platform. rewrite !app_assoc, first_of_app. rewrite <- !app_assoc.
  apply (gives_unless _ _ (fun s => first_of [match_amlogic arm32] s (from_table arm32 letter platform_map s))); [| |exact P].
  - destruct arm32; (eapply covers_as; cycle 1; [covering|]); unfold platform_signatures, if_arm32; regroup.
  - clear s P. intros s P. cbn [first_of]. destruct (match_amlogic_reads arm32 s P) as ([c|] & -> & K); cbn [bind].
    + exists c. split; [reflexivity|]. left. destruct K as (d & I & K). exists d. split; [apply in_or_app; now left|exact K].
    + destruct (from_table_reads arm32 letter platform_map platform_devices s platform_rows P) as (c & -> & L). exists c. split; [reflexivity|].
      destruct L as [(d & I & L)|[No L]]; [left; exists d; split; [apply in_or_app; now right|exact L]|right]. split; [|exact L].
      intros c' (d & I & L'). apply in_app_or in I. destruct I as [I|I]; [apply (K c')|apply (No c')]; now exists d.
Qed.
