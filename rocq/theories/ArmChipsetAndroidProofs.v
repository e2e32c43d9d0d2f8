(** What the properties of an Android device say together. *)
From Verif Require Import Base BaseProofs Text LinuxTextSpec X86CpuinfoModel ArmClusterMidrModel ArmCpuinfoModel ArmChipsetModel ArmChipsetSpec ArmChipsetNameSpec ArmChipsetFixupSpec ArmChipsetAndroidSpec
  ArmChipsetFitProofs ArmChipsetMatchProofs ArmChipsetReadProofs ArmChipsetOtherProofs ArmChipsetDeviceProofs ArmChipsetSourceProofs ArmChipsetExclusiveProofs ArmChipsetNameProofs
  ArmChipsetFixupProofs ArmChipsetGoodProofs ArmChipsetLinuxProofs.
From Verif Require ArmCpuinfoMeaningProofs.
Import ArmCpuinfoMeaningProofs(bytes_eqb_iff).
Open Scope N_scope.

(** ** Suffixes *)

Definition has (c : chip) (x : list N) : Prop := holds_suffix (chp_suffix c) x.
Definition pad (x : list N) : list N := x ++ repeat 0 (8 - length x).
Lemma has_pad c x : has c x -> chp_suffix c = pad x. Proof. now intros (_ & _ & E). Qed.
Lemma has_until c x : has c x -> until_nul (chp_suffix c) = x.
Proof. intros (F & _ & ->). now apply until_nul_suffix. Qed.
Lemma pad_length x : (length x <= 8)%nat -> length (pad x) = 8%nat.
Proof. intros L. unfold pad. rewrite app_length, repeat_length. lia. Qed.
Lemma firstn_repeat {A} (a : A) : forall n k, firstn n (repeat a k) = repeat a (Nat.min n k).
Proof. induction n as [|n IH]; intros [|k]; cbn; try reflexivity. now rewrite IH. Qed.
Lemma skipn_repeat {A} (a : A) : forall n k, skipn n (repeat a k) = repeat a (k - n).
Proof. induction n as [|n IH]; intros [|k]; cbn; try reflexivity. apply IH. Qed.
Lemma repeat_plus {A} (a : A) n k : repeat a n ++ repeat a k = repeat a (n + k).
Proof. symmetry. apply repeat_app. Qed.
(** The first characters of one suffix over another. *)
Lemma put_pad n a b : (n <= 8)%nat -> (length a <= 8)%nat -> (length b <= 8)%nat ->
  put (firstn n (pad a)) 0 (pad b) = if (length b <=? n)%nat then pad (firstn n a) else if (n <=? length a)%nat then pad (firstn n a ++ skipn n b) else put (firstn n (pad a)) 0 (pad b).
Proof.
  intros Ln La Lb. unfold put. cbn [firstn app Nat.add]. rewrite firstn_length, pad_length, Nat.min_l by lia.
  destruct (Nat.leb_spec (length b) n) as [C|C].
  - unfold pad. rewrite firstn_app, skipn_app, firstn_repeat, (skipn_all2 b C), skipn_repeat. cbn [app]. rewrite <- app_assoc, repeat_plus, firstn_length. do 2 f_equal. lia.
  - destruct (Nat.leb_spec n (length a)) as [D|D]; [|reflexivity]. unfold pad. rewrite firstn_app, skipn_app. replace (n - length a)%nat with 0%nat by lia. replace (n - length b)%nat with 0%nat by lia.
    cbn [firstn skipn app]. rewrite app_nil_r, <- !app_assoc, app_length, firstn_length, skipn_length. do 3 f_equal. lia.
Qed.

Definition all_have (cs : list chip) : Prop := Forall (fun c => exists x, has c x) cs.
Definition like (a b : chip) : Prop := chp_vendor a = chp_vendor b /\ chp_series a = chp_series b /\ chp_model a = chp_model b.
Definition likes (cs cs' : list chip) : Prop := Forall2 like cs cs'.
Lemma likes_refl cs : likes cs cs.
Proof. induction cs; constructor; [split; [|split]; reflexivity|assumption]. Qed.
Lemma likes_trans a b c : likes a b -> likes b c -> likes a c.
Proof.
  intros H. revert c. induction H as [|x y a b L H IH]; intros c H'; inversion H' as [|? z ? c' L' H'']; subst; constructor; [|now apply IH].
  unfold like in *. intuition congruence.
Qed.
Lemma likes_upd cs i c d : nth_error cs i = Some c -> like c d -> likes cs (upd cs i d).
Proof.
  revert i. induction cs as [|x cs IH]; intros [|i] E L; cbn in *; try discriminate.
  - injection E as ->. constructor; [exact L|apply likes_refl].
  - constructor; [split; [|split]; reflexivity|now apply IH].
Qed.
Lemma likes_length a b : likes a b -> length a = length b.
Proof. induction 1; cbn; congruence. Qed.
Lemma likes_nth a b i x : likes a b -> nth_error a i = Some x -> exists y, nth_error b i = Some y /\ like x y.
Proof.
  intros H. revert i. induction H as [|x' y' a b L H IH]; intros [|i] E; cbn in *; try discriminate; [injection E as ->; now exists y'|now apply IH].
Qed.
Lemma all_have_upd cs i d x : all_have cs -> has d x -> all_have (upd cs i d).
Proof.
  revert i. induction cs as [|c cs IH]; intros [|i] A H; cbn; inversion A; subst; constructor; eauto. now apply IH.
Qed.

(** One pair. *)
Lemma pair_value ni i j cs ci cj xi xj : nth_error cs i = Some ci -> nth_error cs j = Some cj -> has ci xi -> has cj xj -> (ni <= 8)%nat ->
  exists cs', propagate_pair ni i j cs = Ok cs' /\ length cs' = length cs /\
    (cs' = cs \/
     chp_series ci = chp_series cj /\ (length xj < ni)%nat /\ (exists d, cs' = upd cs j d /\ like cj d /\ has d (firstn ni xi)) \/
     chp_series ci = chp_series cj /\ (ni < length xj)%nat /\ (exists d, cs' = upd cs i d /\ like ci d /\ has d (xj ++ skipn (length xj) xi))) /\
    (chp_series ci = chp_series cj -> (length xj < ni)%nat -> (ni <= length xi)%nat -> firstn (length xj) xi = xj -> exists d, cs' = upd cs j d /\ like cj d /\ has d (firstn ni xi)) /\
    (chp_series ci = chp_series cj -> (ni < length xj)%nat -> (ni <= length xi)%nat -> firstn ni xi = firstn ni xj -> exists d, cs' = upd cs i d /\ like ci d /\ has d (xj ++ skipn (length xj) xi)) /\
    (chp_series ci <> chp_series cj \/ ni = length xj -> cs' = cs).
Proof.
  intros Ei Ej Hi Hj Ln. unfold propagate_pair, rd. rewrite Ei, Ej. cbn [bind]. destruct (N.eqb_spec (chp_series ci) (chp_series cj)) as [S0|S0].
  2: { exists cs. split; [reflexivity|]. split; [reflexivity|]. split; [now left|]. split; [contradiction|]. split; [contradiction|]. reflexivity. }
  rewrite (has_until cj xj Hj). destruct (Nat.eqb_spec ni (length xj)) as [Q|Q].
  { exists cs. split; [reflexivity|]. split; [reflexivity|]. split; [now left|]. split; [lia|]. split; [lia|]. reflexivity. }
  pose proof Hi as (Fi & Li & _). pose proof Hj as (Fj & Lj & _). rewrite (has_pad ci xi Hi), (has_pad cj xj Hj).
  destruct (bytes_eqb _ _) eqn:B.
  - assert (V : forall c d : list N, has (with_suffix (pad c) ci) c <-> Forall suffix_character c /\ (length c <= 8)%nat).
    { intros c d. unfold has, holds_suffix, with_suffix. cbn [chp_suffix]. split; [tauto|]. intros [? ?]. split; [assumption|]. split; [assumption|reflexivity]. }
    destruct (Nat.ltb_spec (length xj) ni) as [C|C].
    + rewrite (put_pad ni xi xj Ln Li Lj), (proj2 (Nat.leb_le _ _)) by lia. set (d := with_suffix (pad (firstn ni xi)) cj).
      assert (D : like cj d /\ has d (firstn ni xi)).
      { split; [split; [|split]; reflexivity|]. unfold has, d, with_suffix. cbn [chp_suffix]. split; [|split; [rewrite firstn_length; lia|reflexivity]].
        apply Forall_forall. intros y I. rewrite Forall_forall in Fi. apply Fi. rewrite <- (firstn_skipn ni xi). apply in_or_app. now left. }
      rewrite (wr_ok _ cs j d) by (eapply nth_error_some_lt; exact Ej). exists (upd cs j d). split; [reflexivity|]. split; [apply upd_length|].
      split; [right; left; split; [exact S0|split; [exact C|now exists d]]|]. split; [intros; now exists d|]. split; [lia|]. intros [X|X]; [contradiction|lia].
    + assert (C' : (ni < length xj)%nat) by lia. set (z := xj ++ skipn (length xj) xi).
      assert (E : put (firstn (length xj) (pad xj)) 0 (pad xi) = pad z).
      { rewrite (put_pad (length xj) xj xi Lj Lj Li). unfold z. destruct (Nat.leb_spec (length xi) (length xj)) as [D|D].
        - rewrite firstn_all, (skipn_all2 xi D), app_nil_r. reflexivity.
        - rewrite (proj2 (Nat.leb_le _ _)) by lia. now rewrite firstn_all. }
      rewrite E. set (d := with_suffix (pad z) ci). assert (D : like ci d /\ has d z).
      { split; [split; [|split]; reflexivity|]. unfold has, d, with_suffix. cbn [chp_suffix]. split; [|split; [unfold z; rewrite app_length, skipn_length; lia|reflexivity]].
        unfold z. apply Forall_app. split; [exact Fj|]. apply Forall_forall. intros y I. rewrite Forall_forall in Fi. apply Fi. rewrite <- (firstn_skipn (length xj) xi). apply in_or_app. now right. }
      rewrite (wr_ok _ cs i d) by (eapply nth_error_some_lt; exact Ei). exists (upd cs i d). split; [reflexivity|]. split; [apply upd_length|].
      split; [right; right; split; [exact S0|split; [exact C'|now exists d]]|]. split; [lia|]. split; [intros; now exists d|]. intros [X|X]; [contradiction|lia].
  - exists cs. split; [reflexivity|]. split; [reflexivity|]. split; [now left|].
    assert (K : (ni <= length xi)%nat -> firstn (Nat.min ni (length xj)) (pad xi) = firstn (Nat.min ni (length xj)) xi /\ firstn (Nat.min ni (length xj)) (pad xj) = firstn (Nat.min ni (length xj)) xj).
    { intros L. unfold pad. rewrite !firstn_app. replace (Nat.min ni (length xj) - length xi)%nat with 0%nat by lia. replace (Nat.min ni (length xj) - length xj)%nat with 0%nat by lia.
      cbn [firstn]. now rewrite !app_nil_r. }
    assert (B' : (ni <= length xi)%nat -> firstn (Nat.min ni (length xj)) xi <> firstn (Nat.min ni (length xj)) xj).
    { intros L X. destruct (K L) as [K1 K2]. rewrite K1, K2, X in B. assert (T : bytes_eqb (firstn (Nat.min ni (length xj)) xj) (firstn (Nat.min ni (length xj)) xj) = true) by now apply bytes_eqb_iff.
      congruence. }
    split; [|split].
    + intros _ C L X. exfalso. apply (B' L). rewrite Nat.min_r by lia. rewrite firstn_all. exact X.
    + intros _ C L X. exfalso. apply (B' L). rewrite Nat.min_l by lia. exact X.
    + reflexivity.
Qed.

(** All pairs: the models stay, and suffixes stay suffixes. *)
Lemma up_to_invariant {A} (P : nat -> A -> Prop) f : forall n k a, P k a ->
  (forall m a, (k <= m < k + n)%nat -> P m a -> exists b, f m a = Ok b /\ P (S m) b) -> exists b, up_to n f k a = Ok b /\ P (k + n)%nat b.
Proof.
  induction n as [|n IH]; intros k a H step; cbn [up_to].
  - exists a. split; [reflexivity|]. now rewrite Nat.add_0_r.
  - destruct (step k a) as (b & E & Hb); [lia|exact H|]. rewrite E. cbn [bind]. destruct (IH (S k) b Hb) as (c & E' & Hc).
    + intros m x L. apply step. lia.
    + exists c. split; [exact E'|]. now replace (k + S n)%nat with (S k + n)%nat by lia.
Qed.
Lemma all_have_nth cs i : all_have cs -> (i < length cs)%nat -> exists c x, nth_error cs i = Some c /\ has c x.
Proof.
  intros A L. destruct (nth_error cs i) as [c|] eqn:E; [|apply nth_error_None in E; lia]. unfold all_have in A. rewrite Forall_forall in A.
  destruct (A c (nth_error_In _ _ E)) as (x & H). now exists c, x.
Qed.
Lemma pair_keeps ni i j cs0 cs : (ni <= 8)%nat -> (i < length cs0)%nat -> (j < length cs0)%nat -> likes cs0 cs /\ all_have cs ->
  exists cs', propagate_pair ni i j cs = Ok cs' /\ likes cs0 cs' /\ all_have cs'.
Proof.
  intros Ln Li Lj [L A]. rewrite (likes_length _ _ L) in Li, Lj. destruct (all_have_nth cs i A Li) as (ci & xi & Ei & Hi). destruct (all_have_nth cs j A Lj) as (cj & xj & Ej & Hj).
  destruct (pair_value ni i j cs ci cj xi xj Ei Ej Hi Hj Ln) as (cs' & E & _ & [->|[(_ & _ & d & -> & K & H)|(_ & _ & d & -> & K & H)]] & _); rewrite E.
  - now exists cs.
  - exists (upd cs j d). split; [reflexivity|]. split; [|now apply (all_have_upd _ _ _ (firstn ni xi))]. eapply likes_trans; [exact L|]. eapply likes_upd; eassumption.
  - exists (upd cs i d). split; [reflexivity|]. split; [|now apply (all_have_upd _ _ _ (xj ++ skipn (length xj) xi))]. eapply likes_trans; [exact L|]. eapply likes_upd; eassumption.
Qed.
Lemma propagate_keeps cs : all_have cs -> exists cs', propagate cs = Ok cs' /\ likes cs cs' /\ all_have cs'.
Proof.
  intros A. unfold propagate.
  destruct (up_to_invariant (fun (_ : nat) cs' => likes cs cs' /\ all_have cs')
    (fun i cs => do ci <- rd cs i; let ni := length (until_nul (chp_suffix ci)) in up_to i (fun j cs => propagate_pair ni i j cs) 0 cs) (length cs) 0 cs) as (cs' & E & P).
  - split; [apply likes_refl|exact A].
  - intros i a Li [L Aa]. cbn [Nat.add] in Li. assert (Li' : (i < length a)%nat) by (rewrite <- (likes_length _ _ L); lia). destruct (all_have_nth a i Aa Li') as (ci & xi & Ei & Hi).
    unfold rd. rewrite Ei. cbn [bind]. rewrite (has_until ci xi Hi). cbv zeta. apply (up_to_invariant (fun (_ : nat) cs' => likes cs cs' /\ all_have cs')); [now split|].
    intros j b Lj Pb. apply pair_keeps; [apply Hi|lia|lia|exact Pb].
  - now exists cs'.
Qed.

(** Suffixes of a series that are all beginnings of one of them become that one. *)
Section Class.
Context (se : N) (w : list N).
Definition upto (c : chip) (k : nat) : Prop := (k <= length w)%nat /\ has c (firstn k w).
Definition comparable (cs : list chip) : Prop := forall i c, nth_error cs i = Some c -> chp_series c = se -> exists k, upto c k.
Definition whole_at (a : nat) (cs : list chip) : Prop := exists c, nth_error cs a = Some c /\ chp_series c = se /\ has c w.
Lemma upto_unique c k k' : upto c k -> upto c k' -> k = k'.
Proof.
  intros [L H] [L' H']. assert (E : firstn k w = firstn k' w) by (eapply holds_suffix_unique; eassumption). apply (f_equal (@length N)) in E. rewrite !firstn_length in E. lia.
Qed.
Definition inner (cs0 : list chip) (a i v K j : nat) (cs : list chip) : Prop :=
  likes cs0 cs /\ all_have cs /\ comparable cs /\ whole_at a cs /\
  (forall c, nth_error cs i = Some c -> chp_series c = se -> upto c v /\ (forall b cb, (b < j)%nat -> nth_error cs b = Some cb -> chp_series cb = se -> v = Nat.max K v) \/
     upto c (Nat.max K v)) /\
  (forall b c, (b < i)%nat -> nth_error cs b = Some c -> chp_series c = se -> upto c (if (b <? j)%nat then Nat.max K v else K)).
Lemma nth_upd cs i j d (c : chip) : (i < length cs)%nat -> nth_error (upd cs i d) j = Some c -> j = i /\ c = d \/ j <> i /\ nth_error cs j = Some c.
Proof.
  intros L E. destruct (Nat.eq_dec j i) as [->|N1].
  - left. rewrite nth_error_upd_eq in E by exact L. injection E as <-. now split.
  - right. rewrite nth_error_upd_neq in E by congruence. now split.
Qed.
Lemma inner_step cs0 a i v K j cs : (j < i)%nat -> (i < length cs0)%nat -> (v <= length w)%nat -> (K <= length w)%nat -> (length w <= 8)%nat ->
  (exists c, nth_error cs0 i = Some c /\ chp_series c = se) -> inner cs0 a i v K j cs ->
  exists cs', propagate_pair v i j cs = Ok cs' /\ inner cs0 a i v K (S j) cs'.
Proof.
  intros Lj Li Lv LK Lw (c0 & E0 & S0) (Lk & A & Cm & Wh & Ii & Ib).
  destruct (likes_nth _ _ _ _ Lk E0) as (ci & Ei & (_ & S1 & _)). rewrite S0 in S1. symmetry in S1.
  pose proof (likes_length _ _ Lk) as Ll. destruct (all_have_nth cs j A) as (cj & xj & Ej & Hj); [lia|].
  destruct (all_have_nth cs i A) as (ci' & xi & Ei' & Hi); [lia|]. rewrite Ei in Ei'. injection Ei' as <-.
  destruct (pair_value v i j cs ci cj xi xj Ei Ej Hi Hj) as (cs' & E & Lc & _ & P1 & P2 & P3); [lia|]. exists cs'. split; [exact E|].
  destruct (N.eq_dec (chp_series cj) se) as [Sj|Sj].
  2: { assert (cs' = cs) by (apply P3; left; congruence). subst cs'. split; [exact Lk|]. split; [exact A|]. split; [exact Cm|]. split; [exact Wh|]. split.
       - intros c Ec Sc. destruct (Ii c Ec Sc) as [[U Q]|U]; [left|now right]. split; [exact U|]. intros b cb Lb Eb Sb. apply (Q b cb); try assumption.
         assert (b <> j) by (intros ->; congruence). lia.
       - intros b c Lb Eb Sb. specialize (Ib b c Lb Eb Sb). assert (b <> j) by (intros ->; congruence).
         destruct (Nat.ltb_spec b j), (Nat.ltb_spec b (S j)); try lia; exact Ib. }
  assert (Uj : upto cj K) by (specialize (Ib j cj Lj Ej Sj); now rewrite (proj2 (Nat.ltb_ge j j)) in Ib by lia).
  assert (Xj : xj = firstn K w) by (eapply holds_suffix_unique; [exact Hj|apply Uj]).
  assert (Lxj : length xj = K) by (rewrite Xj, firstn_length; lia).
  assert (Ui : upto ci v \/ upto ci (Nat.max K v)) by (destruct (Ii ci Ei S1) as [[U _]|U]; auto).
  assert (Xi : xi = firstn v w \/ xi = firstn (Nat.max K v) w) by (destruct Ui as [U|U]; [left|right]; (eapply holds_suffix_unique; [exact Hi|apply U])).
  destruct (Nat.lt_trichotomy K v) as [C|[C|C]].
  - rewrite Nat.max_r in * by lia. assert (X : xi = firstn v w) by (now destruct Xi).
    destruct P1 as (d & -> & Kd & Hd); [congruence|lia|rewrite X, firstn_length; lia|rewrite X, Lxj, Xj, firstn_firstn; f_equal; lia|].
    rewrite X, firstn_firstn, Nat.min_id in Hd. assert (Ud : upto d v) by (split; [exact Lv|exact Hd]).
    split; [eapply likes_trans; [exact Lk|]; eapply likes_upd; eassumption|]. split; [eapply all_have_upd; eassumption|].
    assert (Lj' : (j < length cs)%nat) by lia. split; [|split; [|split]].
    + intros b c Eb Sb. apply nth_upd in Eb; [|exact Lj']. destruct Eb as [[-> ->]|[_ Eb]]; [now exists v|now apply (Cm b)].
    + destruct Wh as (cw & Ew & Sw & Hw). destruct (Nat.eq_dec a j) as [->|Na].
      * exfalso. rewrite Ej in Ew. injection Ew as <-. assert (xj = w) by (eapply holds_suffix_unique; eassumption). subst xj. rewrite H in Lxj. lia.
      * exists cw. split; [now rewrite nth_error_upd_neq by congruence|now split].
    + intros c Ec Sc. rewrite nth_error_upd_neq in Ec by lia. rewrite Ei in Ec. injection Ec as <-. right. rewrite Nat.max_r by lia. split; [lia|]. now rewrite <- X.
    + intros b c Lb Eb Sb. apply nth_upd in Eb; [|exact Lj']. destruct Eb as [[-> ->]|[Nb Eb]].
      * rewrite (proj2 (Nat.ltb_lt j (S j))), Nat.max_r by lia. exact Ud.
      * specialize (Ib b c Lb Eb Sb). rewrite Nat.max_r by lia. destruct (Nat.ltb_spec b j), (Nat.ltb_spec b (S j)); try lia; exact Ib.
  - subst v. rewrite Nat.max_id in Ii, Ib. assert (cs' = cs) by (apply P3; right; congruence). subst cs'. split; [exact Lk|]. split; [exact A|]. split; [exact Cm|]. split; [exact Wh|]. split.
    + intros c Ec Sc. right. rewrite Nat.max_id. destruct (Ii c Ec Sc) as [[U _]|U]; exact U.
    + intros b c Lb Eb Sb. specialize (Ib b c Lb Eb Sb). rewrite Nat.max_id. destruct (b <? j)%nat, (b <? S j)%nat; exact Ib.
  - rewrite Nat.max_l in * by lia.
    destruct P2 as (d & -> & Kd & Hd); [congruence|lia|destruct Xi as [-> | ->]; rewrite firstn_length; lia|rewrite Xj, firstn_firstn, Nat.min_l by lia; destruct Xi as [-> | ->]; rewrite firstn_firstn; f_equal; lia|].
    assert (Z : skipn (length xj) xi = []) by (apply skipn_all2; rewrite Lxj; destruct Xi as [-> | ->]; rewrite firstn_length; lia).
    rewrite Z, app_nil_r, Xj in Hd. assert (Ud : upto d K) by (split; [exact LK|exact Hd]).
    split; [eapply likes_trans; [exact Lk|]; eapply likes_upd; eassumption|]. split; [eapply all_have_upd; eassumption|].
    assert (Li' : (i < length cs)%nat) by lia. split; [|split; [|split]].
    + intros b c Eb Sb. apply nth_upd in Eb; [|exact Li']. destruct Eb as [[-> ->]|[_ Eb]]; [now exists K|now apply (Cm b)].
    + destruct Wh as (cw & Ew & Sw & Hw). destruct (Nat.eq_dec a i) as [->|Na].
      * rewrite Ei in Ew. injection Ew as <-. assert (Q : xi = w) by (eapply holds_suffix_unique; eassumption).
        assert (length w <= K)%nat by (rewrite <- Q; destruct Xi as [-> | ->]; rewrite firstn_length; lia).
        exists d. rewrite nth_error_upd_eq by exact Li'. split; [reflexivity|]. split; [destruct Kd as (_ & Kd & _); congruence|]. now rewrite (firstn_all2 w) in Hd by lia.
      * exists cw. split; [now rewrite nth_error_upd_neq by congruence|now split].
    + intros c Ec Sc. apply nth_upd in Ec; [|exact Li']. destruct Ec as [[_ ->]|[Nb _]]; [right; now rewrite Nat.max_l by lia|contradiction].
    + intros b c Lb Eb Sb. apply nth_upd in Eb; [|exact Li']. destruct Eb as [[-> ->]|[Nb Eb]]; [lia|].
      specialize (Ib b c Lb Eb Sb). rewrite Nat.max_l by lia. destruct (Nat.ltb_spec b j), (Nat.ltb_spec b (S j)); try lia; try exact Ib.
Qed.
Definition outer (cs0 : list chip) (a i : nat) (cs : list chip) : Prop :=
  likes cs0 cs /\ all_have cs /\ comparable cs /\ whole_at a cs /\
  exists K, (K <= length w)%nat /\ forall b c, (b < i)%nat -> nth_error cs b = Some c -> chp_series c = se -> upto c K.
Lemma other_pair cs0 a i ni j cs : (ni <= 8)%nat -> (i < length cs0)%nat -> (j < i)%nat -> (exists c, nth_error cs0 i = Some c /\ chp_series c <> se) -> outer cs0 a i cs ->
  exists cs', propagate_pair ni i j cs = Ok cs' /\ outer cs0 a i cs'.
Proof.
  intros Ln Li Lj (c0 & E0 & S0) (Lk & A & Cm & Wh & K & LK & U).
  destruct (likes_nth _ _ _ _ Lk E0) as (ci & Ei & (_ & S1 & _)). rewrite S1 in S0. pose proof (likes_length _ _ Lk) as Ll.
  destruct (all_have_nth cs j A) as (cj & xj & Ej & Hj); [lia|]. destruct (all_have_nth cs i A) as (ci' & xi & Ei' & Hi); [lia|]. rewrite Ei in Ei'. injection Ei' as <-.
  assert (T : forall t ct x d, nth_error cs t = Some ct -> chp_series ct <> se -> like ct d -> has d x -> outer cs0 a i (upd cs t d)).
  { intros t ct x d Et St Kd Hd. assert (Lt : (t < length cs)%nat) by (eapply nth_error_some_lt; exact Et). assert (Sd : chp_series d <> se) by (destruct Kd as (_ & Kd & _); congruence).
    split; [eapply likes_trans; [exact Lk|]; eapply likes_upd; eassumption|]. split; [eapply all_have_upd; eassumption|]. split; [|split].
    - intros b c Eb Sb. apply nth_upd in Eb; [|exact Lt]. destruct Eb as [[_ ->]|[_ Eb]]; [contradiction|now apply (Cm b)].
    - destruct Wh as (cw & Ew & Sw & Hw). exists cw. assert (a <> t) by (intros ->; congruence). split; [now rewrite nth_error_upd_neq by congruence|now split].
    - exists K. split; [exact LK|]. intros b c Lb Eb Sb. apply nth_upd in Eb; [|exact Lt]. destruct Eb as [[_ ->]|[_ Eb]]; [contradiction|now apply (U b)]. }
  destruct (pair_value ni i j cs ci cj xi xj Ei Ej Hi Hj Ln) as (cs' & E & _ & [->|[(Q & _ & d & -> & Kd & Hd)|(_ & _ & d & -> & Kd & Hd)]] & _); rewrite E.
  - exists cs. split; [reflexivity|]. split; [exact Lk|]. split; [exact A|]. split; [exact Cm|]. split; [exact Wh|]. now exists K.
  - exists (upd cs j d). split; [reflexivity|]. eapply T; [exact Ej|congruence|eassumption..].
  - exists (upd cs i d). split; [reflexivity|]. eapply T; [exact Ei|congruence|eassumption..].
Qed.
Lemma propagate_whole cs a : (length w <= 8)%nat -> all_have cs -> comparable cs -> whole_at a cs ->
  exists cs', propagate cs = Ok cs' /\ likes cs cs' /\ all_have cs' /\ forall i c, nth_error cs' i = Some c -> chp_series c = se -> has c w.
Proof.
  intros Lw A Cm Wh. unfold propagate.
  destruct (up_to_invariant (outer cs a)
    (fun i cs => do ci <- rd cs i; let ni := length (until_nul (chp_suffix ci)) in up_to i (fun j cs => propagate_pair ni i j cs) 0 cs) (length cs) 0 cs) as (cs' & E & P).
  - split; [apply likes_refl|]. split; [exact A|]. split; [exact Cm|]. split; [exact Wh|]. exists 0%nat. split; [lia|]. intros b c Lb. lia.
  - intros i b Li O. pose proof O as (Lk & Ab & Cmb & Whb & K & LK & U). cbn [Nat.add] in Li. pose proof (likes_length _ _ Lk) as Ll.
    destruct (all_have_nth b i Ab) as (ci & xi & Ei & Hi); [lia|]. unfold rd. rewrite Ei. cbn [bind]. rewrite (has_until ci xi Hi). cbv zeta.
    destruct (nth_error cs i) as [c0|] eqn:E0; [|apply nth_error_None in E0; lia]. destruct (likes_nth _ _ _ _ Lk E0) as (ci' & Ei' & (_ & S1 & _)). rewrite Ei in Ei'. injection Ei' as <-.
    destruct (N.eq_dec (chp_series ci) se) as [S0|S0].
    + destruct (Cmb i ci Ei S0) as (v & Uv). assert (X : xi = firstn v w) by (eapply holds_suffix_unique; [exact Hi|apply Uv]).
      assert (Lx : length xi = v) by (rewrite X, firstn_length; destruct Uv; lia). rewrite Lx.
      destruct (up_to_invariant (inner cs a i v K) (fun j cs => propagate_pair v i j cs) i 0 b) as (b' & E' & I).
      * split; [exact Lk|]. split; [exact Ab|]. split; [exact Cmb|]. split; [exact Whb|]. split.
        -- intros c Ec Sc. rewrite Ei in Ec. injection Ec as <-. left. split; [exact Uv|]. lia.
        -- intros d c Ld Ed Sd. cbn. now apply (U d).
      * intros j d Lj I. apply inner_step; try assumption; [lia|lia|apply Uv|]. exists c0. split; [exact E0|congruence].
      * exists b'. split; [exact E'|]. cbn [Nat.add] in I. destruct I as (Lk' & A' & Cm' & Wh' & Ii & Ib). split; [exact Lk'|]. split; [exact A'|]. split; [exact Cm'|]. split; [exact Wh'|].
        destruct (likes_nth _ _ _ _ Lk' E0) as (ci2 & Ei2 & (_ & S2 & _)). assert (S2' : chp_series ci2 = se) by congruence.
        destruct (Ii ci2 Ei2 S2') as [[Uv' Q]|Uv'].
        -- exists v. split; [apply Uv|]. intros d c Ld Ed Sd. destruct (Nat.eq_dec d i) as [->|Nd].
           ++ rewrite Ei2 in Ed. injection Ed as <-. exact Uv'.
           ++ assert (Ld' : (d < i)%nat) by lia. specialize (Ib d c Ld' Ed Sd). rewrite (proj2 (Nat.ltb_lt d i) Ld') in Ib. now rewrite <- (Q d c Ld' Ed Sd) in Ib.
        -- exists (Nat.max K v). split; [apply Uv'|]. intros d c Ld Ed Sd. destruct (Nat.eq_dec d i) as [->|Nd].
           ++ rewrite Ei2 in Ed. injection Ed as <-. exact Uv'.
           ++ assert (Ld' : (d < i)%nat) by lia. specialize (Ib d c Ld' Ed Sd). now rewrite (proj2 (Nat.ltb_lt d i) Ld') in Ib.
    + destruct (up_to_invariant (fun (_ : nat) => outer cs a i) (fun j cs => propagate_pair (length xi) i j cs) i 0 b O) as (b' & E' & I).
      * intros j d Lj I. apply other_pair; try assumption; [apply Hi|lia|lia|]. exists c0. split; [exact E0|congruence].
      * exists b'. split; [exact E'|]. destruct I as (Lk' & A' & Cm' & Wh' & K' & LK' & U'). split; [exact Lk'|]. split; [exact A'|]. split; [exact Cm'|]. split; [exact Wh'|].
        exists K'. split; [exact LK'|]. intros d c Ld Ed Sd. apply (U' d); try assumption. destruct (likes_nth _ _ _ _ Lk' E0) as (ci2 & Ei2 & (_ & S2 & _)).
        assert (d <> i) by (intros ->; rewrite Ei2 in Ed; injection Ed as <-; congruence). lia.
  - exists cs'. split; [exact E|]. cbn [Nat.add] in P. destruct P as (Lk & A' & Cm' & (cw & Ew & Sw & Hw) & K & LK & U). split; [exact Lk|]. split; [exact A'|].
    pose proof (likes_length _ _ Lk) as Ll. assert (La : (a < length cs)%nat) by (rewrite Ll; eapply nth_error_some_lt; exact Ew).
    assert (Uw : upto cw (length w)) by (split; [lia|now rewrite firstn_all]). pose proof (upto_unique cw _ _ Uw (U a cw La Ew Sw)) as Q.
    intros i c Ei Si. assert (Lic : (i < length cs)%nat) by (rewrite Ll; eapply nth_error_some_lt; exact Ei). destruct (U i c Lic Ei Si) as [_ H]. now rewrite <- Q, firstn_all in H.
Qed.
End Class.

(** ** The vendor *)

Lemma agreed_some : forall cs v v', agreed_vendor v cs = Some v' ->
  (v <> ve_unknown -> v' = v) /\ (forall c, In c cs -> chp_vendor c <> ve_unknown -> chp_vendor c = v') /\ (v' <> ve_unknown -> v' = v \/ exists c, In c cs /\ chp_vendor c = v').
Proof.
  induction cs as [|c cs IH]; intros v v' H; cbn [agreed_vendor] in H.
  - injection H as <-. split; [reflexivity|]. split; [intros c []|]. now left.
  - destruct (N.eqb_spec (chp_vendor c) ve_unknown) as [U|U].
    + destruct (IH _ _ H) as (A & B & C). split; [exact A|]. split; [intros d [<-|I] D; [contradiction|now apply B]|]. intros V. destruct (C V) as [->|(d & I & E)]; [now left|right].
      exists d. split; [now right|exact E].
    + destruct (N.eqb_spec v ve_unknown) as [Z|Z].
      * destruct (IH _ _ H) as (A & B & C). rewrite (A U). split; [intros D; contradiction|]. split; [intros d [<-|I] D; [reflexivity|rewrite <- (A U); now apply B]|].
        intros _. right. exists c. split; [now left|reflexivity].
      * destruct (N.eqb_spec v (chp_vendor c)) as [E|E]; [|discriminate]. destruct (IH _ _ H) as (A & B & C). rewrite (A Z) in *. split; [reflexivity|].
        split; [intros d [<-|I] D; [now symmetry|now apply B]|]. now left.
Qed.
Lemma agreed_none : forall cs v, agreed_vendor v cs = None -> exists c, In c cs /\ chp_vendor c <> ve_unknown /\
  ((v <> ve_unknown /\ chp_vendor c <> v) \/ exists d, In d cs /\ chp_vendor d <> ve_unknown /\ chp_vendor d <> chp_vendor c).
Proof.
  induction cs as [|c cs IH]; intros v H; cbn [agreed_vendor] in H; [discriminate|].
  destruct (N.eqb_spec (chp_vendor c) ve_unknown) as [U|U].
  - destruct (IH _ H) as (d & I & D & W). exists d. split; [now right|]. split; [exact D|]. destruct W as [W|(e & J & W)]; [now left|right]. exists e. split; [now right|exact W].
  - destruct (N.eqb_spec v ve_unknown) as [Z|Z].
    + destruct (IH _ H) as (d & I & D & W). exists d. split; [now right|]. split; [exact D|]. right. destruct W as [[_ W]|(e & J & W)].
      * exists c. split; [now left|]. split; [exact U|congruence].
      * exists e. split; [now right|exact W].
    + destruct (N.eqb_spec v (chp_vendor c)) as [E|E].
      * destruct (IH _ H) as (d & I & D & W). exists d. split; [now right|]. split; [exact D|]. destruct W as [W|(e & J & W)]; [now left|right]. exists e. split; [now right|exact W].
      * exists c. split; [now left|]. split; [exact U|]. left. split; [exact Z|congruence].
Qed.

(** ** One chip, or several *)

Lemma known_series_iff c : known_series c = true <-> chp_series c <> se_unknown.
Proof. unfold known_series. rewrite Bool.negb_true_iff, N.eqb_neq. reflexivity. Qed.
Lemma known_series_not c : known_series c = false <-> chp_series c = se_unknown.
Proof. unfold known_series. rewrite Bool.negb_false_iff, N.eqb_eq. reflexivity. Qed.
Definition identical (a b : chip) : Prop := chp_series a = chp_series b /\ chp_model a = chp_model b /\ until_nul (chp_suffix a) = until_nul (chp_suffix b).
Lemma unanimous_some : forall cs chosen c, unanimous chosen cs = Some c ->
  (known_series chosen = true -> c = chosen) /\ (forall d, In d cs -> known_series d = true -> identical d c) /\ (c = chosen \/ In c cs /\ known_series c = true).
Proof.
  induction cs as [|d cs IH]; intros chosen c H; cbn [unanimous] in H.
  - injection H as <-. split; [reflexivity|]. split; [intros d []|now left].
  - destruct (known_series d) eqn:Kd.
    + destruct (known_series chosen) eqn:Kc; cbn [negb] in H.
      * destruct (_ && _ && _) eqn:B in H; [|discriminate]. rewrite !Bool.andb_true_iff, !N.eqb_eq in B. unfold same_suffix in B. rewrite bytes_eqb_iff in B. destruct B as [[B1 B2] B3].
        destruct (IH _ _ H) as (A & Q & _). specialize (A Kc). subst c. split; [reflexivity|]. split; [|now left]. intros e [<-|I] Ke; [split; [|split]; assumption|now apply Q].
      * destruct (IH _ _ H) as (A & Q & W). specialize (A Kd). subst c. split; [discriminate|]. split; [|right; split; [now left|exact Kd]].
        intros e [<-|I] Ke; [split; [|split]; reflexivity|now apply Q].
    + destruct (IH _ _ H) as (A & Q & W). split; [exact A|]. split; [intros e [<-|I] Ke; [congruence|now apply Q]|]. destruct W as [W|[I W]]; [now left|right]. split; [now right|exact W].
Qed.
Lemma unanimous_none : forall cs chosen, unanimous chosen cs = None -> exists c d, In c cs /\ known_series c = true /\ known_series d = true /\ (d = chosen \/ In d cs) /\ ~ identical c d.
Proof.
  induction cs as [|e cs IH]; intros chosen H; cbn [unanimous] in H; [discriminate|].
  destruct (known_series e) eqn:Ke.
  - destruct (known_series chosen) eqn:Kc; cbn [negb] in H.
    + destruct (_ && _ && _) eqn:B in H.
      * destruct (IH _ H) as (c & d & I & Kc' & Kd & W & Q). exists c, d. split; [now right|]. split; [exact Kc'|]. split; [exact Kd|]. split; [|exact Q]. destruct W as [W|W]; [now left|right; now right].
      * exists e, chosen. split; [now left|]. split; [exact Ke|]. split; [exact Kc|]. split; [now left|]. intros (Q1 & Q2 & Q3). unfold same_suffix in B.
        rewrite (proj2 (N.eqb_eq _ _) Q1), (proj2 (N.eqb_eq _ _) Q2), (proj2 (bytes_eqb_iff _ _) Q3) in B. discriminate.
    + destruct (IH _ H) as (c & d & I & Kc' & Kd & W & Q). exists c, d. split; [now right|]. split; [exact Kc'|]. split; [exact Kd|]. split; [|exact Q]. right. destruct W as [->|W]; [now left|now right].
  - destruct (IH _ H) as (c & d & I & Kc' & Kd & W & Q). exists c, d. split; [now right|]. split; [exact Kc'|]. split; [exact Kd|]. split; [|exact Q]. destruct W as [W|W]; [now left|right; now right].
Qed.
