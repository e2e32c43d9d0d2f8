(** From the closed form of the tables to a consistent machine. *)
From Verif Require Import Base BaseProofs Runs GroupArray TopologySpec X86CpuinfoModel X86LinuxModel X86LoopProofs.
Open Scope nat_scope.

Lemma filled_one_map A n (zero : A) e a : filled one n zero e n a -> a = map (e n) (seq 0 n).
Proof.
  intros (L & F & _). unfold one in L. rewrite cnt_all in L. apply nth_error_ext. intros i.
  destruct (Nat.lt_ge_cases i n) as [H|H].
  - specialize (F i H eq_refl). unfold one in F. rewrite cnt_all in F. rewrite F.
    rewrite nth_error_map, nth_error_nth' with (d := 0) by (rewrite seq_length; lia).
    rewrite seq_nth by lia. reflexivity.
  - rewrite (proj2 (nth_error_None a i)) by lia. symmetry. apply nth_error_None. rewrite map_length, seq_length. lia.
Qed.

Lemma nth_error_map_seq B (g : nat -> B) n i : i < n -> nth_error (map g (seq 0 n)) i = Some (g i).
Proof.
  intros H. rewrite nth_error_map, nth_error_nth' with (d := 0) by (rewrite seq_length; lia).
  now rewrite seq_nth by lia.
Qed.

(** Reading one field of all entries of a filled table. *)
Lemma filled_field A B new n (zero : A) e a (f : A -> B) : filled new n zero e n a ->
  length (map f a) = cnt n new /\
  forall s, s < n -> new s = true -> nth_error (map f a) (cnt s new) = Some (f (e n s)).
Proof.
  intros (L & F & _). split; [now rewrite map_length|]. intros s Hs Es. rewrite nth_error_map, F by assumption. reflexivity.
Qed.

Lemma filled_all A new n (zero : A) e a : filled new n zero e n a ->
  forall j y, nth_error a j = Some y -> exists s, s < n /\ new s = true /\ cnt s new = j /\ y = e n s.
Proof.
  intros (L & F & _) j y Hj.
  destruct (leader_of new n j) as (s & H1 & H2 & H3). { rewrite <- L. apply nth_error_Some. congruence. }
  exists s. repeat split; auto. rewrite <- H3, F in Hj by assumption. congruence.
Qed.

Lemma filled_owners A new n (zero : A) e a (f : A -> option nat) g : filled new n zero e n a ->
  (forall s, s < n -> f (e n s) = Some (g s)) ->
  exists own, map f a = map Some own /\ length own = cnt n new /\
    forall s, s < n -> new s = true -> nth_error own (cnt s new) = Some (g s).
Proof.
  intros HF Hf. exists (map (fun y => match f y with Some v => v | None => 0 end) a).
  destruct (filled_field _ _ _ _ _ _ _ (fun y => match f y with Some v => v | None => 0 end) HF) as (L & F).
  split; [|split; [exact L|]].
  - rewrite map_map. apply map_ext_in. intros y Hy. apply In_nth_error in Hy. destruct Hy as (j & Hj).
    destruct (filled_all _ _ _ _ _ _ HF j y Hj) as (s & Hs & _ & _ & ->). now rewrite Hf.
  - intros s Hs Es. rewrite F by assumption. now rewrite Hf.
Qed.

(** Elements of one inner group are in one outer group. *)
Lemma same_outer (outer inner : nat -> bool) s i : inner 0 = true ->
  (forall j, outer j = true -> inner j = true) ->
  s <= i -> inner s = true -> cnt s inner = grp inner i -> grp outer s = grp outer i.
Proof.
  intros H0 Hsub Hs Es Hg.
  assert (Hno : forall j, s < j <= i -> inner j = false).
  { intros j Hj. destruct (inner j) eqn:E; auto. exfalso.
    pose proof (cnt_grp inner H0 i) as G. pose proof (cnt_mono inner (S j) (S i) ltac:(lia)) as M.
    rewrite cnt_S_true in M by exact E. pose proof (cnt_mono inner (S s) j ltac:(lia)) as M2.
    rewrite cnt_S_true in M2 by exact Es. lia. }
  unfold grp. rewrite (cnt_flat outer (S s) (S i)); [reflexivity|lia|].
  intros j Hj. destruct (outer j) eqn:E; auto. apply Hsub in E. rewrite Hno in E by lia. discriminate.
Qed.

Section RESULT.
  Variable x : xinfo.
  Variables cm pm lm : N.
  Variable V : list xproc.
  Variable M : nat.
  Let n := length V.
  Hypothesis nonempty : 0 < n.
  Notation newC := (newC cm V).
  Notation newL := (newL lm V).
  Notation newP := (newP pm V).

  Lemma new_key_sub m1 m2 i : N.land m1 m2 = m1 ->
    new_key (fun i => N.land (apic V i) m1) i = true -> new_key (fun i => N.land (apic V i) m2) i = true.
  Proof.
    intros Hm. destruct i as [|i]; [reflexivity|]. cbn. intros H.
    destruct (N.eqb_spec (N.land (apic V (S i)) m2) (N.land (apic V i) m2)) as [E|E]; [|reflexivity].
    rewrite <- Hm in H. rewrite !(N.land_comm m1 m2), !N.land_assoc, E, N.eqb_refl in H. discriminate.
  Qed.

  Lemma ranges_eq (new : nat -> bool) s : cnt n (fun i => one i && (grp new i =? cnt s new)) = cnt n (fun i => grp new i =? cnt s new).
  Proof. reflexivity. Qed.

  Lemma groups_of_processors ps A (a : list A) (new : nat -> bool) zero e (f : processor -> option nat) (r : A -> nat * nat) :
    filled one n processor0 (ent_processor cm pm lm V) n ps -> filled new n zero e n a -> new 0 = true ->
    (forall i, f (ent_processor cm pm lm V n i) = Some (grp new i)) ->
    (forall s, r (e n s) = (s, members new one n s)) ->
    map f ps = map Some (map (grp new) (seq 0 n)) /\ grouping (map (grp new) (seq 0 n)) (map r a).
  Proof.
    intros Hp Ha H0 Hf Hr. split.
    - rewrite (filled_one_map _ _ _ _ _ Hp), !map_map. apply map_ext. intros i. apply Hf.
    - destruct (filled_field _ _ _ _ _ _ _ r Ha) as (L & F).
      apply (grouping_runs new n); auto.
      + now rewrite map_length, seq_length.
      + intros i Hi. now apply nth_error_map_seq.
      + intros s Hs Es. rewrite F by assumption. now rewrite Hr.
  Qed.

  Lemma groups_of_groups A B (a : list A) (b : list B) (new1 new2 : nat -> bool) za zb ea eb
        (f : A -> option nat) (r : B -> nat * nat) :
    filled new1 n za ea n a -> filled new2 n zb eb n b -> new1 0 = true -> new2 0 = true ->
    (forall i, new2 i = true -> new1 i = true) ->
    (forall s, f (ea n s) = Some (grp new2 s)) ->
    (forall s, r (eb n s) = (grp new1 s, members new2 new1 n s)) ->
    exists own, map f a = map Some own /\ grouping own (map r b).
  Proof.
    intros Ha Hb H1 H2 Hsub Hf Hr.
    destruct (filled_owners _ _ _ _ _ _ f (grp new2) Ha) as (own & E & L & F); [auto|].
    exists own. split; [exact E|].
    destruct (filled_field _ _ _ _ _ _ _ r Hb) as (L2 & F2).
    apply (grouping_nested new1 new2 n); auto.
    intros s Hs Es. rewrite F2 by assumption. now rewrite Hr.
  Qed.

  Variable t : lstate.
  Hypothesis HI : inv x cm pm lm V M n t.
  Hypothesis package_sub_core : N.land pm cm = pm.
  Hypothesis package_sub_cluster : N.land pm lm = pm.

  Lemma tables_consistent : N.land lm cm = lm ->
    consistent (s_processors t) (s_cores t) (s_clusters t) (s_packages t) /\
    ids_are_offsets (s_processors t) (s_cores t) (s_clusters t) (s_packages t).
  Proof.
    intros cluster_sub_core.
    destruct HI as [Ip Ic Il Ik _ _ _ _ _ _ _ _ _ _ _ _].
    assert (SPC : forall i, newP i = true -> newC i = true) by (intros i; now apply new_key_sub).
    assert (SPL : forall i, newP i = true -> newL i = true) by (intros i; now apply new_key_sub).
    assert (SLC : forall i, newL i = true -> newC i = true) by (intros i; now apply new_key_sub).
    destruct (groups_of_processors _ _ _ newC _ _ p_core core_processors Ip Ic eq_refl) as (PC1 & PC2); [reflexivity..|].
    destruct (groups_of_processors _ _ _ newL _ _ p_cluster cluster_processors Ip Il eq_refl) as (PL1 & PL2); [reflexivity..|].
    destruct (groups_of_processors _ _ _ newP _ _ p_package package_processors Ip Ik eq_refl) as (PP1 & PP2); [reflexivity..|].
    destruct (groups_of_groups _ _ _ _ newC newL _ _ _ _ c_cluster cluster_cores Ic Il eq_refl eq_refl SLC) as (oCL & CL1 & CL2); [reflexivity..|].
    destruct (groups_of_groups _ _ _ _ newC newP _ _ _ _ c_package package_cores Ic Ik eq_refl eq_refl SPC) as (oCP & CP1 & CP2); [reflexivity..|].
    destruct (groups_of_groups _ _ _ _ newL newP _ _ _ _ cl_package package_clusters Il Ik eq_refl eq_refl SPL) as (oLP & LP1 & LP2); [reflexivity..|].
    assert (Eps : forall i p, nth_error (s_processors t) i = Some p -> i < n /\ p = ent_processor cm pm lm V n i).
    { intros i p H. rewrite (filled_one_map _ _ _ _ _ Ip) in H.
      assert (i < n). { apply nth_error_some_lt in H. now rewrite map_length, seq_length in H. }
      rewrite nth_error_map_seq in H by assumption. split; [assumption|]. injection H as <-. reflexivity. }
    split.
    - constructor.
      + eexists; split; [exact PC1|exact PC2].
      + eexists; split; [exact PL1|exact PL2].
      + eexists; split; [exact PP1|exact PP2].
      + eexists; split; [exact CL1|exact CL2].
      + eexists; split; [exact CP1|exact CP2].
      + eexists; split; [exact LP1|exact LP2].
      + intros i p j c Hp Hj Hc. destruct (Eps i p Hp) as (Hi & ->). cbn in Hj. injection Hj as Hj.
        destruct (filled_all _ _ _ _ _ _ Ic j c Hc) as (s & Hs & Es & Ej & ->). cbn.
        assert (Hsi : s <= i).
        { destruct (Nat.le_gt_cases s i); auto. exfalso. pose proof (cnt_mono newC (S i) s ltac:(lia)).
          pose proof (cnt_grp newC eq_refl i). lia. }
        split; f_equal; symmetry; apply (same_outer _ newC); auto; congruence.
      + intros i p j c Hp Hj Hc. destruct (Eps i p Hp) as (Hi & ->). cbn in Hj. injection Hj as Hj.
        destruct (filled_all _ _ _ _ _ _ Il j c Hc) as (s & Hs & Es & Ej & ->). cbn.
        assert (Hsi : s <= i).
        { destruct (Nat.le_gt_cases s i); auto. exfalso. pose proof (cnt_mono newL (S i) s ltac:(lia)).
          pose proof (cnt_grp newL eq_refl i). lia. }
        f_equal; symmetry; apply (same_outer _ newL); auto; congruence.
    - constructor.
      + intros i p j c Hp Hj Hc. destruct (Eps i p Hp) as (Hi & ->). cbn in Hj. injection Hj as Hj.
        assert (Ho : nth_error (map (grp newC) (seq 0 n)) i = Some j) by (rewrite nth_error_map_seq by assumption; congruence).
        destruct (proj1 (proj2 PC2 i j) Ho) as (s' & c' & Hr & Hb).
        rewrite nth_error_map, Hc in Hr. cbn in Hr. unfold core_processors in Hr. injection Hr as <- <-.
        destruct (filled_all _ _ _ _ _ _ Ic j c Hc) as (s & Hs & Es & Ej & ->).
        cbn [c_processor_start c_processor_count ent_core p_smt_id ent_processor] in *.
        pose proof (off_spec newC one i eq_refl eq_refl (fun _ _ => eq_refl) s ltac:(lia) Es ltac:(lia)) as O.
        change (grp one s) with (grp (fun _ => true) s) in O. change (grp one i) with (grp (fun _ => true) i) in O.
        rewrite !grp_all in O. lia.
      + intros i c j k Hc Hj Hk.
        assert (Ho : nth_error oCP i = Some j).
        { assert (H : nth_error (map c_package (s_cores t)) i = Some (Some j)) by (rewrite nth_error_map, Hc; cbn; congruence).
          rewrite CP1, nth_error_map in H. destruct (nth_error oCP i); cbn in H; congruence. }
        destruct (proj1 (proj2 CP2 i j) Ho) as (s' & c' & Hr & Hb).
        rewrite nth_error_map, Hk in Hr. cbn in Hr. unfold package_cores in Hr. injection Hr as <- <-.
        destruct (filled_all _ _ _ _ _ _ Ic i c Hc) as (s & Hs & Es & Ei & ->).
        destruct (filled_all _ _ _ _ _ _ Ik j k Hk) as (s2 & Hs2 & Es2 & Ej & ->).
        cbn [c_package ent_core c_core_id ent_package pk_core_start pk_core_count] in *. injection Hj as Hj.
        assert (s2 <= s).
        { destruct (Nat.le_gt_cases s2 s); auto. exfalso. pose proof (cnt_mono newP (S s) s2 ltac:(lia)).
          pose proof (cnt_grp newP eq_refl s). lia. }
        pose proof (off_spec newP newC s eq_refl eq_refl SPC s2 ltac:(lia) Es2 ltac:(lia)) as O.
        pose proof (grp_leader newC s Es) as GL. lia.
      + intros i c j k Hc Hj Hk.
        assert (Ho : nth_error oLP i = Some j).
        { assert (H : nth_error (map cl_package (s_clusters t)) i = Some (Some j)) by (rewrite nth_error_map, Hc; cbn; congruence).
          rewrite LP1, nth_error_map in H. destruct (nth_error oLP i); cbn in H; congruence. }
        destruct (proj1 (proj2 LP2 i j) Ho) as (s' & c' & Hr & Hb).
        rewrite nth_error_map, Hk in Hr. cbn in Hr. unfold package_clusters in Hr. injection Hr as <- <-.
        destruct (filled_all _ _ _ _ _ _ Il i c Hc) as (s & Hs & Es & Ei & ->).
        destruct (filled_all _ _ _ _ _ _ Ik j k Hk) as (s2 & Hs2 & Es2 & Ej & ->).
        cbn [cl_package ent_cluster cl_cluster_id ent_package pk_cluster_start pk_cluster_count] in *. injection Hj as Hj.
        assert (s2 <= s).
        { destruct (Nat.le_gt_cases s2 s); auto. exfalso. pose proof (cnt_mono newP (S s) s2 ltac:(lia)).
          pose proof (cnt_grp newP eq_refl s). lia. }
        pose proof (off_spec newP newL s eq_refl eq_refl SPL s2 ltac:(lia) Es2 ltac:(lia)) as O.
        pose proof (grp_leader newL s Es) as GL. lia.
  Qed.
End RESULT.
