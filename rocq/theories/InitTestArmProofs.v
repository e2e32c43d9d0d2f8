(** ARM Linux detection passes the tests. *)
From Verif Require Import Base BaseProofs TopologySpec ArmClustersModel ArmClusterMidrModel ArmCpuinfoModel ArmLinuxModel ArmLinuxSpec
  ArmUarchModel ArmCacheModel ArmDecodersModel ArmCacheSpec ArmCacheProofs ArmLibraryProofs ArmMidrSpec.
From Verif Require Import InitTestModel InitTestSpec InitTestProofs InitTestCacheProofs.
From Coq Require Import String List. Import ListNotations.
Open Scope nat_scope.

Lemma sound_plausible g : sound_cache g -> plausible g.
Proof.
  intros [A B C D E (k & F & F') G H]. split; auto.
  - exists k. split; [exact F|lia].
  - intros bit T. destruct H as [H|H]; rewrite H in T; [discriminate T|]. destruct (N.eq_dec bit 1) as [->|X]; [reflexivity|].
    change 2%N with (2 ^ 1)%N in T. rewrite N.pow2_bits_false in T by congruence. discriminate T.
Qed.
Lemma flags0 g : g_flags g = 0%N -> ~ inclusive g.
Proof. unfold inclusive. intros ->. discriminate. Qed.

Lemma own_agrees (caches : list cache) n : length caches = n -> (forall i c, nth_error caches i = Some c -> ca_processor_start c = i /\ ca_processor_count c = 1) ->
  ranges_agree (map Some (seq 0 n)) caches.
Proof.
  intros L H. assert (S : forall i k, nth_error (map Some (seq 0 n)) i = Some (Some k) <-> i = k /\ i < n).
  { intros i k. split.
    - intros X. apply nth_error_map_inv in X. destruct X as (j & X & E). injection E as ->. pose proof (nth_error_some_lt _ _ _ _ X) as B. rewrite seq_length in B.
      assert (Y : nth i (seq 0 n) 0 = 0 + i) by now apply seq_nth. rewrite (nth_error_nth _ _ _ X) in Y. cbn in Y. split; [congruence|exact B].
    - intros (<- & B). apply map_nth_error. rewrite (nth_error_nth' _ 0) by now rewrite seq_length. now rewrite seq_nth. }
  split.
  - intros i k X. apply S in X. lia.
  - intros k c X. destruct (H k c X) as (A & B). pose proof (nth_error_some_lt _ _ _ _ X). rewrite map_length, seq_length, A, B. split; [lia|]. split; [lia|].
    intros i. rewrite S. lia.
Qed.

Lemma unpartitioned_sound g g' : sound_cache g -> unpartitioned g g' -> sound_cache g'.
Proof.
  intros [T1 T2 T3 T4 T5 T6 T7 T8] (U1 & U2 & U3 & U4 & U5 & U6). split; rewrite ?U1, ?U2, ?U3, ?U4, ?U5, ?U6; auto. now rewrite T1, T5.
Qed.

Section Arm.
  Variables (b : build) (chipset_of : chars -> chars -> nat -> res chipset) (usable : nat -> Prop) (ms : list ArmCpuinfoSpec.arm_meaning) (version : N) (t : arm_tables).
  Let d := library_decoders b chipset_of.
  Hypothesis R : arm_reports false d usable ms version t.
  Hypothesis L3S : forall chip, chipset_from d ms (length (at_processors t)) chip -> exists case, l3_sizes d chip version t case.
  Hypothesis L2S : at_l2 t <> [].
  Hypothesis KNOWN : Forall (fun c => c_vendor c <> 0%N /\ c_uarch c <> 0%N) (at_cores t).

  Lemma arm_linux_tests test : In test init_tests -> passes (arm_view t) test.
  Proof using R L3S L2S KNOWN.
    destruct (rp_topology _ _ _ _ _ _ R) as [_ _ CON OFF OWN KIND]. destruct (rp_kinds _ _ _ _ _ _ R) as (kind & [(starts & SL & KG) KL KC _ _ _]).
    destruct (rp_max _ _ _ _ _ _ R) as (c0 & C0 & _). destruct (rp_caches _ _ _ _ _ _ R) as (chip & CH & [AD (AL2 & AL3) AR AN AG AS] & L1 & _ & A3).
    destruct (L1 eq_refl) as [(LI & LD) L1E]. destruct (L3S chip CH) as (case & CASE). destruct (A3 case CASE) as [B1 B2 _ _ B5]. clear L1 A3 L3S.
    assert (NC : at_processors t <> []).
    { intros E. pose proof (no_more _ _ _ _ (processors_in_cores _ _ _ _ CON)) as X. apply nth_error_some_lt in C0. rewrite E in X. cbn in X. lia. }
    pose proof (library_sound b chipset_of usable ms version t R) as (SI & SD & S2).
    assert (EACH : forall i, i < length (at_processors t) -> exists g1i g1d, nth_error (at_l1i t) i = Some (Cache g1i i 1) /\ nth_error (at_l1d t) i = Some (Cache g1d i 1) /\
       g_flags g1i = 0%N /\ g_flags g1d = 0%N).
    { intros i Hi. destruct (AD i Hi) as (g1i & g1d & g2 & g3 & D). destruct (L1E _ _ _ _ _ D) as (X & Y).
      destruct (library_decoded _ _ _ _ _ _ _ _ _ _ _ _ _ R D) as ((_ & F1) & (_ & F2) & _). exists g1i, g1d. auto. }
    assert (NI : at_l1i t <> [] /\ at_l1d t <> []).
    { destruct (at_processors t) as [|p ps] eqn:E; [congruence|]. destruct (EACH 0 ltac:(cbn; lia)) as (gi & gd & X & Y & _). split; intros Z; rewrite Z in *; discriminate. }
    apply all_pass; cbn [arm_view v_processors v_cores v_clusters v_packages v_uarchs]; auto.
    - intros []; cbn [arm_view v_cache_of v_caches by_level]; auto.
      + apply own_agrees; [exact LI|]. intros i c X. pose proof (nth_error_some_lt _ _ _ _ X) as B. rewrite LI in B. destruct (EACH i B) as (gi & gd & Y & _). rewrite X in Y. injection Y as ->. auto.
      + apply own_agrees; [exact LD|]. intros i c X. pose proof (nth_error_some_lt _ _ _ _ X) as B. rewrite LD in B. destruct (EACH i B) as (gi & gd & _ & Y & _). rewrite X in Y. injection Y as ->. auto.
      + split; [|intros [|k] c X; discriminate X]. intros i k X. apply nth_error_map_inv in X. destruct X as (? & _ & X). discriminate X.
    - intros []; cbn [arm_view v_cache_of by_level]; rewrite ?map_length, ?seq_length; auto.
    - assert (IMP : forall l, Forall (fun c => sound_cache (ca_geometry c)) l -> Forall (fun c => plausible (ca_geometry c)) l)
        by (intros l F; eapply Forall_impl; [|exact F]; intros c; apply sound_plausible).
      intros []; cbn [arm_view v_caches by_level]; try (apply IMP; assumption); [|constructor].
      apply IMP, Forall_forall. intros c X. apply In_nth_error in X. destruct X as (k & X). destruct (B5 k c X) as (g1i & g1d & g2 & g3 & D & U).
      destruct (library_decoded _ _ _ _ _ _ _ _ _ _ _ _ _ R D) as (_ & _ & _ & G3 & _). eapply unpartitioned_sound; [|exact U].
      destruct G3 as [G3|G3]; [|exact G3]. exfalso. destruct B1 as (_ & B1). destruct (B1 k c X) as (P & _ & I).
      assert (Z : nth_error (at_l3_of t) (ca_processor_start c) = Some None) by now apply (B2 _ _ _ _ _ D).
      assert (Z' : nth_error (at_l3_of t) (ca_processor_start c) = Some (Some k)) by (apply I; lia). congruence.
    - cbn [arm_view v_caches by_level]. tauto.
    - cbn [arm_view v_caches by_level]. split; apply Forall_forall; intros c X; apply In_nth_error in X; destruct X as (i & X).
      + pose proof (nth_error_some_lt _ _ _ _ X) as B. rewrite LI in B. destruct (EACH i B) as (gi & gd & Y & _ & F & _). rewrite X in Y. injection Y as ->. now apply flags0.
      + pose proof (nth_error_some_lt _ _ _ _ X) as B. rewrite LD in B. destruct (EACH i B) as (gi & gd & _ & Y & _ & F). rewrite X in Y. injection Y as ->. now apply flags0.
    - assert (OWNP : forall i j, nth_error (map Some (seq 0 (length (at_processors t)))) i = Some (Some j) <-> i = j /\ i < length (at_processors t)).
      { intros i k. split.
        - intros X. apply nth_error_map_inv in X. destruct X as (j & X & E). injection E as ->. pose proof (nth_error_some_lt _ _ _ _ X) as B. rewrite seq_length in B.
          assert (Y : nth i (seq 0 (length (at_processors t))) 0 = 0 + i) by now apply seq_nth. rewrite (nth_error_nth _ _ _ X) in Y. cbn in Y. split; [congruence|exact B].
        - intros (<- & B). apply map_nth_error. rewrite (nth_error_nth' _ 0) by now rewrite seq_length. now rewrite seq_nth. }
      assert (FIRST : forall l, l = L1I \/ l = L1D -> below (arm_view t) l L2).
      { intros l E. assert (V : v_cache_of (arm_view t) l = map Some (seq 0 (length (at_processors t)))) by (destruct E as [-> | ->]; reflexivity).
        unfold below. rewrite V. cbn [arm_view v_cache_of by_level]. split.
        - intros i k X. apply nth_error_some_lt in X. exists i. apply OWNP. lia.
        - intros i i' j X Y. apply OWNP in X. apply OWNP in Y. destruct X, Y. congruence. }
      split; [auto|]. split; [auto|]. split; split; cbn [arm_view v_cache_of by_level].
      + intros i k X. pose proof (nth_error_some_lt _ _ _ _ X) as B. destruct (AD i ltac:(lia)) as (g1i & g1d & g2 & g3 & D).
        destruct (nth_error (at_l2_of t) i) as [[j|]|] eqn:E; [eauto| |apply nth_error_None in E; lia]. exfalso.
        apply (AN _ _ _ _ _ D) in E. destruct E as (_ & E). apply (B2 _ _ _ _ _ D) in E. congruence.
      + intros i i' j X Y. destruct (Nat.eq_dec i i') as [->|NE]; [reflexivity|].
        pose proof (nth_error_some_lt _ _ _ _ X) as BX. pose proof (nth_error_some_lt _ _ _ _ Y) as BY.
        assert (ZERO : forall a c, nth_error (at_l2_of t) a = Some (Some j) -> nth_error (at_l2_of t) c = Some (Some j) -> a <> c -> nth_error (at_l3_of t) a = Some None).
        { intros a c A E N. pose proof (nth_error_some_lt _ _ _ _ A) as BA. pose proof (nth_error_some_lt _ _ _ _ E) as BE. destruct (AD a ltac:(lia)) as (g1i & g1d & g2 & g3 & D).
          destruct (AS a c _ _ _ _ D ltac:(lia) ltac:(congruence)) as (AS1 & _). specialize (AS1 ltac:(congruence)).
          destruct (N.eqb_spec (g_size g3) 0) as [Z|Z]; [now apply (B2 _ _ _ _ _ D)|contradiction]. }
        rewrite (ZERO i i'), (ZERO i' i); auto.
      + intros i k X. apply nth_error_map_inv in X. destruct X as (? & _ & X). discriminate X.
      + intros i i' j X Y. apply nth_error_some_lt in X. apply nth_error_some_lt in Y. rewrite AL3 in X, Y.
        assert (N : forall a, a < length (at_processors t) -> nth_error (map (fun _ : processor => @None nat) (at_processors t)) a = Some None).
        { intros a A. destruct (nth_error (at_processors t) a) as [p|] eqn:P; [exact (map_nth_error _ _ _ P)|apply nth_error_None in P; lia]. }
        now rewrite !N.
    - assert (LEN : length (at_processors t) <= length (at_cores t)).
      { destruct (Nat.eq_dec (length (at_processors t)) 0) as [Z|Z]; [lia|]. destruct (nth_error (at_processors t) (length (at_processors t) - 1)) as [p|] eqn:P; [|apply nth_error_None in P; lia].
        destruct (up _ _ _ _ (processors_in_cores _ _ _ _ CON) _ _ P) as (j & y & J & Y & _). rewrite (OWN _ _ P) in J. injection J as <-. apply nth_error_some_lt in Y. lia. }
      destruct KG as (KT & KG). rewrite Forall_forall in KC. rewrite KL in KT. split.
      + intros E. apply map_eq_nil in E. destruct kind as [|k kind']; [symmetry in KL; apply length_zero_iff_nil in KL; contradiction|].
        destruct (proj1 (KG 0 k) eq_refl) as (s & c & X & _). rewrite E in X, SL. cbn in X. destruct starts; [now destruct k|discriminate SL].
      + apply Forall_forall. intros u X. apply in_map_iff in X. destruct X as (a & <- & X). cbn [fst snd]. rewrite (KC a X). apply In_nth_error in X. destruct X as (k & X).
        destruct (nth_error starts k) as [s|] eqn:SK; [|apply nth_error_None in SK; apply nth_error_some_lt in X; lia].
        assert (Y : nth_error (combine starts (map au_processors (at_uarchs t))) k = Some (s, au_processors a)).
        { clear - SK X. revert k SK X. generalize (at_uarchs t). induction starts as [|x xs IH]; intros us [|k] S X; try discriminate S; destruct us as [|u us]; try discriminate X; cbn in *; [congruence|auto]. }
        destruct (tiles_inside _ _ _ _ _ _ KT Y) as (_ & P & Q). lia.
  Qed.
End Arm.
