(** What ARM Linux detection reports with the library's own decoders. *)
From Verif Require Import Base BaseProofs TopologySpec ArmClustersModel ArmClusterMidrModel ArmCpuinfoModel ArmLinuxModel ArmLinuxSpec
  ArmUarchModel ArmCacheModel ArmDecodersModel ArmCacheSpec ArmCacheProofs ArmMidrSpec.
Open Scope nat_scope.

Definition chipset_answers (chipset_of : chars -> chars -> nat -> res chipset) (ms : list ArmCpuinfoSpec.arm_meaning) : Prop :=
  forall hardware revision n, board_texts ms hardware revision -> exists chip, chipset_of hardware revision n = Ok chip.

Lemma library_answers b chipset_of ms : chipset_answers chipset_of ms -> decoders_answer (library_decoders b chipset_of) ms.
Proof.
  intros H. split; [exact H|]. intros midr vfpv4 count chip id version. cbn [library_decoders ad_caches ad_uarch].
  destruct (caches_sound b midr vfpv4 count chip id version) as (i & d & l2 & l3 & E & _). eauto.
Qed.

Lemma library_decoded b chipset_of usable ms version t arm32 chip i g1i g1d g2 g3 :
  arm_reports arm32 (library_decoders b chipset_of) usable ms version t ->
  decoded (library_decoders b chipset_of) chip version t i g1i g1d g2 g3 ->
  (sound_cache g1i /\ g_flags g1i = 0%N) /\ (sound_cache g1d /\ g_flags g1d = 0%N) /\ sound_or_absent g2 /\ sound_or_absent g3 /\ (sound_cache g3 -> sound_cache g2).
Proof.
  intros R (c & l & k & Hc & Hk & Hl & E). destruct (rp_designs _ _ _ _ _ _ R i c Hc) as (j & q & vfpv4 & _ & _ & U & _).
  cbn [library_decoders ad_uarch ad_caches] in U, E.
  destruct (caches_sound b (c_cpuid c) vfpv4 (cl_core_count l) chip k version) as (i' & d' & l2' & l3' & E' & S). rewrite <- U in E'. cbn [snd] in E'.
  rewrite E in E'. injection E' as <- <- <- <-. exact S.
Qed.

Lemma library_sound b chipset_of usable ms version t :
  arm_reports false (library_decoders b chipset_of) usable ms version t ->
  Forall (fun c => sound_cache (ca_geometry c)) (at_l1i t) /\ Forall (fun c => sound_cache (ca_geometry c)) (at_l1d t) /\
  Forall (fun c => sound_cache (ca_geometry c)) (at_l2 t).
Proof.
  intros R. destruct (rp_caches _ _ _ _ _ _ R) as (chip & _ & [AD (AL2 & _) AR AN AG AS] & L1 & _). destruct (L1 eq_refl) as [(LI & LD) L1E].
  assert (S1 : forall i, i < length (at_processors t) -> exists g1i g1d, nth_error (at_l1i t) i = Some (Cache g1i i 1) /\
    nth_error (at_l1d t) i = Some (Cache g1d i 1) /\ sound_cache g1i /\ sound_cache g1d).
  { intros i Hi. destruct (AD i Hi) as (g1i & g1d & g2 & g3 & D). destruct (L1E _ _ _ _ _ D) as (X & Y).
    destruct (library_decoded _ _ _ _ _ _ _ _ _ _ _ _ _ R D) as ((SI & _) & (SD & _) & _). exists g1i, g1d. auto. }
  split; [|split].
  - apply Forall_forall. intros c Hc. apply In_nth_error in Hc. destruct Hc as (i & Hc). pose proof (nth_error_some_lt _ _ _ _ Hc) as B. rewrite LI in B.
    destruct (S1 i B) as (g & g' & X & _ & S & _). rewrite Hc in X. now injection X as ->.
  - apply Forall_forall. intros c Hc. apply In_nth_error in Hc. destruct Hc as (i & Hc). pose proof (nth_error_some_lt _ _ _ _ Hc) as B. rewrite LD in B.
    destruct (S1 i B) as (g & g' & _ & X & _ & S). rewrite Hc in X. now injection X as ->.
  - apply Forall_forall. intros c Hc. apply In_nth_error in Hc. destruct Hc as (k & Hc). destruct AR as (_ & AR).
    destruct (AR k c Hc) as (C0 & CB & CI). set (i := ca_processor_start c) in *.
    assert (P : nth_error (at_l2_of t) i = Some (Some k)) by (apply CI; lia).
    assert (B : i < length (at_processors t)) by lia. destruct (AD i B) as (g1i & g1d & g2 & g3 & D).
    destruct (library_decoded _ _ _ _ _ _ _ _ _ _ _ _ _ R D) as (_ & _ & S2 & S3 & S32).
    destruct (AG i g1i g1d g2 g3 c D) as (U1 & U2 & U3 & U4 & U5 & U6); [exists k; auto|].
    assert (SS : sound_cache g2).
    { destruct S2 as [S2|S2]; [|exact S2]. destruct S3 as [S3|S3]; [|exact (S32 S3)]. exfalso.
      assert (X : nth_error (at_l2_of t) i = Some None) by (apply (AN _ _ _ _ _ D); auto). congruence. }
    destruct SS as [T1 T2 T3 T4 T5 T6 T7 T8]. split; rewrite ?U1, ?U2, ?U3, ?U4, ?U5, ?U6; auto. now rewrite T1, T5.
Qed.
