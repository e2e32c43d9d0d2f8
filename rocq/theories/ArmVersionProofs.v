(** The architecture version matters for designs without cache sizes of their own only. *)
From Verif Require Import Base BaseProofs ArmMidrModel ArmMidrProofs ArmClusterMidrModel ArmUarchModel ArmCacheModel ArmDecodersModel ArmLinuxModel ArmOfflineSpec ArmMidrSpec.

Lemma switch_default {A} : forall (labels : list (N * A)) x d d', In x (map fst labels) -> switch labels x d = switch labels x d'.
Proof.
  induction labels as [|(l & a) r IH]; intros x d d' H; [destruct H|]. cbn [switch map fst In] in *. destruct (N.eqb_spec x l); [reflexivity|].
  apply IH. destruct H as [H|H]; [congruence|exact H].
Qed.

Definition always_sized : list N :=
  [u_cortex_a35; u_cortex_a53; u_cortex_a55r0; u_cortex_a55; u_cortex_a57; u_cortex_a65; u_cortex_a72; u_cortex_a73; u_cortex_a75; u_cortex_a76;
   u_cortex_a77; u_neoverse_n1; u_neoverse_v1; u_neoverse_n2; u_neoverse_v2; u_kryo].

Lemma sized_caches b uarch cores midr chip id v v' : In uarch always_sized ->
  decode_cache b uarch cores midr chip id v = decode_cache b uarch cores midr chip id v'.
Proof.
  intros H. unfold decode_cache.
  replace (caches_by_uarch b uarch (N.of_nat cores) midr chip id v) with (caches_by_uarch b uarch (N.of_nat cores) midr chip id v'); [reflexivity|].
  unfold caches_by_uarch. apply switch_default. rewrite !map_app. cbn [map fst]. rewrite !in_app_iff. unfold always_sized in H.
  repeat (destruct H as [<-|H]; [cbn [In]; tauto|]). destruct H.
Qed.

Lemma sized_design arm32 midr vfpv4 : has_own_sizes midr -> In (snd (decode_vendor_uarch arm32 midr vfpv4)) always_sized.
Proof.
  intros (parts & HI & HP). unfold decode_vendor_uarch.
  assert (EI : midr_get_implementer midr = field_of Implementer midr) by (apply (get_exact implementer_mask Implementer); reflexivity).
  assert (EP : midr_get_part midr = field_of PartNumber midr) by (apply (get_exact part_mask PartNumber); reflexivity).
  unfold arm_uarchs. rewrite EI, EP. cbn [own_sizes In] in HI.
  destruct HI as [HI|[HI|[]]]; injection HI as I <-; rewrite <- I; cbn [In] in HP;
    repeat (destruct HP as [<-|HP]; [destruct arm32; cbn -[always_sized N.land variant_mask]; try destruct (_ =? 0)%N; unfold always_sized; cbn [In]; tauto|]); destruct HP.
Qed.

Lemma library_version_free b chipset_of midr : has_own_sizes midr -> version_free (library_decoders b chipset_of) midr.
Proof.
  intros (parts & HI & HP) m' vfpv4 count chip id v v' F. cbn [library_decoders ad_caches ad_uarch]. apply sized_caches, sized_design.
  exists parts. now rewrite !F by discriminate.
Qed.
