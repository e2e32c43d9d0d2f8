(** The tests on what the systems report. *)
From Verif Require Import Base BaseProofs TopologySpec ArmClustersModel ArmClusterMidrModel ArmCpuinfoModel ArmLinuxModel ArmLinuxSpec
  ArmUarchModel ArmCacheModel ArmDecodersModel ArmCacheSpec ArmLibraryProofs ArmInitProofs ArmMidrSpec.
From Verif Require Import Sorting InitTestModel InitTestSpec InitTestProofs InitTestCacheProofs InitTestX86Proofs InitTestCountsProofs InitTestArmProofs.
From Verif Require X86CountsModel X86CountsSpec X86CountsFinal X86LinuxModel ArmMachModel ArmMachSpec.
From Coq Require Import String List. Import ListNotations.
Open Scope nat_scope.

Lemma arm_linux_init_tests char_signed android garbage default sorter calloc_ok b chipset_of fs max possible present ms version o t test :
  arm_files_say false default fs max possible present ms -> all_online (arm_usable max possible present) ms version ->
  chipset_answers chipset_of ms -> sorts (cmp_arm_linux_processor false) sorter ->
  arm_linux_init char_signed false android garbage default sorter calloc_ok (library_decoders b chipset_of) fs = Ok o -> ao_published o = Some t ->
  (forall chip, chipset_from (library_decoders b chipset_of) ms (length (at_processors t)) chip ->
     exists case, l3_sizes (library_decoders b chipset_of) chip version t case) ->
  at_l2 t <> [] -> Forall (fun c => c_vendor c <> 0%N /\ c_uarch c <> 0%N) (at_cores t) ->
  In test init_tests -> passes (arm_view t) test.
Proof.
  intros F A C S I P H2 H3 H4. pose proof (init_reports _ _ _ _ _ _ _ _ _ _ _ _ _ _ F A (library_answers b _ _ C) S o I) as R. rewrite P in R.
  eapply arm_linux_tests; eassumption.
Qed.

Lemma mach_init_tests calloc_ok x a packages cpp tpc test : 0 < packages -> 0 < cpp -> 0 < tpc ->
  X86CountsSpec.mach_says (X86CountsModel.ma_physicalcpu_max a) (X86CountsModel.ma_logicalcpu_max a) (X86CountsModel.ma_packages a) packages (packages * cpp) (packages * cpp * tpc) ->
  X86CountsSpec.widths_divide packages cpp tpc (X86CountsSpec.config_says (X86CountsModel.ma_cacheconfig a)) ->
  (N.of_nat (packages * cpp * tpc) < two32)%N -> X86CountsSpec.fields_defined x -> (forall b, calloc_ok b = true) ->
  ordinary x -> widening_counts packages cpp tpc (X86CountsSpec.config_says (X86CountsModel.ma_cacheconfig a)) x -> In test init_tests ->
  exists o t, X86CountsModel.x86_mach_init calloc_ok x a = Ok o /\ X86CountsModel.o_published o = Some t /\ passes (view_of t) test.
Proof.
  intros Z1 Z2 Z3 S W B F CA OR WI IN. destruct (X86CountsFinal.mach_describes calloc_ok x a packages cpp tpc Z1 Z2 Z3 S W B F CA) as (o & t & I & P & D & C & _).
  exists o, t. split; [exact I|]. split; [exact P|]. exact (counted_passes _ _ _ _ _ _ _ Z1 Z2 Z3 D C OR WI IN).
Qed.
Lemma freebsd_init_tests calloc_ok x a packages cpp tpc spec test : 0 < packages -> 0 < cpp -> 0 < tpc ->
  X86CountsModel.fa_spec a = Some spec -> X86CountsSpec.package_groups spec packages ->
  X86CountsModel.fa_cores a = Some (Z.of_nat (packages * cpp)) -> X86CountsModel.fa_threads_per_core a = Some (Z.of_nat tpc) ->
  (N.of_nat (packages * cpp * tpc) < two32)%N -> X86CountsSpec.fields_defined x -> (forall b, calloc_ok b = true) ->
  ordinary x -> In test init_tests ->
  exists o t, X86CountsModel.x86_freebsd_init calloc_ok x a = Ok o /\ X86CountsModel.o_published o = Some t /\ passes (view_of t) test.
Proof.
  intros Z1 Z2 Z3 S G C1 C2 B F CA OR IN. destruct (X86CountsFinal.freebsd_describes calloc_ok x a packages cpp tpc spec Z1 Z2 Z3 S G C1 C2 B F CA) as (o & t & I & P & D & C & _).
  exists o, t. split; [exact I|]. split; [exact P|]. exact (counted_passes _ _ _ _ _ _ _ Z1 Z2 Z3 D C OR (unreported_widens _ _ _ _) IN).
Qed.
Lemma apple_topology_tests family n p test : 0 < n -> ArmMachSpec.apple_described family n p -> In test topology_tests ->
  passes (view_of (ArmMachModel.at_tables p)) test.
Proof.
  intros Z D. apply topology_pass; cbn [view_of v_processors v_cores v_clusters v_packages].
  - exact (ArmMachSpec.ad_consistent _ _ _ D).
  - exact (ArmMachSpec.ad_ids _ _ _ D).
  - pose proof (ArmMachSpec.ad_lengths _ _ _ D) as L. injection L as L _ _. intros E. rewrite E in L. cbn in L. lia.
Qed.
