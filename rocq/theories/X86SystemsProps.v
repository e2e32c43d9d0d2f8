(** Property theorems about the caches of x86 processors on macOS, FreeBSD and Windows, from the leaves of CPUID: C91. *)
From Verif Require Import Base Text TopologySpec X86DescriptorModel X86DecodeModel X86DecodeSpec X86DecodeSample X86CachesSpec
  X86CountsModel X86CountsSpec X86SystemsSpec X86SystemsProofs X86SystemsSample.
From Verif Require X86LinuxModel X86CountsProps X86WindowsModel X86WindowsSpec.
Open Scope nat_scope.

(** macOS: every level that CPUID tells is published with the leaf's geometry and the kernel's number of sharers. *)
Theorem x86_mach_caches_from_cpuid : forall b m fuel x calloc_ok a packages cpp tpc,
  (forall l i, regs_ok (cpuidex m l i)) -> leaves_end m fuel -> (1 <= eax (cpuid m 0))%N -> init_processor b m fuel = Ok x ->
  0 < packages -> 0 < cpp -> 0 < tpc ->
  mach_says (ma_physicalcpu_max a) (ma_logicalcpu_max a) (ma_packages a) packages (packages * cpp) (packages * cpp * tpc) ->
  widths_divide packages cpp tpc (config_says (ma_cacheconfig a)) ->
  (N.of_nat (packages * cpp * tpc) < two32)%N -> fields_defined x -> (forall k, calloc_ok k = true) ->
  exists o t, x86_mach_init calloc_ok x a = Ok o /\ o_published o = Some t /\
    levels_counted b m (config_says (ma_cacheconfig a)) packages cpp tpc t.
Proof. exact mach_counted. Qed.
Print Assumptions x86_mach_caches_from_cpuid.

(** FreeBSD: the same without such numbers. *)
Theorem x86_freebsd_caches_from_cpuid : forall b m fuel x calloc_ok a packages cpp tpc spec,
  (forall l i, regs_ok (cpuidex m l i)) -> leaves_end m fuel -> (1 <= eax (cpuid m 0))%N -> init_processor b m fuel = Ok x ->
  0 < packages -> 0 < cpp -> 0 < tpc ->
  fa_spec a = Some spec -> package_groups spec packages ->
  fa_cores a = Some (Z.of_nat (packages * cpp)) -> fa_threads_per_core a = Some (Z.of_nat tpc) ->
  (N.of_nat (packages * cpp * tpc) < two32)%N -> fields_defined x -> (forall k, calloc_ok k = true) ->
  exists o t, x86_freebsd_init calloc_ok x a = Ok o /\ o_published o = Some t /\ levels_counted b m (fun _ => 0) packages cpp tpc t.
Proof. exact freebsd_counted. Qed.
Print Assumptions x86_freebsd_caches_from_cpuid.

(** Windows: every level that CPUID tells is published as the leaf describes it for the APIC ids that the library makes up, and shared by
    fewer than twice the threads that the leaf allows. *)
Theorem x86_windows_caches_from_cpuid : forall b m fuel x heap_ok a sizes mc o t,
  (forall l i, regs_ok (cpuidex m l i)) -> leaves_end m fuel -> (1 <= eax (cpuid m 0))%N -> 2 < fuel -> sane_topology m -> init_processor b m fuel = Ok x ->
  X86WindowsSpec.windows_says a sizes mc -> fields_defined x -> X86WindowsSpec.fields_fit x mc ->
  X86WindowsModel.x86_windows_init heap_ok x a = Ok o -> X86WindowsModel.o_published o = Some t -> forall s complex r, level_in_cpuid b m s complex r ->
  let tb := X86WindowsModel.wt_tables t in
  level_told complex r (t_processors tb) (level_pointers tb s) (level_caches tb s) /\ sharers_told r (level_caches tb s).
Proof. exact windows_told_sane. Qed.
Print Assumptions x86_windows_caches_from_cpuid.

(** A processor with six cores of two threads and a third level for every six threads: CPUID says so, but FreeBSD and macOS give one cache
    to all twelve, and Windows the first one to eight and the second one to four. *)
Theorem x86_systems_sharers_refuted : let b := Build false false in
  d_sharing (cpuidex matisse 0x8000001D 3) = 6%N /\ level_in_cpuid b matisse L3 false (cpuidex matisse 0x8000001D 3) /\
  exists x, init_processor b matisse 10 = Ok x /\
    (exists o t, x86_freebsd_init (fun _ => true) x matisse_freebsd = Ok o /\ o_published o = Some t /\ map cache_processors (t_l3 t) = [(0, 12)]) /\
    (exists o t, x86_mach_init (fun _ => true) x matisse_mach = Ok o /\ o_published o = Some t /\ map cache_processors (t_l3 t) = [(0, 12)]) /\
    (exists o t, X86WindowsModel.x86_windows_init (fun _ => true) x matisse_windows = Ok o /\ X86WindowsModel.o_published o = Some t /\
       map cache_processors (t_l3 (X86WindowsModel.wt_tables t)) = [(0, 8); (8, 4)]).
Proof.
  cbv zeta. split; [reflexivity|]. split; [exact matisse_l3|]. eexists. split; [vm_compute; reflexivity|].
  split; [|split]; do 2 eexists; (split; [vm_compute; reflexivity|]); (split; [reflexivity|]); reflexivity.
Qed.
Print Assumptions x86_systems_sharers_refuted.

(** That processor meets the hypotheses on each system. *)
Example x86_windows_matisse_case : let b := Build false false in
  (forall l i, regs_ok (cpuidex matisse l i)) /\ leaves_end matisse 10 /\ (1 <= eax (cpuid matisse 0))%N /\ sane_topology matisse /\
  X86WindowsSpec.windows_says matisse_windows [12] matisse_machine /\ level_in_cpuid b matisse L2 false (cpuidex matisse 0x8000001D 2) /\
  exists x, init_processor b matisse 10 = Ok x /\ fields_defined x /\ X86WindowsSpec.fields_fit x matisse_machine /\
    exists o t, X86WindowsModel.x86_windows_init (fun _ => true) x matisse_windows = Ok o /\ X86WindowsModel.o_published o = Some t /\
      map cache_processors (t_l2 (X86WindowsModel.wt_tables t)) = [(0, 2); (2, 2); (4, 2); (6, 2); (8, 2); (10, 2)] /\
      map (fun c => g_size (ca_geometry c)) (t_l2 (X86WindowsModel.wt_tables t)) = repeat 524288%N 6.
Proof.
  cbv zeta. split; [exact matisse_ok|]. split; [exact matisse_ends|]. split; [vm_compute; discriminate|]. split; [exact matisse_sane|].
  split; [exact matisse_windows_says|]. split; [exact matisse_l2|]. eexists. split; [vm_compute; reflexivity|]. split; [reflexivity|].
  split. { constructor; [cbn; lia| | |cbn; discriminate]; repeat constructor; cbn; discriminate. }
  do 2 eexists. split; [vm_compute; reflexivity|]. split; [reflexivity|]. split; reflexivity.
Qed.
Example x86_freebsd_matisse_case : let b := Build false false in
  package_groups (text "<groups><group level=""1"" cache-level=""3""></group></groups>") 1 /\
  exists x o t, init_processor b matisse 10 = Ok x /\ fields_defined x /\ x86_freebsd_init (fun _ => true) x matisse_freebsd = Ok o /\ o_published o = Some t /\
    map cache_processors (t_l2 t) = [(0, 2); (2, 2); (4, 2); (6, 2); (8, 2); (10, 2)] /\ map (fun c => g_size (ca_geometry c)) (t_l3 t) = [16777216%N].
Proof.
  cbv zeta. split.
  { right. destruct (X86CountsProps.x86_freebsd_packages (text "<groups><group level=""1"" cache-level=""3""></group></groups>")) as (n2 & n1 & O2 & O1 & E).
    revert E. vm_compute count_packages. destruct n2 as [|n2]; cbn [Nat.eqb].
    - intros E. injection E as <-. now split.
    - intros E. exfalso. destruct O2 as (l & ND & LN & IFF). destruct l as [|i l]; [discriminate LN|]. destruct (proj1 (IFF i) (or_introl eq_refl)) as (r & H).
      assert (L : i < 60). { destruct (Nat.lt_ge_cases i 60) as [Q|Q]; [exact Q|]. rewrite skipn_all2 in H; [discriminate H|refine (Nat.le_trans _ _ _ _ Q); vm_compute; lia]. }
      do 60 (destruct i as [|i]; [discriminate H|]). lia. }
  do 3 eexists. split; [vm_compute; reflexivity|]. split; [reflexivity|]. split; [vm_compute; reflexivity|]. split; [reflexivity|]. split; reflexivity.
Qed.
(** macOS reports the sharers of a processor like this: two threads for the first and second level, six for the third. *)
Example x86_mach_matisse_case : let a := MachAnswers (Some 6%Z) (Some 12%Z) (Some 1%Z) (Some [12; 2; 2; 6; 0]%N) in
  mach_says (ma_physicalcpu_max a) (ma_logicalcpu_max a) (ma_packages a) 1 (1 * 6) (1 * 6 * 2) /\ widths_divide 1 6 2 (config_says (ma_cacheconfig a)) /\
  exists x o t, init_processor (Build false false) matisse 10 = Ok x /\ fields_defined x /\ x86_mach_init (fun _ => true) x a = Ok o /\ o_published o = Some t /\
    map cache_processors (t_l3 t) = [(0, 6); (6, 6)].
Proof.
  cbv zeta. split; [now repeat split|]. split.
  - intros l L Z. assert (l = 1 \/ l = 2 \/ l = 3 \/ l = 4) as [E|[E|[E|E]]] by lia; subst l; cbn; [now exists 6|now exists 6|now exists 2|now destruct Z].
  - do 3 eexists. split; [vm_compute; reflexivity|]. split; [reflexivity|]. split; [vm_compute; reflexivity|]. split; reflexivity.
Qed.
