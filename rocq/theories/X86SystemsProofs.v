(** From the leaves of CPUID to the tables of macOS, FreeBSD and Windows. *)
From Verif Require Import Base BaseProofs TopologySpec X86DescriptorModel X86DecodeModel X86DecodeSpec X86LeavesProofs X86CachesSpec X86CachesProofs
  X86OfflineSpec X86OfflineProofs X86SystemsSpec.
From Verif Require X86LinuxModel X86LinuxSpec X86CountsModel X86CountsSpec X86CountsFinal X86WindowsModel X86WindowsSpec X86WindowsFinal X86DecodeProps.
Import X86LinuxModel(xinfo, xcache, xc_geometry, xc_apic_bits, xi_l1i, xi_l1d, xi_l2, xi_l3, xi_l4).
Open Scope nat_scope.

(** What the decoding keeps of a level that the leaf tells. *)
Record slot_told (complex : bool) (r : regs) (c : xcache) : Prop := {
  st_size : g_size (xc_geometry c) <> 0%N;
  st_geometry : geometry_told complex r (xc_geometry c);
  st_sharing : log2_up (d_sharing r) (xc_apic_bits c)
}.

Lemma told_slot complex levels leaf cache s r : caches_follow complex levels leaf cache -> told_by levels leaf s r -> slot_told complex r (cache s).
Proof.
  intros (k & E & F) (k' & i & E' & Hi & -> & D & L & Z). assert (k' = k) by (eapply ends_once; eassumption). subst k'.
  destruct (F i s Hi D L) as [F1 F2 F3 F4 F5 F6 F7].
  assert (S : d_size (leaf (N.of_nat i)) <> 0%N).
  { unfold d_size, d_ways, d_partitions, d_line_size, d_sets. rewrite !N.eq_mul_0. lia. }
  split.
  - now rewrite (F5 Z).
  - split; auto. apply F4, sets_fit, Z.
  - assumption.
Qed.

Lemma told_in_cpuid b m fuel x s complex r : (forall l i, regs_ok (cpuidex m l i)) -> leaves_end m fuel -> (1 <= eax (cpuid m 0))%N ->
  init_processor b m fuel = Ok x -> level_in_cpuid b m s complex r -> slot_told complex r (xi_cache x s).
Proof.
  intros OKR LE MX IP H. destruct (caches_reported b m fuel x OKR LE MX IP) as (A & B). destruct H as [((T1 & T2) & -> & T)|((V1 & V2 & M & T0) & -> & T)].
  - exact (told_slot _ _ _ _ _ _ (A T1 T2) T).
  - refine (told_slot _ _ _ _ _ _ (B V1 V2 M _) T). destruct (N.lt_ge_cases (eax (cpuid m 0x80000000)) 0x8000001D) as [L|L]; [now left|right].
    intros X. apply T0. now split.
Qed.

Section Counts.
Variables (b : build) (m : cpu) (fuel : nat) (x : xinfo).
Hypothesis OKR : forall l i, regs_ok (cpuidex m l i).
Hypothesis LE : leaves_end m fuel.
Hypothesis MX : (1 <= eax (cpuid m 0))%N.
Hypothesis IP : init_processor b m fuel = Ok x.

Definition width_of (reported : nat -> nat) (packages cpp tpc : nat) (s : slot) : nat :=
  match s with
  | L1I | L1D => X86CountsSpec.l1_width reported tpc
  | L2 => X86CountsSpec.l2_width x reported cpp tpc
  | L3 => X86CountsSpec.l3_width reported cpp tpc
  | L4 => X86CountsSpec.l4_width reported packages cpp tpc
  end.

Lemma counted packages cpp tpc reported t : X86CountsSpec.caches_described packages cpp tpc reported x t -> levels_counted b m reported packages cpp tpc t.
Proof.
  intros D s complex r H. pose proof (told_in_cpuid _ _ _ _ _ _ _ OKR LE MX IP H) as [Z G _]. exists (width_of reported packages cpp tpc s). split.
  - assert (X : exists count, X86CountsSpec.level_shared (xc_geometry (xi_cache x s)) (packages * cpp * tpc) (width_of reported packages cpp tpc s)
                                (level_pointers t s) (level_caches t s) count).
    { destruct D as [D1 D2 D3 D4 D5 _]. destruct s; eexists; eassumption. }
    destruct X as (count & LN & _ & X). destruct (X Z) as (P & _ & F). split.
    + now split.
    + eapply Forall_impl; [|exact F]. cbn. intros c (-> & _). exact G.
    + eapply Forall_impl; [|exact F]. now intros c (_ & ->).
  - unfold width_by_kernel, width_of. split.
    + intros NZ. destruct s; unfold X86CountsSpec.l1_width, X86CountsSpec.l2_width, X86CountsSpec.l3_width, X86CountsSpec.l4_width, X86CountsSpec.shared_by;
        cbn [level_number] in *; now rewrite (proj2 (Nat.eqb_neq _ 0) NZ).
    + intros E. destruct s; unfold X86CountsSpec.l1_width, X86CountsSpec.l2_width, X86CountsSpec.l3_width, X86CountsSpec.l4_width, X86CountsSpec.shared_by;
        cbn [level_number] in *; rewrite (proj2 (Nat.eqb_eq _ 0) E); try reflexivity. split.
      * intros (c3 & r3 & H3). destruct (told_in_cpuid _ _ _ _ _ _ _ OKR LE MX IP H3) as [Z3 _ _]. cbn [xi_cache] in Z3. now rewrite (proj2 (N.eqb_neq _ 0) Z3).
      * destruct (N.eqb _ _); auto.
Qed.
End Counts.

Lemma mach_counted b m fuel x calloc_ok a packages cpp tpc :
  (forall l i, regs_ok (cpuidex m l i)) -> leaves_end m fuel -> (1 <= eax (cpuid m 0))%N -> init_processor b m fuel = Ok x ->
  0 < packages -> 0 < cpp -> 0 < tpc ->
  X86CountsSpec.mach_says (X86CountsModel.ma_physicalcpu_max a) (X86CountsModel.ma_logicalcpu_max a) (X86CountsModel.ma_packages a) packages (packages * cpp) (packages * cpp * tpc) ->
  X86CountsSpec.widths_divide packages cpp tpc (X86CountsSpec.config_says (X86CountsModel.ma_cacheconfig a)) ->
  (N.of_nat (packages * cpp * tpc) < two32)%N -> X86CountsSpec.fields_defined x -> (forall k, calloc_ok k = true) ->
  exists o t, X86CountsModel.x86_mach_init calloc_ok x a = Ok o /\ X86CountsModel.o_published o = Some t /\
    levels_counted b m (X86CountsSpec.config_says (X86CountsModel.ma_cacheconfig a)) packages cpp tpc t.
Proof.
  intros OKR LE MX IP P C T S W B F A. destruct (X86CountsFinal.mach_describes calloc_ok x a packages cpp tpc P C T S W B F A) as (o & t & E & U & _ & D & _).
  exists o, t. repeat split; try assumption. eapply counted; eassumption.
Qed.

Lemma freebsd_counted b m fuel x calloc_ok a packages cpp tpc spec :
  (forall l i, regs_ok (cpuidex m l i)) -> leaves_end m fuel -> (1 <= eax (cpuid m 0))%N -> init_processor b m fuel = Ok x ->
  0 < packages -> 0 < cpp -> 0 < tpc ->
  X86CountsModel.fa_spec a = Some spec -> X86CountsSpec.package_groups spec packages ->
  X86CountsModel.fa_cores a = Some (Z.of_nat (packages * cpp)) -> X86CountsModel.fa_threads_per_core a = Some (Z.of_nat tpc) ->
  (N.of_nat (packages * cpp * tpc) < two32)%N -> X86CountsSpec.fields_defined x -> (forall k, calloc_ok k = true) ->
  exists o t, X86CountsModel.x86_freebsd_init calloc_ok x a = Ok o /\ X86CountsModel.o_published o = Some t /\
    levels_counted b m (fun _ => 0) packages cpp tpc t.
Proof.
  intros OKR LE MX IP P C T S G EC ET B F A.
  destruct (X86CountsFinal.freebsd_describes calloc_ok x a packages cpp tpc spec P C T S G EC ET B F A) as (o & t & E & U & _ & D & _).
  exists o, t. repeat split; try assumption. eapply counted; eassumption.
Qed.

Lemma sorted_distinct l : StronglySorted N.lt l -> NoDup l.
Proof.
  induction 1 as [|a l S IH F]; constructor; [|exact IH]. intros H. rewrite Forall_forall in F. specialize (F a H). lia.
Qed.

Lemma windows_told b m fuel x heap_ok a sizes mc o t :
  (forall l i, regs_ok (cpuidex m l i)) -> leaves_end m fuel -> (1 <= eax (cpuid m 0))%N -> init_processor b m fuel = Ok x ->
  X86WindowsSpec.windows_says a sizes mc -> X86CountsSpec.fields_defined x -> X86WindowsSpec.caches_defined x -> X86WindowsSpec.fields_fit x mc ->
  X86WindowsModel.x86_windows_init heap_ok x a = Ok o -> X86WindowsModel.o_published o = Some t -> forall s complex r, level_in_cpuid b m s complex r ->
  let tb := X86WindowsModel.wt_tables t in
  level_told complex r (t_processors tb) (level_pointers tb s) (level_caches tb s) /\ sharers_told r (level_caches tb s).
Proof.
  intros OKR LE MX IP S F C FF I U s complex r H tb. pose proof (told_in_cpuid _ _ _ _ _ _ _ OKR LE MX IP H) as [Z G SH].
  destruct (X86WindowsFinal.windows_describes heap_ok x a sizes mc S F C) as (o' & E & D & _). assert (o' = o) by congruence. subst o'.
  destruct (D t U) as (_ & _ & DA). destruct (DA FF) as [AI _ _ AC _]. fold tb in AI, AC.
  assert (X : exists count, X86LinuxSpec.level_reported (xc_geometry (xi_cache x s)) (xc_apic_bits (xi_cache x s)) (t_processors tb) (level_pointers tb s) (level_caches tb s) count).
  { destruct AC as (A1 & A2 & A3 & A4 & A5). destruct s; eexists; eassumption. }
  destruct X as (count & X). split.
  - destruct X as (_ & LN & _ & X). destruct (X Z) as (P & FG & SS). split.
    + now split.
    + eapply Forall_impl; [|exact FG]. cbn. now intros c ->.
    + eauto.
  - pose proof (level_bound tb _ _ _ _ _ (sorted_distinct _ AI) X) as BD. eapply Forall_impl; [|exact BD]. cbn. intros c B1.
    assert (P1 : (0 < d_sharing r)%N) by (unfold d_sharing; lia). pose proof (log2_up_lt _ _ P1 SH). split; [lia|].
    intros n N0. rewrite N0 in *. now rewrite (log2_up_pow _ _ SH) in B1.
Qed.

Lemma windows_told_sane b m fuel x heap_ok a sizes mc o t :
  (forall l i, regs_ok (cpuidex m l i)) -> leaves_end m fuel -> (1 <= eax (cpuid m 0))%N -> 2 < fuel -> sane_topology m -> init_processor b m fuel = Ok x ->
  X86WindowsSpec.windows_says a sizes mc -> X86CountsSpec.fields_defined x -> X86WindowsSpec.fields_fit x mc ->
  X86WindowsModel.x86_windows_init heap_ok x a = Ok o -> X86WindowsModel.o_published o = Some t -> forall s complex r, level_in_cpuid b m s complex r ->
  let tb := X86WindowsModel.wt_tables t in
  level_told complex r (t_processors tb) (level_pointers tb s) (level_caches tb s) /\ sharers_told r (level_caches tb s).
Proof.
  intros OKR LE MX FU ST IP S F FF I U. eapply windows_told; try eassumption.
  destruct (X86DecodeProps.x86_cpuid_fields_fit b m fuel OKR LE FU ST) as (x' & E & (_ & _ & _ & _ & B) & _). assert (x' = x) by congruence. now subst x'.
Qed.
