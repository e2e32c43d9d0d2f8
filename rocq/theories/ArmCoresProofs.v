(** From the main id registers in /proc/cpuinfo to the published cores and caches. *)
From Verif Require Import Base Sorting BaseProofs TopologySpec ArmMidrModel ArmClustersModel ArmClusterMidrModel ArmCpuinfoModel ArmCpuinfoSpec ArmLinuxModel ArmLinuxSpec
  ArmOrderProofs ArmDetectProofs ArmInitProofs ArmUarchModel ArmCacheModel ArmDecodersModel ArmCacheSpec ArmCacheProofs ArmLibraryProofs ArmMidrSpec ArmManualSpec ArmManualProofs
  ArmManualCacheProofs ArmCoresSpec.
Open Scope nat_scope.

(** In 64-bit programs VFPv4 does not matter, and the architecture field never does. *)
Lemma meant_fields v v' a b vendor core : (forall f, f <> Architecture -> field_of f a = field_of f b) ->
  core_meant false v b vendor core -> core_meant false v' a vendor core.
Proof.
  intros F. assert (D : design a = design b) by (unfold design; now rewrite !F). assert (V : field_of Variant a = field_of Variant b) by (now apply F).
  intros M. inversion M; subst; try discriminate; rewrite <- ?D, <- ?V in *.
  - now apply (meant_arm _ _ _ w part).
  - now apply meant_a55r0.
  - now apply meant_a55.
  - now apply (meant_licensed _ _ _ w (design a)).
  - now apply (meant_other _ _ _ w vendor (design a)).
  - now apply (meant_exynos _ _ _ (field_of Variant a) part).
Qed.

Lemma meant_same a32 v a b vendor core : (forall f, f <> Architecture -> field_of f a = field_of f b) ->
  core_meant a32 v b vendor core -> core_meant a32 v a vendor core.
Proof.
  intros F. assert (D : design a = design b) by (unfold design; now rewrite !F). assert (V : field_of Variant a = field_of Variant b) by (now apply F).
  intros M. inversion M; subst; rewrite <- ?D, <- ?V in *.
  - now apply (meant_arm _ _ _ w part).
  - now apply meant_a55r0.
  - now apply meant_a55.
  - now apply (meant_licensed _ _ _ w (design a)).
  - now apply (meant_other _ _ _ w vendor (design a)).
  - now apply meant_scorpion.
  - now apply meant_qualcomm_a5.
  - now apply (meant_exynos _ _ _ (field_of Variant a) part).
  - now apply (meant_old _ _ _ vendor implementer (part / 256)%N part).
Qed.

(** ** The third level *)
Definition l3_is (zero : bool) (f : four) : bool := let '(_, _, l3) := f in Bool.eqb (r_size l3 =? 0)%N zero.
Lemma l3_decoded zero b uarch cores midr chip cluster_id version i d l2 l3 :
  l3_is zero (caches_by_uarch b uarch (N.of_nat cores) midr chip cluster_id version) = true ->
  decode_cache b uarch cores midr chip cluster_id version = Ok (i, d, l2, l3) -> (g_size l3 =? 0)%N = zero.
Proof.
  unfold decode_cache. destruct (caches_by_uarch _ _ _ _ _ _ _) as [[[(ri, rd)|] r2] r3]; [|discriminate]. cbn [l3_is]. intros H. apply Bool.eqb_prop in H.
  destruct (divided ri) as [gi| |]; cbn [bind]; try discriminate. destruct (divided rd) as [gd| |]; cbn [bind]; try discriminate.
  destruct (r_size r2 =? 0)%N.
  - intros E. injection E as <- <- <- <-. exact H.
  - destruct (divided r2) as [g2| |]; cbn [bind]; try discriminate. destruct (r_size r3 =? 0)%N eqn:Z; cbn [bind].
    + intros E. injection E as <- <- <- <-. cbn [undivided g_size]. now rewrite Z.
    + destruct (divided r3) as [g3| |] eqn:E3; cbn [bind]; try discriminate. intros E. injection E as <- <- <- <-.
      unfold divided in E3. destruct (u32 _ =? 0)%N; [discriminate|]. injection E3 as <-. cbn [g_size]. now rewrite Z.
Qed.
Lemma a53_l3 midr chip id : l3_is true (a53_caches midr chip id) = true.
Proof. unfold a53_caches. destruct (midr_is_qualcomm_cortex_a53_silver midr); [reflexivity|]. now destruct (a53_sizes chip id). Qed.
Lemma a73_l3 midr chip : l3_is true (a73_caches midr chip) = true.
Proof. unfold a73_caches. cbn [switch]. splits; reflexivity. Qed.
Lemma a55_l3 midr chip : ch_series chip <> series_exynos -> l3_is false (a55_caches midr chip) = true.
Proof. intros H. apply N.eqb_neq in H. unfold a55_caches. rewrite H. cbv zeta. splits; reflexivity. Qed.
Lemma a75_l3 chip : l3_is false (a75_caches chip) = true.
Proof. unfold a75_caches. splits; reflexivity. Qed.
Lemma a76_l3 chip : l3_is false (a76_caches chip) = true.
Proof. unfold a76_caches. splits; reflexivity. Qed.
Lemma cluster_l3 b uarch c midr chip id version : In uarch (l2_of_cluster ++ l2_of_cluster_32) ->
  (In uarch l2_of_cluster_32 -> b_arm32 b = true /\ b_arch_8a b = false) -> l3_is true (caches_by_uarch b uarch c midr chip id version) = true.
Proof.
  destruct b as [b1 b2 b3 b4]. cbn [b_arm32 b_arch_8a]. intros I X. apply in_app_or in I. destruct I as [I|I].
  - clear X. unfold l2_of_cluster in I. cbn [In] in I. 
    repeat destruct I as [<-|I]; [..|destruct I]; unfold caches_by_uarch; destruct b1, b2, b3, b4; cbn [b_arm32 b_arch_7a b_arch_8a b_android andb negb app switch];
      first [exact (a53_l3 midr chip id)|exact (a73_l3 midr chip)|reflexivity].
  - destruct (X I) as (-> & ->). unfold l2_of_cluster_32 in I. cbn [In] in I.
    repeat destruct I as [<-|I]; [..|destruct I]; unfold caches_by_uarch; destruct b2, b4; cbn [b_arm32 b_arch_7a b_arch_8a b_android andb negb app switch]; reflexivity.
Qed.
Lemma neoverse_l3 b uarch c midr chip id version : In uarch neoverse ->
  let f := caches_by_uarch b uarch c midr chip id version in l3_is true f = true /\ (exists g, fst (fst f) = Some g) /\ (r_size (snd (fst f)) <> 0)%N.
Proof.
  destruct b as [b1 b2 b3 b4]. intros I. unfold neoverse in I. cbn [In] in I.
  assert (X : forall u, In u [u_neoverse_n1; u_neoverse_v1; u_neoverse_n2; u_neoverse_v2] -> let f := neoverse_caches u midr in
    l3_is true f = true /\ (exists g, fst (fst f) = Some g) /\ (r_size (snd (fst f)) <> 0)%N).
  { intros u J. cbn [In] in J. unfold neoverse_caches. destruct (midr_is_ampere_altra midr); repeat destruct J as [<-|J]; try destruct J;
      (split; [reflexivity|split; [eexists; reflexivity|vm_compute; discriminate]]). }
  repeat destruct I as [<-|I]; [..|destruct I]; unfold caches_by_uarch; destruct b1, b2, b3, b4; cbn [b_arm32 b_arch_7a b_arch_8a b_android andb negb app switch];
    cbv zeta; apply X; cbn [In]; tauto.
Qed.
Lemma core_l3 b uarch c midr chip id version : In uarch l2_of_core -> (is_a55 uarch -> ch_series chip <> series_exynos) ->
  l3_is false (caches_by_uarch b uarch c midr chip id version) = true.
Proof.
  destruct b as [b1 b2 b3 b4]. intros I X. unfold is_a55 in X. unfold l2_of_core in I. cbn [In] in I.
  repeat destruct I as [<-|I]; [..|destruct I]; unfold caches_by_uarch; destruct b1, b2, b3, b4; cbn [b_arm32 b_arch_7a b_arch_8a b_android andb negb app switch];
    first [exact (a75_l3 chip)|exact (a76_l3 chip)|refine (a55_l3 midr chip (X _)); tauto|reflexivity].
Qed.

(** ** The cores of 64-bit programs *)
Definition core_of_64 (core : N) : bool := forallb (fun m => negb (mn_core m =? core)%N || negb (mn_32 m)) manuals.
Lemma meant_64 v midr vendor core : core_meant false v midr vendor core -> core_of_64 core = true.
Proof.
  intros M. inversion M; subst; try discriminate; try (vm_compute; reflexivity).
  - assert (F : forallb (fun x => match x with (Only_32, _, _) => true | (_, _, u) => core_of_64 u end) arm_parts = true) by (vm_compute; reflexivity).
    rewrite forallb_forall in F. specialize (F _ H). destruct w; [exact F|match goal with X : for_width false Only_32 |- _ => discriminate X end|exact F].
  - assert (F : forallb (fun x => match x with (Only_32, _, _) => true | (_, _, u) => core_of_64 u end) licensed_parts = true) by (vm_compute; reflexivity).
    rewrite forallb_forall in F. specialize (F _ H). destruct w; [exact F|match goal with X : for_width false Only_32 |- _ => discriminate X end|exact F].
  - assert (F : forallb (fun x => match x with (Only_32, _, _, _) => true | (_, _, _, u) => core_of_64 u end) other_parts = true) by (vm_compute; reflexivity).
    rewrite forallb_forall in F. specialize (F _ H). destruct w; [exact F|match goal with X : for_width false Only_32 |- _ => discriminate X end|exact F].
  - assert (F : forallb (fun x => core_of_64 (snd x)) exynos_parts = true) by (vm_compute; reflexivity).
    rewrite forallb_forall in F. exact (F _ H).
Qed.
Lemma runs_64 b m core : core_of_64 core = true -> In m manuals -> mn_core m = core -> runs b m.
Proof.
  unfold core_of_64. rewrite forallb_forall. intros F I <- M. specialize (F _ I). rewrite N.eqb_refl, M in F. discriminate.
Qed.

(** ** What is published *)
Section TABLES.
  Variables (b : build) (chipset_of : chars -> chars -> nat -> res chipset) (us : nat -> Prop) (ms : list arm_meaning) (version : N) (t : arm_tables)
    (group : nat -> nat) (midr : nat -> N).
  Notation d := (library_decoders b chipset_of).
  Hypothesis (R : arm_reports (b_arm32 b) d us ms version t) (CF : clusters_follow t group) (MF : midrs_follow t midr).

  Lemma listed_lt cpu i : listed_at t cpu i -> i < length (at_processors t).
  Proof. intros (p & P & _). exact (nth_error_some_lt _ _ _ _ P). Qed.
  Lemma listed_twice cpu i j : listed_at t cpu i -> listed_at t cpu j -> i = j.
  Proof.
    intros (p & P & I) (q & Q & J). pose proof (ap_once _ _ (rp_topology _ _ _ _ _ _ R)) as ND. rewrite NoDup_nth_error in ND.
    apply ND; [rewrite map_length; exact (nth_error_some_lt _ _ _ _ P)|]. rewrite !nth_error_map, P, Q. cbn. congruence.
  Qed.
  Lemma usable_listed cpu : us cpu -> exists i, listed_at t cpu i.
  Proof.
    intros U. apply (ap_cpus _ _ (rp_topology _ _ _ _ _ _ R)) in U. destruct U as (p & I & E). apply In_nth_error in I. destruct I as (i & I). exists i, p. auto.
  Qed.
  Lemma same_cluster_groups cpu other i j : listed_at t cpu i -> listed_at t other j -> (same_cluster t i j <-> group cpu = group other).
  Proof.
    intros (p & P & I) (q & Q & J). pose proof (CF p q (nth_error_In _ _ P) (nth_error_In _ _ Q)) as C. rewrite I, J, !Nat2N.id in C. rewrite <- C. split.
    - intros (p' & q' & P' & Q' & E). congruence.
    - intros E. now exists p, q.
  Qed.

  Lemma core_told cpu vendor core i : core <> 0%N -> meant_to_group (b_arm32 b) us ms group midr cpu vendor core -> listed_at t cpu i ->
    exists c, nth_error (at_cores t) i = Some c /\ c_vendor c = vendor /\ c_uarch c = core.
  Proof.
    intros NZ M L. pose proof L as (p & P & I). destruct (rp_caches _ _ _ _ _ _ R) as (chip & _ & AC & _). destruct (ac_decoded _ _ _ _ AC i (listed_lt _ _ L)) as (x1 & x2 & x3 & x4 & D).
    destruct D as (c & l & k & C & _). exists c. split; [exact C|]. destruct (rp_designs _ _ _ _ _ _ R i c C) as (j & q & vfpv4 & Q & SC & U & VF).
    assert (LQ : listed_at t (N.to_nat (p_linux_id q)) j) by (exists q; split; [exact Q|now rewrite N2Nat.id]).
    assert (UQ : us (N.to_nat (p_linux_id q))).
    { apply (ap_cpus _ _ (rp_topology _ _ _ _ _ _ R)). exists q. split; [exact (nth_error_In _ _ Q)|now rewrite N2Nat.id]. }
    specialize (M vfpv4 _ UQ (eq_sym (proj1 (same_cluster_groups _ _ _ _ L LQ) SC)) VF).
    cbn [library_decoders ad_uarch] in U. pose proof (MF i p c P C) as F. rewrite I, Nat2N.id in F. apply (meant_same _ _ (c_cpuid c)) in M; [|exact F].
    apply (decoded_exactly _ vfpv4 (c_cpuid c) vendor core NZ) in M. rewrite M in U. injection U as -> ->. auto.
  Qed.

  Lemma built_moved l g g' : unpartitioned g g' -> built_as l g -> built_as l g' /\ g_partitions g' = 1%N.
  Proof.
    intros (U1 & U2 & U3 & U4 & U5 & U6) (size & ways & line & I & H). split; [|exact U4]. exists size, ways, line. rewrite U1, U2, U3, U5. auto.
  Qed.
  Lemma built_nonzero l g m : In m manuals -> mn_l2 m = Some l -> built_as l g -> g_size g <> 0%N.
  Proof.
    intros I L (size & ways & line & J & S & _). rewrite S. intros Z.
    assert (F : forallb (fun m => match mn_l2 m with Some l => forallb (fun c => negb (fst (fst c) =? 0)%N) l | None => true end) manuals = true) by (vm_compute; reflexivity).
    rewrite forallb_forall in F. specialize (F _ I). rewrite L in F. rewrite forallb_forall in F. specialize (F _ J). cbn [fst] in F.
    apply negb_true_iff, N.eqb_neq in F. lia.
  Qed.
  Lemma cluster_l2_told m : In m manuals -> In (mn_core m) (l2_of_cluster ++ l2_of_cluster_32) -> exists l, mn_l2 m = Some l.
  Proof.
    intros I J. assert (F : forallb (fun m => negb (existsb (N.eqb (mn_core m)) (l2_of_cluster ++ l2_of_cluster_32)) || match mn_l2 m with Some _ => true | None => false end) manuals = true)
      by (vm_compute; reflexivity).
    rewrite forallb_forall in F. specialize (F _ I). assert (X : existsb (N.eqb (mn_core m)) (l2_of_cluster ++ l2_of_cluster_32) = true)
      by (apply existsb_exists; exists (mn_core m); split; [exact J|apply N.eqb_refl]).
    rewrite X in F. destruct (mn_l2 m) as [l|]; [now exists l|discriminate].
  Qed.
  Lemma cluster_32 m : In m manuals -> In (mn_core m) l2_of_cluster_32 -> mn_32 m = true.
  Proof.
    intros I J. assert (F : forallb (fun m => negb (existsb (N.eqb (mn_core m)) l2_of_cluster_32) || mn_32 m) manuals = true) by (vm_compute; reflexivity).
    rewrite forallb_forall in F. specialize (F _ I). assert (X : existsb (N.eqb (mn_core m)) l2_of_cluster_32 = true)
      by (apply existsb_exists; exists (mn_core m); split; [exact J|apply N.eqb_refl]).
    rewrite X in F. exact F.
  Qed.
  Lemma not_a55_cluster m : In (mn_core m) (l2_of_cluster ++ l2_of_cluster_32) -> ~ is_a55 (mn_core m).
  Proof. intros I [E|E]; rewrite E in I; cbn in I; repeat destruct I as [I|I]; try discriminate; exact I. Qed.

  Lemma caches_told cpu vendor i m : mn_core m <> 0%N -> runs b m -> meant_to_group (b_arm32 b) us ms group midr cpu vendor (mn_core m) ->
    listed_at t cpu i -> In m manuals ->
    (exists g1i g1d, built_as (mn_i m) g1i /\ built_as (mn_d m) g1d /\
       (b_arm32 b = false -> nth_error (at_l1i t) i = Some (Cache g1i i 1) /\ nth_error (at_l1d t) i = Some (Cache g1d i 1)) /\
       (b_arm32 b = true -> told_or_decoded ms cpu false g1i i (nth_error (at_l1i t) i) /\ told_or_decoded ms cpu true g1d i (nth_error (at_l1d t) i))) /\
    (forall n l, cluster_cores_of t i n -> usual_cores (mn_core m) n -> (is_a55 (mn_core m) -> ~ told_exynos d ms t) -> mn_l2 m = Some l ->
       exists x, its_cache (at_l2_of t) (at_l2 t) i x /\ built_as l (ca_geometry x) /\ g_partitions (ca_geometry x) = 1%N) /\
    (forall n other j, In (mn_core m) (l2_of_cluster ++ l2_of_cluster_32) -> cluster_cores_of t i n -> usual_cores (mn_core m) n ->
       us other -> listed_at t other j -> (nth_error (at_l2_of t) i = nth_error (at_l2_of t) j <-> group cpu = group other)) /\
    (forall other j, In (mn_core m) l2_of_core -> (is_a55 (mn_core m) -> ~ told_exynos d ms t) -> us other -> listed_at t other j ->
       nth_error (at_l2_of t) i = nth_error (at_l2_of t) j -> cpu = other).
  Proof.
    intros NZ RU M L I. pose proof (listed_lt _ _ L) as BI. destruct (core_told cpu vendor (mn_core m) i NZ M L) as (c & C & _ & CU).
    destruct (rp_caches _ _ _ _ _ _ R) as (chip & CH & AC & L64 & L32 & _). destruct (ac_decoded _ _ _ _ AC i BI) as (g1i & g1d & g2 & g3 & D).
    pose proof D as (c' & l & k & C' & CK & CL & E). rewrite C in C'. injection C' as <-. cbn [library_decoders ad_caches] in E. rewrite CU in E.
    destruct (rp_designs _ _ _ _ _ _ R i c C) as (_ & _ & vfpv4 & _ & _ & UA & _). cbn [library_decoders ad_uarch] in UA.
    assert (UM : snd (decode_vendor_uarch (b_arm32 b) (c_cpuid c) vfpv4) = mn_core m) by (rewrite <- UA; exact CU).
    destruct (manual_caches b m (c_cpuid c) vfpv4 (cl_core_count l) chip k version _ _ _ _ I RU UM E) as (H1 & H2 & H3).
    assert (CN : forall n, cluster_cores_of t i n -> n = cl_core_count l).
    { intros n (p & k' & l' & P & PK & PL & <-). destruct (same_path _ _ _ _ (ap_consistent _ _ (rp_topology _ _ _ _ _ _ R)) i p i c P
        (ap_own_core _ _ (rp_topology _ _ _ _ _ _ R) i p P) C) as (SP & _). congruence. }
    assert (SE : (is_a55 (mn_core m) -> ~ told_exynos d ms t) -> is_a55 (mn_core m) -> ch_series chip <> series_exynos).
    { intros X Y Z. apply (X Y). exists chip. auto. }
    assert (L2 : forall n ll, cluster_cores_of t i n -> usual_cores (mn_core m) n -> (is_a55 (mn_core m) -> ~ told_exynos d ms t) -> mn_l2 m = Some ll -> built_as ll g2).
    { intros n ll K UC X LL. rewrite (CN n K) in UC. apply (H3 UC); [|exact LL]. destruct (N.eq_dec (mn_core m) 0x00300354) as [Y|Y]; [left; apply (SE X); now left|].
      destruct (N.eq_dec (mn_core m) 0x00300355) as [Y'|Y']; [left; apply (SE X); now right|]. right. auto. }
    assert (THERE : g_size g2 <> 0%N \/ g_size g3 <> 0%N -> nth_error (at_l2_of t) i <> Some None).
    { intros Z X. apply (ac_l2_none _ _ _ _ AC i _ _ _ _ D) in X. destruct X, Z; contradiction. }
    split; [|split; [|split]].
    - exists g1i, g1d. split; [exact H1|]. split; [exact H2|]. split; intros W.
      + destruct (a1_each _ _ _ _ (L64 W) i _ _ _ _ D). auto.
      + destruct L as (p & P & PI). pose proof (t1_each _ _ _ _ _ (L32 W) i p _ _ _ _ P D) as X. now rewrite PI, Nat2N.id in X.
    - intros n ll K UC X LL. specialize (L2 n ll K UC X LL).
      assert (Z : nth_error (at_l2_of t) i <> Some None) by (apply THERE; left; exact (built_nonzero ll g2 m I LL L2)).
      destruct (nth_error (at_l2_of t) i) as [[x|]|] eqn:P2; [|now destruct Z|apply nth_error_None in P2; destruct (ac_lengths _ _ _ _ AC); lia].
      pose proof (proj1 (ac_l2_ranges _ _ _ _ AC) i x P2) as LX. destruct (nth_error (at_l2 t) x) as [y|] eqn:Y; [|apply nth_error_None in Y; lia].
      assert (IC : its_cache (at_l2_of t) (at_l2 t) i y) by (exists x; auto). exists y. split; [exact IC|].
      apply (built_moved _ g2); [|exact L2]. exact (ac_l2_geometry _ _ _ _ AC i _ _ _ _ y D IC).
    - intros n other j CLU K UC UO LO. destruct (cluster_l2_told m I CLU) as (ll & LL). assert (NA := not_a55_cluster m CLU).
      assert (Z : nth_error (at_l2_of t) i <> Some None).
      { apply THERE. left. apply (built_nonzero ll g2 m I LL). apply (L2 n ll K UC); [now intros X|exact LL]. }
      pose proof (ac_l2_sharing _ _ _ _ AC i j _ _ _ _ D (listed_lt _ _ LO) Z) as SH.
      rewrite (l3_decoded true _ _ _ _ _ _ _ _ _ _ _ (cluster_l3 b _ _ _ _ _ _ CLU (fun J => RU (cluster_32 m I J))) E) in SH. rewrite SH. exact (same_cluster_groups cpu other i j L LO).
    - intros other j OWN X UO LO S. specialize (SE X).
      assert (G3 : (g_size g3 =? 0)%N = false) by (exact (l3_decoded false _ _ _ _ _ _ _ _ _ _ _ (core_l3 b _ _ _ _ _ _ OWN SE) E)).
      assert (Z : nth_error (at_l2_of t) i <> Some None) by (apply THERE; right; now apply N.eqb_neq).
      apply (ac_l2_sharing _ _ _ _ AC i j _ _ _ _ D (listed_lt _ _ LO) Z) in S. rewrite G3 in S. subst j.
      destruct L as (p & P & PI), LO as (q & Q & QI). rewrite P in Q. injection Q as <-. lia.
  Qed.
  Lemma neoverse_shared cpu vendor core i other j : core <> 0%N -> meant_to_group (b_arm32 b) us ms group midr cpu vendor core -> In core neoverse ->
    listed_at t cpu i -> listed_at t other j -> group cpu = group other ->
    exists k, nth_error (at_l2_of t) i = Some (Some k) /\ nth_error (at_l2_of t) j = Some (Some k).
  Proof.
    intros NZ M NV L LO GR. pose proof (listed_lt _ _ L) as BI. destruct (core_told cpu vendor core i NZ M L) as (c & C & _ & CU).
    destruct (rp_caches _ _ _ _ _ _ R) as (chip & CH & AC & _). destruct (ac_decoded _ _ _ _ AC i BI) as (g1i & g1d & g2 & g3 & D).
    pose proof D as (c' & l & k & C' & CK & CL & E). rewrite C in C'. injection C' as <-. cbn [library_decoders ad_caches] in E. rewrite CU in E.
    destruct (neoverse_l3 b core (N.of_nat (cl_core_count l)) (c_cpuid c) chip k version NV) as (N1 & N2 & N3).
    pose proof (l3_decoded true _ _ _ _ _ _ _ _ _ _ _ N1 E) as G3.
    assert (G2 : g_size g2 <> 0%N).
    { unfold decode_cache in E. destruct (caches_by_uarch _ _ _ _ _ _ _) as [[[(ri, rd)|] r2] r3]; [|discriminate]. cbn [fst snd] in N3.
      destruct (divided ri) as [gi| |]; cbn [bind] in E; try discriminate. destruct (divided rd) as [gd| |]; cbn [bind] in E; try discriminate.
      apply N.eqb_neq in N3. rewrite N3 in E. destruct (divided r2) as [h2| |] eqn:E2; cbn [bind] in E; try discriminate.
      destruct (if (r_size r3 =? 0)%N then _ else _) as [h3| |]; cbn [bind] in E; try discriminate. injection E as <- <- <- <-.
      unfold divided in E2. destruct (u32 _ =? 0)%N; [discriminate|]. injection E2 as <-. cbn [g_size]. now apply N.eqb_neq. }
    assert (Z : nth_error (at_l2_of t) i <> Some None) by (intros X; apply (ac_l2_none _ _ _ _ AC i _ _ _ _ D) in X; tauto).
    pose proof (ac_l2_sharing _ _ _ _ AC i j _ _ _ _ D (listed_lt _ _ LO) Z) as SH. rewrite G3 in SH.
    assert (S : nth_error (at_l2_of t) i = nth_error (at_l2_of t) j) by (apply SH, (same_cluster_groups cpu other i j L LO), GR).
    destruct (nth_error (at_l2_of t) i) as [[x|]|] eqn:P2; [|now destruct Z|apply nth_error_None in P2; destruct (ac_lengths _ _ _ _ AC); lia].
    exists x. auto.
  Qed.
End TABLES.

Lemma meant_group_64 us ms group midr cpu v vendor core : core_meant false v (midr cpu) vendor core -> meant_to_group false us ms group midr cpu vendor core.
Proof. intros M v' other _ _ _. exact (meant_fields v v' _ _ _ _ (fun _ _ => eq_refl) M). Qed.

Lemma cpus_told b char_signed android garbage default sorter calloc_ok chipset_of fs max possible present ms version group midr o t :
  b_arm32 b = false -> arm_files_say false default fs max possible present ms -> all_online (arm_usable max possible present) ms version ->
  chipset_answers chipset_of ms -> sorts (cmp_arm_linux_processor false) sorter -> groups_say (arm_usable max possible present) fs group ->
  midrs_given (arm_usable max possible present) ms group midr ->
  arm_linux_init char_signed false android garbage default sorter calloc_ok (library_decoders b chipset_of) fs = Ok o -> ao_published o = Some t ->
  forall cpu v vendor core, arm_usable max possible present cpu -> core <> 0%N -> core_meant false v (midr cpu) vendor core ->
  cpu_told (arm_usable max possible present) group (told_exynos (library_decoders b chipset_of) ms t) t cpu vendor core.
Proof.
  intros B FS ON CA SO G MG E P cpu v vendor core U NZ M. pose proof (library_answers b chipset_of ms CA) as DA.
  pose proof (init_reports _ _ _ _ _ _ _ _ _ _ _ _ _ _ FS ON DA SO o E) as R. rewrite P in R.
  destruct (init_groups _ _ _ _ _ _ _ _ _ _ _ _ _ _ FS ON DA SO group o t G E P) as (CF & MF). specialize (MF midr MG). rewrite <- B in R. constructor.
  - destruct (usable_listed _ _ _ _ _ _ R cpu U) as (i & L). exists i. split; [exact L|]. intros j J. exact (listed_twice _ _ _ _ _ _ R cpu j i J L).
  - intros i L. refine (core_told _ _ _ _ _ _ _ _ R CF MF cpu vendor core i NZ _ L). rewrite B. exact (meant_group_64 _ _ _ _ _ v _ _ M).
  - intros i m L I <-.
    destruct (caches_told _ _ _ _ _ _ _ _ R CF MF cpu vendor i m NZ (runs_64 b m _ (meant_64 _ _ _ _ M) I eq_refl)) as ((g1i & g1d & H1 & H2 & H3 & _) & H4 & H5 & H6);
      [rewrite B; exact (meant_group_64 _ _ _ _ _ v _ _ M)|exact L|exact I|].
    constructor.
    + destruct (H3 B). exists g1i, g1d. auto.
    + exact H4.
    + intros n other j J. apply (H5 n other j). apply in_or_app. now left.
    + exact H6.
Qed.

Lemma neoverse_cpus_share b char_signed android garbage default sorter calloc_ok chipset_of fs max possible present ms version group midr o t :
  b_arm32 b = false -> arm_files_say false default fs max possible present ms -> all_online (arm_usable max possible present) ms version ->
  chipset_answers chipset_of ms -> sorts (cmp_arm_linux_processor false) sorter -> groups_say (arm_usable max possible present) fs group ->
  midrs_given (arm_usable max possible present) ms group midr ->
  arm_linux_init char_signed false android garbage default sorter calloc_ok (library_decoders b chipset_of) fs = Ok o -> ao_published o = Some t ->
  forall cpu other v vendor core i j, core_meant false v (midr cpu) vendor core -> In core neoverse -> group cpu = group other ->
  listed_at t cpu i -> listed_at t other j ->
  exists k, nth_error (at_l2_of t) i = Some (Some k) /\ nth_error (at_l2_of t) j = Some (Some k).
Proof.
  intros B FS ON CA SO G MG E P cpu other v vendor core i j M NV GR L LO. pose proof (library_answers b chipset_of ms CA) as DA.
  pose proof (init_reports _ _ _ _ _ _ _ _ _ _ _ _ _ _ FS ON DA SO o E) as R. rewrite P in R.
  destruct (init_groups _ _ _ _ _ _ _ _ _ _ _ _ _ _ FS ON DA SO group o t G E P) as (CF & MF). specialize (MF midr MG).
  assert (NZ : core <> 0%N) by (intros ->; cbn in NV; repeat destruct NV as [NV|NV]; try discriminate; exact NV).
  rewrite <- B in R. refine (neoverse_shared _ _ _ _ _ _ _ _ R CF MF cpu vendor core i other j NZ _ NV L LO GR). rewrite B. exact (meant_group_64 _ _ _ _ _ v _ _ M).
Qed.

(** ** 32-bit programs *)
Lemma cpus_told_32 b char_signed android garbage default sorter calloc_ok chipset_of fs max possible present ms version group midr o t :
  b_arm32 b = true -> arm_files_say true default fs max possible present ms -> all_online (arm_usable max possible present) ms version ->
  chipset_answers chipset_of ms -> sorts (cmp_arm_linux_processor true) sorter -> groups_say (arm_usable max possible present) fs group ->
  midrs_given (arm_usable max possible present) ms group midr ->
  arm_linux_init char_signed true android garbage default sorter calloc_ok (library_decoders b chipset_of) fs = Ok o -> ao_published o = Some t ->
  forall cpu vendor core, arm_usable max possible present cpu -> core <> 0%N ->
  meant_to_group true (arm_usable max possible present) ms group midr cpu vendor core ->
  cpu_told_32 (b_arch_8a b) (arm_usable max possible present) ms group (told_exynos (library_decoders b chipset_of) ms t) t cpu vendor core.
Proof.
  intros B FS ON CA SO G MG E P cpu vendor core U NZ M. pose proof (library_answers b chipset_of ms CA) as DA.
  pose proof (init_reports _ _ _ _ _ _ _ _ _ _ _ _ _ _ FS ON DA SO o E) as R. rewrite P in R.
  destruct (init_groups _ _ _ _ _ _ _ _ _ _ _ _ _ _ FS ON DA SO group o t G E P) as (CF & MF). specialize (MF midr MG). rewrite <- B in R, M. constructor.
  - destruct (usable_listed _ _ _ _ _ _ R cpu U) as (i & L). exists i. split; [exact L|]. intros j J. exact (listed_twice _ _ _ _ _ _ R cpu j i J L).
  - intros i L. exact (core_told _ _ _ _ _ _ _ _ R CF MF cpu vendor core i NZ M L).
  - intros i m L I <- A8.
    destruct (caches_told _ _ _ _ _ _ _ _ R CF MF cpu vendor i m NZ (fun W => conj B (A8 W)) M L I) as ((g1i & g1d & H1 & H2 & _ & H3) & H4 & H5 & H6).
    destruct (H3 B) as ((TI & DI) & (TD & DD)). constructor.
    + intros []; [exact TD|exact TI].
    + intros N. exists g1i. split; [exact (DI N)|exact H1].
    + intros N. exists g1d. split; [exact (DD N)|exact H2].
    + exact H4.
    + exact H5.
    + exact H6.
Qed.

Lemma first_level_told char_signed android garbage default sorter calloc_ok d fs max possible present ms version o t :
  arm_files_say true default fs max possible present ms -> all_online (arm_usable max possible present) ms version ->
  decoders_answer d ms -> sorts (cmp_arm_linux_processor true) sorter ->
  arm_linux_init char_signed true android garbage default sorter calloc_ok d fs = Ok o -> ao_published o = Some t ->
  forall cpu i (data : bool), listed_at t cpu i ->
  (tells_l1 ms cpu data -> nth_error (if data then at_l1d t else at_l1i t) i = Some (Cache (told_l1 ms cpu data) 0 0)) /\
  (~ tells_l1 ms cpu data -> exists g, nth_error (if data then at_l1d t else at_l1i t) i = Some (Cache g i 1)).
Proof.
  intros FS ON DA SO E P cpu i data (p & Q & PI). pose proof (init_reports _ _ _ _ _ _ _ _ _ _ _ _ _ _ FS ON DA SO o E) as R. rewrite P in R.
  destruct (rp_caches _ _ _ _ _ _ R) as (chip & _ & AC & _ & L & _). specialize (L eq_refl).
  destruct (ac_decoded _ _ _ _ AC i (nth_error_some_lt _ _ _ _ Q)) as (g1i & g1d & g2 & g3 & D).
  destruct (t1_each _ _ _ _ _ L i p _ _ _ _ Q D) as ((A1 & A2) & (A3 & A4)). rewrite PI, Nat2N.id in *.
  destruct data; split; auto; intros N; eexists; [exact (A4 N)|exact (A2 N)].
Qed.
