(** Proofs about manuals of ARM cores: the caches (C39). *)
From Verif Require Import Base BaseProofs TopologySpec ArmMidrModel ArmUarchModel ArmClusterMidrModel ArmCacheModel ArmCacheSpec ArmCacheProofs ArmMidrSpec ArmMidrProofs ArmManualSpec.
Open Scope N_scope.

Definition raw_built (configurations : list (N * N * N)) (r : raw) : bool :=
  existsb (fun c => let '(size, ways, line) := c in (r_size r =? size * 1024) && (r_ways r =? ways) && (r_line r =? line) && (r_size r / u32 (ways * line) * ways * line =? size * 1024)) configurations.
Lemma raw_built_ok l r g : raw_built l r = true -> divided r = Ok g -> built_as l g.
Proof.
  unfold raw_built, divided. rewrite existsb_exists. intros (((size, ways), line) & I & E) D. rewrite !andb_true_iff, !N.eqb_eq in E. destruct E as (((E1 & E2) & E3) & E4).
  destruct (_ =? 0); [discriminate|]. injection D as <-. exists size, ways, line. cbn [g_size g_associativity g_line_size g_sets]. rewrite E2, E3. repeat split; assumption.
Qed.
Definition four_built (m : manual) (l2_too : bool) (f : four) : bool :=
  match f with
  | (Some (i, d), l2, _) =>
      raw_built (mn_i m) i && raw_built (mn_d m) d &&
      (negb l2_too || match mn_l2 m with Some l => raw_built l l2 && negb (r_size l2 =? 0) | None => true end)
  | _ => false
  end.
Lemma four_built_ok m l2_too b uarch cores midr chip cluster_id version i d l2 l3 :
  four_built m l2_too (caches_by_uarch b uarch (N.of_nat cores) midr chip cluster_id version) = true ->
  decode_cache b uarch cores midr chip cluster_id version = Ok (i, d, l2, l3) ->
  built_as (mn_i m) i /\ built_as (mn_d m) d /\ (l2_too = true -> forall l, mn_l2 m = Some l -> built_as l l2).
Proof.
  unfold decode_cache. destruct (caches_by_uarch _ _ _ _ _ _ _) as [[[(ri, rd)|] r2] r3]; [|discriminate]. cbn [four_built]. rewrite !andb_true_iff. intros ((H1 & H2) & H3).
  destruct (divided ri) as [gi| |] eqn:Ei; cbn [bind]; try discriminate. destruct (divided rd) as [gd| |] eqn:Ed; cbn [bind]; try discriminate.
  destruct (N.eqb_spec (r_size r2) 0) as [Z|Z].
  - intros E. injection E as <- <- <- <-. split; [now apply (raw_built_ok _ ri)|]. split; [now apply (raw_built_ok _ rd)|]. intros -> l L. rewrite L in H3. cbn [negb orb] in H3.
    rewrite andb_false_r in H3. discriminate.
  - destruct (divided r2) as [g2| |] eqn:E2; cbn [bind]; try discriminate. destruct (if r_size r3 =? 0 then _ else _) as [g3| |] eqn:E3; cbn [bind]; try discriminate.
    intros E. injection E as <- <- <- <-. split; [now apply (raw_built_ok _ ri)|]. split; [now apply (raw_built_ok _ rd)|]. intros -> l L. rewrite L in H3. cbn [negb orb] in H3.
    rewrite andb_true_r in H3. now apply (raw_built_ok _ r2).
Qed.

(** A 32-bit core runs no program for ARMv8. *)
Definition runs (b : build) (m : manual) : Prop := mn_32 m = true -> b_arm32 b = true /\ b_arch_8a b = false.
Definition manual_of (core : N) : manual := match find (fun m => mn_core m =? core) manuals with Some m => m | None => Manual 0 false [] [] None end.
Ltac splits := repeat match goal with |- context [if ?c then _ else _] => destruct c end.
Ltac leaf := splits; vm_compute; reflexivity.
Lemma a53_built midr chip cluster_id : four_built (manual_of u_cortex_a53) true (a53_caches midr chip cluster_id) = true.
Proof. unfold a53_caches, a53_silver_l2, a53_sizes. cbn [switch]. cbv zeta. leaf. Qed.
Lemma a55_built midr chip : let l2 := negb (ch_series chip =? series_exynos) || midr_is_qualcomm_cortex_a55_silver midr in
  four_built (manual_of u_cortex_a55) l2 (a55_caches midr chip) = true /\ four_built (manual_of u_cortex_a55r0) l2 (a55_caches midr chip) = true.
Proof. cbv zeta. unfold a55_caches. cbv zeta. destruct (ch_series chip =? series_exynos), (midr_is_qualcomm_cortex_a55_silver midr); cbn [negb orb]; split; leaf. Qed.
Lemma a72_built chip : four_built (manual_of u_cortex_a72) true (a72_caches chip) = true.
Proof. unfold a72_caches. leaf. Qed.
Lemma a73_built midr chip : four_built (manual_of u_cortex_a73) true (a73_caches midr chip) = true.
Proof. unfold a73_caches. cbn [switch]. leaf. Qed.
Lemma a75_built chip : four_built (manual_of u_cortex_a75) true (a75_caches chip) = true.
Proof. unfold a75_caches. leaf. Qed.
Lemma a76_built chip : four_built (manual_of u_cortex_a76) true (a76_caches chip) = true.
Proof. unfold a76_caches. leaf. Qed.
Lemma neoverse_built uarch midr : In uarch [u_neoverse_n1; u_neoverse_v1; u_neoverse_n2; u_neoverse_v2] -> four_built (manual_of uarch) true (neoverse_caches uarch midr) = true.
Proof. intros I. cbn [In] in I. unfold neoverse_caches. destruct I as [<-|[<-|[<-|[<-|[]]]]]; destruct (midr_is_ampere_altra midr); vm_compute; reflexivity. Qed.
Lemma kryo_built midr : four_built (manual_of u_kryo) true (kryo_caches midr) = true.
Proof. unfold kryo_caches. leaf. Qed.
Lemma built_weaker m l2 f : four_built m true f = true -> four_built m l2 f = true.
Proof. unfold four_built. destruct f as [[[(i, d)|] r2] r3]; [|discriminate]. destruct l2; [easy|]. cbn [negb orb]. rewrite !andb_true_iff. tauto. Qed.
Ltac chosen :=
  cbv -[a53_caches a55_caches a72_caches a73_caches a75_caches a76_caches neoverse_caches kryo_caches generic_caches xscale_caches with_l2 with_l3 plain inclusive kb mb u32 N.mul
        ch_vendor chipset_vendor_samsung four_built].
Lemma in_manuals m : In m manuals -> m = manual_of (mn_core m) /\ In (mn_core m) (map mn_core manuals).
Proof. intros I. split; [|now apply in_map]. unfold manuals in I. cbn [In] in I. repeat (destruct I as [<-|I]; [reflexivity|]). destruct I. Qed.
(** Whether the second level is built as the manual says. *)
Definition l2_fits (m : manual) (cores midr : N) (chip : chipset) : bool :=
  if (mn_core m =? u_cortex_a55) || (mn_core m =? u_cortex_a55r0) then negb (ch_series chip =? series_exynos) || midr_is_qualcomm_cortex_a55_silver midr
  else if mn_core m =? u_scorpion then (cores =? 1) || (cores =? 2)
  else if mn_core m =? u_krait then (cores =? 2) || (cores =? 4)
  else (cores =? 1) || (cores =? 2) || (cores =? 4).
Lemma all_levels b m c midr chip cluster_id version : In m manuals -> runs b m ->
  four_built m (l2_fits m c midr chip) (caches_by_uarch b (mn_core m) c midr chip cluster_id version) = true.
Proof.
  intros I R. destruct b as [b1 b2 b3 b4]. unfold runs in R. cbn [b_arm32 b_arch_8a] in R. unfold l2_fits.
  unfold manuals in I. cbn [In] in I. repeat (destruct I as [<-|I]; [|]); [..|destruct I]; cbn [mn_32 mn_core] in *;
    try (destruct (R eq_refl) as (-> & ->); clear R; destruct b2); try (destruct b1, b2, b3, b4).
  all: match goal with |- four_built ?m ?l (caches_by_uarch ?b ?u ?c ?midr ?chip ?i ?v) = true =>
     let l2 := fresh "l2" in let E := fresh "E" in remember l as l2 eqn:E; cbn [N.eqb Pos.eqb u_cortex_a55 u_cortex_a55r0 u_scorpion u_krait orb] in E;
     let H := fresh in let f := fresh "f" in remember (caches_by_uarch b u c midr chip i v) as f eqn:H; revert H; chosen; intros -> end.
  all: lazymatch goal with
    | |- context [a53_caches] => exact (built_weaker _ _ _ (a53_built _ _ _))
    | |- context [a55_caches] => rewrite E; first [exact (proj1 (a55_built _ _))|exact (proj2 (a55_built _ _))]
    | |- context [a72_caches] => exact (built_weaker _ _ _ (a72_built _))
    | |- context [a73_caches] => exact (built_weaker _ _ _ (a73_built _ _))
    | |- context [a75_caches] => exact (built_weaker _ _ _ (a75_built _))
    | |- context [a76_caches] => exact (built_weaker _ _ _ (a76_built _))
    | |- context [kryo_caches] => exact (built_weaker _ _ _ (kryo_built _))
    | |- context [neoverse_caches ?u ?m] => apply built_weaker; apply (neoverse_built u m); cbn [In]; tauto
    | |- context [plain (u32 ?x) ?w ?l] =>
        repeat match type of E with context [?c =? ?n] => let Q := fresh in destruct (N.eqb_spec c n) as [Q|Q]; [rewrite Q; apply built_weaker; vm_compute; reflexivity|] end;
        cbn [orb] in E; rewrite E; generalize (plain (u32 x) w l); intros; vm_compute; reflexivity
    | |- context [inclusive (u32 ?x) ?w ?l] =>
        repeat match type of E with context [?c =? ?n] => let Q := fresh in destruct (N.eqb_spec c n) as [Q|Q]; [rewrite Q; apply built_weaker; vm_compute; reflexivity|] end;
        cbn [orb] in E; rewrite E; generalize (inclusive (u32 x) w l); intros; vm_compute; reflexivity
    | |- context [if ?c then kb 512 else kb 256] => destruct c; apply built_weaker; vm_compute; reflexivity
    | |- _ => apply built_weaker; vm_compute; reflexivity
    end.
Qed.
Lemma manual_caches b m midr vfpv4 cores chip cluster_id version i d l2 l3 : In m manuals -> runs b m ->
  snd (decode_vendor_uarch (b_arm32 b) midr vfpv4) = mn_core m ->
  decode_cache b (mn_core m) cores midr chip cluster_id version = Ok (i, d, l2, l3) ->
  built_as (mn_i m) i /\ built_as (mn_d m) d /\
  (usual_cores (mn_core m) cores -> (ch_series chip <> series_exynos \/ (mn_core m <> 0x00300354 /\ mn_core m <> 0x00300355)) -> forall l, mn_l2 m = Some l -> built_as l l2).
Proof.
  intros I R _ E. destruct (four_built_ok _ _ _ _ _ _ _ _ _ _ _ _ _ (all_levels b m (N.of_nat cores) midr chip cluster_id version I R) E) as (H1 & H2 & H3).
  split; [exact H1|]. split; [exact H2|]. intros U X l L. apply H3; [|exact L]. unfold l2_fits, usual_cores in *.
  destruct (N.eqb_spec (mn_core m) u_cortex_a55) as [Q|Q]; [|destruct (N.eqb_spec (mn_core m) u_cortex_a55r0) as [Q'|Q']]; cbn [orb].
  - destruct X as [X|(_ & X)]; [|now destruct X]. apply N.eqb_neq in X. now rewrite X.
  - destruct X as [X|(X & _)]; [|now destruct X]. apply N.eqb_neq in X. now rewrite X.
  - change 0x00400100 with u_scorpion in U. change 0x00400101 with u_krait in U. destruct (mn_core m =? u_scorpion); [|destruct (mn_core m =? u_krait)]; cbn [In] in U;
      repeat destruct U as [<-|U]; try reflexivity; destruct U.
Qed.

(** ** Sets *)
Definition sets_fine (r : raw) : Prop := r_size r = 0 \/ power_of_two (r_size r / u32 (r_ways r * r_line r)).
Definition power_check (n : N) : bool := n =? 2 ^ N.log2 n.
Lemma sets_checked r : ((r_size r =? 0) || power_check (r_size r / u32 (r_ways r * r_line r)))%bool = true -> sets_fine r.
Proof. unfold power_check. rewrite orb_true_iff, !N.eqb_eq. intros [H|H]; [now left|right]. now exists (N.log2 (r_size r / u32 (r_ways r * r_line r))). Qed.
Definition sets_of (f : four) : Prop := match f with (Some (i, d), l2, l3) => sets_fine i /\ sets_fine d /\ sets_fine l2 /\ sets_fine l3 | _ => True end.
Lemma powers k : k < 12 -> In (2 ^ k) [1; 2; 4; 8; 16; 32; 64; 128; 256; 512; 1024; 2048].
Proof.
  intros H. assert (C : k = 0 \/ k = 1 \/ k = 2 \/ k = 3 \/ k = 4 \/ k = 5 \/ k = 6 \/ k = 7 \/ k = 8 \/ k = 9 \/ k = 10 \/ k = 11) by lia.
  repeat destruct C as [->|C]; subst; cbn; tauto.
Qed.
Ltac set_leaf := repeat (split; [apply sets_checked; vm_compute; reflexivity|]); apply sets_checked; vm_compute; reflexivity.
Lemma all_sets b uarch c midr chip cluster_id version : In c [1; 2; 4; 8; 16; 32; 64; 128; 256; 512; 1024; 2048] -> uarch <> u_thunderx ->
  sets_of (caches_by_uarch b uarch c midr chip cluster_id version).
Proof.
  intros P T. unfold caches_by_uarch. cbv zeta. apply switch_all.
  - intros a H. rewrite !in_app_iff in H. destruct H as [H|[H|[H|[H|[H|H]]]]].
    + destruct (_ && _)%bool in H; [|destruct H]. cbn [In] in H. destruct H as [H|[H|[]]]; apply pair_equal_spec in H; destruct H as (<- & <-); [|set_leaf].
      unfold xscale_caches. apply switch_all; [|exact I]. intros a K. cbn [In] in K. repeat (destruct K as [K|K]; [apply pair_equal_spec in K; destruct K as (_ & <-); set_leaf|]). destruct K.
    + destruct (_ && _)%bool in H; [|destruct H]. cbn [In] in H.
      repeat (destruct H as [H|H]; [apply pair_equal_spec in H; destruct H as (<- & <-); cbn [In] in P; splits; repeat destruct P as [<-|P]; try (now destruct P); set_leaf|]). destruct H.
    + cbn [In] in H. destruct H as [H|H]; [apply pair_equal_spec in H; destruct H as (<- & <-); set_leaf|].
      destruct H as [H|H].
      { apply pair_equal_spec in H; destruct H as (<- & <-). unfold a53_caches, a53_silver_l2, a53_sizes. cbn [switch]. cbv zeta. splits; set_leaf. }
      do 2 (destruct H as [H|H]; [apply pair_equal_spec in H; destruct H as (<- & <-); unfold a55_caches; cbv zeta; splits; set_leaf|]).
      destruct H as [H|H]; [apply pair_equal_spec in H; destruct H as (<- & <-); cbn [In] in P; repeat destruct P as [<-|P]; try (now destruct P); set_leaf|].
      destruct H as [H|H]; [apply pair_equal_spec in H; destruct H as (<- & <-); set_leaf|].
      destruct H as [H|H]; [apply pair_equal_spec in H; destruct H as (<- & <-); unfold a72_caches; splits; set_leaf|].
      destruct H as [H|H]; [apply pair_equal_spec in H; destruct H as (<- & <-); unfold a73_caches; cbn [switch]; splits; set_leaf|].
      destruct H as [H|H]; [apply pair_equal_spec in H; destruct H as (<- & <-); unfold a75_caches; splits; set_leaf|].
      destruct H as [H|H]; [apply pair_equal_spec in H; destruct H as (<- & <-); unfold a76_caches; splits; set_leaf|].
      destruct H as [H|H]; [apply pair_equal_spec in H; destruct H as (<- & <-); set_leaf|].
      repeat (destruct H as [H|H]; [apply pair_equal_spec in H; destruct H as (<- & <-); unfold neoverse_caches; splits; set_leaf|]). destruct H.
    + destruct (_ && _)%bool in H; [|destruct H]. cbn [In] in H.
      repeat (destruct H as [H|H]; [apply pair_equal_spec in H; destruct H as (<- & <-); cbn [In] in P; repeat destruct P as [<-|P]; try (now destruct P); set_leaf|]). destruct H.
    + cbn [In] in H. destruct H as [H|H]; [apply pair_equal_spec in H; destruct H as (<- & <-); unfold kryo_caches; splits; set_leaf|].
      repeat (destruct H as [H|H]; [apply pair_equal_spec in H; destruct H as (<- & <-); set_leaf|]). destruct H.
    + destruct (_ && _)%bool in H; [|destruct H]. cbn [In] in H.
      destruct H as [H|[H|[]]]; apply pair_equal_spec in H; destruct H as (<- & <-); [now destruct T|]. cbn [In] in P. repeat destruct P as [<-|P]; try (now destruct P); set_leaf.
  - unfold generic_caches. splits; cbn [In] in P; repeat destruct P as [<-|P]; try (now destruct P); set_leaf.
Qed.
Lemma divided_sets r g : divided r = Ok g -> sets_fine r -> g_size g <> 0 -> power_of_two (g_sets g).
Proof. unfold divided. destruct (_ =? 0); [discriminate|]. intros E. injection E as <-. cbn [g_size g_sets]. intros [H|H]; [contradiction|intros _; exact H]. Qed.
Lemma sets_powers b midr vfpv4 cores chip cluster_id version i d l2 l3 :
  let uarch := snd (decode_vendor_uarch (b_arm32 b) midr vfpv4) in
  decode_cache b uarch cores midr chip cluster_id version = Ok (i, d, l2, l3) ->
  (exists k, k < 12 /\ N.of_nat cores = 2 ^ k) -> uarch <> u_thunderx ->
  forall g, In g [i; d; l2; l3] -> g_size g <> 0 -> power_of_two (g_sets g).
Proof.
  cbv zeta. set (uarch := snd _). intros E (k & K & C) T. pose proof E as E0. assert (S0 := all_sets b uarch (N.of_nat cores) midr chip cluster_id version). rewrite C in S0. specialize (S0 (powers k K) T).
  unfold decode_cache in E. rewrite C in E. destruct (caches_by_uarch _ _ _ _ _ _ _) as [[[(ri, rd)|] r2] r3]; [|discriminate]. destruct S0 as (S1 & S2 & S3 & S4).
  destruct (divided ri) as [gi| |] eqn:Ei; cbn [bind] in E; try discriminate. destruct (divided rd) as [gd| |] eqn:Ed; cbn [bind] in E; try discriminate.
  assert (SL : sound_or_absent l3).
  { destruct (reported_caches b midr vfpv4 cores chip cluster_id version) as (i' & d' & l2' & l3' & E' & _ & _ & _ & SL & _). fold uarch in E'. rewrite E0 in E'. congruence. }
  assert (L3 : exists b2 b3, (b2 = true -> r_size r2 = 0) /\ (b3 = true -> r_size r3 = 0 \/ b2 = true) /\
     (if b2 : bool then l2 = undivided r2 else divided r2 = Ok l2) /\ (if b3 : bool then l3 = undivided r3 else divided r3 = Ok l3) /\ i = gi /\ d = gd).
  { destruct (N.eqb_spec (r_size r2) 0) as [Z|Z].
    - injection E as <- <- <- <-. exists true, true. repeat split; auto.
    - destruct (divided r2) as [g2| |] eqn:E2; cbn [bind] in E; try discriminate. destruct (N.eqb_spec (r_size r3) 0) as [Z3|Z3].
      + cbn [bind] in E. injection E as <- <- <- <-. exists false, true. repeat split; auto; discriminate.
      + destruct (divided r3) as [g3| |] eqn:E3; cbn [bind] in E; try discriminate. injection E as <- <- <- <-. exists false, false. repeat split; auto; discriminate. }
  destruct L3 as (b2 & b3 & Z2 & Z3 & D2 & D3 & -> & ->). intros g I Z. cbn [In] in I. destruct I as [<-|[<-|[<-|[<-|[]]]]].
  - now apply (divided_sets ri).
  - now apply (divided_sets rd).
  - destruct b2; [subst l2; now destruct (Z (Z2 eq_refl))|now apply (divided_sets r2)].
  - destruct b3; [|now apply (divided_sets r3)]. exfalso. destruct SL as [SL|SL]; [now apply Z|]. apply sc_sets in SL. rewrite D3 in SL. cbn [undivided g_sets] in SL. lia.
Qed.
Lemma three_cores_refuted : ~ (forall b midr vfpv4 cores chip cluster_id version i d l2 l3,
  let uarch := snd (decode_vendor_uarch (b_arm32 b) midr vfpv4) in
  decode_cache b uarch cores midr chip cluster_id version = Ok (i, d, l2, l3) -> (0 < cores)%nat ->
  forall g, In g [i; d; l2; l3] -> g_size g <> 0 -> power_of_two (g_sets g)).
Proof.
  intros H. set (b := Build false false true false). destruct (decode_cache b u_cortex_a57 3 0x411FD072 (Chipset 0 0 0) 0 8) as [[[[i d] l2] l3]| |] eqn:E; [|vm_compute in E; discriminate..].
  specialize (H b 0x411FD072 true 3%nat (Chipset 0 0 0) 0%nat 8 i d l2 l3 E ltac:(lia) l2 ltac:(cbn; tauto)).
  vm_compute in E. injection E as _ _ <- _. destruct H as (k & K); [discriminate|]. cbn [g_sets] in K.
  destruct (N.le_gt_cases k 10) as [L|L].
  - assert (P : 2 ^ k <= 2 ^ 10) by (apply N.pow_le_mono_r; lia). change (2 ^ 10) with 1024 in P. rewrite <- K in P. lia.
  - assert (P : 2 ^ 11 <= 2 ^ k) by (apply N.pow_le_mono_r; lia). change (2 ^ 11) with 2048 in P. rewrite <- K in P. lia.
Qed.
Lemma thunderx_sets_refuted : exists i d l2 l3, snd (decode_vendor_uarch false 0x431F0A11 true) = u_thunderx /\
  decode_cache (Build false false true false) u_thunderx 1 0x431F0A11 (Chipset 0 0 0) 0 8 = Ok (i, d, l2, l3) /\ g_sets i = 312.
Proof. do 4 eexists. split; [vm_compute; reflexivity|]. split; [vm_compute; reflexivity|reflexivity]. Qed.
Lemma a55_exynos_refuted : exists i d l2 l3, snd (decode_vendor_uarch false 0x410FD050 true) = 0x00300354 /\
  decode_cache (Build false false true true) 0x00300354 4 0x410FD050 (Chipset 3 series_exynos 9810) 0 8 = Ok (i, d, l2, l3) /\
  exists m l, In m manuals /\ mn_core m = 0x00300354 /\ mn_l2 m = Some l /\ ~ built_as l l2.
Proof.
  do 4 eexists. split; [vm_compute; reflexivity|]. split; [vm_compute; reflexivity|]. exists (manual_of 0x00300354). eexists.
  split; [vm_compute; tauto|]. split; [reflexivity|]. split; [vm_compute; reflexivity|]. intros (size & ways & line & I & S0 & _).
  cbn [In g_size] in *. repeat (destruct I as [I|I]; [injection I as <- <- <-; discriminate S0|]). destruct I.
Qed.

(** The parts of the Kryo of Snapdragon 820 and 821, and their second level in KB. *)
Lemma kryo_sizes b midr cores chip cluster_id version part kb : In (part, kb) kryo_l2 -> design midr = (0x51, part) -> field_of Architecture midr = 0xF ->
  exists i d l2 l3, decode_cache b u_kryo cores midr chip cluster_id version = Ok (i, d, l2, l3) /\ g_size l2 = kb * 1024.
Proof.
  intros I D A. assert (E : caches_by_uarch b u_kryo (N.of_nat cores) midr chip cluster_id version = kryo_caches midr).
  { unfold caches_by_uarch. destruct b as [[] [] [] []]; reflexivity. }
  apply design_eq in D. destruct D as (D1 & D2). unfold decode_cache. rewrite E. unfold kryo_caches, midr_is_kryo_silver. rewrite land_core, A, D1, D2.
  cbn in I. destruct I as [I|[I|[I|[]]]]; injection I as <- <-; do 4 eexists; (split; [vm_compute; reflexivity|reflexivity]).
Qed.
