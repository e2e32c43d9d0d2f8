(** Proofs about src/arm/uarch.c and src/arm/cache.c. *)
From Verif Require Import Base BaseProofs Masks TopologySpec ArmMidrModel ArmMidrProofs ArmUarchModel ArmClusterMidrModel ArmCacheModel ArmCacheSpec ArmMidrSpec.
Open Scope N_scope.

(** ** Switches *)
Lemma switch_cases {A} (labels : list (N * A)) x default :
  In (x, switch labels x default) labels \/ switch labels x default = default.
Proof.
  induction labels as [|(l, a) r IH]; [now right|]. cbn [switch]. destruct (N.eqb_spec x l) as [->|]; [left; now left|].
  destruct IH as [IH| ->]; [left; now right|now right].
Qed.

Lemma switch_all {A} (labels : list (N * A)) x default (P : A -> Prop) :
  (forall a, In (x, a) labels -> P a) -> P default -> P (switch labels x default).
Proof. intros H1 H2. destruct (switch_cases labels x default) as [H| ->]; auto. Qed.

(** ** Vendors and microarchitectures *)

Lemma fields midr : midr_get_part midr = field_of PartNumber midr /\ midr_get_implementer midr = field_of Implementer midr.
Proof. destruct all_covers as (C1 & C2 & C3 & C4 & C5). split; [apply (get_exact _ PartNumber _ C4)|apply (get_exact _ Implementer _ C1)]. Qed.

Lemma decode_fields arm32 a b vfpv4 : design a = design b -> field_of Variant a = field_of Variant b ->
  decode_vendor_uarch arm32 a vfpv4 = decode_vendor_uarch arm32 b vfpv4.
Proof.
  intros H V. apply design_eq in H. destruct H as (H1 & H2). destruct (fields a) as (A1 & A2), (fields b) as (B1 & B2).
  destruct all_covers as (_ & C2 & _ & C4 & _).
  assert (X : N.land a variant_mask = N.land b variant_mask) by now rewrite !(land_field _ Variant _ C2), V.
  assert (Y : N.land a (N.lor variant_mask part_mask) = N.land b (N.lor variant_mask part_mask)).
  { rewrite !land_apart by reflexivity. now rewrite X, !(land_field _ PartNumber _ C4), <- H2. }
  unfold decode_vendor_uarch, arm_uarchs, samsung. rewrite A1, A2, B1, B2, X, Y, <- H1, <- H2. reflexivity.
Qed.

(** All results, by implementer. *)
Definition outcomes (arm32 : bool) : list (N * N) :=
  [(0, u_unknown)] ++
  map (pair v_arm)
    (u_unknown :: (if arm32 then [u_arm7; u_arm9; u_arm11; u_cortex_a5; u_cortex_a7; u_cortex_a8; u_cortex_a9; u_cortex_a12; u_cortex_a15; u_cortex_a17]
      else [u_neoverse_e1]) ++
     [u_cortex_a32; u_cortex_a35; u_cortex_a53; u_cortex_a55r0; u_cortex_a55; u_cortex_a57; u_cortex_a65; u_cortex_a72; u_cortex_a73; u_cortex_a75;
      u_cortex_a76; u_cortex_a77; u_cortex_a78; u_neoverse_n1; u_neoverse_v1; u_neoverse_n2; u_neoverse_v2; u_cortex_x1; u_cortex_x2; u_cortex_x3;
      u_cortex_a510; u_cortex_a710; u_cortex_a715]) ++
  map (pair v_broadcom) [u_unknown; u_brahma_b15; u_brahma_b53] ++
  map (pair v_nvidia) [u_unknown; u_denver; u_denver2; u_carmel] ++
  map (pair v_apm) [u_unknown; u_xgene] ++
  map (pair v_huawei) (u_unknown :: if arm32 then [] else [u_taishan_v110]) ++
  map (pair v_qualcomm) (u_unknown :: u_kryo :: if arm32 then [u_scorpion; u_krait] else [u_oryon; u_falkor; u_saphira]) ++
  map (pair v_samsung) [u_unknown; u_exynos_m1; u_exynos_m2; u_exynos_m3; u_exynos_m4; u_exynos_m5] ++
  (if arm32 then [(v_intel, u_unknown); (v_intel, u_xscale); (v_marvell, u_unknown); (v_marvell, u_pj4)]
   else [(v_cavium, u_unknown); (v_cavium, u_thunderx); (v_cavium, u_thunderx2)]).

Ltac one_of_them := repeat (left; reflexivity) || (repeat (first [left; reflexivity|right])).
Ltac labels_in H := cbn [In app] in H; repeat (destruct H as [H|H]; [injection H as _ <-|]); [..|try destruct H].

Lemma arm_outcomes arm32 midr : In (v_arm, arm_uarchs arm32 midr) (outcomes arm32).
Proof.
  unfold arm_uarchs. destruct arm32.
  - apply switch_all; [|apply switch_all]; [intros a H; labels_in H| |]; try (destruct (_ =? 0)); try (intros a H; labels_in H); one_of_them.
  - apply switch_all; [intros a H; labels_in H|]; try (destruct (_ =? 0)); one_of_them.
Qed.

Lemma decode_outcomes arm32 midr vfpv4 : In (decode_vendor_uarch arm32 midr vfpv4) (outcomes arm32).
Proof.
  unfold decode_vendor_uarch. set (part := midr_get_part midr). clearbody part.
  apply switch_all; [|now left].
  intros a H. apply in_app_or in H. destruct H as [[H|[H|[]]]|H].
  - injection H as _ <-. apply arm_outcomes.
  - injection H as _ <-. unfold broadcom. destruct arm32; (apply switch_all; [intros a H; labels_in H|]; one_of_them).
  - destruct arm32; cbn [In app] in H; repeat (destruct H as [H|H]; [injection H as _ <-|]); try (now destruct H);
      unfold cavium, huawei, intel, nvidia, apm, qualcomm, samsung, marvell;
      try match goal with |- In (?v, switch ?l ?x ?d) (outcomes ?b) => apply (switch_all l x d (fun r => In (v, r) (outcomes b))) end;
      try (apply switch_all);
      try (let a := fresh in let H := fresh in intros a H; labels_in H); try destruct vfpv4; one_of_them.
Qed.

Lemma vendor_of_uarch arm32 midr vfpv4 : let '(vendor, uarch) := decode_vendor_uarch arm32 midr vfpv4 in
  uarch <> 0 -> designed_by uarch vendor.
Proof.
  assert (C : forall b, forallb (fun o => (snd o =? 0) || existsb (fun f => (fst f =? family (snd o)) && (snd f =? fst o)) families) (outcomes b) = true)
    by (intros []; vm_compute; reflexivity).
  pose proof (decode_outcomes arm32 midr vfpv4) as H. specialize (C arm32). rewrite forallb_forall in C. specialize (C _ H).
  destruct (decode_vendor_uarch arm32 midr vfpv4) as (v, u). cbn [fst snd] in C. intros Hu. split; [exact Hu|].
  apply orb_true_iff in C. destruct C as [C|C]; [apply N.eqb_eq in C; contradiction|].
  apply existsb_exists in C. destruct C as ((f, w) & Hf & C). cbn [fst snd] in C. apply andb_true_iff in C. destruct C as (C1 & C2).
  apply N.eqb_eq in C1. apply N.eqb_eq in C2. now subst.
Qed.

Lemma uarch_by_width arm32 midr vfpv4 : let uarch := snd (decode_vendor_uarch arm32 midr vfpv4) in
  (only_32_bit uarch -> arm32 = true) /\ (only_64_bit uarch -> arm32 = false).
Proof.
  cbv zeta. pose proof (decode_outcomes arm32 midr vfpv4) as H. set (o := decode_vendor_uarch _ _ _) in *. clearbody o.
  assert (C32 : forallb (fun o => negb (existsb (N.eqb (snd o)) [0x00100600; 0x00300100; 0x00300101; 0x00300102; 0x00300205; 0x00300207; 0x00300208;
    0x00300209; 0x00300212; 0x00300215; 0x00300217; 0x00400100; 0x00400101; 0x00900100])) (outcomes false) = true) by (vm_compute; reflexivity).
  assert (C64 : forallb (fun o => negb (existsb (N.eqb (snd o)) [0x00300401; 0x00400103; 0x00400104; 0x00400105; 0x00800100; 0x00800200; 0x00C00100]))
    (outcomes true) = true) by (vm_compute; reflexivity).
  rewrite forallb_forall in C32, C64.
  assert (E : forall x l, In x l -> negb (existsb (N.eqb x) l) = true -> False).
  { intros x l Hx Hn. apply negb_true_iff in Hn.
    enough (existsb (N.eqb x) l = true) by congruence. apply existsb_exists. exists x. split; [exact Hx|apply N.eqb_refl]. }
  split; intros X; destruct arm32; try reflexivity; exfalso; eapply E; [exact X|now apply C32|exact X|now apply C64].
Qed.

Lemma never_reported arm32 midr vfpv4 :
  ~ In (snd (decode_vendor_uarch arm32 midr vfpv4)) [cortex_x4; cortex_a520; cortex_a720].
Proof.
  pose proof (decode_outcomes arm32 midr vfpv4) as H. set (o := decode_vendor_uarch _ _ _) in *. clearbody o.
  assert (C : forall b, forallb (fun o => negb (existsb (N.eqb (snd o)) [cortex_x4; cortex_a520; cortex_a720])) (outcomes b) = true)
    by (intros []; vm_compute; reflexivity).
  specialize (C arm32). rewrite forallb_forall in C. specialize (C _ H). intros X. apply negb_true_iff in C.
  enough (existsb (N.eqb (snd o)) [cortex_x4; cortex_a520; cortex_a720] = true) by congruence.
  apply existsb_exists. exists (snd o). split; [exact X|apply N.eqb_refl].
Qed.


Lemma xscale_part arm32 midr vfpv4 : snd (decode_vendor_uarch arm32 midr vfpv4) = u_xscale ->
  In (N.shiftr (midr_get_part midr) 8) [2; 4; 6].
Proof.
  assert (NA : arm_uarchs arm32 midr <> u_xscale).
  { pose proof (arm_outcomes arm32 midr) as H. intros E. rewrite E in H.
    assert (C : forall b, existsb (fun o => (fst o =? v_arm) && (snd o =? u_xscale)) (outcomes b) = false) by (intros []; vm_compute; reflexivity).
    enough (existsb (fun o => (fst o =? v_arm) && (snd o =? u_xscale)) (outcomes arm32) = true) by (rewrite C in *; discriminate).
    apply existsb_exists. exists (v_arm, u_xscale). split; [exact H|reflexivity]. }
  unfold decode_vendor_uarch. set (part := midr_get_part midr) in *.
  apply (switch_all _ _ _ (fun r => snd r = u_xscale -> In (N.shiftr part 8) [2; 4; 6])); [|discriminate].
  intros a H. apply in_app_or in H. destruct H as [[H|[H|[]]]|H].
  - injection H as _ <-. intros X. now apply NA in X.
  - injection H as _ <-. unfold broadcom. clear NA.
    apply (switch_all _ _ _ (fun r => snd r = u_xscale -> In (N.shiftr part 8) [2; 4; 6])); [|discriminate].
    intros a H. destruct arm32; labels_in H; discriminate.
  - clear NA. destruct arm32; cbn [In app] in H; repeat (destruct H as [H|H]; [injection H as _ <-|]); try (now destruct H);
      unfold cavium, huawei, intel, nvidia, apm, qualcomm, samsung, marvell; cbn [snd];
      first [apply (switch_all _ _ _ (fun r => r = u_xscale -> In (N.shiftr part 8) [2; 4; 6]))
            |apply (switch_all _ _ _ (fun r => snd r = u_xscale -> In (N.shiftr part 8) [2; 4; 6]))]; try discriminate;
      intros a H; cbn [In app] in H; repeat (destruct H as [H|H]; [try destruct vfpv4; injection H as X <-; try discriminate|]); try (now destruct H);
      intros _; cbn [In]; auto.
Qed.

(** ** Caches *)

(** Before the division: nothing there, or ways and lines that divide the size. *)
Definition raw_sound (r : raw) : Prop :=
  0 < r_size r /\ 0 < r_ways r /\ 0 < r_line r /\ (exists k, r_line r = 2 ^ k /\ 5 <= k <= 7) /\ r_ways r * r_line r < two32 /\
  (r_ways r * r_line r | r_size r) /\ r_size r < two32 /\ (r_flags r = 0 \/ r_flags r = 2).
Definition raw_check (r : raw) : bool :=
  (0 <? r_size r) && (0 <? r_ways r) && existsb (N.eqb (r_line r)) [32; 64; 128] && (r_ways r * r_line r <? two32) &&
  (r_size r mod (r_ways r * r_line r) =? 0) && (r_size r <? two32) && ((r_flags r =? 0) || (r_flags r =? 2)).

Lemma raw_checked r : raw_check r = true -> raw_sound r.
Proof.
  unfold raw_check, raw_sound. rewrite !andb_true_iff, existsb_exists. intros ((((((H1 & H2) & (l & H3 & H4)) & H5) & H6) & H7) & H8).
  rewrite orb_true_iff, !N.eqb_eq in H8. apply N.ltb_lt in H7.
  apply N.ltb_lt in H1, H2, H5. apply N.eqb_eq in H4, H6.
  assert (L : 0 < r_line r /\ exists k, r_line r = 2 ^ k /\ 5 <= k <= 7).
  { rewrite H4. cbn [In] in H3. destruct H3 as [<-|[<-|[<-|[]]]]; (split; [lia|]); [exists 5|exists 6|exists 7]; (split; [reflexivity|lia]). }
  destruct L as (L0 & L1). do 5 (split; [auto|]). split; [apply N.mod_divide; nia|]. auto.
Qed.

Lemma divided_sound r : raw_sound r -> exists g, divided r = Ok g /\ (sound_cache g /\ g_flags g = r_flags r) /\ g_size g = r_size r.
Proof.
  intros (H1 & H2 & H3 & H4 & H5 & (q & H6) & H7 & H8). unfold divided. rewrite u32_small by exact H5.
  destruct (N.eqb_spec (r_ways r * r_line r) 0) as [E|E]; [nia|]. eexists. split; [reflexivity|]. split; [split; [|reflexivity]|reflexivity].
  rewrite H6 in H7. rewrite H6. rewrite N.div_mul by exact E. rewrite H6 in H1.
  split; cbn [g_size g_associativity g_sets g_partitions g_line_size g_flags]; auto; nia.
Qed.

(** A size that wraps around stays a multiple of a power of two. *)
Lemma wrapped_divides a k : k <= 32 -> (2 ^ k | a) -> (2 ^ k | u32 a).
Proof.
  intros K (q & ->). unfold u32. assert (E : two32 = 2 ^ (32 - k) * 2 ^ k) by (rewrite <- N.pow_add_r; replace (32 - k + k) with 32 by lia; reflexivity).
  rewrite E. rewrite N.mul_mod_distr_r.
  - exists (q mod 2 ^ (32 - k)). reflexivity.
  - apply N.pow_nonzero. lia.
  - apply N.pow_nonzero. lia.
Qed.

Definition raw_fits (r : raw) : Prop := r_size r = 0 \/ raw_sound r.
Lemma raw_wrapped c u ways line flags k : k <= 32 -> u mod 2 ^ k = 0 -> ways * line = 2 ^ k -> existsb (N.eqb line) [32; 64; 128] = true ->
  0 < ways -> 2 ^ k < two32 -> flags = 0 \/ flags = 2 -> raw_fits (Raw (u32 (c * u)) ways line flags).
Proof.
  intros K U W L P B F. destruct (N.eqb_spec (u32 (c * u)) 0) as [E|E]; [now left|right].
  apply existsb_exists in L. destruct L as (l & L1 & L2). apply N.eqb_eq in L2. subst l.
  assert (LL : 0 < line /\ exists k, line = 2 ^ k /\ 5 <= k <= 7).
  { cbn [In] in L1. destruct L1 as [<-|[<-|[<-|[]]]]; (split; [lia|]); [exists 5|exists 6|exists 7]; (split; [reflexivity|lia]). }
  destruct LL as (LL1 & LL2). unfold raw_sound. cbn [r_size r_ways r_line r_flags]. rewrite W. split; [lia|]. do 4 (split; [auto|]). split; [|split; [apply N.mod_lt; discriminate|exact F]].
  apply wrapped_divides; [exact K|]. apply N.mod_divide in U; [|apply N.pow_nonzero; lia]. now apply N.divide_mul_r.
Qed.

(** What the switch leaves behind, for [c] cores. *)
Definition good (uarch c version : N) (f : four) : Prop :=
  exists i d l2 l3, f = (Some (i, d), l2, l3) /\ (raw_sound i /\ r_flags i = 0) /\ (raw_sound d /\ r_flags d = 0) /\ raw_fits l2 /\ raw_fits l3 /\
    (r_size l3 <> 0 -> r_size l2 <> 0) /\
    (0 < c < 4096 -> 7 <= version -> uarch <> u_xscale -> uarch <> u_arm11 -> r_size l2 <> 0) /\
    (0 < c < 4096 ->
       (r_size l2 <> 0 -> r_size i <= r_size l2 /\ r_size d <= r_size l2) /\ (r_size l3 <> 0 -> r_size l2 <= r_size l3)) /\
    (c <= 4 -> uarch <> u_thunderx -> (uarch = u_cortex_a5 -> version < 8) -> forall bound, arm_max_cache uarch = Some bound ->
       r_size i <= bound /\ r_size d <= bound /\ r_size l2 <= bound /\ r_size l3 <= bound).

Ltac wrapped := first
  [ apply (raw_wrapped _ _ _ _ _ 9); [lia|reflexivity|reflexivity|reflexivity|lia|reflexivity|auto]
  | apply (raw_wrapped _ _ _ _ _ 8); [lia|reflexivity|reflexivity|reflexivity|lia|reflexivity|auto]
  | apply (raw_wrapped _ _ _ _ _ 10); [lia|reflexivity|reflexivity|reflexivity|lia|reflexivity|auto]
  | apply (raw_wrapped _ _ _ _ _ 11); [lia|reflexivity|reflexivity|reflexivity|lia|reflexivity|auto] ].
Ltac fits := match goal with |- raw_fits ?r => match r with context [u32] => wrapped | _ => first [left; reflexivity|right; apply raw_checked; vm_compute; reflexivity] end end.
Ltac sizes := cbn [r_size raw0 plain inclusive]; unfold kb, mb, u32, two32; lia.
Ltac first_level := split; [apply raw_checked; vm_compute; reflexivity|reflexivity].
Ltac leaf :=
  do 4 eexists; split; [reflexivity|]; split; [first_level|]; split; [first_level|]; split; [fits|]; split; [fits|];
  split; [sizes|]; split; [intros; first [congruence|sizes]|]; split; [intros; split; sizes|
    let H := fresh in let b := fresh "bound" in intros H ? ? b; vm_compute in b; let E := fresh in intros E; vm_compute in E;
    first [discriminate E|injection E as <-; repeat split; sizes]].
Ltac splits := repeat match goal with |- context [if ?b then _ else _] => destruct b end.

Lemma generic_good uarch c version : good uarch c version (generic_caches c version).
Proof.
  unfold generic_caches, with_l2, plain.
  assert (M : forall bound, arm_max_cache uarch = Some bound -> (uarch = u_cortex_a5 /\ bound = kb 512) \/ mb 1 <= bound).
  { unfold arm_max_cache. apply (switch_all _ uarch (Some (mb 4)) (fun r => forall bound, r = Some bound -> (uarch = u_cortex_a5 /\ bound = kb 512) \/ mb 1 <= bound)).
    - intros a H. cbn [In app] in H.
      repeat (destruct H as [H|H]; [injection H as <- <-; intros bound E; try discriminate E; injection E as <-; first [now left|right; vm_compute; discriminate]|]).
      destruct H.
    - intros bound E. injection E as <-. right. vm_compute. discriminate. }
  destruct (N.leb_spec 8 version) as [V|V]; [|destruct (N.leb_spec 7 version) as [V7|V7]].
  all: do 4 eexists; split; [reflexivity|]; split; [first_level|]; split; [first_level|]; split; [fits|]; split; [left; reflexivity|];
    split; [sizes|]; split; [intros; first [congruence|sizes]|]; split; [intros; split; sizes|];
    intros C _ A5 bound E; apply M in E; unfold mb, kb in E; destruct E as [(E & ->)|E]; [specialize (A5 E); try lia|]; repeat split; sizes.
Qed.

Lemma caches_good b uarch c midr chip cluster_id version :
  (uarch = u_xscale -> In (N.shiftr (midr_get_part midr) 8) [2; 4; 6]) ->
  good uarch c version (caches_by_uarch b uarch c midr chip cluster_id version).
Proof.
  intros XS. unfold caches_by_uarch. cbv zeta.
  apply (switch_all _ uarch _ (good uarch c version)); [|apply generic_good].
  intros a H. rewrite !in_app_iff in H. destruct H as [H|[H|[H|[H|[H|H]]]]].
  - destruct (_ && _)%bool in H; [|destruct H]. cbn [In] in H. destruct H as [H|[H|[]]]; apply pair_equal_spec in H; destruct H as (<- & <-).
    + specialize (XS eq_refl). unfold xscale_caches. cbn [In] in XS. destruct XS as [<-|[<-|[<-|[]]]]; cbn [switch N.eqb Pos.eqb]; leaf.
    + leaf.
  - destruct (_ && _)%bool in H; [|destruct H]. cbn [In] in H.
    do 6 (destruct H as [H|H]; [apply pair_equal_spec in H; destruct H as (<- & <-); unfold plain, inclusive; rewrite ?(N.mul_comm (kb 128)); splits; leaf|]). destruct H.
  - cbn [In] in H. destruct H as [H|H]; [apply pair_equal_spec in H; destruct H as (<- & <-); leaf|].
    destruct H as [H|H].
    { apply pair_equal_spec in H; destruct H as (<- & <-). unfold a53_caches, a53_silver_l2, a53_sizes. cbn [switch]. cbv zeta. splits; leaf. }
    do 2 (destruct H as [H|H]; [apply pair_equal_spec in H; destruct H as (<- & <-); unfold a55_caches; cbv zeta; splits; leaf|]).
    destruct H as [H|H]; [apply pair_equal_spec in H; destruct H as (<- & <-); leaf|].
    destruct H as [H|H]; [apply pair_equal_spec in H; destruct H as (<- & <-); leaf|].
    destruct H as [H|H]; [apply pair_equal_spec in H; destruct H as (<- & <-); unfold a72_caches; splits; leaf|].
    destruct H as [H|H]; [apply pair_equal_spec in H; destruct H as (<- & <-); unfold a73_caches; cbn [switch]; splits; leaf|].
    destruct H as [H|H]; [apply pair_equal_spec in H; destruct H as (<- & <-); unfold a75_caches; splits; leaf|].
    destruct H as [H|H]; [apply pair_equal_spec in H; destruct H as (<- & <-); unfold a76_caches; splits; leaf|].
    destruct H as [H|H]; [apply pair_equal_spec in H; destruct H as (<- & <-); leaf|].
    repeat (destruct H as [H|H]; [apply pair_equal_spec in H; destruct H as (<- & <-); unfold neoverse_caches; splits; leaf|]). destruct H.
  - destruct (_ && _)%bool in H; [|destruct H]. cbn [In] in H.
    repeat (destruct H as [H|H]; [apply pair_equal_spec in H; destruct H as (<- & <-); unfold plain; leaf|]). destruct H.
  - cbn [In] in H. destruct H as [H|H]; [apply pair_equal_spec in H; destruct H as (<- & <-); unfold kryo_caches; splits; leaf|].
    repeat (destruct H as [H|H]; [apply pair_equal_spec in H; destruct H as (<- & <-); leaf|]). destruct H.
  - destruct (_ && _)%bool in H; [|destruct H]. cbn [In] in H.
    destruct H as [H|[H|[]]]; apply pair_equal_spec in H; destruct H as (<- & <-); unfold plain, inclusive.
    + do 4 eexists. split; [reflexivity|]. split; [first_level|]. split; [first_level|]. split; [fits|]. split; [fits|].
      split; [sizes|]. split; [intros; sizes|]. split; [intros; split; sizes|]. intros _ X. now destruct X.
    + leaf.
Qed.

Lemma decode_good b uarch cores midr chip cluster_id version :
  let c := N.of_nat cores in
  good uarch c version (caches_by_uarch b uarch c midr chip cluster_id version) ->
  exists i d l2 l3, decode_cache b uarch cores midr chip cluster_id version = Ok (i, d, l2, l3) /\
    (sound_cache i /\ g_flags i = 0) /\ (sound_cache d /\ g_flags d = 0) /\ sound_or_absent l2 /\ sound_or_absent l3 /\ (sound_cache l3 -> sound_cache l2) /\
    (0 < c < 4096 -> 7 <= version -> uarch <> u_xscale -> uarch <> u_arm11 -> sound_cache l2) /\
    (0 < c < 4096 -> growing i d l2 l3) /\
    (c <= 4 -> uarch <> u_thunderx -> (uarch = u_cortex_a5 -> version < 8) -> forall bound, arm_max_cache uarch = Some bound -> all_at_most bound i d l2 l3).
Proof.
  cbv zeta. intros (i & d & l2 & l3 & E & (SI & FI) & (SD & FD) & F2 & F3 & L & PR & G & M). unfold decode_cache. rewrite E.
  destruct (divided_sound _ SI) as (gi & -> & Gi & Zi), (divided_sound _ SD) as (gd & -> & Gd & Zd). rewrite FI in Gi. rewrite FD in Gd. cbn [bind].
  unfold growing, all_at_most, sound_or_absent, absent.
  destruct (N.eqb_spec (r_size l2) 0) as [E2|E2].
  - assert (E3 : r_size l3 = 0) by (destruct (N.eq_dec (r_size l3) 0); tauto).
    do 4 eexists. split; [reflexivity|]. unfold undivided. cbn [g_size]. rewrite Zi, Zd, E2, E3. rewrite E2, E3 in M.
    split; [exact Gi|]. split; [exact Gd|]. split; [now left|]. split; [now left|].
    split; [intros X; destruct X as [_ X]; cbn [g_size] in X; lia|].
    split; [intros c1 c2 c3 c4; now destruct (PR c1 c2 c3 c4)|].
    split; [intros; split; intros X; now destruct X|exact M].
  - destruct F2 as [F2|F2]; [contradiction|]. destruct (divided_sound _ F2) as (g2 & -> & (G2 & _) & Z2). cbn [bind].
    destruct (N.eqb_spec (r_size l3) 0) as [E3|E3]; cbn [bind].
    + do 4 eexists. split; [reflexivity|]. unfold undivided. cbn [g_size]. rewrite Zi, Zd, Z2.
      do 6 (split; [auto|]). split; [|exact M]. intros C. destruct (G C) as (GA & GB). split; [exact GA|intros X; now destruct X].
    + destruct F3 as [F3|F3]; [contradiction|]. destruct (divided_sound _ F3) as (g3 & -> & (G3 & _) & Z3). cbn [bind].
      do 4 eexists. split; [reflexivity|]. rewrite Zi, Zd, Z2, Z3. do 6 (split; [auto|]). split; [|exact M].
      intros C. destruct (G C) as (GA & GB). split; [exact GA|intros _; split; [exact E2|now apply GB]].
Qed.

Lemma reported_caches b midr vfpv4 cores chip cluster_id version :
  let uarch := snd (decode_vendor_uarch (b_arm32 b) midr vfpv4) in
  exists i d l2 l3, decode_cache b uarch cores midr chip cluster_id version = Ok (i, d, l2, l3) /\
    (sound_cache i /\ g_flags i = 0) /\ (sound_cache d /\ g_flags d = 0) /\ sound_or_absent l2 /\ sound_or_absent l3 /\ (sound_cache l3 -> sound_cache l2) /\
    (0 < N.of_nat cores < 4096 -> 7 <= version -> uarch <> u_xscale -> uarch <> u_arm11 -> sound_cache l2) /\
    (0 < N.of_nat cores < 4096 -> growing i d l2 l3) /\
    (N.of_nat cores <= 4 -> uarch <> u_thunderx -> (uarch = u_cortex_a5 -> version < 8) ->
     forall bound, arm_max_cache uarch = Some bound -> all_at_most bound i d l2 l3).
Proof. cbv zeta. apply decode_good, caches_good, xscale_part. Qed.

Lemma caches_sound b midr vfpv4 cores chip cluster_id version :
  let uarch := snd (decode_vendor_uarch (b_arm32 b) midr vfpv4) in
  exists i d l2 l3, decode_cache b uarch cores midr chip cluster_id version = Ok (i, d, l2, l3) /\
    (sound_cache i /\ g_flags i = 0) /\ (sound_cache d /\ g_flags d = 0) /\ sound_or_absent l2 /\ sound_or_absent l3 /\ (sound_cache l3 -> sound_cache l2).
Proof.
  cbv zeta. destruct (reported_caches b midr vfpv4 cores chip cluster_id version) as (i & d & l2 & l3 & H1 & H2 & H3 & H4 & H5 & H6 & _).
  exists i, d, l2, l3. tauto.
Qed.

Lemma caches_grow b midr vfpv4 cores chip cluster_id version i d l2 l3 :
  let uarch := snd (decode_vendor_uarch (b_arm32 b) midr vfpv4) in
  decode_cache b uarch cores midr chip cluster_id version = Ok (i, d, l2, l3) ->
  0 < N.of_nat cores < 4096 ->
  growing i d l2 l3 /\
  (7 <= version -> uarch <> u_xscale -> uarch <> u_arm11 -> sound_cache l2).
Proof.
  cbv zeta. intros E C. destruct (reported_caches b midr vfpv4 cores chip cluster_id version) as (i' & d' & l2' & l3' & H1 & _ & _ & _ & _ & _ & H2 & H3 & _).
  rewrite E in H1. injection H1 as <- <- <- <-. auto.
Qed.

Lemma caches_bounded b midr vfpv4 cores chip cluster_id version i d l2 l3 bound :
  let uarch := snd (decode_vendor_uarch (b_arm32 b) midr vfpv4) in
  decode_cache b uarch cores midr chip cluster_id version = Ok (i, d, l2, l3) ->
  (cores <= 4)%nat -> uarch <> u_thunderx -> (uarch = u_cortex_a5 -> version < 8) ->
  arm_max_cache uarch = Some bound -> all_at_most bound i d l2 l3.
Proof.
  cbv zeta. intros E C T A5 B. destruct (reported_caches b midr vfpv4 cores chip cluster_id version) as (i' & d' & l2' & l3' & H1 & _ & _ & _ & _ & _ & _ & _ & H).
  rewrite E in H1. injection H1 as <- <- <- <-. apply H; auto. lia.
Qed.

Definition exceeds_bound (b : build) (midr : N) (cores : nat) (chip : chipset) (cluster_id : nat) (version : N) : Prop :=
  let uarch := snd (decode_vendor_uarch (b_arm32 b) midr true) in
  exists i d l2 l3 bound, decode_cache b uarch cores midr chip cluster_id version = Ok (i, d, l2, l3) /\
    arm_max_cache uarch = Some bound /\ (bound < g_size l2 \/ bound < g_size l3).

Lemma bound_exceeded chip cluster_id :
  exceeds_bound (Build false false true false) 0x431F0A11 1 chip cluster_id 8 /\
  exceeds_bound (Build false false true false) 0x411FD072 8 chip cluster_id 8 /\
  exceeds_bound (Build false false true false) 0x431F0AF1 32 chip cluster_id 8 /\
  exceeds_bound (Build false false true false) 0x481FD010 32 chip cluster_id 8.
Proof.
  repeat split; unfold exceeds_bound; do 5 eexists; (split; [vm_compute; reflexivity|]);
    (split; [vm_compute; reflexivity|]); vm_compute; auto.
Qed.

Lemma n1_l2 b cores midr chip cluster_id version i d l2 l3 : design midr = (0x41, 0xD0C) ->
  decode_cache b u_neoverse_n1 cores midr chip cluster_id version = Ok (i, d, l2, l3) -> g_size l2 = 1024 * 1024.
Proof.
  intros D. assert (A : midr_is_ampere_altra midr = true).
  { unfold midr_is_ampere_altra. apply (same_uarch_exact midr_ampere_altra 0x41 0xD0C midr); auto; reflexivity. }
  unfold decode_cache, caches_by_uarch. cbv zeta.
  destruct (b_arm32 b), (b_arch_7a b), (b_arch_8a b), (b_android b); cbn [negb andb app];
    cbn [switch]; cbv [u_neoverse_n1 u_xscale u_arm11 u_cortex_a5 u_cortex_a7 u_cortex_a8 u_cortex_a9 u_cortex_a15 u_cortex_a17 u_cortex_a35
      u_cortex_a53 u_cortex_a55r0 u_cortex_a55 u_cortex_a57 u_cortex_a65 u_cortex_a72 u_cortex_a73 u_cortex_a75 u_cortex_a76 u_cortex_a77];
    cbn [N.eqb Pos.eqb]; unfold neoverse_caches; rewrite A, orb_true_r; vm_compute; intros E; now injection E as _ _ <- _.
Qed.

Lemma new_cores_unknown arm32 vfpv4 midr : In midr [0x410FD821; 0x410FD801; 0x410FD811] -> decode_vendor_uarch arm32 midr vfpv4 = (v_arm, 0).
Proof. cbn [In]. destruct arm32; intros [<-|[<-|[<-|[]]]]; reflexivity. Qed.
