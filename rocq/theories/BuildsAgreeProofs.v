(** Proofs about 32-bit and 64-bit builds. *)
From Verif Require Import Base X86DescriptorModel X86DecodeModel X86DecodeSpec X86DecodeProofs X86IsaModel X86IsaSpec X86IsaProofs X86PackageModel X86NameModel.
From Verif Require ArmMidrModel ArmCacheModel.
From Verif Require Import ArmUarchModel BuildsAgreeSpec.
From Coq Require Import List Lia. Import ListNotations.
Open Scope N_scope.

(** ** The vendor *)
Lemma vendor_cases_64 a e c d : decode_vendor (Build false a) e c d <> vendor_unknown ->
  In (e, d, c) [(0x756E6547, 0x49656E69, 0x6C65746E); (0x68747541, 0x69746E65, 0x444D4163); (0x746E6543, 0x48727561, 0x736C7561);
    (0x6F677948, 0x6E65476E, 0x656E6975)].
Proof.
  unfold decode_vendor, vendor_cases. cbn [b_x86_32 find orb negb]. rewrite !Bool.andb_false_r, !Bool.andb_true_r.
  assert (K : forall p q r, (p =? e) && (q =? d) && (r =? c) = true -> (p, q, r) = (e, d, c)).
  { intros p q r H. apply andb_prop in H. destruct H as (H & X). apply andb_prop in H. destruct H as (H & Y).
    apply N.eqb_eq in H, X, Y. now subst. }
  destruct (_ && _ && _) eqn:E1; [apply K in E1; intros _; now left|clear E1].
  destruct (_ && _ && _) eqn:E1; [apply K in E1; intros _; right; now left|clear E1].
  destruct (_ && _ && _) eqn:E1; [apply K in E1; intros _; do 2 right; now left|clear E1].
  destruct (_ && _ && _) eqn:E1; [apply K in E1; intros _; do 3 right; now left|clear E1].
  intros H. exfalso. apply H. reflexivity.
Qed.

Lemma vendor_agree b b' e c d : b_x86_32 b = false -> decode_vendor b e c d <> vendor_unknown -> decode_vendor b' e c d = decode_vendor b e c d.
Proof.
  destruct b as [x a], b' as [x' a']. cbn [b_x86_32]. intros -> H. apply vendor_cases_64 in H. cbn [In] in H.
  destruct H as [H|[H|[H|[H|[]]]]]; injection H as <- <- <-; destruct x'; vm_compute; reflexivity.
Qed.

Lemma vendor_64 b e c d : b_x86_32 b = false -> let v := decode_vendor b e c d in v <> vendor_cyrix /\ v <> vendor_nsc.
Proof.
  destruct b as [x a]. cbn [b_x86_32]. intros ->. cbv zeta.
  destruct (N.eq_dec (decode_vendor (Build false a) e c d) vendor_unknown) as [E|K]; [rewrite E; split; discriminate|].
  apply vendor_cases_64 in K. cbn [In] in K.
  destruct K as [K|[K|[K|[K|[]]]]]; injection K as <- <- <-; split; vm_compute; discriminate.
Qed.

(** ** The microarchitecture *)
Lemma one_of_cases x l : one_of x l = true -> In x l.
Proof. unfold one_of. rewrite existsb_exists. intros (y & H & E). apply N.eqb_eq in E. now subst. Qed.

Lemma first_cons c u r : first_of ((c, u) :: r) = if c then u else first_of r.
Proof. unfold first_of. cbn [find fst]. now destruct c. Qed.

Lemma uarch_agree b b' v mi : b_x86_32 b = false -> decode_uarch b v mi <> uarch_unknown -> decode_uarch b' v mi = decode_uarch b v mi.
Proof.
  destruct b as [x a], b' as [x' a']. cbn [b_x86_32]. intros ->. destruct mi as [model family bm bf st em ef pt].
  unfold decode_uarch. cbn [b_x86_32 mi_family mi_model mi_extended_model].
  assert (S : forall l u r r', (r <> uarch_unknown -> r' = r) -> (forall y, In y l -> y = model -> r = uarch_unknown) ->
    r <> uarch_unknown -> (if x' && one_of model l then u else r') = r).
  { intros l u r r' H N K. destruct (one_of model l) eqn:E; [apply one_of_cases in E; exfalso; apply K; now apply (N model)|].
    rewrite Bool.andb_false_r. auto. }
  destruct (v =? vendor_intel).
  - destruct (family =? 5).
    + rewrite !first_cons. cbn [andb]. intros H. exfalso. apply H. reflexivity.
    + destruct (family =? 6); [|reflexivity]. rewrite !first_cons. cbn [andb].
      apply S; [apply S; [apply S; [reflexivity|]|]|]; intros y Y <-; cbn [In] in Y; repeat (destruct Y as [<- |Y]; [reflexivity|]); destruct Y.
  - destruct (v =? vendor_amd); [|reflexivity]. destruct (family =? 5); [intros H; exfalso; apply H; reflexivity|].
    destruct (family =? 6); [intros H; exfalso; apply H; reflexivity|]. reflexivity.
Qed.

(** ** Caches *)
Lemma actions_agree b b' v family model d : v <> vendor_cyrix -> v <> vendor_nsc ->
  descriptor_actions b' v family model d = descriptor_actions b v family model d.
Proof.
  intros C N. unfold descriptor_actions. apply N.eqb_neq in C, N. rewrite C, N. cbn [orb]. now rewrite !Bool.andb_false_r.
Qed.

Lemma repeat_agree b b' m v mi n : v <> vendor_cyrix -> v <> vendor_nsc -> forall i cs,
  repeat_descriptors b' m v mi n i cs = repeat_descriptors b m v mi n i cs.
Proof.
  intros C N. induction n as [|n IH]; intros i cs; [reflexivity|]. cbn [repeat_descriptors]. rewrite IH. f_equal.
  unfold decode_descriptors. generalize (tl (regs_bytes (cpuid2 m i))). intros l. revert cs. induction l as [|d l IHl]; intros cs; [reflexivity|].
  cbn [fold_left]. rewrite <- IHl. f_equal. destruct (negb (d =? 0)); [|reflexivity]. unfold decode_cache_descriptor. now rewrite (actions_agree b b').
Qed.

(** ** The whole description *)
Lemma processor_agree b b' m fuel : b_x86_32 b = false -> vendor_of b m <> vendor_unknown ->
  decode_uarch b (vendor_of b m) (decode_model_info (eax (cpuid m 1))) <> uarch_unknown ->
  init_processor b' m fuel = init_processor b m fuel.
Proof.
  intros B V U. pose proof (vendor_64 b (ebx (cpuid m 0)) (ecx (cpuid m 0)) (edx (cpuid m 0)) B) as (C & N). cbv zeta in C, N.
  unfold init_processor. cbv zeta. rewrite (vendor_agree b b') by assumption. fold (vendor_of b m) in *.
  destruct (1 <=? eax (cpuid m 0)); [|reflexivity]. rewrite (uarch_agree b b') by assumption.
  unfold detect_cache. now rewrite (repeat_agree b b').
Qed.

Lemma name_agree b b' m stack : b_x86_32 b = false -> vendor_of b m <> vendor_unknown ->
  detect_package_name b' m stack = detect_package_name b m stack.
Proof. intros B V. unfold detect_package_name. cbv zeta. now rewrite (vendor_agree b b'). Qed.

(** ** The getters *)
Section GETTERS.
Variables (android : bool) (m : cpu).
Hypothesis known : vendor_of (Build false android) m <> vendor_unknown.
Let v := vendor_of (Build false android) m.

Lemma same_vendor : vendor_of (Build true android) m = v.
Proof. unfold v, vendor_of. now apply vendor_agree. Qed.

Lemma not_cyrix : (v =? vendor_cyrix) = false /\ (v =? vendor_nsc) = false.
Proof. split; apply N.eqb_neq; apply vendor_64; reflexivity. Qed.

Lemma never_more g : g <> Has_lahf_sahf -> g <> Has_3dnow_geode -> reports (Build true android) m g -> reports (Build false android) m g.
Proof.
  intros L G. unfold reports. destruct (N.le_gt_cases 1 (eax (cpuid m 0))) as [H|H].
  - rewrite !init_isa_eq by exact H. rewrite same_vendor. fold v. destruct not_cyrix as (C & N).
    generalize (decode_uarch (Build true android) v (decode_model_info (eax (cpuid m 1)))).
    generalize (decode_uarch (Build false android) v (decode_model_info (eax (cpuid m 1)))). intros u w.
    destruct g; try congruence; cbv beta iota zeta delta [has_x86 detect_isa b_x86_32 b_android];
      try exact (fun H => H); rewrite ?C, ?N; cbn [orb andb negb]; try exact (fun H => H); try reflexivity; try discriminate;
      destruct android; try exact (fun H => H); try reflexivity; try discriminate.
  - assert (Z : (1 <=? eax (cpuid m 0)) = false) by (apply N.leb_gt; exact H).
    unfold init_isa. cbv zeta. rewrite Z. destruct g; try congruence; cbn [has_x86 b_x86_32 b_android];
      try exact (fun H => H); try reflexivity; try discriminate; destruct android; try exact (fun H => H); try reflexivity; try discriminate.
Qed.

Lemma announced_1 r k : projection r -> announces m (Place 1 0 r k) -> 1 <= eax (cpuid m 0) /\ N.testbit (r (cpuid m 1)) k = true.
Proof. intros _ (A & B). split; [exact A|exact B]. Qed.

Lemma never_less g : x86_64_processor m -> (android = true -> android_processor m) -> g <> Has_cmpxchg16b -> g <> Has_lahf_sahf -> g <> Has_3dnow_geode ->
  reports (Build false android) m g -> reports (Build true android) m g.
Proof.
  intros [B D] A X L G. assert (H : 1 <= eax (cpuid m 0)) by (apply (announced_1 edx 0); [unfold projection; tauto|apply B; now left]).
  assert (BB : forall k, In k [0; 4; 8; 15; 23; 24; 25; 26] -> N.testbit (edx (cpuid m 1)) k = true).
  { intros k K. apply announced_1; [unfold projection; tauto|auto]. }
  assert (AA : android = true -> forall k, In k [0; 9; 19; 20; 23] -> N.testbit (ecx (cpuid m 1)) k = true).
  { intros E k K. apply announced_1; [unfold projection; tauto|exact (A E k K)]. }
  unfold reports. rewrite !init_isa_eq by exact H. rewrite same_vendor. fold v. destruct not_cyrix as (C & N).
  generalize (decode_uarch (Build true android) v (decode_model_info (eax (cpuid m 1)))).
  generalize (decode_uarch (Build false android) v (decode_model_info (eax (cpuid m 1)))). intros u w.
  assert (Any : forall x y k, N.testbit x k = true -> any (N.lor x y) (2 ^ k) = true).
  { intros x y k E. unfold any. rewrite land_bit, N.lor_spec, E. reflexivity. }
  assert (One : forall x k, N.testbit x k = true -> any x (2 ^ k) = true) by (intros x k E; unfold any; rewrite land_bit, E; reflexivity).
  destruct g; try congruence; cbv beta iota zeta delta [has_x86 detect_isa b_x86_32 b_android];
    try exact (fun H => H); rewrite ?C, ?N; cbn [orb andb negb]; try exact (fun H => H); intros K; destruct android; try exact K; try reflexivity.
  all: repeat match goal with
    | |- context [any (N.lor (edx (cpuid m 1)) ?y) ?k] => 
        replace (any (N.lor (edx (cpuid m 1)) y) k) with true by (symmetry; apply (Any _ y (N.log2 k)); apply BB; cbn; tauto)
    | |- context [any (edx (cpuid m 1)) ?k] => replace (any (edx (cpuid m 1)) k) with true by (symmetry; apply (One _ (N.log2 k)); apply BB; cbn; tauto)
    | |- any (ecx (cpuid m 1)) ?k = true => apply (One _ (N.log2 k)); apply AA; [reflexivity|cbn; tauto]
    end; try reflexivity.
  - rewrite or_any. change 33554432 with (2 ^ 25). rewrite One by (apply BB; cbn; tauto). reflexivity.
  - change 64 with (2 ^ 6). rewrite (One _ 6 D). now destruct (any (ecx (cpuid m 1)) 1).
Qed.
End GETTERS.

Lemma getters_agree android m g : vendor_of (Build false android) m <> vendor_unknown -> x86_64_processor m -> (android = true -> android_processor m) ->
  ~ depends_on_mode g -> reports (Build true android) m g <-> reports (Build false android) m g.
Proof.
  intros V P A D. unfold depends_on_mode in D. cbn [In] in D.
  split; [apply never_more|apply never_less]; auto; intros ->; tauto.
Qed.

(** ** ARM *)
Lemma switch_known A (l : list (N * A)) x d : switch l x d = d \/ In (x, switch l x d) l.
Proof.
  induction l as [|(k, a) l [H|H]]; [now left| |]; cbn [switch]; destruct (N.eqb_spec x k) as [-> |]; auto; right; [now left|now left|now right].
Qed.

Lemma arm_uarch_agree midr : let u := arm_uarchs false midr in u <> u_unknown ->
  arm_uarchs true midr = u \/ u = u_neoverse_e1 /\ arm_uarchs true midr = u_unknown.
Proof.
  cbv zeta. unfold arm_uarchs. cbn [app]. cbv zeta. generalize (ArmMidrModel.midr_get_part midr). intros part.
  generalize (if N.land midr ArmMidrModel.variant_mask =? 0 then u_cortex_a55r0 else u_cortex_a55). intros a55 K.
  match type of K with switch ?l part ?d <> _ => destruct (switch_known _ l part d) as [H|H]; [congruence|] end.
  cbn [In] in H. clear K.
  repeat (destruct H as [H|H]; [injection H as <- _; first [left; reflexivity|right; split; reflexivity]|]). destruct H.
Qed.

Lemma arm_agree midr vfp vfp' : snd (decode_vendor_uarch false midr vfp) <> u_unknown ->
  decode_vendor_uarch true midr vfp' = decode_vendor_uarch false midr vfp \/
  In (snd (decode_vendor_uarch false midr vfp)) known_to_64_only /\ snd (decode_vendor_uarch true midr vfp') = u_unknown.
Proof.
  unfold decode_vendor_uarch. cbv zeta. cbn [app]. generalize (ArmMidrModel.midr_get_implementer midr). intros impl K.
  match type of K with snd (switch ?l impl ?d) <> _ => destruct (switch_known _ l impl d) as [H|H]; [rewrite H in K; now destruct K|] end.
  cbn [In] in H.
  destruct H as [H|H]; [injection H as <- _; cbn [switch N.eqb Pos.eqb snd] in K |- *|].
  { pose proof (arm_uarch_agree midr) as X. cbv zeta in X. destruct (X K) as [-> |(-> & ->)]; [now left|right]. split; [now left|reflexivity]. }
  destruct H as [H|H].
  { injection H as <- _. cbn [switch N.eqb Pos.eqb snd] in K |- *. revert K. generalize (ArmMidrModel.midr_get_part midr). intros part. unfold broadcom. cbn [app switch].
    destruct (part =? 0x00F); [now left|]. destruct (part =? 0x100); [now left|]. destruct (part =? 0x516); [right; cbn; tauto|]. now intros []. }
  destruct H as [H|H].
  { injection H as <- _. cbn [switch N.eqb Pos.eqb snd] in K |- *. revert K. generalize (ArmMidrModel.midr_get_part midr). intros part.
    intros K. right. split; [|reflexivity]. revert K. unfold cavium. cbn [switch snd]. repeat (destruct (part =? _); [cbn; tauto|]). now intros []. }
  destruct H as [H|H].
  { injection H as <- _. cbn [switch N.eqb Pos.eqb snd] in K |- *. revert K. generalize (ArmMidrModel.midr_get_part midr). intros part. unfold huawei. cbn [app switch].
    destruct (N.eqb_spec part 0xD01) as [-> |]; [right; cbn; tauto|]. now left. }
  destruct H as [H|H]; [injection H as <- _; now left|].
  destruct H as [H|H]; [injection H as <- _; now left|].
  destruct H as [H|[H|[]]]; [|injection H as <- _; now left].
  injection H as <- _. cbn [switch N.eqb Pos.eqb snd] in K |- *. revert K. generalize (ArmMidrModel.midr_get_part midr). intros part.
  intros K. unfold qualcomm in *. cbn [app] in *.
  match type of K with snd (switch ?l part ?d) <> _ => destruct (switch_known _ l part d) as [H|H]; [rewrite H in K; now destruct K|] end.
  cbn [In] in H. clear K. repeat (destruct H as [H|H]; [injection H as <- _; first [left; reflexivity|right; cbn; tauto]|]). destruct H.
Qed.

Definition only_32 : list N := [u_xscale; u_arm11; u_cortex_a5; u_cortex_a7; u_cortex_a8; u_cortex_a9; u_cortex_a15; u_cortex_a17; u_scorpion; u_krait].

Lemma uarch_64 midr vfp : ~ In (snd (decode_vendor_uarch false midr vfp)) only_32.
Proof.
  unfold decode_vendor_uarch, arm_uarchs, broadcom, cavium, huawei, nvidia, apm, qualcomm, samsung. cbv zeta. cbn [app switch].
  repeat match goal with |- context [if ?c then _ else _] => destruct c end; cbn; intuition discriminate.
Qed.

Lemma uarch_32 midr vfp : ~ In (snd (decode_vendor_uarch true midr vfp)) [u_thunderx; u_taishan_v110].
Proof.
  unfold decode_vendor_uarch, arm_uarchs, broadcom, intel, huawei, nvidia, apm, qualcomm, samsung, marvell. cbv zeta. cbn [app switch].
  repeat match goal with |- context [if ?c then _ else _] => destruct c end; cbn; intuition discriminate.
Qed.

Lemma switch_skip A (l r : list (N * A)) u d : ~ In u (map fst l) -> switch (l ++ r) u d = switch r u d.
Proof.
  induction l as [|(k, a) l IH]; [reflexivity|]. cbn [map fst In app switch]. intros H. destruct (N.eqb_spec u k) as [-> |]; [tauto|]. apply IH. tauto.
Qed.
Lemma switch_end A (l r : list (N * A)) u d : ~ In u (map fst r) -> switch (l ++ r) u d = switch l u d.
Proof.
  intros H. induction l as [|(k, a) l IH]; cbn [app switch]; [|now rewrite IH].
  rewrite <- (app_nil_r r). now rewrite switch_skip.
Qed.

Lemma switch_parts A (p1 p2 m1 p3 m2 p4 : list (N * A)) u d :
  ~ In u (map fst p1) -> ~ In u (map fst p2) -> ~ In u (map fst p3) -> ~ In u (map fst p4) ->
  switch (p1 ++ p2 ++ m1 ++ p3 ++ m2 ++ p4) u d = switch (m1 ++ m2) u d.
Proof.
  intros H1 H2 H3 H4. rewrite !switch_skip by assumption.
  induction m1 as [|(k, a) l IH]; cbn [app switch]; [|now rewrite IH].
  rewrite switch_skip by assumption. now rewrite switch_end.
Qed.

Lemma caches_agree b b' u cores midr chip cluster version : ~ In u only_32 -> ~ In u [u_thunderx; u_taishan_v110] ->
  ArmCacheModel.decode_cache b u cores midr chip cluster version = ArmCacheModel.decode_cache b' u cores midr chip cluster version.
Proof.
  intros O S. unfold ArmCacheModel.decode_cache.
  assert (E : exists x, forall b, ArmCacheModel.caches_by_uarch b u (N.of_nat cores) midr chip cluster version = x).
  { eexists. clear b b'. intros b. unfold ArmCacheModel.caches_by_uarch. cbv zeta.
    apply switch_parts; match goal with |- context [if ?c then _ else _] => destruct c end; cbn [map fst In only_32] in *; unfold only_32 in *; cbn [In] in *; tauto. }
  destruct E as (x & E). now rewrite (E b), (E b').
Qed.

Lemma arm_caches_agree b b' midr vfp vfp' cores chip cluster version : let u := snd (decode_vendor_uarch true midr vfp) in
  u <> u_unknown -> snd (decode_vendor_uarch false midr vfp') <> u_unknown ->
  ArmCacheModel.decode_cache b u cores midr chip cluster version = ArmCacheModel.decode_cache b' u cores midr chip cluster version.
Proof.
  cbv zeta. intros U V. destruct (arm_agree midr vfp' vfp V) as [E|(_ & E)]; [|congruence].
  apply caches_agree; [rewrite E; apply uarch_64|apply uarch_32].
Qed.
