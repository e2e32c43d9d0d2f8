(** Proofs about instruction-set detection. *)
From Verif Require Import Base X86DescriptorModel X86DecodeModel X86DecodeSpec X86DecodeProofs X86IsaModel X86IsaSpec.
Open Scope N_scope.

(** ** Masks *)

Lemma any_pow x mask : 2 ^ N.log2 mask = mask -> any x mask = N.testbit x (N.log2 mask).
Proof. intros H. unfold any. rewrite <- H at 1. apply land_bit. Qed.

Lemma lor_zero x y : (N.lor x y =? 0) = (x =? 0) && (y =? 0).
Proof.
  apply Bool.eq_true_iff_eq. rewrite Bool.andb_true_iff, !N.eqb_eq. apply N.lor_eq_0_iff.
Qed.

Lemma any_lor x a c : any x (N.lor a c) = any x a || any x c.
Proof. unfold any. rewrite N.land_lor_distr_r, lor_zero, Bool.negb_andb. reflexivity. Qed.

Lemma or_any x a y c : negb (N.lor (N.land x a) (N.land y c) =? 0) = any x a || any y c.
Proof. unfold any. rewrite lor_zero, Bool.negb_andb. reflexivity. Qed.

Lemma all_cons x a c : N.land a c = 0 -> all x (N.lor a c) = all x a && all x c.
Proof.
  intros H. apply Bool.eq_true_iff_eq. unfold all. rewrite Bool.andb_true_iff, !N.eqb_eq, N.land_lor_distr_r. split.
  - intros E. split; apply N.bits_inj; intros i; pose proof (f_equal (fun z => N.testbit z i) E) as B; pose proof (f_equal (fun z => N.testbit z i) H) as D;
    cbn beta in B, D; rewrite !N.lor_spec, !N.land_spec in B; rewrite N.land_spec, N.bits_0 in D; rewrite N.land_spec;
    destruct (N.testbit x i), (N.testbit a i), (N.testbit c i); cbn in *; congruence.
  - intros [E1 E2]. now rewrite E1, E2.
Qed.

Lemma all_bit x k : all x (2 ^ k) = N.testbit x k.
Proof.
  rewrite <- land_bit. unfold all. 
  destruct (N.land x (2 ^ k) =? 0) eqn:E; cbn.
  - apply N.eqb_eq in E. rewrite E. apply N.eqb_neq. apply not_eq_sym. apply N.pow_nonzero. discriminate.
  - apply N.eqb_eq. apply N.bits_inj. intros i. rewrite N.land_spec, N.pow2_bits_eqb.
    destruct (N.eqb_spec k i) as [<- |]; [|apply Bool.andb_false_r].
    rewrite Bool.andb_true_r. rewrite <- land_bit. now rewrite E.
Qed.

Lemma all_06 x : all x 0x06 = N.testbit x 1 && N.testbit x 2.
Proof. change 0x06 with (N.lor (2 ^ 1) (2 ^ 2)). now rewrite all_cons, !all_bit by reflexivity. Qed.
Lemma all_18 x : all x 0x18 = N.testbit x 3 && N.testbit x 4.
Proof. change 0x18 with (N.lor (2 ^ 3) (2 ^ 4)). now rewrite all_cons, !all_bit by reflexivity. Qed.
Lemma all_E6 x : all x 0xE6 = N.testbit x 1 && (N.testbit x 2 && (N.testbit x 5 && (N.testbit x 6 && N.testbit x 7))).
Proof.
  change 0xE6 with (N.lor (2 ^ 1) (N.lor (2 ^ 2) (N.lor (2 ^ 5) (N.lor (2 ^ 6) (2 ^ 7))))).
  now rewrite !all_cons, !all_bit by reflexivity.
Qed.
Lemma all_osxsave x : all x 0x0C000000 = N.testbit x 26 && N.testbit x 27.
Proof. change 0x0C000000 with (N.lor (2 ^ 26) (2 ^ 27)). now rewrite all_cons, !all_bit by reflexivity. Qed.

Lemma any_C x : any x 0xC0000000 = N.testbit x 31 || N.testbit x 30.
Proof. change 0xC0000000 with (N.lor (2 ^ 31) (2 ^ 30)). rewrite any_lor. unfold any. now rewrite !land_bit. Qed.
Lemma any_E x : any x 0xE0000000 = N.testbit x 31 || (N.testbit x 30 || N.testbit x 29).
Proof. change 0xE0000000 with (N.lor (2 ^ 31) (N.lor (2 ^ 30) (2 ^ 29))). rewrite !any_lor. unfold any. now rewrite !land_bit. Qed.

(** ** Leaves and the specification as booleans *)

Definition pick (m : cpu) (l s : N) : regs := if leaf_existsb m l then cpuidex m l s else regs0.
Definition announcesb (m : cpu) (p : place) : bool :=
  let '(Place l s r k) := p in N.testbit (r (pick m l s)) k.

Lemma leaf_existsb_spec m l : leaf_existsb m l = true <-> leaf_exists m l.
Proof. unfold leaf_existsb, leaf_exists. destruct (l <? 0x80000000); apply N.leb_le. Qed.

Definition projection (r : regs -> N) : Prop := r = eax \/ r = ebx \/ r = ecx \/ r = edx.
Definition real_place (p : place) : Prop := let '(Place l s r k) := p in projection r.

Lemma announcesb_spec m p : real_place p -> announcesb m p = true <-> announces m p.
Proof.
  destruct p as [l s r k]. cbn. intros Hr. unfold pick. rewrite <- leaf_existsb_spec.
  destruct (leaf_existsb m l); [tauto|].
  split; [|intros [H _]; discriminate].
  destruct Hr as [-> |[-> |[-> | ->]]]; cbn; rewrite ?N.bits_0; discriminate.
Qed.

(** Gate of the code. *)
Definition gate (m : cpu) (state : list N) : bool :=
  match state with
  | [] => true
  | _ => announcesb m (Place 1 0 ecx 26) && announcesb m (Place 1 0 ecx 27) &&
         forallb (fun i => announcesb m (Place 0xD 0 eax i)) state && forallb (N.testbit (xcr0 m)) state
  end.

(** The state that the code asks for. *)
Definition asked (g : getter) (state : list N) : list N :=
  match g with
  | Has_amx_bf16 | Has_amx_tile | Has_amx_int8 | Has_amx_fp16 => avx512_state
  | Has_vaes | Has_vpclmulqdq => []
  | _ => state
  end.

Definition code_enabled (m : cpu) (mask : N) : bool :=
  if all (ecx (cpuid m 1)) 0x0C000000 &&
     all (if 0xD <=? eax (cpuid m 0) then N.lor (N.shiftl (edx (cpuidex m 0xD 0)) 32) (eax (cpuidex m 0xD 0)) else 0) mask
  then all (xcr0 m) mask else false.

Lemma valid_bits m i : i < 32 ->
  N.testbit (if 0xD <=? eax (cpuid m 0) then N.lor (N.shiftl (edx (cpuidex m 0xD 0)) 32) (eax (cpuidex m 0xD 0)) else 0) i =
  announcesb m (Place 0xD 0 eax i).
Proof.
  intros H. unfold announcesb, pick, leaf_existsb. change (0xD <? 0x80000000) with true. cbv iota.
  destruct (0xD <=? eax (cpuid m 0)); [|reflexivity].
  now rewrite N.lor_spec, N.shiftl_spec_low.
Qed.

Lemma pick_1 m : 1 <= eax (cpuid m 0) -> pick m 1 0 = cpuid m 1.
Proof. intros H. unfold pick, leaf_existsb. change (1 <? 0x80000000) with true. cbv iota. apply N.leb_le in H. now rewrite H. Qed.
Lemma pick_7 m s : (if 7 <=? eax (cpuid m 0) then cpuidex m 7 s else regs0) = pick m 7 s.
Proof. reflexivity. Qed.
Lemma pick_ext m l : 0x80000000 <= l ->
  (if l <=? (if 0x80000000 <=? eax (cpuid m 0x80000000) then eax (cpuid m 0x80000000) else 0) then cpuid m l else regs0) = pick m l 0.
Proof.
  intros H. unfold pick, leaf_existsb. apply N.ltb_ge in H as H'. rewrite H'. unfold cpuid.
  destruct (N.leb_spec 0x80000000 (eax (cpuidex m 0x80000000 0))); [reflexivity|].
  destruct (N.leb_spec l 0); [lia|]. destruct (N.leb_spec l (eax (cpuidex m 0x80000000 0))); [lia|reflexivity].
Qed.

Lemma gate_06 m : 1 <= eax (cpuid m 0) -> code_enabled m 0x06 = gate m avx_state.
Proof.
  intros H. unfold code_enabled, gate, avx_state. rewrite !all_06, all_osxsave, !valid_bits by reflexivity.
  cbn [forallb]. unfold announcesb at 3 4. rewrite pick_1 by assumption. 
  destruct (N.testbit (ecx (cpuid m 1)) 26), (N.testbit (ecx (cpuid m 1)) 27); cbn [andb]; try reflexivity.
  rewrite !Bool.andb_true_r.
  destruct (announcesb m (Place 13 0 eax 1)), (announcesb m (Place 13 0 eax 2)); reflexivity.
Qed.
Lemma gate_18 m : 1 <= eax (cpuid m 0) -> code_enabled m 0x18 = gate m mpx_state.
Proof.
  intros H. unfold code_enabled, gate, mpx_state. rewrite !all_18, all_osxsave, !valid_bits by reflexivity.
  cbn [forallb]. unfold announcesb at 3 4. rewrite pick_1 by assumption. 
  destruct (N.testbit (ecx (cpuid m 1)) 26), (N.testbit (ecx (cpuid m 1)) 27); cbn [andb]; try reflexivity.
  rewrite !Bool.andb_true_r.
  destruct (announcesb m (Place 13 0 eax 3)), (announcesb m (Place 13 0 eax 4)); reflexivity.
Qed.
Lemma gate_E6 m : 1 <= eax (cpuid m 0) -> code_enabled m 0xE6 = gate m avx512_state.
Proof.
  intros H. unfold code_enabled, gate, avx512_state. rewrite !all_E6, all_osxsave, !valid_bits by reflexivity.
  cbn [forallb]. unfold announcesb at 6 7. rewrite pick_1 by assumption. 
  destruct (N.testbit (ecx (cpuid m 1)) 26), (N.testbit (ecx (cpuid m 1)) 27); cbn [andb]; try reflexivity.
  rewrite !Bool.andb_true_r.
  destruct (announcesb m (Place 13 0 eax 1)), (announcesb m (Place 13 0 eax 2)), (announcesb m (Place 13 0 eax 5)),
    (announcesb m (Place 13 0 eax 6)), (announcesb m (Place 13 0 eax 7)); reflexivity.
Qed.

(** ** Every getter *)

Lemma init_isa_eq b m : 1 <= eax (cpuid m 0) ->
  init_isa b m =
  detect_isa b m (cpuid m 1) (pick m 0x80000001 0) (eax (cpuid m 0))
    (if 0x80000000 <=? eax (cpuid m 0x80000000) then eax (cpuid m 0x80000000) else 0) (vendor_of b m)
    (decode_uarch b (vendor_of b m) (decode_model_info (eax (cpuid m 1)))).
Proof.
  intros H. unfold init_isa. apply N.leb_le in H. rewrite H.
  change (let leaf0 := cpuid m 0 in ?x) with x. cbv zeta.
  rewrite pick_ext by discriminate. reflexivity.
Qed.

Ltac one_mask :=
  match goal with
  | |- context [any ?x ?k] => 
      rewrite (any_pow x k) by reflexivity; 
      let n := eval vm_compute in (N.log2 k) in change (N.log2 k) with n
  end.

Lemma getter_value b m g places state :
  1 <= eax (cpuid m 0) -> by_build b g = None -> documented_on b m g = Some (Entry places state) ->
  has_x86 b (init_isa b m) g = existsb (announcesb m) places && gate m (asked g state).
Proof.
  intros H HB HD. rewrite init_isa_eq by assumption.
  assert (Hand : forall a c, a && c = c && a) by (intros; apply Bool.andb_comm).
  destruct b as [x32 android].
  destruct g; cbv beta iota zeta delta [documented_on documented both_edx plain avx_class avx512_class amx_class] in HD; try discriminate HD;
  try (injection HD as <- <-);
  cbv beta iota zeta delta [has_x86 detect_isa b_x86_32 b_android asked];
  fold (code_enabled m 0x06); fold (code_enabled m 0x18); fold (code_enabled m 0xE6);
  rewrite ?gate_06, ?gate_18, ?gate_E6 by assumption;
  rewrite ?pick_7; rewrite ?pick_ext by discriminate; rewrite <- ?(pick_1 m) by assumption;
  rewrite ?or_any; rewrite ?any_C, ?any_E; repeat one_mask;
  destruct x32, android; cbn in HB; try discriminate HB; cbn [andb negb];
  repeat match goal with
  | |- context [vendor_of ?b ?m =? ?v] => destruct (vendor_of b m =? v)
  | H : context [vendor_of ?b ?m =? ?v] |- _ => destruct (vendor_of b m =? v)
  end; cbn [orb andb]; try (cbn [orb andb] in HD; injection HD as <- <-);
  rewrite ?N.lor_spec; cbn [existsb app]; fold avx_state avx512_state mpx_state;
  try (change (gate m []) with true);
  cbv beta iota delta [announcesb l1_ecx l1_edx l7_ebx l7_ecx l7_edx l71_eax l71_edx ext_ecx ext_edx];
  repeat match goal with |- context [gate m ?l] => destruct (gate m l) end;
  repeat match goal with |- context [N.testbit ?x ?k] => destruct (N.testbit x k) end; reflexivity.
Qed.

Lemma getter_by_build b isa g v : by_build b g = Some v -> has_x86 b isa g = v.
Proof.
  destruct b as [x32 android].
  destruct g, x32, android; cbn; intros H; try discriminate H; congruence.
Qed.

(** ** From booleans to the specification *)

Lemma documented_real b m g places state :
  documented_on b m g = Some (Entry places state) -> forall p, In p places -> real_place p.
Proof.
  intros H. unfold documented_on in H.
  set (i := vendor_of b m =? vendor_intel) in H.
  set (a := (vendor_of b m =? vendor_amd) || (vendor_of b m =? vendor_hygon)) in H.
  set (e := b_x86_32 b && _) in H. clearbody i a e.
  destruct g; cbn in H; try discriminate H; 
  try (destruct i; cbn in H); try (destruct a; cbn in H); try (destruct e; cbn in H);
  unfold both_edx, plain, avx_class, avx512_class, amx_class in H;
  injection H as <- <-; intros p Hp; cbn in Hp; 
  repeat (destruct Hp as [<- |Hp]; [cbn; unfold projection; tauto|]); contradiction.
Qed.

Lemma documented_state b m g places state :
  documented_on b m g = Some (Entry places state) ->
  state = [] \/ state = avx_state \/ state = avx512_state \/ state = mpx_state \/ state = amx_state /\ amx_getter g.
Proof.
  intros H. unfold documented_on in H.
  set (i := vendor_of b m =? vendor_intel) in H.
  set (a := (vendor_of b m =? vendor_amd) || (vendor_of b m =? vendor_hygon)) in H.
  set (e := b_x86_32 b && _) in H. clearbody i a e. unfold amx_getter.
  destruct g; cbn in H; try discriminate H; 
  try (destruct i; cbn in H); try (destruct a; cbn in H); try (destruct e; cbn in H);
  unfold both_edx, plain, avx_class, avx512_class, amx_class in H;
  injection H as <- <-; tauto.
Qed.

Lemma exists_announces m places : (forall p, In p places -> real_place p) ->
  existsb (announcesb m) places = true <-> exists p, In p places /\ announces m p.
Proof.
  intros H. rewrite existsb_exists. split; intros (p & Hi & Hp); exists p; (split; [assumption|]); apply announcesb_spec; auto.
Qed.

Lemma gate_os m state : gate m state = true -> os_enabled m state.
Proof.
  unfold os_enabled. destruct state as [|s state]; [now left|]. unfold gate. intros H. right.
  rewrite !Bool.andb_true_iff in H. destruct H as (((_ & H) & _) & Hx). split.
  - apply announcesb_spec in H; [assumption|]. cbn. unfold projection. tauto.
  - intros i Hi. rewrite forallb_forall in Hx. now apply Hx.
Qed.

Lemma os_gate m state : coherent m -> (forall i, In i state -> i < 32) -> os_enabled m state -> gate m state = true.
Proof.
  intros Hc Hs [-> |(Ho & Hx)]; [reflexivity|]. destruct state as [|s state]; [reflexivity|].
  unfold gate. rewrite !Bool.andb_true_iff. repeat split.
  - apply announcesb_spec; [cbn; unfold projection; tauto|]. now apply co_xsave.
  - apply announcesb_spec; [cbn; unfold projection; tauto|]. assumption.
  - apply forallb_forall. intros i Hi. apply announcesb_spec; [cbn; unfold projection; tauto|]. apply co_xcr0; auto.
  - apply forallb_forall. assumption.
Qed.

Lemma reports_none b m g : eax (cpuid m 0) = 0 -> by_build b g = None -> ~ reports b m g.
Proof.
  intros H HB. unfold reports, init_isa. rewrite H. change (1 <=? 0) with false. cbv iota beta zeta.
  destruct b as [x32 android]. destruct g, x32, android; cbn in *; discriminate.
Qed.

Lemma asked_same g state : ~ amx_getter g -> ~ vaes_getter g -> asked g state = state.
Proof. unfold amx_getter, vaes_getter. intros H1 H2. destruct g; cbn; try reflexivity; exfalso; tauto. Qed.

Lemma reported_sound b m g places state :
  by_build b g = None -> documented_on b m g = Some (Entry places state) -> ~ amx_getter g -> ~ vaes_getter g ->
  reports b m g -> (exists p, In p places /\ announces m p) /\ os_enabled m state.
Proof.
  intros HB HD H1 H2 HR.
  destruct (N.eq_dec (eax (cpuid m 0)) 0) as [E|E]; [now apply reports_none in HR|].
  assert (HM : 1 <= eax (cpuid m 0)) by lia.
  unfold reports in HR. rewrite (getter_value _ _ _ _ _ HM HB HD), Bool.andb_true_iff, asked_same in HR by assumption.
  destruct HR as [Hp Hg]. split; [|now apply gate_os].
  apply exists_announces; [|assumption]. eapply documented_real; eassumption.
Qed.

Lemma reported_complete b m g places state :
  1 <= eax (cpuid m 0) -> coherent m ->
  by_build b g = None -> documented_on b m g = Some (Entry places state) -> ~ amx_getter g ->
  (exists p, In p places /\ announces m p) -> os_enabled m state -> reports b m g.
Proof.
  intros H Hc HB HD H1 Hp Ho. unfold reports. rewrite (getter_value _ _ _ _ _ H HB HD), Bool.andb_true_iff. split.
  - apply exists_announces; [|assumption]. eapply documented_real; eassumption.
  - assert (Hs : forall i, In i state -> i < 32).
    { destruct (documented_state _ _ _ _ _ HD) as [-> |[-> |[-> |[-> |[-> H3]]]]]; try contradiction; cbn; intros i Hi;
      repeat (destruct Hi as [<- |Hi]; [reflexivity|]); contradiction. }
    assert (Hg : gate m state = true) by now apply os_gate.
    unfold amx_getter in H1. destruct g; cbn [asked]; try assumption; try reflexivity; exfalso; tauto.
Qed.

Lemma amx_gate b m g places state :
  documented_on b m g = Some (Entry places state) -> amx_getter g ->
  reports b m g -> (exists p, In p places /\ announces m p) /\ os_enabled m avx512_state.
Proof.
  intros HD H1 HR.
  assert (HB : by_build b g = None).
  { destruct b as [x32 android]. destruct H1 as [-> |[-> |[-> | ->]]]; reflexivity. }
  destruct (N.eq_dec (eax (cpuid m 0)) 0) as [E|E]; [now apply reports_none in HR|].
  assert (HM : 1 <= eax (cpuid m 0)) by lia.
  unfold reports in HR. rewrite (getter_value _ _ _ _ _ HM HB HD), Bool.andb_true_iff in HR.
  destruct HR as [Hp Hg]. split.
  - apply exists_announces; [|assumption]. eapply documented_real; eassumption.
  - apply gate_os. destruct H1 as [-> |[-> |[-> | ->]]]; exact Hg.
Qed.

Lemma vaes_gate b m g places state :
  documented_on b m g = Some (Entry places state) -> vaes_getter g -> 1 <= eax (cpuid m 0) ->
  reports b m g <-> (exists p, In p places /\ announces m p).
Proof.
  intros HD H1 HM.
  assert (HB : by_build b g = None).
  { destruct b as [x32 android]. destruct H1 as [-> | ->]; reflexivity. }
  unfold reports. rewrite (getter_value _ _ _ _ _ HM HB HD).
  assert (Hg : gate m (asked g state) = true) by (destruct H1 as [-> | ->]; reflexivity).
  rewrite Hg, Bool.andb_true_r. apply exists_announces. eapply documented_real; eassumption.
Qed.

(** ** The getters without an entry *)

Lemma avx10_2_value b m : 1 <= eax (cpuid m 0) ->
  has_x86 b (init_isa b m) Has_avx10_2 =
  (2 <=? N.land (ebx (if 7 <=? eax (cpuid m 0) then cpuidex m 0x24 0 else regs0)) 0xFF) && has_x86 b (init_isa b m) Has_avx10_1.
Proof. intros H. rewrite init_isa_eq by assumption. reflexivity. Qed.

Lemma avx10_2_exact b m : 1 <= eax (cpuid m 0) -> coherent m ->
  reports b m Has_avx10_2 <->
  leaf_exists m 0x24 /\ 2 <= field 0 8 (ebx (cpuidex m 0x24 0)) /\ announces m (Place 7 1 edx 19) /\ os_enabled m avx512_state.
Proof.
  intros H Hc. 
  assert (H1 : reports b m Has_avx10_1 <-> announces m (Place 7 1 edx 19) /\ os_enabled m avx512_state).
  { assert (HB : by_build b Has_avx10_1 = None) by (destruct b; reflexivity).
    assert (HD : documented_on b m Has_avx10_1 = Some (Entry [Place 7 1 edx 19] avx512_state)) by reflexivity.
    assert (HA : ~ amx_getter Has_avx10_1) by (unfold amx_getter; intuition discriminate).
    assert (HV : ~ vaes_getter Has_avx10_1) by (unfold vaes_getter; intuition discriminate).
    split.
    - intros HR. destruct (reported_sound b m _ _ _ HB HD HA HV HR) as [(p & [<- |[]] & Hp) Ho]. now split.
    - intros [Hp Ho]. apply (reported_complete b m _ _ _ H Hc HB HD HA); [|assumption].
      exists (Place 7 1 edx 19). split; [now left|assumption]. }
  unfold reports at 1. rewrite avx10_2_value by assumption. rewrite Bool.andb_true_iff, N.leb_le. fold (reports b m Has_avx10_1). rewrite H1.
  change 0xFF with (N.ones 8). rewrite N.land_ones.
  assert (HF : forall x, field 0 8 x = x mod 2 ^ 8) by (intros x; unfold field; now rewrite N.div_1_r).
  rewrite HF. split.
  - intros (Hv & Hp & Ho). pose proof (co_avx10 m Hc Hp) as He. 
    assert (H7 : 7 <=? eax (cpuid m 0) = true) by (apply N.leb_le; exact (proj1 Hp)).
    rewrite H7 in Hv. tauto.
  - intros (He & Hv & Hp & Ho). 
    assert (H7 : 7 <=? eax (cpuid m 0) = true) by (apply N.leb_le; exact (proj1 Hp)).
    rewrite H7. tauto.
Qed.

Lemma geode_value b m : 1 <= eax (cpuid m 0) -> by_build b Has_3dnow_geode = None ->
  reports b m Has_3dnow_geode <->
  announces m (Place 0x80000001 0 edx 30) /\ decode_uarch b (vendor_of b m) (decode_model_info (eax (cpuid m 1))) = uarch_geode.
Proof.
  intros H HB. unfold reports. rewrite init_isa_eq by assumption.
  destruct b as [[] []]; try discriminate HB.
  set (m' := m). change m' with m at 2 3 4 5 6 7 8.
  cbv beta iota zeta delta [has_x86 detect_isa b_x86_32 b_android]. subst m'.
  rewrite (any_pow _ 0x40000000) by reflexivity. cbn [andb]. rewrite Bool.andb_true_iff, N.eqb_eq.
  rewrite <- (announcesb_spec m (Place 0x80000001 0 edx 30)) by (cbn; unfold projection; tauto).
  reflexivity.
Qed.

Lemma daz_value b m : 1 <= eax (cpuid m 0) -> by_build b Has_daz = None ->
  reports b m Has_daz <->
  announces m (Place 1 0 ecx 0) \/
  (announces m (Place 1 0 edx 25) /\ reports b m Has_fxsave /\ N.testbit (mxcsr_mask m) 6 = true).
Proof.
  intros H HB.
  destruct b as [[] []]; try discriminate HB.
  assert (HV : has_x86 (Build true false) (init_isa (Build true false) m) Has_daz =
    if announcesb m (Place 1 0 ecx 0) then true
    else if announcesb m (Place 1 0 edx 25) && has_x86 (Build true false) (init_isa (Build true false) m) Has_fxsave
         then N.testbit (mxcsr_mask m) 6 else false).
  { rewrite init_isa_eq by assumption. cbv beta iota zeta delta [has_x86 detect_isa b_x86_32 b_android].
    rewrite (any_pow _ 1), (any_pow _ 0x40), (any_pow (edx _) 0x02000000) by reflexivity. cbn [andb].
    cbv beta iota delta [announcesb]. rewrite pick_1 by assumption. reflexivity. }
  unfold reports. rewrite HV.
  rewrite <- (announcesb_spec m (Place 1 0 ecx 0)), <- (announcesb_spec m (Place 1 0 edx 25)) by (cbn; unfold projection; tauto).
  destruct (announcesb m (Place 1 0 ecx 0)), (announcesb m (Place 1 0 edx 25)), (has_x86 _ _ Has_fxsave), (N.testbit (mxcsr_mask m) 6); cbn; intuition discriminate.
Qed.

(** ** XCR0 *)

Lemma gate_mono m x y state : (forall i, N.testbit x i = true -> N.testbit y i = true) ->
  gate (with_xcr0 m x) state = true -> gate (with_xcr0 m y) state = true.
Proof.
  intros H. destruct state; [trivial|]. unfold gate. rewrite !Bool.andb_true_iff. intros (Ha & Hx). split; [exact Ha|].
  rewrite forallb_forall in Hx |- *. cbn [xcr0 with_xcr0] in *. auto.
Qed.

Lemma no_entry b m g : documented_on b m g = None -> g = Has_avx10_2 \/ g = Has_3dnow_geode \/ g = Has_daz.
Proof. destruct g; cbn; intros H; try discriminate H; tauto. Qed.

Lemma xcr0_mono_entry b m x y g places state :
  (forall i, N.testbit x i = true -> N.testbit y i = true) ->
  by_build b g = None -> documented_on b m g = Some (Entry places state) ->
  reports b (with_xcr0 m x) g -> reports b (with_xcr0 m y) g.
Proof.
  intros H HB HD HR.
  destruct (N.eq_dec (eax (cpuid m 0)) 0) as [E|E]; [exfalso; exact (reports_none b (with_xcr0 m x) g E HB HR)|].
  assert (HM : 1 <= eax (cpuid m 0)) by lia.
  unfold reports in *. rewrite (getter_value b (with_xcr0 m x) g places state HM HB HD) in HR.
  rewrite (getter_value b (with_xcr0 m y) g places state HM HB HD).
  rewrite Bool.andb_true_iff in HR |- *. destruct HR as [Hp Hg]. split; [exact Hp|]. revert Hg. now apply gate_mono.
Qed.

Lemma xcr0_same b m x g : 
  (exists places, documented_on b m g = Some (Entry places [])) \/ g = Has_3dnow_geode \/ g = Has_daz \/ vaes_getter g ->
  has_x86 b (init_isa b (with_xcr0 m x)) g = has_x86 b (init_isa b m) g.
Proof.
  intros Hg.
  destruct (by_build b g) as [v|] eqn:HB; [now rewrite !(getter_by_build _ _ _ _ HB)|].
  destruct (N.eq_dec (eax (cpuid m 0)) 0) as [E|E].
  { pose proof (reports_none b (with_xcr0 m x) g E HB) as F1. pose proof (reports_none b m g E HB) as F2. unfold reports in F1, F2.
    now rewrite (Bool.not_true_is_false _ F1), (Bool.not_true_is_false _ F2). }
  assert (HM : 1 <= eax (cpuid m 0)) by lia.
  assert (HX : forall s, s = [] -> gate (with_xcr0 m x) s = gate m s) by now intros s ->.
  destruct Hg as [[places HD]|[-> |[-> |Hv]]].
  - rewrite (getter_value b (with_xcr0 m x) g places [] HM HB HD), (getter_value b m g places [] HM HB HD).
    assert (Hs : asked g [] = [] \/ amx_getter g) by (unfold amx_getter; destruct g; cbn; tauto).
    destruct Hs as [-> |Ha]; [reflexivity|]. exfalso. destruct Ha as [-> |[-> |[-> | ->]]]; discriminate HD.
  - apply Bool.eq_true_iff_eq. fold (reports b (with_xcr0 m x) Has_3dnow_geode) (reports b m Has_3dnow_geode).
    rewrite (geode_value b m HM HB). exact (geode_value b (with_xcr0 m x) HM HB).
  - apply Bool.eq_true_iff_eq. fold (reports b (with_xcr0 m x) Has_daz) (reports b m Has_daz).
    assert (HF : reports b (with_xcr0 m x) Has_fxsave <-> reports b m Has_fxsave).
    { unfold reports. destruct (documented_on b m Has_fxsave) as [[places state]|] eqn:HD; [|discriminate HD].
      assert (HB' : by_build b Has_fxsave = None) by (destruct b; reflexivity).
      rewrite (getter_value b (with_xcr0 m x) _ places state HM HB' HD), (getter_value b m _ places state HM HB' HD).
      assert (Hs : state = []). { cbn in HD. destruct (_ && _) in HD; injection HD as _ <-; reflexivity. }
      subst state. reflexivity. }
    rewrite (daz_value b m HM HB). rewrite (daz_value b (with_xcr0 m x) HM HB). rewrite HF. reflexivity.
  - destruct (documented_on b m g) as [[places state]|] eqn:HD; [|destruct Hv as [-> | ->]; discriminate HD].
    rewrite (getter_value b (with_xcr0 m x) g places state HM HB HD), (getter_value b m g places state HM HB HD).
    destruct Hv as [-> | ->]; reflexivity.
Qed.

Lemma xcr0_mono b m x y g :
  (forall i, N.testbit x i = true -> N.testbit y i = true) ->
  reports b (with_xcr0 m x) g -> reports b (with_xcr0 m y) g.
Proof.
  intros H HR.
  destruct (by_build b g) as [v|] eqn:HB.
  { unfold reports in *. rewrite (getter_by_build _ _ _ _ HB) in HR. now rewrite (getter_by_build _ _ _ _ HB). }
  destruct (documented_on b m g) as [[places state]|] eqn:HD; [now apply (xcr0_mono_entry b m x y g places state)|].
  destruct (no_entry _ _ _ HD) as [-> |Hg].
  - destruct (N.eq_dec (eax (cpuid m 0)) 0) as [E|E]; [exfalso; exact (reports_none b (with_xcr0 m x) _ E HB HR)|].
    assert (HM : 1 <= eax (cpuid m 0)) by lia. unfold reports in *.
    rewrite avx10_2_value in HR by assumption. rewrite avx10_2_value by assumption.
    rewrite Bool.andb_true_iff in *. destruct HR as [Hv HR]. split; [exact Hv|].
    refine (xcr0_mono_entry b m x y Has_avx10_1 _ _ H _ eq_refl HR). destruct b; reflexivity.
  - unfold reports in *. rewrite xcr0_same in HR by tauto. rewrite xcr0_same by tauto. assumption.
Qed.
