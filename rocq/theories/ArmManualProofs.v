(** Proofs about manuals of ARM cores: C39 and C52. *)
From Verif Require Import Base BaseProofs TopologySpec ArmMidrModel ArmMidrProofs ArmUarchModel ArmClusterMidrModel ArmCacheModel ArmCacheSpec ArmCacheProofs ArmManualSpec ArmMidrSpec.
Open Scope N_scope.

(** ** Parts *)
Lemma switch_first {A} (labels : list (N * A)) x a default : NoDup (map fst labels) -> In (x, a) labels -> switch labels x default = a.
Proof.
  induction labels as [|(l, b) r IH]; [intros _ []|]. cbn [map fst switch]. intros ND H. inversion ND as [|? ? N0 ND0]; subst. destruct H as [H|H].
  - injection H as -> ->. now rewrite N.eqb_refl.
  - destruct (N.eqb_spec x l) as [->|]; [|now apply IH]. exfalso. apply N0. apply in_map_iff. now exists (l, a).
Qed.
Lemma variant_value midr : N.land midr variant_mask = field_of Variant midr * 2 ^ 20.
Proof. destruct all_covers as (_ & C2 & _). rewrite (land_field _ Variant _ C2). reflexivity. Qed.
Lemma part_value midr : N.land midr part_mask = field_of PartNumber midr * 2 ^ 4.
Proof. destruct all_covers as (_ & _ & _ & C4 & _). rewrite (land_field _ PartNumber _ C4). reflexivity. Qed.
Definition decode_by (arm32 vfpv4 : bool) (implementer part variant : N) : N * N :=
  switch
    ([(0x41, (v_arm,
         switch
           ((if arm32 then
               [(0xC05, u_cortex_a5); (0xC07, u_cortex_a7); (0xC08, u_cortex_a8); (0xC09, u_cortex_a9); (0xC0C, u_cortex_a12);
                (0xC0E, u_cortex_a17); (0xC0D, u_cortex_a12); (0xC0F, u_cortex_a15)]
             else []) ++
            [(0xD01, u_cortex_a32); (0xD03, u_cortex_a53); (0xD04, u_cortex_a35);
             (0xD05, if variant * 2 ^ 20 =? 0 then u_cortex_a55r0 else u_cortex_a55);
             (0xD06, u_cortex_a65); (0xD07, u_cortex_a57); (0xD08, u_cortex_a72); (0xD09, u_cortex_a73); (0xD0A, u_cortex_a75);
             (0xD0B, u_cortex_a76); (0xD0C, u_neoverse_n1); (0xD0D, u_cortex_a77); (0xD0E, u_cortex_a76); (0xD40, u_neoverse_v1);
             (0xD41, u_cortex_a78); (0xD44, u_cortex_x1); (0xD46, u_cortex_a510); (0xD47, u_cortex_a710); (0xD48, u_cortex_x2);
             (0xD49, u_neoverse_n2)] ++
            (if arm32 then [] else [(0xD4A, u_neoverse_e1)]) ++
            [(0xD4D, u_cortex_a715); (0xD4E, u_cortex_x3); (0xD4F, u_neoverse_v2)])
           part
           (if arm32 then switch [(7, u_arm7); (9, u_arm9); (11, u_arm11)] (N.shiftr part 8) u_unknown else u_unknown)));
      (0x42, broadcom arm32 part)] ++
     (if arm32 then [] else [(0x43, cavium part)]) ++
     [(0x48, huawei arm32 part)] ++
     (if arm32 then [(0x69, intel part)] else []) ++
     [(0x4E, nvidia part); (0x50, apm part); (0x51, qualcomm arm32 vfpv4 part);
      (0x53, (v_samsung, switch [(0x00100010, u_exynos_m1); (0x00400010, u_exynos_m2); (0x00100020, u_exynos_m3);
                      (0x00100030, u_exynos_m4); (0x00100040, u_exynos_m5)] (variant * 2 ^ 20 + part * 2 ^ 4) u_unknown))] ++
     (if arm32 then [(0x56, marvell part)] else []))
    implementer (0, u_unknown).
Lemma decode_by_fields arm32 midr vfpv4 : decode_vendor_uarch arm32 midr vfpv4 = decode_by arm32 vfpv4 (field_of Implementer midr) (field_of PartNumber midr) (field_of Variant midr).
Proof.
  destruct (fields midr) as (P & I). unfold decode_vendor_uarch, decode_by, arm_uarchs, samsung. rewrite P, I, land_apart by reflexivity. now rewrite variant_value, part_value.
Qed.
Lemma part_small midr : field_of PartNumber midr < 4096. Proof. unfold field_of. apply N.mod_lt. discriminate. Qed.
Lemma variant_small midr : field_of Variant midr < 16. Proof. unfold field_of. apply N.mod_lt. discriminate. Qed.
Ltac each H := cbn [In arm_parts licensed_parts other_parts exynos_parts old_parts] in H; repeat (destruct H as [H|H]; [|]); [..|try destruct H].
Ltac old_arm Q :=
  cbn [app];
  match goal with |- switch ((_, (_, switch ?l ?part ?d)) :: _) _ _ = _ =>
    let E := fresh in let C := fresh in
    assert (E : switch l part d = d);
    [ destruct (switch_cases l part d) as [C|C]; [exfalso|exact C];
      cbn [In] in C; repeat (destruct C as [C|C]; [apply pair_equal_spec in C; destruct C as (C & _); rewrite <- C in Q; discriminate Q|]); destruct C
    | rewrite E, Q; reflexivity ]
  end.
Lemma meant_decoded arm32 vfpv4 midr v u : core_meant arm32 vfpv4 midr v u -> decode_vendor_uarch arm32 midr vfpv4 = (v, u).
Proof.
  rewrite decode_by_fields. unfold design.
  intros [w part u0 I W D|D V|D V|w d u0 I W D|w v0 d u0 I W D|W V D|W V D|variant part u0 I V D|v0 imp digit part u0 I W D Q].
  - injection D as -> ->. each I; injection I as <- <- <-; unfold for_width in W; try subst arm32; try (destruct arm32); reflexivity.
  - injection D as -> ->. rewrite V. destruct arm32; reflexivity.
  - injection D as -> ->. assert (E : field_of Variant midr * 2 ^ 20 =? 0 = false) by (apply N.eqb_neq; lia). unfold decode_by. rewrite E. destruct arm32; reflexivity.
  - each I; injection I as <- <- <-; injection D as -> ->; unfold for_width in W; try subst arm32; try (destruct arm32); reflexivity.
  - each I; injection I as <- <- <- <-; injection D as -> ->; unfold for_width in W; try subst arm32; try (destruct arm32); reflexivity.
  - injection D as -> ->. now subst.
  - injection D as -> ->. now subst.
  - injection D as -> ->. rewrite V. each I; injection I as <- <- <-; destruct arm32; reflexivity.
  - injection D as D1 D2. rewrite D1, D2. clear D1 D2. subst arm32. change 256 with (2 ^ 8) in Q. rewrite <- N.shiftr_div_pow2 in Q. each I; injection I as <- <- <- <-; unfold decode_by;
      try (cbn [app switch N.eqb Pos.eqb]; unfold intel; rewrite Q; reflexivity).
    all: old_arm Q.
Qed.
Ltac among := cbn [In arm_parts licensed_parts other_parts exynos_parts old_parts]; repeat (first [left; reflexivity|right]).
Ltac meant D EV K :=
  repeat match goal with K' : (_, _) = (_, _) |- _ => injection K' as <- <- end;
  repeat match goal with K' : ?x = ?u |- _ => is_var u; is_const x; subst u end;
  first
  [ (* parts *) rewrite <- K in D;
    match type of D with design _ = (?i, ?p) =>
      first
      [ now (apply (meant_arm _ _ _ Any p); [among|exact I|exact D]) | now (apply (meant_arm _ _ _ Only_32 p); [among|reflexivity|exact D])
      | now (apply (meant_arm _ _ _ Only_64 p); [among|reflexivity|exact D])
      | now (apply (meant_licensed _ _ _ Any (i, p)); [among|exact I|exact D])
      | now (apply (meant_other _ _ _ Any _ (i, p)); [among|exact I|exact D]) | now (apply (meant_other _ _ _ Only_32 _ (i, p)); [among|reflexivity|exact D])
      | now (apply (meant_other _ _ _ Only_64 _ (i, p)); [among|reflexivity|exact D]) ]
    end
  | (* Exynos *) match type of K with ?n = ?v * _ + ?p * _ =>
      let v0 := eval vm_compute in (n / 2 ^ 20) in let p0 := eval vm_compute in (n / 16 mod 4096) in
      let Q := fresh in assert (Q : v = v0 /\ p = p0) by (change (2 ^ 20) with 1048576 in K; change (2 ^ 4) with 16 in K; lia); destruct Q as (-> & ->);
      now (apply (meant_exynos _ _ _ v0 p0); [among|now rewrite EV|exact D])
    end
  | idtac ].
Ltac xscale_part K D := rewrite N.shiftr_div_pow2 in K; match type of K with ?d = ?p / _ => apply (meant_old _ _ _ _ 0x69 d p); [among|reflexivity|exact D|symmetry; exact K] end.
Lemma decoded_meant arm32 vfpv4 midr v u : u <> 0 -> decode_vendor_uarch arm32 midr vfpv4 = (v, u) -> core_meant arm32 vfpv4 midr v u.
Proof.
  intros U. rewrite decode_by_fields. pose proof (part_small midr) as PS. pose proof (variant_small midr) as VS.
  assert (D : design midr = (field_of Implementer midr, field_of PartNumber midr)) by reflexivity.
  remember (field_of Variant midr) as variant eqn:EV. remember (field_of PartNumber midr) as part eqn:EP. remember (field_of Implementer midr) as imp eqn:EI. clear EP EI.
  unfold decode_by. intros E.
  match type of E with switch ?l ?x ?d = _ => destruct (switch_cases l x d) as [C|C]; rewrite E in C; clear E end; [|injection C as -> ->; now destruct U].
  destruct arm32; cbn [app In] in C; repeat (destruct C as [C|C]; [apply pair_equal_spec in C; destruct C as (<- & C)|]); try (now destruct C).
  all: unfold broadcom, cavium, huawei, intel, nvidia, apm, qualcomm, marvell in C; try (apply pair_equal_spec in C; destruct C as (<- & C));
    match type of C with switch ?l ?x ?d = _ => destruct (switch_cases l x d) as [K|K]; rewrite C in K; clear C end;
    try (injection K as <- <-; now destruct U); try (now (subst u; destruct U)).
  all: cbn [app In] in K; try (repeat (destruct K as [K|K]; [apply pair_equal_spec in K; destruct K as (K & K')|]); try (now destruct K)).
  all: meant D EV K.
  all: try (injection K as -> ->; now destruct U).
  (* Cortex-A55 *)
  1, 7: rewrite <- K in D; destruct (N.eqb_spec (variant * 2 ^ 20) 0) as [Q|Q]; subst u; rewrite EV in Q;
    [apply meant_a55r0; [exact D|change (2 ^ 20) with 1048576 in Q; lia]|apply meant_a55; [exact D|intros E; now rewrite E in Q]].
  (* ARM7, ARM9, ARM11 *)
  - match type of K with _ = switch ?l ?x ?d => destruct (switch_cases l x d) as [C|C]; rewrite <- K in C; [|now (subst u; destruct U)] end.
    cbn [In] in C. repeat (destruct C as [C|C]; [apply pair_equal_spec in C; destruct C as (C & <-)|]); try (now destruct C); rewrite N.shiftr_div_pow2 in C;
      (eapply meant_old; [among|reflexivity|exact D|symmetry; exact C]).
  (* XScale *)
  - xscale_part K D.
  - xscale_part K D.
  - xscale_part K D.
  (* Scorpion or Cortex-A5 *)
  - rewrite <- K in D. destruct vfpv4; injection K' as <- <-; [now apply meant_qualcomm_a5|now apply meant_scorpion].
Qed.
Lemma decoded_exactly arm32 vfpv4 midr v u : u <> 0 -> decode_vendor_uarch arm32 midr vfpv4 = (v, u) <-> core_meant arm32 vfpv4 midr v u.
Proof. intros U. split; [now apply decoded_meant|apply meant_decoded]. Qed.
