(** The instruction sets of Apple processors. *)
From Verif Require Import Base ArmIsaModel ArmMachModel ArmMachSpec ArmMachProofs.
Open Scope nat_scope.

Lemma asked_iff a f : asked a f = true <-> exists v, tells (aa_feature a f) v /\ v <> 0%N.
Proof.
  unfold asked. split.
  - intros H. exists (sys_info (aa_feature a f)). split.
    + unfold tells, sys_info. destruct (aa_feature a f) as [[s|] v]; cbn; [|right; split; [now left|reflexivity]].
      destruct (N.eqb_spec s 4) as [->|Ne].
      * destruct v; [now left|]. right. split; [now right|reflexivity].
      * right. split; [left; congruence|reflexivity].
    + intros E. rewrite E in H. discriminate.
  - intros (v & T & Ne). apply tells_sys_info in T. rewrite T. destruct (N.eqb_spec v 0); [contradiction|reflexivity].
Qed.

Lemma existsb_asked a fs : existsb (asked a) fs = true <-> exists f v, In f fs /\ tells (aa_feature a f) v /\ v <> 0%N.
Proof.
  rewrite existsb_exists. split.
  - intros (f & I & H). apply asked_iff in H. destruct H as (v & T & Ne). now exists f, v.
  - intros (f & v & I & T & Ne). exists f. split; [exact I|]. apply asked_iff. now exists v.
Qed.
Lemma existsb_family family fams : existsb (N.eqb family) fams = true <-> In family fams.
Proof.
  rewrite existsb_exists. split; [intros (x & I & E); apply N.eqb_eq in E; now subst|]. intros I. exists family. split; [exact I|apply N.eqb_refl].
Qed.

Lemma assign_get f c i g : (if (c : bool) then assign f true i else i) g = flag_beq g f && c || i g.
Proof. destruct c; unfold assign; destruct (flag_beq g f); reflexivity. Qed.
Lemma two_ways (c d : bool) f i g : (if c then assign f true i else if d then assign f true i else i) g = flag_beq g f && (c || d) || i g.
Proof. destruct c, d; unfold assign; destruct (flag_beq g f); reflexivity. Qed.
Lemma three_ways (c d e : bool) f i g :
  (if c then assign f true i else if d then assign f true i else if e then assign f true i else i) g = flag_beq g f && (c || (d || e)) || i g.
Proof. destruct c, d, e; unfold assign; destruct (flag_beq g f); reflexivity. Qed.

Lemma mach_isa_flags a f : arm_mach_isa a f =
  flag_beq f F_sme2 && asked a SME2 || (flag_beq f F_sme && asked a SME || (flag_beq f F_i8mm && asked a I8MM ||
  (flag_beq f F_dot && (asked a DotProd || one_of [f_lightning; f_firestorm] (sys_info (aa_family a))) ||
  (flag_beq f F_jscvt && (asked a JSCVT || one_of [f_lightning; f_firestorm] (sys_info (aa_family a))) ||
  (flag_beq f F_fcma && (asked a FCMA || one_of [f_lightning; f_firestorm] (sys_info (aa_family a))) ||
  (flag_beq f F_bf16 && asked a BF16 ||
  (flag_beq f F_fhm && (asked a FHM || (asked a FHM_legacy || one_of [f_lightning; f_firestorm] (sys_info (aa_family a)))) ||
  (flag_beq f F_fp16arith && (asked a FP16 || one_of [f_monsoon; f_vortex; f_lightning; f_firestorm] (sys_info (aa_family a))) ||
  (flag_beq f F_rdm && (asked a RDM || one_of [f_monsoon; f_vortex; f_lightning; f_firestorm] (sys_info (aa_family a))) ||
  (flag_beq f F_atomics && (asked a LSE || one_of [f_monsoon; f_vortex; f_lightning; f_firestorm] (sys_info (aa_family a))) || static_isa f)))))))))).
Proof.
  unfold arm_mach_isa, set_if. cbv zeta. rewrite !assign_get. rewrite !two_ways. rewrite assign_get. rewrite three_ways. now rewrite !two_ways.
Qed.

Lemma mach_isa_get a family g fs fams : sys_info (aa_family a) = family -> In (g, (fs, fams)) apple_extensions ->
  has_arm false (arm_mach_isa a) g = existsb (asked a) fs || existsb (N.eqb family) fams.
Proof.
  intros <- I. cbn [In apple_extensions] in I.
  repeat destruct I as [I|I]; try contradiction; injection I as <- <- <-; cbn [has_arm]; rewrite mach_isa_flags; cbn [flag_beq andb orb existsb];
    unfold one_of, a11_to_a14, a13_to_a14; rewrite ?Bool.orb_false_r; try reflexivity.
  now rewrite Bool.orb_assoc.
Qed.

Lemma mach_isa_extensions a family g fs fams : tells (aa_family a) family -> In (g, (fs, fams)) apple_extensions ->
  (has_arm false (arm_mach_isa a) g = true <-> (exists f v, In f fs /\ tells (aa_feature a f) v /\ v <> 0%N) \/ In family fams).
Proof.
  intros T I. apply tells_sys_info in T. rewrite (mach_isa_get a family g fs fams T I), Bool.orb_true_iff, existsb_asked, existsb_family. reflexivity.
Qed.
Lemma mach_isa_always a g : In g apple_always -> has_arm false (arm_mach_isa a) g = true.
Proof.
  intros I. cbn [In apple_always] in I. repeat destruct I as [I|I]; try contradiction; subst g; cbn [has_arm]; rewrite mach_isa_flags; reflexivity.
Qed.
Lemma mach_isa_never a g : In g apple_never -> has_arm false (arm_mach_isa a) g = false.
Proof.
  intros I. cbn [In apple_never] in I. repeat destruct I as [I|I]; try contradiction; subst g; cbn [has_arm]; rewrite ?mach_isa_flags; cbn; reflexivity.
Qed.

(** Every getter is of one of the three kinds, or has the same answer in every 64-bit program. *)
Lemma mach_isa_rest a g : ~ In g apple_always -> ~ In g apple_never -> ~ In g (map fst apple_extensions) ->
  forall i, has_arm false (arm_mach_isa a) g = has_arm false i g.
Proof. intros A B C i. destruct g; try reflexivity; exfalso; cbn in A, B, C; tauto. Qed.
