(** Lemmas about the names that cpu-info prints. *)
From Verif Require Import Base Text CpuInfoModel CpuInfoSpec CpuInfoProofs.
From Verif Require X86DescriptorModel X86LinuxModel X86DecodeModel X86LevelsProofs ArmUarchModel ArmMachModel.
Open Scope N_scope.

Definition vendor_named (v : N) : bool := match vendor_to_string v with Some _ => true | None => false end.
Lemma words v u : vendor_named v = true -> has_name u = true -> in_words v u (print_kind v u).
Proof.
  intros V U. unfold vendor_named, has_name in *. unfold print_kind. destruct (vendor_to_string v) as [vs|] eqn:EV; [|discriminate].
  destruct (uarch_to_string u) as [us|] eqn:EU; [|discriminate]. exists vs, us. split; [reflexivity|].
  split; [apply (vendor_meaning v vs EV)|apply (uarch_meaning u us EU)].
Qed.

(** ** Which constants have names *)
Lemma has_name_some u : has_name u = true <-> uarch_to_string u <> None.
Proof. unfold has_name. destruct (uarch_to_string u); split; congruence. Qed.
Lemma vendor_named_some v : vendor_named v = true <-> vendor_to_string v <> None.
Proof. unfold vendor_named. destruct (vendor_to_string v); split; congruence. Qed.
Lemma meaning_constant cs s n : meaning cs s = Some n -> exists id, In (id, n) cs.
Proof.
  unfold meaning. destruct (find _ cs) as [[id m]|] eqn:E; [|discriminate]. intros H. injection H as <-. apply find_some in E. now exists id.
Qed.
Lemma unnamed_exact : forallb (fun c => Bool.eqb (has_name (snd c)) (negb (existsb (fun id => same id (fst c)) unnamed_uarchs))) uarch_constants = true.
Proof. vm_compute. reflexivity. Qed.
Lemma unnamed_vendors_exact :
  forallb (fun c => Bool.eqb (vendor_named (snd c)) (negb (existsb (fun id => same id (fst c)) unnamed_vendors))) vendor_constants = true.
Proof. vm_compute. reflexivity. Qed.
Lemma same_refl a : same a a = true. Proof. induction a as [|x a IH]; [reflexivity|]. cbn [same]. now rewrite N.eqb_refl. Qed.

Lemma named_iff (named : N -> bool) cs ids :
  forallb (fun c => Bool.eqb (named (snd c)) (negb (existsb (fun id => same id (fst c)) ids))) cs = true ->
  (forall n, named n = true -> exists id, In (id, n) cs) ->
  forall n, named n = true <-> (exists id, In (id, n) cs) /\ ~ without_name cs ids n.
Proof.
  intros F H n. rewrite forallb_forall in F. split.
  - intros E. split; [now apply H|]. intros (id & I & J). specialize (F _ J). cbn [fst snd] in F. rewrite E in F.
    assert (X : existsb (fun id0 => same id0 id) ids = true) by (apply existsb_exists; exists id; split; [exact I|apply same_refl]). rewrite X in F. discriminate.
  - intros ((id & I) & W). specialize (F _ I). cbn [fst snd] in F. destruct (named n); [reflexivity|].
    destruct (existsb (fun id0 => same id0 id) ids) eqn:X; [|discriminate]. exfalso. apply W. apply existsb_exists in X as (x & IX & E). apply same_eq in E. subst x.
    now exists id.
Qed.

Lemma uarch_names_documented u :
  (forall s, uarch_to_string u = Some s -> meaning uarch_constants s = Some u) /\
  (uarch_to_string u <> None <-> (exists id, In (id, u) uarch_constants) /\ ~ without_name uarch_constants unnamed_uarchs u).
Proof.
  split; [intros s E; apply (uarch_meaning u s E)|]. rewrite <- has_name_some. apply (named_iff has_name _ _ unnamed_exact).
  intros n E. unfold has_name in E. destruct (uarch_to_string n) as [s|] eqn:ES; [|discriminate]. destruct (uarch_meaning n s ES) as (M & _). now apply meaning_constant in M.
Qed.
Lemma vendor_names_documented v :
  (forall s, vendor_to_string v = Some s -> meaning vendor_constants s = Some v) /\
  (vendor_to_string v <> None <-> (exists id, In (id, v) vendor_constants) /\ ~ without_name vendor_constants unnamed_vendors v).
Proof.
  split; [intros s E; apply (vendor_meaning v s E)|]. rewrite <- vendor_named_some. apply (named_iff vendor_named _ _ unnamed_vendors_exact).
  intros n E. unfold vendor_named in E. destruct (vendor_to_string n) as [s|] eqn:ES; [|discriminate]. destruct (vendor_meaning n s ES) as (M & _).
  now apply meaning_constant in M.
Qed.

(** ** x86 *)
Import X86DescriptorModel X86LinuxModel X86DecodeModel X86LevelsProofs.
Lemma x86_uarch_named b vendor mi : has_name (decode_uarch b vendor mi) = true.
Proof.
  unfold decode_uarch.
  repeat match goal with
  | |- context [first_of ?c] => apply (first_of_forall (fun u => has_name u = true) c);
       [reflexivity|cbn [map snd]; repeat (constructor; [vm_compute; reflexivity|]); constructor]
  | |- context [if ?e then _ else _] => destruct e
  end; vm_compute; reflexivity.
Qed.
Lemma x86_vendor_named b ebx ecx edx : b_x86_32 b = false -> vendor_named (decode_vendor b ebx ecx edx) = true.
Proof.
  intros B. unfold decode_vendor. destruct (find _ vendor_cases) as [[[[[vb vd] vc] only] v]|] eqn:E; [|reflexivity].
  apply find_some in E as [I E]. rewrite B in E. destruct only; [rewrite Bool.andb_false_r in E; discriminate|].
  assert (F : forallb (fun c => let '(_, _, _, only, v) := c in (only : bool) || vendor_named v) vendor_cases = true) by (vm_compute; reflexivity).
  rewrite forallb_forall in F. exact (F _ I).
Qed.
Lemma x86_words b ebx ecx edx mi : b_x86_32 b = false ->
  let v := decode_vendor b ebx ecx edx in in_words v (decode_uarch b v mi) (print_kind v (decode_uarch b v mi)).
Proof. intros B. apply words; [now apply x86_vendor_named|apply x86_uarch_named]. Qed.

(** ** ARM *)
Import ArmUarchModel.
Lemma switch_ok {A} (P : A -> Prop) labels x d : P d -> Forall (fun l => P (snd l)) labels -> P (switch labels x d).
Proof.
  intros D F. induction F as [|[l a] r H F IH]; [exact D|]. cbn [switch]. destruct (x =? l); [exact H|exact IH].
Qed.
Definition pair_named (arm32 : bool) (p : N * N) : Prop :=
  has_name (snd p) = true /\ (vendor_named (fst p) = true \/ arm32 = true /\ fst p = v_marvell).
Ltac labels := repeat (apply Forall_cons); try apply Forall_nil; cbn [snd fst]; try (vm_compute; reflexivity).
Ltac pairs := repeat (apply Forall_cons); try apply Forall_nil; cbn [snd fst]; try (split; [vm_compute; reflexivity|left; vm_compute; reflexivity]).
Lemma arm_uarchs_named arm32 midr : has_name (arm_uarchs arm32 midr) = true.
Proof.
  unfold arm_uarchs. apply (switch_ok (fun u => has_name u = true)).
  - destruct arm32; [|reflexivity]. apply (switch_ok (fun u => has_name u = true)); [reflexivity|labels].
  - destruct arm32; cbn [app]; labels; destruct (_ =? 0); vm_compute; reflexivity.
Qed.
Lemma arm_pair_named arm32 midr vfpv4 : pair_named arm32 (decode_vendor_uarch arm32 midr vfpv4).
Proof.
  unfold decode_vendor_uarch. apply (switch_ok (pair_named arm32)); [split; [reflexivity|now left]|].
  assert (A : pair_named arm32 (v_arm, arm_uarchs arm32 midr)) by (split; [apply arm_uarchs_named|left; reflexivity]).
  assert (B : forall part, pair_named arm32 (broadcom arm32 part)) by (intros; unfold broadcom; destruct arm32; apply switch_ok; [|pairs| |pairs]; pairs).
  assert (C : forall part, pair_named arm32 (cavium part))
    by (intros; split; [apply (switch_ok (fun u => has_name u = true)); [reflexivity|labels]|left; reflexivity]).
  assert (D : forall part, pair_named arm32 (huawei arm32 part)) by (intros; unfold huawei; destruct arm32; apply switch_ok; [|pairs| |pairs]; pairs).
  assert (E : forall part, pair_named arm32 (intel part))
    by (intros; split; [apply (switch_ok (fun u => has_name u = true)); [reflexivity|labels]|left; reflexivity]).
  assert (F : forall part, pair_named arm32 (nvidia part))
    by (intros; split; [apply (switch_ok (fun u => has_name u = true)); [reflexivity|labels]|left; reflexivity]).
  assert (G : forall part, pair_named arm32 (apm part))
    by (intros; split; [apply (switch_ok (fun u => has_name u = true)); [reflexivity|labels]|left; reflexivity]).
  assert (H : forall part, pair_named arm32 (qualcomm arm32 vfpv4 part))
    by (intros; unfold qualcomm; destruct arm32, vfpv4; apply switch_ok; pairs).
  assert (I : pair_named arm32 (samsung midr))
    by (split; [apply (switch_ok (fun u => has_name u = true)); [reflexivity|labels]|left; reflexivity]).
  assert (J : arm32 = true -> forall part, pair_named arm32 (marvell part))
    by (intros K part; split; [apply (switch_ok (fun u => has_name u = true)); [reflexivity|labels]|right; now split]).
  destruct arm32; cbn [app]; repeat (apply Forall_cons); try apply Forall_nil; cbn [snd]; auto.
Qed.
Lemma arm_words arm32 midr vfpv4 : let '(v, u) := decode_vendor_uarch arm32 midr vfpv4 in
  (exists us, uarch_to_string u = Some us) /\ (~ (arm32 = true /\ v = v_marvell) -> in_words v u (print_kind v u)).
Proof.
  pose proof (arm_pair_named arm32 midr vfpv4) as H. destruct (decode_vendor_uarch arm32 midr vfpv4) as [v u]. destruct H as (U & V). cbn [fst snd] in *. split.
  - unfold has_name in U. destruct (uarch_to_string u) as [s|]; [now exists s|discriminate].
  - intros NM. destruct V as [V|V]; [|contradiction]. now apply words.
Qed.

(** ** Apple *)
Lemma apple_words family i cores : in_words 5 (ArmMachModel.decode_uarch family i cores) (print_kind 5 (ArmMachModel.decode_uarch family i cores)).
Proof.
  apply words; [reflexivity|]. unfold ArmMachModel.decode_uarch.
  repeat match goal with |- context [if ?e then _ else _] => destruct e end; vm_compute; reflexivity.
Qed.
