(** The order in which ARM processors are sorted: its comparator, and what a sorted table
    looks like. *)
From Verif Require Import Base BaseProofs Sorting Runs ArmMidrModel ArmClustersModel ArmClusterMidrModel ArmLinuxModel.
Open Scope nat_scope.

(** ** The comparator *)
Lemma cmp_down_cases a b o : (a = b /\ cmp_down a b o = o) \/ ((b < a)%N /\ cmp_down a b o = (-1)%Z) \/ ((a < b)%N /\ cmp_down a b o = 1%Z).
Proof. unfold cmp_down. destruct (N.eqb_spec a b); [auto|]. destruct (N.ltb_spec b a); [auto|]. right. right. split; [lia|reflexivity]. Qed.

Lemma down_preorder {A} (f : A -> N) rest : total_preorder rest -> total_preorder (fun a b => cmp_down (f a) (f b) (rest a b)).
Proof.
  intros [H1 H2 H3]. split.
  - intros a b. specialize (H1 a b).
    destruct (cmp_down_cases (f a) (f b) (rest a b)) as [(E & ->)|[(E & ->)|(E & ->)]];
      destruct (cmp_down_cases (f b) (f a) (rest b a)) as [(E' & ->)|[(E' & ->)|(E' & ->)]]; try lia; try reflexivity.
  - intros a b c. specialize (H2 a b c).
    destruct (cmp_down_cases (f a) (f b) (rest a b)) as [(E & ->)|[(E & ->)|(E & ->)]];
      destruct (cmp_down_cases (f b) (f c) (rest b c)) as [(E' & ->)|[(E' & ->)|(E' & ->)]];
      destruct (cmp_down_cases (f a) (f c) (rest a c)) as [(E'' & ->)|[(E'' & ->)|(E'' & ->)]]; intros; try lia; auto.
  - intros a b c. specialize (H3 a b c).
    destruct (cmp_down_cases (f a) (f b) (rest a b)) as [(E & ->)|[(E & ->)|(E & ->)]];
      destruct (cmp_down_cases (f b) (f c) (rest b c)) as [(E' & ->)|[(E' & ->)|(E' & ->)]];
      destruct (cmp_down_cases (f a) (f c) (rest a c)) as [(E'' & ->)|[(E'' & ->)|(E'' & ->)]]; intros; try lia; auto.
Qed.

Lemma cmp_nat_cases a b : (a = b /\ cmp_nat a b = 0%Z) \/ (b < a /\ cmp_nat a b = 1%Z) \/ (a < b /\ cmp_nat a b = (-1)%Z).
Proof. unfold cmp_nat. destruct (Nat.ltb_spec b a), (Nat.ltb_spec a b); try lia. Qed.

Lemma ids_preorder : total_preorder (fun a b : aproc => cmp_nat (a_id a) (a_id b)).
Proof.
  split; intros.
  - destruct (cmp_nat_cases (a_id a) (a_id b)) as [(E & ->)|[(E & ->)|(E & ->)]];
      destruct (cmp_nat_cases (a_id b) (a_id a)) as [(E' & ->)|[(E' & ->)|(E' & ->)]]; try lia; reflexivity.
  - revert H H0. destruct (cmp_nat_cases (a_id a) (a_id b)) as [(E & ->)|[(E & ->)|(E & ->)]];
      destruct (cmp_nat_cases (a_id b) (a_id c)) as [(E' & ->)|[(E' & ->)|(E' & ->)]];
      destruct (cmp_nat_cases (a_id a) (a_id c)) as [(E'' & ->)|[(E'' & ->)|(E'' & ->)]]; lia.
  - revert H H0. destruct (cmp_nat_cases (a_id a) (a_id b)) as [(E & ->)|[(E & ->)|(E & ->)]];
      destruct (cmp_nat_cases (a_id b) (a_id c)) as [(E' & ->)|[(E' & ->)|(E' & ->)]];
      destruct (cmp_nat_cases (a_id a) (a_id c)) as [(E'' & ->)|[(E'' & ->)|(E'' & ->)]]; lia.
Qed.

(** The comparator compares five keys in turn. *)
Lemma cmp_arm_keys arm32 a b : cmp_arm_linux_processor arm32 a b =
  cmp_down (N.b2n (a_valid a)) (N.b2n (a_valid b))
    (cmp_down (midr_score_core arm32 (a_midr a)) (midr_score_core arm32 (a_midr b))
      (cmp_down (a_max a) (a_max b)
        (cmp_down (N.of_nat (a_leader a)) (N.of_nat (a_leader b)) (cmp_nat (a_id a) (a_id b))))).
Proof.
  assert (R : forall x o, cmp_down x x o = o) by (intros; unfold cmp_down; rewrite N.eqb_refl; reflexivity).
  unfold cmp_arm_linux_processor. destruct (a_valid a), (a_valid b); cbn [Bool.eqb negb N.b2n]; try reflexivity; rewrite R;
    (destruct (N.eqb_spec (a_midr a) (a_midr b)) as [E|E]; [rewrite E, R|]; reflexivity).
Qed.

Lemma preorder_ext {A} (c c' : A -> A -> Z) : (forall a b, c a b = c' a b) -> total_preorder c' -> total_preorder c.
Proof.
  intros E [H1 H2 H3]. split; intros *.
  - rewrite !E. apply H1.
  - rewrite !E. apply H2.
  - rewrite !E. apply H3.
Qed.

Lemma cmp_arm_preorder arm32 : total_preorder (cmp_arm_linux_processor arm32).
Proof.
  eapply preorder_ext; [apply cmp_arm_keys|].
  repeat apply (down_preorder (fun a : aproc => _)). apply ids_preorder.
Qed.

(** Less or equal: one of the keys decides. *)
Definition arm_before (arm32 : bool) (a b : aproc) : Prop :=
  let score p := midr_score_core arm32 (a_midr p) in
  (a_valid a = true /\ a_valid b = false) \/
  (a_valid a = a_valid b /\
   ((score b < score a)%N \/
    (score a = score b /\
     ((a_max b < a_max a)%N \/
      (a_max a = a_max b /\ (a_leader b < a_leader a \/ (a_leader a = a_leader b /\ a_id a <= a_id b))))))).

Lemma cmp_arm_le arm32 a b : (cmp_arm_linux_processor arm32 a b <= 0)%Z <-> arm_before arm32 a b.
Proof.
  rewrite cmp_arm_keys. unfold arm_before.
  set (sa := midr_score_core arm32 (a_midr a)). set (sb := midr_score_core arm32 (a_midr b)). clearbody sa sb.
  destruct (cmp_nat_cases (a_id a) (a_id b)) as [(E1 & ->)|[(E1 & ->)|(E1 & ->)]];
  destruct (a_valid a), (a_valid b); cbn [N.b2n]; unfold cmp_down;
  repeat match goal with |- context [(?x =? ?y)%N] => destruct (N.eqb_spec x y) end;
  repeat match goal with |- context [(?x <? ?y)%N] => destruct (N.ltb_spec x y) end;
  split; intros Q; try lia;
  repeat match goal with q : _ \/ _ |- _ => destruct q as [?|?] | q : _ /\ _ |- _ => destruct q as (? & ?) end; try discriminate; try lia;
  try (left; split; reflexivity); right; (split; [reflexivity|lia]).
Qed.

(** Records with the same id that are both least are the same entry; different entries
    never compare equal. *)
Lemma cmp_arm_distinct arm32 a b : cmp_arm_linux_processor arm32 a b = 0%Z -> a_id a = a_id b.
Proof.
  rewrite cmp_arm_keys. unfold cmp_down.
  repeat match goal with |- context [(?x =? ?y)%N] => destruct (N.eqb_spec x y) end;
  repeat match goal with |- context [(?x <? ?y)%N] => destruct (N.ltb_spec x y) end; intros Q; try discriminate.
  destruct (cmp_nat_cases (a_id a) (a_id b)) as [(E & _)|[(_ & E)|(_ & E)]]; lia.
Qed.
