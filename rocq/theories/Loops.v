(** Counting loops: "for (i = from; i < from + n; i++) body". *)
From Verif Require Import Base BaseProofs.
Open Scope nat_scope.

Fixpoint for_each {S} (body : nat -> S -> res S) (from n : nat) (s : S) : res S :=
  match n with
  | O => Ok s
  | Datatypes.S n' => do s' <- body from s; for_each body (Datatypes.S from) n' s'
  end.

(** An invariant that every iteration re-establishes also gives termination. *)
Lemma for_each_inv {S} (body : nat -> S -> res S) (P : nat -> S -> Prop) : forall n from s,
  P from s ->
  (forall i s, from <= i < from + n -> P i s -> exists s', body i s = Ok s' /\ P (Datatypes.S i) s') ->
  exists s', for_each body from n s = Ok s' /\ P (from + n) s'.
Proof.
  induction n as [|n IH]; intros from s H0 HS; cbn [for_each].
  - exists s. now rewrite Nat.add_0_r.
  - destruct (HS from s ltac:(lia) H0) as (s1 & E & H1). rewrite E. cbn [bind].
    destruct (IH (Datatypes.S from) s1 H1) as (s2 & E2 & H2).
    { intros i t Hi Ht. apply HS; [lia|exact Ht]. }
    exists s2. split; [exact E2|]. now replace (from + Datatypes.S n) with (Datatypes.S from + n) by lia.
Qed.

(** The same for loops that are known to succeed. *)
Lemma for_each_keeps {S} (body : nat -> S -> res S) (P : nat -> S -> Prop) : forall n from s s',
  for_each body from n s = Ok s' -> P from s ->
  (forall i s t, from <= i < from + n -> P i s -> body i s = Ok t -> P (Datatypes.S i) t) -> P (from + n) s'.
Proof.
  induction n as [|n IH]; intros from s s' E H0 HS; cbn [for_each] in E.
  - injection E as <-. now rewrite Nat.add_0_r.
  - destruct (body from s) as [s1| |] eqn:E1; try discriminate. cbn [bind] in E.
    replace (from + Datatypes.S n) with (Datatypes.S from + n) by lia.
    apply (IH _ _ _ E); [apply (HS from s); auto; lia|]. intros i u t Hi. apply HS. lia.
Qed.

Lemma for_each_app {S} (body : nat -> S -> res S) : forall n m from s,
  for_each body from (n + m) s = do t <- for_each body from n s; for_each body (from + n) m t.
Proof.
  induction n as [|n IH]; intros m from s; cbn [for_each plus].
  - cbn [bind]. now rewrite Nat.add_0_r.
  - destruct (body from s); cbn [bind]; auto. rewrite IH. now replace (Datatypes.S from + n) with (from + Datatypes.S n) by lia.
Qed.

Lemma for_each_ext {S} (f g : nat -> S -> res S) : forall n from s,
  (forall i s, from <= i < from + n -> f i s = g i s) -> for_each f from n s = for_each g from n s.
Proof.
  induction n as [|n IH]; intros from s H; cbn [for_each]; auto.
  rewrite H by lia. destruct (g from s); cbn [bind]; auto. apply IH. intros i t Hi. apply H. lia.
Qed.
