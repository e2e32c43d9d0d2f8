(** What the C library promises of qsort, and that some function meets it. *)
From Verif Require Import Base.

(** The array becomes a permutation of itself that is sorted by the comparator;
    the order of elements the comparator calls equal is not specified. *)
Definition sorts {A} (cmp : A -> A -> Z) (sorter : list A -> list A) : Prop :=
  forall l, Permutation l (sorter l) /\ StronglySorted (fun a b => (cmp a b <= 0)%Z) (sorter l).

(** The contract qsort demands of its comparator: a consistent total order
    relation, up to equality of keys. *)
Record total_preorder {A} (cmp : A -> A -> Z) : Prop := {
  cmp_opposite : forall a b, Z.sgn (cmp a b) = (- Z.sgn (cmp b a))%Z;
  cmp_trans : forall a b c, (cmp a b <= 0)%Z -> (cmp b c <= 0)%Z -> (cmp a c <= 0)%Z;
  cmp_trans_lt : forall a b c, (cmp a b < 0)%Z -> (cmp b c <= 0)%Z -> (cmp a c < 0)%Z
}.

(** Insertion sort, used in the examples. *)
Fixpoint insert {A} (cmp : A -> A -> Z) (a : A) (l : list A) : list A :=
  match l with
  | [] => [a]
  | b :: l' => if (cmp a b <=? 0)%Z then a :: l else b :: insert cmp a l'
  end.
Fixpoint isort {A} (cmp : A -> A -> Z) (l : list A) : list A :=
  match l with [] => [] | a :: l' => insert cmp a (isort cmp l') end.

Lemma insert_perm A (cmp : A -> A -> Z) a l : Permutation (a :: l) (insert cmp a l).
Proof.
  induction l as [|b l IH]; cbn; [auto|]. destruct (cmp a b <=? 0)%Z; [auto|].
  rewrite perm_swap. now constructor.
Qed.

Lemma isort_sorts A (cmp : A -> A -> Z) : total_preorder cmp -> sorts cmp (isort cmp).
Proof.
  intros [Hop Htr _] l. induction l as [|a l (IP & IS)]; cbn; [split; constructor|]. split.
  - rewrite <- insert_perm. now constructor.
  - clear IP. revert IS. generalize (isort cmp l). clear l. intros l IS. induction IS as [|b l IS IH HF]; cbn.
    + repeat constructor.
    + destruct (Z.leb_spec (cmp a b) 0) as [H|H].
      * constructor; [now constructor|]. constructor; [exact H|].
        rewrite Forall_forall in *. intros c Hc. now apply (Htr a b c H), HF.
      * constructor; [exact IH|]. rewrite Forall_forall in *. intros c Hc.
        apply (Permutation_in _ (Permutation_sym (insert_perm _ cmp a l))) in Hc.
        destruct Hc as [<-|Hc]; [|now apply HF].
        specialize (Hop a b). lia.
Qed.
