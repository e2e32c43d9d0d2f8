From Verif Require Import Base.

Lemma upd_length A (l : list A) i x : length (upd l i x) = length l.
Proof. revert i; induction l as [|h t IH]; intros [|j]; simpl; auto. Qed.

Lemma nth_error_upd_eq A (l : list A) i x : i < length l -> nth_error (upd l i x) i = Some x.
Proof.
  revert i; induction l as [|h t IH]; intros [|j] H; simpl in *; try lia; auto.
  apply IH; lia.
Qed.

Lemma nth_error_upd_neq A (l : list A) i j x : i <> j -> nth_error (upd l i x) j = nth_error l j.
Proof.
  revert i j; induction l as [|h t IH]; intros [|i] [|j] H; simpl; auto; try lia.
Qed.

Lemma nth_error_upd A (l : list A) i j x :
  nth_error (upd l i x) j =
  if (i =? j) && (i <? length l) then Some x else nth_error l j.
Proof.
  destruct (Nat.eqb_spec i j) as [->|Hne]; simpl.
  - destruct (Nat.ltb_spec j (length l)) as [Hl|Hl].
    + now apply nth_error_upd_eq.
    + transitivity (@None A).
      * apply nth_error_None. rewrite upd_length; lia.
      * symmetry; apply nth_error_None; lia.
  - now apply nth_error_upd_neq.
Qed.

Lemma wr_ok A (a : list A) i x : i < length a -> wr a i x = Ok (upd a i x).
Proof. intros H; unfold wr; destruct (Nat.ltb_spec i (length a)); [reflexivity|lia]. Qed.

Lemma modify_ok A (a : list A) i f y :
  nth_error a i = Some y -> modify a i f = Ok (upd a i (f y)).
Proof. intros H; unfold modify; now rewrite H. Qed.

Lemma nth_error_some_lt A (l : list A) i x : nth_error l i = Some x -> i < length l.
Proof. intros H; apply nth_error_Some; congruence. Qed.

Lemma nth_error_lt A (l : list A) i : i < length l -> exists x, nth_error l i = Some x.
Proof.
  intros H; destruct (nth_error l i) as [x|] eqn:E; [eauto|].
  apply nth_error_None in E; lia.
Qed.

Lemma nth_error_ext A (l l' : list A) :
  (forall i, nth_error l i = nth_error l' i) -> l = l'.
Proof.
  revert l'; induction l as [|x l IH]; intros [|y l'] H; auto.
  - specialize (H 0); discriminate.
  - specialize (H 0); discriminate.
  - pose proof (H 0) as H0; simpl in H0; injection H0 as ->.
    f_equal; apply IH; intros i; apply (H (S i)).
Qed.

Lemma nth_error_repeat A (x : A) n i : i < n -> nth_error (repeat x n) i = Some x.
Proof. revert i; induction n as [|n IH]; intros [|i] H; simpl; try lia; auto. apply IH; lia. Qed.

Lemma u32_small x : (x < two32)%N -> u32 x = x.
Proof. intros H; unfold u32; now apply N.mod_small. Qed.

Lemma u32_lt x : (u32 x < two32)%N.
Proof. unfold u32; apply N.mod_lt; discriminate. Qed.
