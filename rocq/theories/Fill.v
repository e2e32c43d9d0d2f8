(** Arrays that a loop fills from the front, and groups of equal size. *)
From Verif Require Import Base BaseProofs Loops TopologySpec.
Open Scope nat_scope.

(** "for (i = 0; i < n; i++) a[i] = f(i);" where the right-hand side may be undefined. *)
Definition fill {A} (f : nat -> res A) (n : nat) (a : list A) : res (list A) :=
  for_each (fun i a => do x <- f i; wr a i x) 0 n a.

(** The first [k] of [n] elements are given by [f], the others are [z]. *)
Definition front {A} (f : nat -> A) (z : A) (n k : nat) : list A := map f (seq 0 k) ++ repeat z (n - k).

Lemma upd_app {A} (l r : list A) x y : upd (l ++ y :: r) (length l) x = l ++ x :: r.
Proof. induction l as [|a l IH]; cbn [app length upd]; [reflexivity|]. now rewrite IH. Qed.

Lemma front_length {A} (f : nat -> A) z n k : k <= n -> length (front f z n k) = n.
Proof. intros H. unfold front. rewrite app_length, map_length, seq_length, repeat_length. lia. Qed.

Lemma front_0 {A} (f : nat -> A) z n : front f z n 0 = repeat z n.
Proof. unfold front. cbn. now rewrite Nat.sub_0_r. Qed.

Lemma front_all {A} (f : nat -> A) z n : front f z n n = map f (seq 0 n).
Proof. unfold front. rewrite Nat.sub_diag. cbn. now rewrite app_nil_r. Qed.

Lemma front_wr {A} (f : nat -> A) z n k : k < n -> wr (front f z n k) k (f k) = Ok (front f z n (S k)).
Proof.
  intros H. unfold wr. rewrite front_length by lia. destruct (Nat.ltb_spec k n); [|lia]. f_equal. unfold front.
  replace (n - k) with (S (n - S k)) by lia. cbn [repeat].
  pose proof (upd_app (map f (seq 0 k)) (repeat z (n - S k)) (f k) z) as U. rewrite map_length, seq_length in U. rewrite U.
  rewrite seq_S, map_app, <- app_assoc. reflexivity.
Qed.

Lemma fill_front {A} (f : nat -> A) z n m : m <= n ->
  fill (fun i => Ok (f i)) m (repeat z n) = Ok (front f z n m).
Proof.
  intros H. unfold fill.
  destruct (for_each_inv (fun i a => do x <- Ok (f i); wr a i x) (fun i a => a = front f z n i) m 0 (repeat z n)) as (s & E & ->).
  - symmetry. apply front_0.
  - intros i s Hi ->. exists (front f z n (S i)). split; [|reflexivity]. cbn [bind]. apply front_wr. lia.
  - exact E.
Qed.

Lemma fill_ext {A} (f g : nat -> res A) m a : (forall i, i < m -> f i = g i) -> fill f m a = fill g m a.
Proof. intros H. unfold fill. apply for_each_ext. intros i s Hi. rewrite H by lia. reflexivity. Qed.

Lemma fill_all {A} (f : nat -> res A) (g : nat -> A) z n : (forall i, i < n -> f i = Ok (g i)) ->
  fill f n (repeat z n) = Ok (map g (seq 0 n)).
Proof. intros H. rewrite (fill_ext f (fun i => Ok (g i))) by exact H. rewrite fill_front by lia. now rewrite front_all. Qed.

Lemma fill_undefined {A} (f : nat -> res A) n a i : i < n -> f i = UB -> (forall j, j < i -> exists x, f j = Ok x) -> length a = n ->
  fill f n a = UB.
Proof.
  intros H U D L. unfold fill. replace n with (i + S (n - S i)) by lia. rewrite for_each_app.
  destruct (for_each_inv (fun i a => do x <- f i; wr a i x) (fun _ a => length a = n) i 0 a) as (s & E & Ls); [assumption| |].
  - intros j s Hj Ls. destruct (D j ltac:(lia)) as (x & Ex). rewrite Ex. cbn [bind]. unfold wr. rewrite Ls.
    destruct (Nat.ltb_spec j n); [|lia]. eexists. split; [reflexivity|]. now rewrite upd_length.
  - rewrite E. cbn [bind plus for_each]. now rewrite U.
Qed.

Lemma nth_error_table {A} (f : nat -> A) n i : nth_error (map f (seq 0 n)) i = if i <? n then Some (f i) else None.
Proof.
  destruct (Nat.ltb_spec i n) as [H|H].
  - apply map_nth_error. rewrite nth_error_nth' with (d := 0) by now rewrite seq_length. now rewrite seq_nth.
  - apply nth_error_None. now rewrite map_length, seq_length.
Qed.

Lemma table_some {A} (f : nat -> A) n i x : nth_error (map f (seq 0 n)) i = Some x <-> i < n /\ x = f i.
Proof.
  rewrite nth_error_table. destruct (Nat.ltb_spec i n) as [H|H]; split.
  - intros E. injection E as <-. now split.
  - now intros (_ & ->).
  - discriminate.
  - lia.
Qed.

(** Groups of [w] elements each. *)
Lemma tiles_uniform w (W : 0 < w) : forall m k, tiles (k * w) (map (fun j => (j * w, w)) (seq k m)) ((k + m) * w).
Proof.
  induction m as [|m IH]; intros k; cbn [seq map tiles]; [now rewrite Nat.add_0_r|]. repeat split; [assumption|].
  replace (k * w + w) with (S k * w) by (cbn; lia). replace (k + S m) with (S k + m) by lia. apply IH.
Qed.

Lemma grouping_uniform w m : 0 < w ->
  grouping (map (fun i => i / w) (seq 0 (m * w))) (map (fun j => (j * w, w)) (seq 0 m)).
Proof.
  intros W. split; [rewrite map_length, seq_length; apply (tiles_uniform w W m 0)|].
  intros i j. rewrite table_some. split.
  - intros (H & ->). exists (i / w * w), w. rewrite table_some.
    assert (i / w < m) by (apply Nat.div_lt_upper_bound; lia).
    pose proof (Nat.div_mod i w ltac:(lia)). pose proof (Nat.mod_upper_bound i w ltac:(lia)). repeat split; auto; nia.
  - intros (s & c & H & I). apply table_some in H. destruct H as (H & E). apply pair_equal_spec in E. destruct E as (-> & ->). split; [nia|].
    apply Nat.div_unique with (i - j * w); nia.
Qed.

Lemma points_uniform w m : 0 < w ->
  points_to (map (fun i => Some (i / w)) (seq 0 (m * w))) (map (fun j => (j * w, w)) (seq 0 m)).
Proof. intros W. exists (map (fun i => i / w) (seq 0 (m * w))). split; [now rewrite map_map|now apply grouping_uniform]. Qed.

(** One group of everything. *)
Lemma points_one n : 0 < n -> points_to (map (fun _ => Some 0) (seq 0 n)) [(0, n)].
Proof.
  intros H. pose proof (points_uniform n 1 H) as P. cbn [seq map] in P. rewrite Nat.mul_1_l in P.
  rewrite (map_ext_in _ (fun _ => Some 0)) in P; [exact P|]. intros i Hi. apply in_seq in Hi. f_equal. apply Nat.div_small. lia.
Qed.

(** Two groups, split at [b]. *)
Lemma points_two n b : 0 < b -> b < n ->
  points_to (map (fun i => Some (if b <=? i then 1 else 0)) (seq 0 n)) [(0, b); (b, n - b)].
Proof.
  intros H B. exists (map (fun i => if b <=? i then 1 else 0) (seq 0 n)). split; [now rewrite map_map|]. split.
  - cbn [tiles]. rewrite map_length, seq_length. repeat split; lia.
  - intros i j. rewrite table_some. split.
    + intros (Hi & ->). destruct (Nat.leb_spec b i).
      * exists b, (n - b). split; [reflexivity|lia].
      * exists 0, b. split; [reflexivity|lia].
    + intros (s & c & E & I). destruct j as [|[|[|j]]]; cbn in E; try discriminate; injection E as <- <-; (split; [lia|]);
        destruct (Nat.leb_spec b i); lia.
Qed.

(** What a fill that does not fail leaves. *)
Lemma for_each_ok_inv {T} (body : nat -> T -> res T) (P : nat -> T -> Prop) : forall n from s s',
  P from s -> (forall i s s', from <= i < from + n -> P i s -> body i s = Ok s' -> P (S i) s') ->
  for_each body from n s = Ok s' -> P (from + n) s'.
Proof.
  induction n as [|n IH]; intros from s s' H B E; cbn [for_each] in E.
  - injection E as <-. now rewrite Nat.add_0_r.
  - destruct (body from s) as [s1| |] eqn:E1; try discriminate. cbn [bind] in E. replace (from + S n) with (S from + n) by lia.
    apply (IH _ s1 s'); [apply (B from s s1); [lia|exact H|exact E1]| |exact E]. intros i a a' Hi. apply B. lia.
Qed.

Lemma fill_inv {A} (f : nat -> res A) n a l : fill f n a = Ok l -> length a = n ->
  length l = n /\ forall i, i < n -> exists x, f i = Ok x /\ nth_error l i = Some x.
Proof.
  intros E L. unfold fill in E.
  apply (for_each_ok_inv _ (fun k l => length l = n /\ forall i, i < k -> exists x, f i = Ok x /\ nth_error l i = Some x)) in E; [exact E| |].
  - split; [exact L|lia].
  - intros k s s' Hk (Ls & F) B. destruct (f k) as [x| |] eqn:Ek; try discriminate. cbn [bind] in B. unfold wr in B.
    destruct (Nat.ltb_spec k (length s)); [|discriminate]. injection B as <-. rewrite upd_length. split; [exact Ls|].
    intros i Hi. destruct (Nat.eq_dec i k) as [->|Ne].
    + exists x. split; [exact Ek|now apply nth_error_upd_eq].
    + destruct (F i ltac:(lia)) as (y & Ey & Ny). exists y. split; [exact Ey|]. rewrite nth_error_upd_neq; auto.
Qed.

(** Groups of equal size cover a number that is a multiple of the size. *)
Lemma tiles_uniform_inv w : forall m k e, tiles (k * w) (map (fun j => (j * w, w)) (seq k m)) e -> e = (k + m) * w.
Proof.
  induction m as [|m IH]; intros k e T; cbn [seq map tiles] in T.
  - rewrite <- T. f_equal. lia.
  - destruct T as (_ & _ & T). replace (k * w + w) with (S k * w) in T by (cbn; lia). apply IH in T. rewrite T. f_equal. lia.
Qed.

Lemma points_uniform_inv w m pointers : points_to pointers (map (fun j => (j * w, w)) (seq 0 m)) -> length pointers = m * w.
Proof.
  intros (owner & -> & T & _). rewrite map_length. apply (tiles_uniform_inv w m 0). exact T.
Qed.
