(** Tables with one entry per run of equal keys, filled while walking over the
    elements: the invariant and its step, and offsets of elements in groups. *)
From Verif Require Import Base BaseProofs Runs.
Open Scope nat_scope.

(** Index variable after [k] elements. *)
Definition idx (new : nat -> bool) (k : nat) : option nat :=
  match k with O => None | S k' => Some (grp new k') end.

Lemma idx_new new k : new 0 = true -> new k = true -> incr_index (idx new k) = Some (grp new k).
Proof.
  intros H0 Hk. rewrite grp_leader by exact Hk. destruct k as [|k]; [reflexivity|].
  cbn [idx incr_index]. now rewrite cnt_grp.
Qed.

Lemma idx_old new k : new 0 = true -> new k = false -> idx new k = Some (grp new k).
Proof. intros H0 Hk. destruct k as [|k]; [congruence|]. cbn [idx]. now rewrite grp_follow. Qed.

Lemma idx_all k : incr_index (idx (fun _ => true) k) = Some k.
Proof. destruct k as [|k]; [reflexivity|]. cbn [idx incr_index]. unfold grp. now rewrite cnt_all. Qed.

Lemma grp_all k : grp (fun _ => true) k = k.
Proof. unfold grp. now rewrite cnt_all. Qed.

(** Last key after [k] elements. *)
Definition last_key (key : nat -> N) (k : nat) : N := match k with O => u32max | S k' => key k' end.

Lemma last_key_test key k : key 0 <> u32max -> negb (key k =? last_key key k)%N = new_key key k.
Proof.
  intros H. destruct k as [|k]; [|reflexivity]. cbn.
  now destruct (N.eqb_spec (key 0) u32max).
Qed.

Lemma last_key_same key k : new_key key k = false -> last_key key k = key k.
Proof. destruct k as [|k]; cbn; [discriminate|]. intros H. symmetry. apply N.eqb_eq. now destruct (key (S k) =? key k)%N. Qed.

Lemma leader_at new k : new 0 = true -> exists s, s <= k /\ new s = true /\ cnt s new = grp new k.
Proof.
  intros H0. destruct (leader_of new (S k) (grp new k)) as (s & H1 & H2 & H3).
  - rewrite cnt_grp by exact H0. lia.
  - exists s. repeat split; auto. lia.
Qed.

(** ** The table *)
Section ARRAY.
  Context {A : Type} (new : nat -> bool) (n : nat) (zero : A) (entry : nat -> nat -> A).
  Hypothesis new0 : new 0 = true.

  (** After [k] elements: the entry of the group led by [s] is [entry k s], the
      entries of groups not yet seen are still zero. *)
  Definition filled (k : nat) (a : list A) : Prop :=
    length a = cnt n new /\
    (forall s, s < k -> new s = true -> nth_error a (cnt s new) = Some (entry k s)) /\
    (forall j, cnt k new <= j < cnt n new -> nth_error a j = Some zero).

  Lemma filled_init : filled 0 (repeat zero (cnt n new)).
  Proof using. clear new0.
    split; [apply repeat_length|]. split; [intros; lia|].
    intros j Hj. apply nth_error_repeat. lia.
  Qed.

  Lemma filled_step k a f :
    k < n -> filled k a ->
    (new k = true -> f zero = entry (S k) k) ->
    (forall s, s < k -> new s = true -> new k = false -> grp new k = cnt s new -> f (entry k s) = entry (S k) s) ->
    (forall s, s < k -> new s = true -> grp new k <> cnt s new -> entry (S k) s = entry k s) ->
    exists a', modify_at a (Some (grp new k)) f = Ok a' /\ filled (S k) a'.
  Proof using new0.
    intros Hk (L & F & Z) Hnew Hsame Hother.
    pose proof (cnt_mono new (S k) n Hk) as M. pose proof (cnt_grp new new0 k) as G.
    destruct (new k) eqn:E.
    - assert (Gk : grp new k = cnt k new) by now apply grp_leader.
      assert (Hz : nth_error a (grp new k) = Some zero) by (apply Z; lia).
      exists (upd a (grp new k) (f zero)). split; [cbn; now rewrite (modify_ok _ _ _ _ _ Hz)|].
      split; [now rewrite upd_length|]. split.
      + intros s Hs Es. destruct (Nat.eq_dec s k) as [->|Hne].
        * rewrite <- Gk. rewrite nth_error_upd_eq by lia. now rewrite Hnew.
        * pose proof (cnt_mono new (S s) k ltac:(lia)) as M2. rewrite cnt_S_true in M2 by exact Es.
          rewrite nth_error_upd_neq by lia. rewrite F by (lia || assumption).
          rewrite Hother; auto; lia.
      + intros j Hj. rewrite nth_error_upd_neq by lia. apply Z. lia.
    - destruct (leader_at new k new0) as (s0 & Hs0 & Es0 & Gs0).
      assert (Hlt : s0 < k) by (destruct (Nat.eq_dec s0 k) as [->|]; [congruence|lia]).
      assert (Hz : nth_error a (grp new k) = Some (entry k s0)) by (rewrite <- Gs0; now apply F).
      exists (upd a (grp new k) (f (entry k s0))). split; [cbn; now rewrite (modify_ok _ _ _ _ _ Hz)|].
      split; [now rewrite upd_length|]. split.
      + intros s Hs Es. destruct (Nat.eq_dec s k) as [->|Hnk]; [congruence|].
        destruct (Nat.eq_dec s s0) as [->|Hne].
        * rewrite Gs0. rewrite nth_error_upd_eq by lia. rewrite Hsame; auto.
        * assert (grp new k <> cnt s new).
          { intros H. apply Hne. apply (leader_inj new); auto. congruence. }
          rewrite nth_error_upd_neq by assumption. rewrite F by (lia || assumption).
          rewrite Hother; auto; lia.
      + intros j Hj. rewrite nth_error_upd_neq by lia. apply Z. cbn in Hj. rewrite E in Hj. lia.
  Qed.

  (** Same with a plain store when a group starts. *)
  Lemma filled_start k a v :
    k < n -> filled k a -> new k = true -> v = entry (S k) k ->
    (forall s, s < k -> new s = true -> grp new k <> cnt s new -> entry (S k) s = entry k s) ->
    exists a', wr_at a (Some (grp new k)) v = Ok a' /\ filled (S k) a'.
  Proof using new0.
    intros Hk HF E Hv Hother.
    destruct (filled_step k a (fun _ => v) Hk HF) as (a' & H1 & H2).
    - auto.
    - intros; congruence.
    - exact Hother.
    - exists a'. split; [|exact H2]. cbn in H1 |- *. unfold modify in H1. unfold wr.
      destruct HF as (L & _ & Z).
      pose proof (cnt_mono new (S k) n Hk) as M. pose proof (cnt_grp new new0 k) as G.
      replace (grp new k <? length a) with true by (symmetry; apply Nat.ltb_lt; lia).
      destruct (nth_error a (grp new k)) eqn:En; [exact H1|discriminate].
  Qed.
End ARRAY.

(** Members of the group counted so far. *)
Lemma members_step new (new0 : new 0 = true) (f : nat -> bool) k s : s < k -> new s = true ->
  grp new k <> cnt s new ->
  cnt (S k) (fun i => f i && (grp new i =? cnt s new)) = cnt k (fun i => f i && (grp new i =? cnt s new)).
Proof.
  intros _ _ H. apply cnt_S_false. replace (grp new k =? cnt s new) with false; [apply andb_false_r|].
  symmetry. now apply Nat.eqb_neq.
Qed.

Lemma members_start new (new0 : new 0 = true) (f : nat -> bool) k : new k = true ->
  cnt (S k) (fun i => f i && (grp new i =? cnt k new)) = (if f k then 1 else 0).
Proof.
  intros H. cbn [cnt]. rewrite (cnt_flat _ 0 k); [|lia|].
  - rewrite (grp_leader new k H), Nat.eqb_refl, andb_true_r. reflexivity.
  - intros i Hi. pose proof (cnt_grp new new0 i). pose proof (cnt_mono new (S i) k ltac:(lia)).
    replace (grp new i =? cnt k new) with false; [apply andb_false_r|]. symmetry. apply Nat.eqb_neq. lia.
Qed.

Lemma members_more new (f : nat -> bool) k s : grp new k = cnt s new ->
  cnt (S k) (fun i => f i && (grp new i =? cnt s new))
  = cnt k (fun i => f i && (grp new i =? cnt s new)) + (if f k then 1 else 0).
Proof. intros H. cbn [cnt]. rewrite H, Nat.eqb_refl, andb_true_r. reflexivity. Qed.

(** ** Offsets *)

(** Number of inner groups started in the outer group before the one of [i]. *)
Fixpoint off (outer inner : nat -> bool) (i : nat) : nat :=
  match i with
  | O => 0
  | S i' => if outer (S i') then 0 else if inner (S i') then S (off outer inner i') else off outer inner i'
  end.

Lemma off_spec outer inner i : outer 0 = true -> inner 0 = true ->
  (forall j, outer j = true -> inner j = true) ->
  forall s, s <= i -> outer s = true -> cnt s outer = grp outer i ->
  grp inner s + off outer inner i = grp inner i.
Proof.
  intros O0 I0 Hsub. induction i as [|i IH]; intros s Hs Es Hg.
  - replace s with 0 by lia. cbn [off]. lia.
  - cbn [off]. destruct (outer (S i)) eqn:Eo.
    + assert (s = S i) as ->; [|lia].
      apply (leader_inj outer); auto. rewrite Hg. now apply grp_leader.
    + assert (s <> S i) by congruence.
      rewrite grp_follow in Hg by exact Eo. specialize (IH s ltac:(lia) Es Hg).
      destruct (inner (S i)) eqn:Ei.
      * pose proof (cnt_grp inner I0 (S i)) as G1. pose proof (cnt_grp inner I0 i) as G2.
        rewrite cnt_S_true in G1 by exact Ei. lia.
      * rewrite (grp_follow inner) by exact Ei. lia.
Qed.
