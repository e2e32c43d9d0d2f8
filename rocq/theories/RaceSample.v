(** A program in which two threads initialize and then use the library, and what a careless one can do. *)
From Verif Require Import Base BaseProofs ApiModel OnceModel RaceModel RaceSpec RaceProofs.
Open Scope nat_scope.

(** The steps are those of OnceModel; [Look] changes nothing. *)
Lemma does_step c routine s i a s' : does c routine s (i, a) s' -> (exists e, step c routine s e s') \/ a = Look /\ s' = s.
Proof.
  intros D. remember (i, a) as l eqn:L. destruct D; injection L as <- <-.
  1-8: left; eexists.
  - now apply step_call_init.
  - now apply step_first.
  - now apply step_not_first.
  - now apply step_store.
  - now apply step_detected.
  - now apply step_init_returns.
  - eapply step_deinit; eassumption.
  - now apply step_call_getter.
  - left. eexists. eapply step_read; [eassumption|]. intros a ->. discriminate.
  - left. eexists. eapply (step_read c routine) with (p := Call_getcpu k); [eassumption|discriminate].
  - left. eexists. eapply step_getter_ends. eassumption.
  - right. auto.
Qed.
Lemma step_does c routine s e s' : step c routine s e s' -> exists l, does c routine s l s'.
Proof.
  intros [].
  - eexists. now apply do_call_init.
  - eexists. now apply do_first.
  - eexists. now apply do_not_first.
  - eexists. now apply do_store.
  - eexists. now apply do_detected.
  - eexists. now apply do_init_returns.
  - eexists. eapply do_deinit; eassumption.
  - eexists. now apply do_call_getter.
  - destruct p as [a| | | | | | | | |]; [now destruct (H0 a)| | | | | | | | |].
    all: try (eexists; eapply do_read; [eassumption|reflexivity]). eexists. cbn [read_step]. now eapply do_getcpu; eassumption.
  - eexists. eapply do_getter_ends. eassumption.
Qed.

(** If each thread initializes before its own uses, nothing else is needed. *)
Lemma each_thread c routine T states : execution c routine T states ->
  (forall y j a, T y = Some (j, a) -> uses a -> exists x, x < y /\ T x = Some (j, Init_return)) -> race_free (fun _ _ => False) T.
Proof.
  intros EX H. apply (careful_race_free _ c routine T states EX). intros y j a E U. destruct (H y j a E U) as (x & L & X).
  exists x, j. split; [exact X|]. now apply (hb_thread _ _ x y j Init_return a).
Qed.

Lemma skip_at {A} (l : list A) k x : nth_error l k = Some x -> skipn k l = x :: skipn (S k) l.
Proof. revert k. induction l as [|y l IH]; intros [|k]; cbn; try discriminate; [congruence|]. intros H. now apply IH. Qed.
Lemma skip_end {A} (l : list A) k : nth_error l k = None -> skipn k l = [] /\ skipn (S k) l = [].
Proof. intros H. apply nth_error_None in H. split; apply skipn_all2; lia. Qed.

(** A thread that uses the library while another is in the routine. *)
Section CARELESS.
  Context (c : config) (routine : list gstore) (m : nat) (pre : nat -> option (nat * action)) (spre : nat -> system) (start : system).
  Hypothesis (Z : spre 0 = system0) (ONCE : sy_once start = Running) (AB : sy_aborted start = false) (TH : sy_thread start 0 = Detecting routine) (M : m <> 0).
  Hypothesis (PRE : forall n, n < m -> match pre n with
                                       | Some l => does c routine (spre n) l (if S n <? m then spre (S n) else start)
                                       | None => (if S n <? m then spre (S n) else start) = spre n
                                       end).

  Fixpoint later (k : nat) : system :=
    match k with
    | O => start
    | S k' => match nth_error routine k' with
              | None => later k'
              | Some s => System (apply_store (sy_globals (later k')) s) Running false (set_thread (sy_thread (later k')) 0 (Detecting (skipn k routine)))
              end
    end.
  Definition careless_trace : trace := fun n =>
    if n <? m then pre n else match nth_error routine (n - m) with Some s => Some (0, Write (store_location s)) | None => None end.
  Definition careless_states (n : nat) : system := if n <? m then spre n else later (n - m).

  Lemma later_state k : exists G f, later k = System G Running false f /\ f 0 = Detecting (skipn k routine).
  Proof using ONCE AB TH.
    clear PRE Z. induction k as [|k (G & f & E & F)].
    - exists (sy_globals start), (sy_thread start). split; [|exact TH]. cbn [later]. rewrite <- ONCE, <- AB. now destruct start.
    - cbn [later]. destruct (nth_error routine k) as [s|] eqn:H.
      + rewrite E. cbn [sy_globals sy_thread]. eexists _, _. split; [reflexivity|]. apply set_same.
      + exists G, f. split; [exact E|]. rewrite F. apply skip_end in H. now destruct H as (-> & ->).
  Qed.

  Lemma careless_execution : execution c routine careless_trace careless_states.
  Proof using Z ONCE AB TH M PRE.
    split.
    - unfold careless_states. destruct (Nat.ltb_spec 0 m); [exact Z|lia].
    - intros n. unfold careless_trace, careless_states. destruct (Nat.ltb_spec n m) as [L|L].
      + pose proof (PRE n L) as P. destruct (Nat.ltb_spec (S n) m) as [L'|L']; [exact P|]. replace (S n - m) with 0 by lia. exact P.
      + destruct (Nat.ltb_spec (S n) m) as [L'|L']; [lia|]. replace (S n - m) with (S (n - m)) by lia. set (k := n - m). clearbody k. cbn [later].
        destruct (later_state k) as (G & f & E & F). rewrite E. destruct (nth_error routine k) as [s|] eqn:H; [|reflexivity].
        cbn [sy_globals sy_thread]. apply do_store. now rewrite F, (skip_at _ _ _ H).
  Qed.
End CARELESS.

(** Without pthread_once passes and other synchronisation only program order is left. *)
Lemma only_threads T : (forall x j, T x <> Some (j, Once_pass)) -> forall x y, happens_before (fun _ _ => False) T x y -> forall i j a b, T x = Some (i, a) -> T y = Some (j, b) -> i = j.
Proof.
  intros NP x y H. assert (K : exists k a b, T x = Some (k, a) /\ T y = Some (k, b)).
  { induction H as [x y i a b L E1 E2|x y i j L E1 E2|x y L []|x y z H1 (k & a & b & E1 & E2) H2 (k' & a' & b' & E3 & E4)].
    - now exists i, a, b.
    - now destruct (NP y j).
    - exists k, a, b'. split; [exact E1|]. congruence. }
  destruct K as (k & a & b & E1 & E2). intros i j a' b' E3 E4. congruence.
Qed.

Lemma careless_getter c routine (g : getter) : In St_initialized routine ->
  exists T states y, execution c routine T states /\ T 2 = Some (1, Getter_call) /\ sy_thread (states 3) 1 = Getting g None (getter_prog c g) /\
    (forall n, T n <> Some (1, Init_return)) /\ race (fun _ _ => False) T 3 y.
Proof.
  intros H. apply In_nth_error in H. destruct H as (k & H).
  set (f1 := set_thread (fun _ => Idle) 0 Entering). set (f2 := set_thread f1 0 (Detecting routine)).
  set (f3 := set_thread f2 1 (Getting g None (getter_prog c g))). set (f4 := set_thread f3 1 (Getting g None (read_step globals0 None (getter_prog c g)))).
  set (pre := nth_error [(0, Call_init); (0, Once_begin); (1, Getter_call); (1, Getter_read L_flag)]).
  set (spre := fun n => nth n [system0; System globals0 Fresh false f1; System globals0 Running false f2; System globals0 Running false f3] system0).
  set (start := System globals0 Running false f4).
  exists (careless_trace routine 4 pre), (careless_states routine 4 spre start), (4 + k).
  assert (NP : forall x j a, careless_trace routine 4 pre x = Some (j, a) -> a <> Once_pass /\ a <> Init_return).
  { intros x j a. unfold careless_trace. destruct (Nat.ltb_spec x 4) as [L|L].
    - destruct x as [|[|[|[|x]]]]; [..|lia]; cbn; intros E; injection E as <- <-; split; discriminate.
    - destruct (nth_error routine (x - 4)); [|discriminate]. intros E. injection E as <- <-. split; discriminate. }
  split; [|split; [reflexivity|split; [reflexivity|split]]].
  - apply careless_execution; try reflexivity; [discriminate|]. intros n L. destruct n as [|[|[|[|n]]]]; [..|lia]; cbn.
    + now apply do_call_init.
    + now apply do_first.
    + now apply do_call_getter.
    + eapply do_read; reflexivity.
  - intros n E. now apply NP in E.
  - assert (E : careless_trace routine 4 pre (4 + k) = Some (0, Write L_flag)).
    { unfold careless_trace. destruct (Nat.ltb_spec (4 + k) 4); [lia|]. replace (4 + k - 4) with k by lia. now rewrite H. }
    exists 1, 0, (Getter_read L_flag), (Write L_flag), L_flag, false, true. split; [reflexivity|]. split; [exact E|]. split; [discriminate|]. split; [reflexivity|]. split; [reflexivity|]. split; [now right|]. split.
    + intros B. apply only_threads with (i := 1) (j := 0) (a := Getter_read L_flag) (b := Write L_flag) in B; [discriminate B| |reflexivity|exact E]. intros x j X. now apply NP in X.
    + intros B. apply only_threads with (i := 0) (j := 1) (b := Getter_read L_flag) (a := Write L_flag) in B; [discriminate B| |exact E|reflexivity]. intros x j X. now apply NP in X.
Qed.

Lemma careless_look c routine : In St_other routine ->
  exists T states y, execution c routine T states /\ T 2 = Some (1, Look) /\ (forall n, T n <> Some (1, Init_return)) /\ race (fun _ _ => False) T 2 y.
Proof.
  intros H. apply In_nth_error in H. destruct H as (k & H).
  set (f1 := set_thread (fun _ => Idle) 0 Entering). set (f2 := set_thread f1 0 (Detecting routine)).
  set (pre := nth_error [(0, Call_init); (0, Once_begin); (1, Look)]).
  set (spre := fun n => nth n [system0; System globals0 Fresh false f1; System globals0 Running false f2] system0).
  set (start := System globals0 Running false f2).
  exists (careless_trace routine 3 pre), (careless_states routine 3 spre start), (3 + k).
  assert (NP : forall x j a, careless_trace routine 3 pre x = Some (j, a) -> a <> Once_pass /\ a <> Init_return).
  { intros x j a. unfold careless_trace. destruct (Nat.ltb_spec x 3) as [L|L].
    - destruct x as [|[|[|x]]]; [..|lia]; cbn; intros E; injection E as <- <-; split; discriminate.
    - destruct (nth_error routine (x - 3)); [|discriminate]. intros E. injection E as <- <-. split; discriminate. }
  split; [|split; [reflexivity|split]].
  - apply careless_execution; try reflexivity; [discriminate|]. intros n L. destruct n as [|[|[|n]]]; [..|lia]; cbn.
    + now apply do_call_init.
    + now apply do_first.
    + now apply do_look.
  - intros n E. now apply NP in E.
  - assert (E : careless_trace routine 3 pre (3 + k) = Some (0, Write L_other)).
    { unfold careless_trace. destruct (Nat.ltb_spec (3 + k) 3); [lia|]. replace (3 + k - 3) with k by lia. now rewrite H. }
    exists 1, 0, Look, (Write L_other), L_other, false, true. split; [reflexivity|]. split; [exact E|]. split; [discriminate|]. split; [reflexivity|]. split; [reflexivity|]. split; [now right|]. split.
    + intros B. apply only_threads with (i := 1) (j := 0) (a := Look) (b := Write L_other) in B; [discriminate B| |reflexivity|exact E]. intros x j X. now apply NP in X.
    + intros B. apply only_threads with (i := 0) (j := 1) (b := Look) (a := Write L_other) in B; [discriminate B| |exact E|reflexivity]. intros x j X. now apply NP in X.
Qed.

(** Two threads that both initialize and then use the library. *)
Definition two_labels : list (nat * action) :=
  [(0, Call_init); (1, Call_init); (1, Once_begin); (1, Write L_other); (1, Write L_flag); (1, Once_end); (0, Once_pass); (0, Init_return); (0, Look);
   (1, Init_return); (0, Getter_call); (1, Look); (0, Getter_read L_flag)].
Definition two_trace : trace := nth_error two_labels.
Definition two_routine : list gstore := [St_other; St_initialized].
Definition two_states (c : config) (g : getter) : nat -> system :=
  let G := apply_stores globals0 two_routine in
  let f1 := set_thread (fun _ => Idle) 0 Entering in
  let f2 := set_thread f1 1 Entering in
  let f3 := set_thread f2 1 (Detecting two_routine) in
  let f4 := set_thread f3 1 (Detecting [St_initialized]) in
  let f5 := set_thread f4 1 (Detecting []) in
  let f6 := set_thread f5 1 Leaving in
  let f7 := set_thread f6 0 Leaving in
  let f8 := set_thread f7 0 Idle in
  let f9 := set_thread f8 1 Idle in
  let f10 := set_thread f9 0 (Getting g None (getter_prog c g)) in
  let f11 := set_thread f10 0 (Getting g None (read_step G None (getter_prog c g))) in
  let last := System G Done false f11 in
  fun n => nth n [system0; System globals0 Fresh false f1; System globals0 Fresh false f2; System globals0 Running false f3;
                  System (apply_store globals0 St_other) Running false f4; System G Running false f5; System G Done false f6; System G Done false f7;
                  System G Done false f8; System G Done false f8; System G Done false f9; System G Done false f10; System G Done false f10; last] last.
