(** C87: data races between cpuinfo_initialize and the uses of what it finds. *)
From Verif Require Import Base ApiModel OnceModel RaceModel RaceSpec RaceProofs RaceSample.
Open Scope nat_scope.

(** C87.  The steps of the traces are the steps of the threads of C03 and C04; only [Look], which reads, is new. *)
Theorem race_steps_same : forall c routine,
  (forall s e s', step c routine s e s' -> exists l, does c routine s l s') /\
  (forall s i a s', does c routine s (i, a) s' -> (exists e, step c routine s e s') \/ a = Look /\ s' = s).
Proof. exact (fun c routine => conj (step_does c routine) (does_step c routine)). Qed.
Print Assumptions race_steps_same.

(** C87.  If some cpuinfo_initialize has returned before each use, there is no data race: whatever the routine stores
    and however many threads initialize and use the library, and even if some of them initialize again later. *)
Theorem initialized_use_race_free : forall user c routine T states, execution c routine T states -> initialized_before_use user T -> race_free user T.
Proof. exact careful_race_free. Qed.
Print Assumptions initialized_use_race_free.

(** C87.  More: every store of the detection happens before every read, so each read sees the last store. *)
Theorem stores_before_reads : forall user c routine T states, execution c routine T states -> initialized_before_use user T ->
  forall w r i j a b l v, T w = Some (i, a) -> access a = Some (l, true) -> T r = Some (j, b) -> access b = Some (v, false) -> happens_before user T w r.
Proof. exact writes_before_reads. Qed.
Print Assumptions stores_before_reads.

(** C87.  A program without any synchronisation of its own may call cpuinfo_initialize in each thread that uses the library. *)
Theorem initialize_in_each_thread : forall c routine T states, execution c routine T states ->
  (forall y j a, T y = Some (j, a) -> uses a -> exists x, x < y /\ T x = Some (j, Init_return)) -> race_free (fun _ _ => False) T.
Proof. exact each_thread. Qed.
Print Assumptions initialize_in_each_thread.

Example initialize_in_each_thread_case : forall c g,
  execution c two_routine two_trace (two_states c g) /\
  (forall y j a, two_trace y = Some (j, a) -> uses a -> exists x, x < y /\ two_trace x = Some (j, Init_return)) /\
  race_free (fun _ _ => False) two_trace.
Proof.
  intros c g. assert (E : execution c two_routine two_trace (two_states c g)).
  { split; [reflexivity|]. intros n. destruct n as [|[|[|[|[|[|[|[|[|[|[|[|[|n]]]]]]]]]]]]]; cbn.
    - now apply do_call_init.
    - now apply do_call_init.
    - now apply do_first.
    - exact (do_store c two_routine globals0 Running _ 1 St_other [St_initialized] eq_refl).
    - exact (do_store c two_routine (apply_store globals0 St_other) Running _ 1 St_initialized [] eq_refl).
    - now apply do_detected.
    - now apply do_not_first.
    - now apply do_init_returns.
    - now apply do_look.
    - now apply do_init_returns.
    - now apply do_call_getter.
    - now apply do_look.
    - exact (do_read c two_routine (apply_stores globals0 two_routine) Done _ 0 g None (getter_prog c g) L_flag eq_refl eq_refl).
    - now destruct n as [|[|n]]. }
  assert (H : forall y j a, two_trace y = Some (j, a) -> uses a -> exists x, x < y /\ two_trace x = Some (j, Init_return)).
  { intros y j a Y U. destruct y as [|[|[|[|[|[|[|[|[|[|[|[|[|y]]]]]]]]]]]]]; cbn in Y; [injection Y as <- <-; destruct U as [U|U]; try discriminate U..|].
    - exists 7. split; [lia|reflexivity].
    - exists 7. split; [lia|reflexivity].
    - exists 9. split; [lia|reflexivity].
    - now destruct y. }
  split; [exact E|]. split; [exact H|]. exact (initialize_in_each_thread c two_routine two_trace (two_states c g) E H).
Qed.

(** C87.  False: a getter called while another thread initializes is well defined, since it checks whether the
    library is initialized.  The check reads a plain variable that the other thread writes: a data race. *)
Theorem getter_during_initialize_race_refuted : forall c routine (g : getter), In St_initialized routine ->
  exists T states y, execution c routine T states /\ T 2 = Some (1, Getter_call) /\ sy_thread (states 3) 1 = Getting g None (getter_prog c g) /\
    (forall n, T n <> Some (1, Init_return)) /\ race (fun _ _ => False) T 3 y.
Proof. exact careless_getter. Qed.
Print Assumptions getter_during_initialize_race_refuted.

(** C87.  False: the same for cpuinfo_has_*, which checks nothing. *)
Theorem isa_check_during_initialize_race_refuted : forall c routine, In St_other routine ->
  exists T states y, execution c routine T states /\ T 2 = Some (1, Look) /\ (forall n, T n <> Some (1, Init_return)) /\ race (fun _ _ => False) T 2 y.
Proof. exact careless_look. Qed.
Print Assumptions isa_check_during_initialize_race_refuted.

Example refuted_routine : In St_initialized two_routine /\ In St_other two_routine.
Proof. split; [right; left|left]; reflexivity. Qed.
