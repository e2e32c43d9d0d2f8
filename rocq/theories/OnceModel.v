(** Model of src/init.c: threads calling cpuinfo_initialize,
    cpuinfo_deinitialize and the getters in any interleaving.  Definitions only.
    Memory is sequentially consistent; pthread_once (InitOnceExecuteOnce on
    Windows) behaves as POSIX says: the first caller runs the routine, the
    others wait until it has returned. *)
From Verif Require Import Base ApiModel.
Open Scope nat_scope.

(** The once guard, init.c:15-21. *)
Inductive once := Fresh | Running | Done.

(** Where a thread is. *)
Inductive thread :=
| Idle
| Entering                               (* init.c:23: before or inside pthread_once *)
| Detecting (rest : list gstore)         (* running the detection routine *)
| Leaving                                (* init.c:64: before "return cpuinfo_is_initialized" *)
| Getting (g : getter) (cpu : option N) (p : prog).    (* inside a getter *)

Record system := System {
  sy_globals : globals;
  sy_once : once;
  sy_aborted : bool;
  sy_thread : nat -> thread
}.

Definition set_thread (f : nat -> thread) (i : nat) (t : thread) : nat -> thread :=
  fun j => if j =? i then t else f j.

(** What an observer sees. *)
Inductive event :=
| Silent
| Detection_starts (i : nat)
| Detection_ends (i : nat)
| Init_returns (i : nat) (b : bool)
| Deinit_returns (i : nat)
| Getter_called (i : nat) (g : getter)
| Getter_ends (i : nat) (g : getter) (a : answer).

(** One step of one thread.  [routine] is the sequence of stores to the globals
    that the detection routine makes; it is empty if detection fails. *)
Inductive step (c : config) (routine : list gstore) : system -> event -> system -> Prop :=
| step_call_init G o f i : f i = Idle ->
    step c routine (System G o false f) Silent (System G o false (set_thread f i Entering))
| step_first G f i : f i = Entering ->
    step c routine (System G Fresh false f) (Detection_starts i)
         (System G Running false (set_thread f i (Detecting routine)))
| step_not_first G f i : f i = Entering ->
    step c routine (System G Done false f) Silent (System G Done false (set_thread f i Leaving))
| step_store G o f i s rest : f i = Detecting (s :: rest) ->
    step c routine (System G o false f) Silent
         (System (apply_store G s) o false (set_thread f i (Detecting rest)))
| step_detected G o f i : f i = Detecting [] ->
    step c routine (System G o false f) (Detection_ends i)
         (System G Done false (set_thread f i Leaving))
| step_init_returns G o f i : f i = Leaving ->
    step c routine (System G o false f) (Init_returns i (gl_initialized G))
         (System G o false (set_thread f i Idle))
| step_deinit G o f i : f i = Idle ->                              (* init.c:67 *)
    step c routine (System G o false f) (Deinit_returns i) (System G o false f)
| step_call_getter G o f i g cpu : f i = Idle ->
    step c routine (System G o false f) (Getter_called i g)
         (System G o false (set_thread f i (Getting g cpu (getter_prog c g))))
| step_read G o f i g cpu p : f i = Getting g cpu p -> (forall a, p <> Return a) ->
    step c routine (System G o false f) Silent
         (System G o false (set_thread f i (Getting g cpu (read_step G cpu p))))
| step_getter_ends G o f i g cpu a : f i = Getting g cpu (Return a) ->
    step c routine (System G o false f) (Getter_ends i g a)
         (System G o (match a with Fatal => true | _ => false end) (set_thread f i Idle)).

(** Executions with their events. *)
Inductive run (c : config) (routine : list gstore) : system -> list event -> system -> Prop :=
| run_nil s : run c routine s [] s
| run_step s e s' l s'' : step c routine s e s' -> run c routine s' l s'' -> run c routine s (e :: l) s''.

(** The start of the program: any number of threads, all idle. *)
Definition system0 : system := System globals0 Fresh false (fun _ => Idle).

(** init.c:52-60, WebAssembly without threads: the guard is a plain variable. *)
Definition emscripten_initialize (routine : list gstore) (state : bool * globals) : bool * globals * bool :=
  let '(guard, G) := state in
  let G' := if guard then G else apply_stores G routine in
  (true, G', gl_initialized G').
