(** Property theorems about the public API: C01-C05 and C07, and the parts of
    C02, C05, C07 and C27 that need the tables of x86 Linux. *)
From Verif Require Import Base Sorting TopologySpec ApiModel OnceModel ApiProofs X86LinuxModel X86LinuxSpec
  X86FinalProofs X86Sample X86LinuxProps X86ApiProofs.
Open Scope N_scope.

(** ** C01 *)

(** A getter aborts if and only if the flag is down, whatever the globals. *)
Theorem getter_fatal_iff_not_initialized : forall c globals cpu getter,
  ask c globals cpu getter = Fatal <-> gl_initialized globals = false.
Proof. exact ask_fatal_iff. Qed.
Print Assumptions getter_fatal_iff_not_initialized.

(** In every interleaving a getter that does not abort ends after detection
    has started, and detection is one that publishes. *)
Theorem getter_answers_only_when_initialized : forall c routine, flag_last routine ->
  forall events1 thread getter a events2 s,
  run c routine system0 (events1 ++ Getter_ends thread getter a :: events2) s ->
  a = Fatal \/ (publishes routine /\ (exists k, In (Detection_starts k) events1) /\
                exists cpu, a = ask c (final routine) cpu getter).
Proof. exact getter_answers. Qed.
Print Assumptions getter_answers_only_when_initialized.

(** A schedule with two threads in which one getter is overtaken by the other
    thread's detection. *)
Definition sample_routine : list gstore :=
  [St_pointer Cores (Some (Cores, 2%nat)); St_count Cores 2; St_initialized].
Example sample_schedule : exists s,
  flag_last sample_routine /\
  run (Config true false) sample_routine system0
    ([Silent; Detection_starts 0; Getter_called 1 (Get_element Cores 1); Silent; Silent; Silent; Silent; Silent; Silent]
     ++ Getter_ends 1 (Get_element Cores 1) (Pointer Cores 1)
     :: [Detection_ends 0; Init_returns 0 true; Deinit_returns 0; Getter_called 1 (Get_count Cores); Silent; Silent;
         Getter_ends 1 (Get_count Cores) (Number 2); Silent; Silent; Init_returns 1 true])%nat s.
Proof.
  eexists. split.
  { intros l1 l2. apply (app_cons_last [St_pointer Cores (Some (Cores, 2%nat)); St_count Cores 2]).
    cbn. intuition discriminate. }
  cbn [app].
  eapply run_step; [apply (step_call_init _ _ _ _ _ 0); reflexivity|].
  eapply run_step; [apply (step_first _ _ _ _ 0); reflexivity|].
  eapply run_step; [apply (step_call_getter _ _ _ _ _ 1 _ (Some 7)); reflexivity|].
  eapply run_step; [eapply (step_store _ _ _ _ _ 0); reflexivity|].
  eapply run_step; [eapply (step_store _ _ _ _ _ 0); reflexivity|].
  eapply run_step; [eapply (step_store _ _ _ _ _ 0); reflexivity|].
  eapply run_step; [eapply (step_read _ _ _ _ _ 1); [reflexivity|discriminate]|].
  eapply run_step; [eapply (step_read _ _ _ _ _ 1); [reflexivity|discriminate]|].
  eapply run_step; [eapply (step_read _ _ _ _ _ 1); [reflexivity|discriminate]|].
  eapply run_step; [eapply (step_getter_ends _ _ _ _ _ 1); reflexivity|].
  eapply run_step; [apply (step_detected _ _ _ _ _ 0); reflexivity|].
  eapply run_step; [apply (step_init_returns_eq _ _ _ _ _ 0); reflexivity|].
  eapply run_step; [apply (step_deinit _ _ _ _ _ 0); reflexivity|].
  eapply run_step; [apply (step_call_getter _ _ _ _ _ 1 _ None); reflexivity|].
  eapply run_step; [eapply (step_read _ _ _ _ _ 1); [reflexivity|discriminate]|].
  eapply run_step; [eapply (step_read _ _ _ _ _ 1); [reflexivity|discriminate]|].
  eapply run_step; [eapply (step_getter_ends _ _ _ _ _ 1); reflexivity|].
  eapply run_step; [apply (step_call_init _ _ _ _ _ 1); reflexivity|].
  eapply run_step; [apply (step_not_first _ _ _ _ 1); reflexivity|].
  eapply run_step; [apply (step_init_returns_eq _ _ _ _ _ 1); reflexivity|].
  apply run_nil.
Qed.

(** ** C02 *)

(** With counts that agree with the arrays an indexed getter answers with the
    element if and only if the index is below the count getter's answer. *)
Theorem indexed_getter_exact : forall c globals cpu t index,
  gl_initialized globals = true -> counts_agree c globals ->
  exists n, ask c globals cpu (Get_count t) = Number n /\
    ask c globals cpu (Get_element t index) = if index <? n then Pointer t (N.to_nat index) else Null.
Proof. exact ask_element. Qed.
Print Assumptions indexed_getter_exact.

(** The tables published by x86 Linux detection are such. *)
Theorem x86_linux_indexed_getters : forall char_signed default sorter calloc_ok x files o t,
  qsort_contract sorter ->
  x86_linux_init char_signed default sorter calloc_ok x files = Ok o -> o_published o = Some t ->
  forall table index cpu, exists n,
    ask x86_linux (published_globals t) cpu (Get_count table) = Number n /\
    ask x86_linux (published_globals t) cpu (Get_element table index)
    = if index <? n then Pointer table (N.to_nat index) else Null.
Proof. exact published_elements. Qed.
Print Assumptions x86_linux_indexed_getters.

Example indexed_getter_case :
  let g := final sample_routine in
  gl_initialized g = true /\ counts_agree (Config true false) g /\
  ask (Config true false) g None (Get_element Cores 1) = Pointer Cores 1 /\
  ask (Config true false) g None (Get_element Cores 2) = Null /\
  ask (Config true false) g None (Get_element (Caches L3) 0) = Null.
Proof.
  split; [reflexivity|]. split; [|repeat split].
  intros [| | | | |[]] H; ((left; reflexivity) || (right; split; reflexivity)).
Qed.

(** ** C03 *)

Theorem detection_runs_at_most_once : forall c routine, flag_last routine -> forall events s,
  run c routine system0 events s -> (starts events <= 1 /\ ends events <= starts events)%nat.
Proof. exact run_starts_once. Qed.
Print Assumptions detection_runs_at_most_once.

Theorem initialize_returns_after_detection : forall c routine, flag_last routine ->
  forall events1 thread b events2 s,
  run c routine system0 (events1 ++ Init_returns thread b :: events2) s ->
  (exists k, In (Detection_ends k) events1) /\ (b = true <-> publishes routine).
Proof. exact init_returns. Qed.
Print Assumptions initialize_returns_after_detection.

(** Single-threaded WebAssembly: any number of calls. *)
Theorem emscripten_initialize_once : forall routine n,
  emscripten_calls routine (S n) (false, globals0) =
  (true, final routine, repeat (gl_initialized (final routine)) (S n)).
Proof. exact emscripten_once. Qed.
Print Assumptions emscripten_initialize_once.

Example emscripten_case : emscripten_calls sample_routine 3 (false, globals0) =
  (true, final sample_routine, [true; true; true]).
Proof. reflexivity. Qed.

(** ** C04 *)

(** A getter called after some initialize call has returned [true] answers from
    the final tables and does not abort, whatever happened in between; after
    [false] it always aborts. *)
Theorem results_never_change : forall c routine, flag_last routine ->
  forall events1 i b events2 k getter0 events3 getter a events4 s,
  run c routine system0
    (events1 ++ Init_returns i b :: events2 ++ Getter_called k getter0 :: events3 ++ Getter_ends k getter a :: events4) s ->
  (b = true -> exists cpu, a = ask c (final routine) cpu getter /\ a <> Fatal) /\ (b = false -> a = Fatal).
Proof. exact later_answers. Qed.
Print Assumptions results_never_change.

(** ** C05 *)

(** x86 Linux: in every interleaving with the individual commit stores, an
    answer is an answer from the complete tables, and exists only if detection
    succeeded. *)
Theorem x86_linux_all_or_nothing : forall o events1 i getter a events2 s,
  run x86_linux (x86_linux_routine o) system0 (events1 ++ Getter_ends i getter a :: events2) s ->
  a = Fatal \/ exists t cpu, o_published o = Some t /\ a = ask x86_linux (published_globals t) cpu getter.
Proof. exact x86_linux_any_schedule. Qed.
Print Assumptions x86_linux_all_or_nothing.

Theorem x86_linux_flag_raised_last : forall o,
  flag_last (x86_linux_routine o) /\ (publishes (x86_linux_routine o) <-> o_published o <> None).
Proof. exact (fun o => conj (x86_linux_flag_last o) (x86_linux_publishes o)). Qed.
Print Assumptions x86_linux_flag_raised_last.

(** ** C07 *)

Theorem x86_linux_current_lookups : forall char_signed default sorter calloc_ok x files o t,
  qsort_contract sorter ->
  x86_linux_init char_signed default sorter calloc_ok x files = Ok o -> o_published o = Some t ->
  forall cpu,
  current_processor_right t cpu (ask x86_linux (published_globals t) cpu Get_current_processor) /\
  current_core_right t cpu (ask x86_linux (published_globals t) cpu Get_current_core).
Proof. exact published_lookups. Qed.
Print Assumptions x86_linux_current_lookups.

Theorem x86_linux_current_uarch : forall t cpu d,
  ask x86_linux (published_globals t) cpu Get_current_uarch_index = Number 0 /\
  ask x86_linux (published_globals t) cpu (Get_current_uarch_index_with_default d) = Number 0 /\
  ask x86_linux (published_globals t) cpu (Get_count Uarchs) = Number 1.
Proof. exact published_current_uarch. Qed.
Print Assumptions x86_linux_current_uarch.

(** Where several microarchitectures are possible but Linux detection published
    no map, there is one microarchitecture, with index 0, whatever the default. *)
Theorem current_uarch_without_map : forall c globals cpu d,
  gl_initialized globals = true -> cf_multi_uarch c = true -> cf_linux c = true -> (gl_uarch_map globals = None) ->
  ask c globals cpu Get_current_uarch_index = Number 0 /\
  ask c globals cpu (Get_current_uarch_index_with_default d) = Number 0.
Proof. exact uarch_without_map. Qed.
Print Assumptions current_uarch_without_map.

(** On other systems the current CPU is unknown. *)
Theorem current_lookups_other_systems : forall c globals cpu d,
  gl_initialized globals = true -> cf_linux c = false ->
  ask c globals cpu Get_current_processor = Null /\ ask c globals cpu Get_current_core = Null /\
  ask c globals cpu Get_current_uarch_index = Number 0 /\
  ask c globals cpu (Get_current_uarch_index_with_default d) = Number (if cf_multi_uarch c then d else 0).
Proof. exact uarch_other_systems. Qed.
Print Assumptions current_lookups_other_systems.

Example current_lookups_other_case : gl_initialized (final sample_routine) = true /\
  ask (Config false true) (final sample_routine) (Some 1) (Get_current_uarch_index_with_default 5) = Number 5 /\
  ask (Config true true) (final sample_routine) (Some 1) (Get_current_uarch_index_with_default 5) = Number 0.
Proof. repeat split. Qed.

Example x86_linux_sample_answers : exists o t,
  x86_linux_init true 32 sample_sort (fun _ => true) sample_info sample_files = Ok o /\ o_published o = Some t /\
  ask x86_linux (published_globals t) (Some 1) Get_current_processor = Pointer Processors 2 /\
  ask x86_linux (published_globals t) (Some 1) Get_current_core = Pointer Cores 1 /\
  ask x86_linux (published_globals t) (Some 4) Get_current_processor = Null /\
  ask x86_linux (published_globals t) None Get_current_processor = Null /\
  ask x86_linux (published_globals t) (Some 1000) Get_current_processor = Null /\
  ask x86_linux (published_globals t) None (Get_element (Caches L2) 1) = Pointer (Caches L2) 1 /\
  ask x86_linux (published_globals t) None (Get_element (Caches L2) 2) = Null /\
  ask x86_linux (published_globals t) None Get_max_cache_size = Number 8388608.
Proof. do 2 eexists. split; [vm_compute; reflexivity|]. split; [reflexivity|]. repeat split. Qed.

(** ** C27 on x86 Linux, as the getter answers it *)

Theorem x86_linux_max_cache_size_answer : forall char_signed default sorter calloc_ok x files o t,
  qsort_contract sorter ->
  x86_linux_init char_signed default sorter calloc_ok x files = Ok o -> o_published o = Some t ->
  forall cpu, ask x86_linux (published_globals t) cpu Get_max_cache_size = Number (last_level_size x).
Proof. exact published_max_answer. Qed.
Print Assumptions x86_linux_max_cache_size_answer.
