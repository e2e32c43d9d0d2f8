(** Property theorems about WebAssembly: C35. *)
From Verif Require Import Base TopologySpec ApiModel ApiProofs EmscriptenModel EmscriptenSpec EmscriptenProofs.
Open Scope nat_scope.

(** For every answer of the runtime and every pattern of failing allocations there is no access
    outside the arrays; either everything is published, or nothing, and then nothing is left
    allocated. *)
Theorem emscripten_init_all_or_nothing : forall is_x86 logical calloc_ok, exists o,
  emscripten_init is_x86 logical calloc_ok = Ok o /\
  ((forallb calloc_ok blocks = true /\ o_live o = blocks /\
    exists t, emscripten_tables (emscripten_layout is_x86 logical) = Ok t /\ o_published o = Some t) \/
   (forallb calloc_ok blocks = false /\ o_published o = None /\ o_live o = [])).
Proof. exact init_cases. Qed.
Print Assumptions emscripten_init_all_or_nothing.

(** The tables describe a machine with as many processors as the runtime says: pairs share a
    core on x86 if their number is even, and ARM has two clusters above four.  On x86 with an
    even number the cores are only the first half of the table. *)
Theorem emscripten_describes_machine : forall is_x86 logical calloc_ok o t,
  emscripten_init is_x86 logical calloc_ok = Ok o -> o_published o = Some t ->
  let n := processors_of logical in let per_core := if is_x86 && Nat.even n then 2 else 1 in
  describes n per_core (if is_x86 then [n] else arm_clusters n) t (firstn (n / per_core) (t_cores t)).
Proof. exact published_describes. Qed.
Print Assumptions emscripten_describes_machine.

(** The geometry of every published cache is that of a cache that can be built, the caches get
    larger from level to level, and none is larger than the largest cache size reported. *)
Theorem emscripten_caches_fit : forall is_x86 logical calloc_ok o t,
  emscripten_init is_x86 logical calloc_ok = Ok o -> o_published o = Some t ->
  (forall c, In c (t_l1i t ++ t_l1d t ++ t_l2 t ++ t_l3 t ++ t_l4 t) -> fitting (t_max_cache_size t) (ca_geometry c)) /\
  (forall a b, In a (t_l1i t ++ t_l1d t) -> In b (t_l2 t) -> (size_of a < size_of b)%N) /\
  (forall a b, In a (t_l2 t) -> In b (t_l3 t) -> (size_of a < size_of b)%N).
Proof. exact published_caches_fit. Qed.
Print Assumptions emscripten_caches_fit.

Example emscripten_caches_case : exists o t,
  emscripten_init true 5 (fun _ => true) = Ok o /\ o_published o = Some t /\
  map size_of (t_l1d t) = [32768; 32768; 32768; 32768; 32768]%N /\
  map size_of (t_l2 t) = [262144; 262144; 262144; 262144; 262144]%N /\ map size_of (t_l3 t) = [2097152]%N.
Proof. do 2 eexists. split; [vm_compute; reflexivity|]. split; [reflexivity|]. vm_compute. repeat split. Qed.

(** Every index below a count gives an element and every other index NULL, but for the
    first-level caches of x86 with an even number of processors. *)
Theorem emscripten_indexed_getters : forall is_x86 logical calloc_ok o t cpu tb i,
  emscripten_init is_x86 logical calloc_ok = Ok o -> o_published o = Some t ->
  is_x86 = false \/ Nat.Odd (processors_of logical) \/ ~ In tb [Caches L1i; Caches L1d] ->
  exists n, ask emscripten (final (emscripten_routine is_x86 o)) cpu (Get_count tb) = Number n /\
    ask emscripten (final (emscripten_routine is_x86 o)) cpu (Get_element tb i) = if (i <? n)%N then Pointer tb (N.to_nat i) else Null.
Proof. exact emscripten_elements. Qed.
Print Assumptions emscripten_indexed_getters.

Example emscripten_case : exists o t,
  emscripten_init false 6 (fun _ => true) = Ok o /\ o_published o = Some t /\ length (t_cores t) = 6 /\
  map cl_processor_count (t_clusters t) = [2; 4] /\ t_l2_of t = [Some 0; Some 0; Some 1; Some 1; Some 1; Some 1] /\
  ask emscripten (final (emscripten_routine false o)) None (Get_element (Caches L2) 1) = Pointer (Caches L2) 1.
Proof. do 2 eexists. split; [vm_compute; reflexivity|]. split; [reflexivity|]. vm_compute. repeat split. Qed.

(** With an even number of processors on x86, the count of first-level caches is twice the
    length of the table: half of the indexes below it give addresses outside. *)
Theorem emscripten_l1_count_refuted : exists o,
  emscripten_init true 4 (fun _ => true) = Ok o /\
  let globals := final (emscripten_routine true o) in
  ask emscripten globals None (Get_count (Caches L1i)) = Number 4 /\
  ask emscripten globals None (Get_element (Caches L1i) 2) = Undefined /\
  ask emscripten globals None (Get_count (Caches L1d)) = Number 4 /\
  ask emscripten globals None (Get_element (Caches L1d) 3) = Undefined.
Proof. eexists. split; [vm_compute; reflexivity|]. vm_compute. repeat split. Qed.
Print Assumptions emscripten_l1_count_refuted.

(** Then the second half of the cores are blank: they have no processors, cluster or
    package. *)
Theorem emscripten_cores_initialised_refuted : exists o t,
  emscripten_init true 4 (fun _ => true) = Ok o /\ o_published o = Some t /\
  ask emscripten (final (emscripten_routine true o)) None (Get_count Cores) = Number 4 /\
  ask emscripten (final (emscripten_routine true o)) None (Get_element Cores 2) = Pointer Cores 2 /\
  nth_error (t_cores t) 2 = Some core0 /\ map pk_core_count (t_packages t) = [2].
Proof. do 2 eexists. split; [vm_compute; reflexivity|]. split; [reflexivity|]. vm_compute. repeat split. Qed.
Print Assumptions emscripten_cores_initialised_refuted.
