(** Model of src/emscripten/init.c.  Definitions only.  The counts are below 2^31, so that
    nothing wraps; indexes are natural numbers.  Names and log messages are left out. *)
From Verif Require Import Base Loops Fill TopologySpec ApiModel.
Open Scope nat_scope.

(** src/emscripten/init.c:35-57: [is_x86] is the sign of infinity - infinity, [logical] the
    answer of emscripten_num_logical_cores. *)
Record layout := Layout {
  ly_x86 : bool;
  ly_processors : nat; ly_cores : nat; ly_clusters : nat; ly_big : nat; ly_per_core : nat; ly_l2 : nat
}.
Definition emscripten_layout (is_x86 : bool) (logical : Z) : layout :=
  let logical_cores_count := if (logical <=? 0)%Z then 1%Z else logical in
  let processor_count := Z.to_nat logical_cores_count in
  let '(core_count, cluster_count, big, per_core) :=
    if is_x86 then
      if processor_count mod 2 =? 0 then (processor_count / 2, 1, processor_count / 2, 2)
      else (processor_count, 1, processor_count, 1)
    else
      if 4 <? processor_count then (processor_count, 2, if 8 <=? processor_count then 4 else 2, 1)
      else (processor_count, 1, processor_count, 1) in
  Layout is_x86 processor_count core_count cluster_count big per_core (if is_x86 then core_count else cluster_count).

(** The caches' descriptions, lines 17-23 and 142-173, 201-222. *)
Definition small_l1 : geometry := Geometry (32 * 1024) 4 128 1 64 0.
Definition x86_l2 : geometry := Geometry (256 * 1024) 8 512 1 64 0.
Definition x86_l3 : geometry := Geometry (2 * 1024 * 1024) 16 2048 1 64 0.
Definition big_l2 : geometry := Geometry (1024 * 1024) 8 2048 1 64 0.
Definition little_l2 : geometry := Geometry (256 * 1024) 8 512 1 64 0.

(** The arrays that the loop fills; the cache pointers of the processors are arrays of
    their own. *)
Record estate := EState {
  es_processors : list processor;
  es_l1i_of : list (option nat); es_l1d_of : list (option nat); es_l2_of : list (option nat); es_l3_of : list (option nat);
  es_cores : list core;
  es_l1i : list cache; es_l1d : list cache; es_l2 : list cache
}.

(** Lines 120-131: one logical processor. *)
Definition processor_step (y : layout) (i j : nat) (s : estate) : res estate :=
  let k := i * ly_per_core y + j in
  let cluster := if ly_big y <=? i then 1 else 0 in
  do processors <- wr (es_processors s) k (Processor j (Some i) (Some cluster) (Some 0) 0 0);
  do l1i_of <- wr (es_l1i_of s) k (Some i);
  do l1d_of <- wr (es_l1d_of s) k (Some i);
  do l2_of <- wr (es_l2_of s) k (Some (if ly_x86 y then i else cluster));
  do l3_of <- wr (es_l3_of s) k (if ly_x86 y then Some 0 else None);
  Ok (EState processors l1i_of l1d_of l2_of l3_of (es_cores s) (es_l1i s) (es_l1d s) (es_l2 s)).

(** Lines 118-174: one core. *)
Definition core_step (y : layout) (i : nat) (s : estate) : res estate :=
  do s <- for_each (processor_step y i) 0 (ly_per_core y) s;
  let cluster := if ly_big y <=? i then 1 else 0 in
  let start := i * ly_per_core y in
  do cores <- wr (es_cores s) i (Core start (ly_per_core y) i (Some cluster) (Some 0) 0 0 0);
  do l1i <- wr (es_l1i s) i (Cache small_l1 start (ly_per_core y));
  do l1d <- wr (es_l1d s) i (Cache small_l1 start (ly_per_core y));
  do l2 <- (if ly_x86 y then wr (es_l2 s) i (Cache x86_l2 start (ly_per_core y)) else Ok (es_l2 s));
  Ok (EState (es_processors s) (es_l1i_of s) (es_l1d_of s) (es_l2_of s) (es_l3_of s) cores l1i l1d l2).

(** Lines 176-236: the clusters and, on ARM, the second-level caches. *)
Definition cluster_stores (y : layout) (clusters : list cluster) (l2 : list cache) : res (list cluster * list cache) :=
  if ly_x86 y then
    do clusters <- wr clusters 0 (Cluster 0 (ly_processors y) 0 (ly_cores y) 0 (Some 0) 0 0 0);
    Ok (clusters, l2)
  else
    do clusters <- wr clusters 0 (Cluster 0 (ly_big y) 0 (ly_big y) 0 (Some 0) 0 0 0);
    do l2 <- wr l2 0 (Cache big_l2 0 (ly_big y));
    if 1 <? ly_clusters y then
      let rest := ly_processors y - ly_big y in
      do l2 <- wr l2 1 (Cache little_l2 (ly_big y) rest);
      do clusters <- wr clusters 1 (Cluster (ly_big y) rest (ly_big y) rest 1 (Some 0) 0 0 0);
      Ok (clusters, l2)
    else Ok (clusters, l2).

(** Lines 59-107: the blocks, in the order of their allocation. *)
Inductive block := B_processors | B_cores | B_clusters | B_l1i | B_l1d | B_l2.
Definition blocks : list block := [B_processors; B_cores; B_clusters; B_l1i; B_l1d; B_l2].

(** Lines 109-113 and 118-236.  The number of cores that are published is the number of
    processors (lines 256-257 and 268), and so is the number of first-level caches. *)
Definition emscripten_tables (y : layout) : res tables :=
  let n := ly_processors y in
  do s <- for_each (core_step y) 0 (ly_cores y)
    (EState (repeat processor0 n) (repeat None n) (repeat None n) (repeat None n) (repeat None n) (repeat core0 n)
            (repeat cache0 (ly_cores y)) (repeat cache0 (ly_cores y)) (repeat cache0 (ly_l2 y)));
  do c <- cluster_stores y (repeat cluster0 (ly_clusters y)) (es_l2 s);
  let '(clusters, l2) := c in
  Ok (Tables (es_processors s) (es_cores s) clusters [Package 0 n 0 (ly_cores y) 0 (ly_clusters y)]
             (es_l1i s) (es_l1d s) l2 (if ly_x86 y then [Cache x86_l3 0 n] else []) []
             (es_l1i_of s) (es_l1d_of s) (es_l2_of s) (es_l3_of s) (repeat None n)
             n n (ly_clusters y) 1 n n (ly_l2 y) (if ly_x86 y then 1 else 0) 0
             (if ly_x86 y then 128 * 1024 * 1024 else 8 * 1024 * 1024)%N 0 0 n (ly_cores y) 0 [] []).

(** The tables that are published, if any, and the blocks that are not freed. *)
Record outcome := Outcome { o_published : option tables; o_live : list block }.

(** Lines 59-107: "if ((x = calloc(..)) == NULL) goto cleanup;". *)
Fixpoint allocate (calloc_ok : block -> bool) (todo live : list block) : bool * list block :=
  match todo with
  | [] => (true, live)
  | b :: todo' => if calloc_ok b then allocate calloc_ok todo' (live ++ [b]) else (false, live)
  end.

Definition block_eqb (a b : block) : bool :=
  match a, b with
  | B_processors, B_processors | B_cores, B_cores | B_clusters, B_clusters | B_l1i, B_l1i | B_l1d, B_l1d | B_l2, B_l2 => true
  | _, _ => false
  end.

(** Lines 281-287: what is freed, unless lines 275-278 have set the variable to NULL. *)
Definition cleanup_frees : list block := [B_processors; B_cores; B_clusters; B_l1i; B_l1d; B_l2].
Definition reset_to_null : list block := [B_processors; B_cores; B_clusters; B_l1i; B_l1d; B_l2].
Definition cleanup (reset live : list block) : list block :=
  filter (fun b => existsb (block_eqb b) reset || negb (existsb (block_eqb b) cleanup_frees)) live.

(** Lines 25-288. *)
Definition emscripten_init (is_x86 : bool) (logical : Z) (calloc_ok : block -> bool) : res outcome :=
  let y := emscripten_layout is_x86 logical in
  let '(ok, live) := allocate calloc_ok blocks [] in
  if ok then
    do t <- emscripten_tables y;
    Ok (Outcome (Some t) (cleanup reset_to_null live))
  else Ok (Outcome None (cleanup [] live)).

(** Lines 238-273: the stores to the global variables. *)
Definition emscripten_commit (is_x86 : bool) (t : tables) : list gstore :=
  [St_pointer (Caches L1i) (Some (Caches L1i, length (t_l1i t)));
   St_pointer (Caches L1d) (Some (Caches L1d, length (t_l1d t)));
   St_pointer (Caches L2) (Some (Caches L2, length (t_l2 t)))] ++
  (if is_x86 then [St_pointer (Caches L3) (Some (Caches L3, length (t_l3 t)))] else []) ++
  [St_pointer Processors (Some (Processors, length (t_processors t)));
   St_pointer Cores (Some (Cores, length (t_cores t)));
   St_pointer Clusters (Some (Clusters, length (t_clusters t)));
   St_pointer Packages (Some (Packages, length (t_packages t)));
   St_count (Caches L1i) (N.of_nat (t_l1i_count t));
   St_count (Caches L1d) (N.of_nat (t_l1d_count t));
   St_count (Caches L2) (N.of_nat (t_l2_count t))] ++
  (if is_x86 then [St_count (Caches L3) (N.of_nat (t_l3_count t))] else []) ++
  [St_other;
   St_count Processors (N.of_nat (t_processors_count t));
   St_count Cores (N.of_nat (t_cores_count t));
   St_count Clusters (N.of_nat (t_clusters_count t));
   St_count Packages (N.of_nat (t_packages_count t));
   St_max_cache_size (t_max_cache_size t);
   St_initialized].

(** src/emscripten/init.c runs on neither Linux nor ARM as far as src/api.c is concerned. *)
Definition emscripten : config := Config false false.

Definition emscripten_routine (is_x86 : bool) (o : outcome) : list gstore :=
  match o_published o with Some t => emscripten_commit is_x86 t | None => [] end.
