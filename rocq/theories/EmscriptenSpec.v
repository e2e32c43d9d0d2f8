(** What the tables on WebAssembly should say: [n] processors, [per_core] per core, in
    clusters of the given sizes. *)
From Verif Require Import Base TopologySpec ArmCacheSpec.
Open Scope nat_scope.

(** All processors have a cache of the level, or none has. *)
Definition level_described (pointers : list (option nat)) (caches : list cache) : Prop :=
  (caches = [] /\ Forall (fun q => q = None) pointers) \/ points_to pointers (map cache_processors caches).

Record describes (n per_core : nat) (cluster_sizes : list nat) (t : tables) (cores : list core) : Prop := {
  ds_processors : length (t_processors t) = n;
  ds_per_core : map c_processor_count cores = repeat per_core (length cores);
  ds_clusters : map cl_processor_count (t_clusters t) = cluster_sizes;
  ds_package : length (t_packages t) = 1;
  ds_consistent : consistent (t_processors t) cores (t_clusters t) (t_packages t);
  ds_ids : ids_are_offsets (t_processors t) cores (t_clusters t) (t_packages t);
  ds_l1i : points_to (t_l1i_of t) (map cache_processors (t_l1i t));
  ds_l1d : points_to (t_l1d_of t) (map cache_processors (t_l1d t));
  ds_l2 : points_to (t_l2_of t) (map cache_processors (t_l2 t));
  ds_l3 : level_described (t_l3_of t) (t_l3 t);
  ds_l4 : level_described (t_l4_of t) (t_l4 t);
  ds_pointers : Forall (fun l => length l = n) [t_l1i_of t; t_l1d_of t; t_l2_of t; t_l3_of t; t_l4_of t]
}.

(** Number of processors: at least one. *)
Definition processors_of (logical : Z) : nat := Z.to_nat (Z.max 1 logical).

(** On ARM, more than four processors are taken for big and little ones. *)
Definition arm_clusters (n : nat) : list nat :=
  if n <=? 4 then [n] else if n <=? 7 then [2; n - 2] else [4; n - 4].

(** A cache whose size is the product of its ways, sets, partitions and line size, with sets
    that a field of address bits can select, and that the largest cache bounds. *)
Definition fitting (bound : N) (g : geometry) : Prop :=
  sound_cache g /\ (exists k, g_sets g = 2 ^ k)%N /\ (g_size g <= bound)%N.
Definition size_of (c : cache) : N := g_size (ca_geometry c).
