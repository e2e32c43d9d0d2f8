(** The same ARM machine with its CPUs numbered in another way. *)
From Coq Require Import NArith List.
From Verif Require Import TopologySpec ArmLinuxModel ArmLinuxSpec ArmCoresSpec ArmMidrSpec.
Import ListNotations.
Open Scope nat_scope.

(** CPU [cpu] of the first numbering is CPU [f cpu] of the second: the same CPUs are usable, grouped
    in the same way, with the same main id registers. *)
Record arm_renumbered (f : nat -> nat) (usable : nat -> Prop) (group : nat -> nat) (midr : nat -> N)
       (usable' : nat -> Prop) (group' : nat -> nat) (midr' : nat -> N) : Prop := {
  ar_same : forall cpu, usable cpu -> usable' (f cpu) /\ midr' (f cpu) = midr cpu;
  ar_all : forall cpu', usable' cpu' -> exists cpu, usable cpu /\ f cpu = cpu';
  ar_once : forall a b, usable a -> usable b -> f a = f b -> a = b;
  ar_groups : forall a b, usable a -> usable b -> (group' (f a) = group' (f b) <-> group a = group b)
}.

(** The tables tell the same of every CPU: as many processors and clusters; in both the CPU is listed
    once, with the same register (but for the architecture field) and as many cores in its cluster; and
    two CPUs are in one cluster of the first if and only if they are in one cluster of the second. *)
Record arm_alike (f : nat -> nat) (usable : nat -> Prop) (t t' : arm_tables) : Prop := {
  aa_processors : length (at_processors t') = length (at_processors t);
  aa_clusters : length (at_clusters t') = length (at_clusters t);
  aa_listed : forall cpu, usable cpu -> exists i j, listed_at t cpu i /\ listed_at t' (f cpu) j /\
    (forall k, listed_at t cpu k -> k = i) /\ (forall k, listed_at t' (f cpu) k -> k = j) /\
    (exists c c', nth_error (at_cores t) i = Some c /\ nth_error (at_cores t') j = Some c' /\
       forall field, field <> Architecture -> field_of field (c_cpuid c') = field_of field (c_cpuid c)) /\
    exists n, cluster_cores_of t i n /\ cluster_cores_of t' j n;
  aa_together : forall a b i1 i2 j1 j2, usable a -> usable b -> listed_at t a i1 -> listed_at t b i2 ->
    listed_at t' (f a) j1 -> listed_at t' (f b) j2 -> (same_cluster t i1 i2 <-> same_cluster t' j1 j2)
}.
