(** What the names of packages should be. *)
From Verif Require Import Base Text X86DecodeModel X86NameSpec X86PackageModel.
From Verif Require X86LinuxModel.
Open Scope nat_scope.

(** The vendor and the name that CPUID spells (what a name is: X86NameSpec), as much as fits. *)
Definition processor_name (x : X86LinuxModel.xinfo) (m : cpu) : list N :=
  package_name (X86LinuxModel.xi_vendor x) (firstn 47 (brand_name (raw_brand_string m))).

(** There are [n] names in arrays of 48 characters, and all are this string. *)
Definition all_named (n : nat) (name : list N) (names : list (list N)) : Prop :=
  length names = n /\ Forall (fun s => length s = 48 /\ holds_string s name) names.
