(** Model of the project's test of the lookups of the current processor, test/get-current.cc: every TEST is a
    function from what the getters answer to its verdict. *)
From Verif Require Import Base TopologySpec ApiModel.
From Coq Require Import String List. Import ListNotations.
Open Scope nat_scope.

Inductive verdict := Passed | Skipped | Failed.
Definition verdict_of (b : bool) : verdict := if b then Passed else Failed.

(** What a getter answers at a moment when the thread runs on a given CPU ([None]: getcpu fails). *)
Definition getters := option N -> getter -> answer.

(** ASSERT_GE(current, begin); ASSERT_LT(current, begin + count) on pointers: comparing pointers into different
    arrays, or to no array, says nothing and counts as a failure. *)
Definition pointer_within (current begin count : answer) : bool :=
  match current, begin, count with
  | Pointer t i, Pointer u first, Number n => table_eqb t u && (first <=? i) && (i <? first + N.to_nat n)
  | _, _, _ => false
  end.

(** test/get-current.cc:5-17 and 19-31.  ASSERT_TRUE(cpuinfo_initialize()) is left to the hypotheses of the
    theorems.  The thread may move from one CPU to another between the calls. *)
Definition current_element_test (ask : getters) (g : getter) (t : table) (moves : nat -> option N) : verdict :=
  match ask (moves 0) g with
  | Null => Skipped
  | current => verdict_of (pointer_within current (ask (moves 1) (Get_table t)) (ask (moves 2) (Get_count t)))
  end.

Definition number_test (compare : N -> N -> bool) (a b : answer) : verdict :=
  match a, b with Number m, Number n => verdict_of (compare m n) | _, _ => Failed end.

(** test/get-current.cc:33-37. *)
Definition current_uarch_test (ask : getters) (moves : nat -> option N) : verdict :=
  number_test N.ltb (ask (moves 0) Get_current_uarch_index) (ask (moves 1) (Get_count Uarchs)).

(** test/get-current.cc:39-43. *)
Definition current_uarch_default_test (ask : getters) (moves : nat -> option N) : verdict :=
  match ask (moves 0) (Get_count Uarchs) with
  | Number default => number_test N.leb (ask (moves 1) (Get_current_uarch_index_with_default default)) (ask (moves 2) (Get_count Uarchs))
  | _ => Failed
  end.

Definition current_tests : list (string * (getters -> (nat -> option N) -> verdict)) :=
  [("CURRENT_PROCESSOR", fun ask => current_element_test ask Get_current_processor Processors);
   ("CURRENT_CORE", fun ask => current_element_test ask Get_current_core Cores);
   ("CURRENT_UARCH_INDEX", current_uarch_test);
   ("CURRENT_UARCH_INDEX_WITH_DEFAULT", current_uarch_default_test)]%string.

(** The verdicts of all tests. *)
Definition verdicts (ask : getters) (moves : nat -> option N) : list verdict := map (fun t => snd t ask moves) current_tests.
