(** Shared vocabulary of the model: machine integers, checked arrays, outcomes.
    Nothing here models a particular function of /repo. *)
From Coq Require Export List Arith NArith ZArith Lia Bool Permutation Sorted.
From Coq Require Export ZifyBool ZifyNat ZifyN.
Export ListNotations.

(** 32-bit unsigned integers are values of [N] below [two32]; a C expression of
    type uint32_t that may wrap is written [u32 e]. *)
Definition two32 : N := 4294967296%N.
Definition u32max : N := 4294967295%N.
Definition u32 (x : N) : N := (x mod two32)%N.
Definition is_u32 (x : N) : Prop := (x < two32)%N.

(** [x - y] in uint32_t for [x, y] below 2^32. *)
Definition sub32 (x y : N) : N := u32 (x + (two32 - y)).

(** [~x] in uint32_t. *)
Definition not32 (x : N) : N := N.ldiff u32max x.

(** Outcome of a piece of C code: a normal result, undefined behaviour (an
    access outside an array, an over-long shift, a division by zero, ...), or a
    loop that does not end within the fuel given to it. *)
Inductive res (A : Type) : Type :=
| Ok (a : A)
| UB
| Hang.
Arguments Ok {A} a.
Arguments UB {A}.
Arguments Hang {A}.

Definition bind {A B} (x : res A) (f : A -> res B) : res B :=
  match x with Ok a => f a | UB => UB | Hang => Hang end.

Declare Scope res_scope.
Delimit Scope res_scope with res.
Notation "'do' x <- e ; f" := (bind e (fun x => f))
  (at level 200, x pattern, e at level 100, f at level 200, right associativity) : res_scope.
Open Scope res_scope.

(** Checked array accesses. *)
Fixpoint upd {A} (l : list A) (i : nat) (x : A) : list A :=
  match l, i with
  | [], _ => []
  | _ :: t, O => x :: t
  | h :: t, S j => h :: upd t j x
  end.

Definition rd {A} (a : list A) (i : nat) : res A :=
  match nth_error a i with Some x => Ok x | None => UB end.

Definition wr {A} (a : list A) (i : nat) (x : A) : res (list A) :=
  if i <? length a then Ok (upd a i x) else UB.

(** Apply [f] to the element at index [i]. *)
Definition modify {A} (a : list A) (i : nat) (f : A -> A) : res (list A) :=
  match nth_error a i with Some x => Ok (upd a i (f x)) | None => UB end.

(** A table index held in a uint32_t that starts at UINT32_MAX meaning "none
    yet" and is incremented before use: [None] is UINT32_MAX. *)
Definition incr_index (i : option nat) : option nat :=
  match i with None => Some 0 | Some n => Some (S n) end.

(** Access through such an index: UINT32_MAX is outside every array. *)
Definition modify_at {A} (a : list A) (i : option nat) (f : A -> A) : res (list A) :=
  match i with Some n => modify a n f | None => UB end.
Definition wr_at {A} (a : list A) (i : option nat) (x : A) : res (list A) :=
  match i with Some n => wr a n x | None => UB end.
