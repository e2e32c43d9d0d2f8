(** Data races of the C11 memory model, for the traces of RaceModel. *)
From Verif Require Import Base RaceModel.
Open Scope nat_scope.

(** The location an action accesses, and whether it writes. *)
Definition access (a : action) : option (location * bool) :=
  match a with
  | Write l => Some (l, true)
  | Getter_read l => Some (l, false)
  | Init_return => Some (L_flag, false)
  | Look => Some (L_other, false)
  | _ => None
  end.

(** Happens-before: program order, the end of the routine before every return of pthread_once, and
    whatever synchronisation the program has besides ([user]: locks, thread creation, ...). *)
Inductive happens_before (user : nat -> nat -> Prop) (T : trace) : nat -> nat -> Prop :=
| hb_thread x y i a b : x < y -> T x = Some (i, a) -> T y = Some (i, b) -> happens_before user T x y
| hb_once x y i j : x < y -> T x = Some (i, Once_end) -> T y = Some (j, Once_pass) -> happens_before user T x y
| hb_user x y : x < y -> user x y -> happens_before user T x y
| hb_trans x y z : happens_before user T x y -> happens_before user T y z -> happens_before user T x z.

(** Two accesses to one location, one of them a write, by different threads and unordered. *)
Definition race (user : nat -> nat -> Prop) (T : trace) (x y : nat) : Prop :=
  exists i j a b l w v, T x = Some (i, a) /\ T y = Some (j, b) /\ i <> j /\ access a = Some (l, w) /\ access b = Some (l, v) /\
    (w = true \/ v = true) /\ ~ happens_before user T x y /\ ~ happens_before user T y x.
Definition race_free (user : nat -> nat -> Prop) (T : trace) : Prop := forall x y, ~ race user T x y.

(** The contract of a careful program: some cpuinfo_initialize has returned before each use. *)
Definition uses (a : action) : Prop := a = Getter_call \/ a = Look.
Definition initialized_before_use (user : nat -> nat -> Prop) (T : trace) : Prop :=
  forall y j a, T y = Some (j, a) -> uses a -> exists x i, T x = Some (i, Init_return) /\ happens_before user T x y.
