(** Specification vocabulary for kernel text files, independent of the parsers. *)
From Verif Require Import Base.
Open Scope N_scope.

(** Text made of pieces separated by [sep]. *)
Fixpoint join (sep : N) (pieces : list (list N)) : list N :=
  match pieces with
  | [] => []
  | [p] => p
  | p :: ps => p ++ sep :: join sep ps
  end.

(** The kernel never reports an I/O error for this file. *)
Definition no_io_error (wants : list (option nat)) : Prop := Forall (fun w => w <> None) wants.

(** Every piece but the last is shorter than [b]; the last is at most [b] long. *)
Fixpoint pieces_fit (b : nat) (pieces : list (list N)) : Prop :=
  match pieces with
  | [] => True
  | [p] => (length p <= b)%nat
  | p :: ps => (length p < b)%nat /\ pieces_fit b ps
  end.

(** File contents are bytes. *)
Definition bytes (s : list N) : Prop := Forall (fun c => c < 256) s.

(** Decimal digits and their value (most significant first, no wrapping). *)
Definition is_digit (c : N) : Prop := 48 <= c <= 57.
Definition dec_value (ds : list N) : N := fold_left (fun acc c => acc * 10 + (c - 48)) ds 0.
Definition is_decimal (ds : list N) : Prop := ds <> [] /\ Forall is_digit ds.

(** Blank characters: space, tab, newline, carriage return. *)
Definition is_blank (c : N) : Prop := c = 32 \/ c = 9 \/ c = 10 \/ c = 13.
Definition blanks (s : list N) : Prop := Forall is_blank s.

(** [cpu_entry text first last]: the text of one entry of a CPU list denotes the
    CPUs [first..last] (both included). *)
Inductive cpu_entry : list N -> N -> N -> Prop :=
| entry_single : forall b1 ds b2,
    blanks b1 -> is_decimal ds -> blanks b2 ->
    cpu_entry (b1 ++ ds ++ b2) (dec_value ds) (dec_value ds)
| entry_range : forall b1 ds es b2,
    blanks b1 -> is_decimal ds -> is_decimal es -> blanks b2 ->
    dec_value ds <= dec_value es ->
    cpu_entry (b1 ++ ds ++ 45 :: es ++ b2) (dec_value ds) (dec_value es).

(** [bad_entry text]: the entry is malformed: nothing but blanks; not starting
    with a digit; a number followed by something other than '-'; a number and a
    '-' not followed by a digit; or a decreasing range. *)
Definition starts_with_digit (s : list N) : Prop := exists c s', s = c :: s' /\ is_digit c.
Inductive bad_entry : list N -> Prop :=
| bad_blank : forall b, blanks b -> bad_entry b
| bad_start : forall b1 c s, blanks b1 -> ~ is_blank c -> ~ is_digit c -> bad_entry (b1 ++ c :: s)
| bad_after_number : forall b1 ds c s,
    blanks b1 -> is_decimal ds -> c <> 45 -> ~ is_digit c ->
    ~ blanks (c :: s) -> bad_entry (b1 ++ ds ++ c :: s)
| bad_range_end : forall b1 ds s,
    blanks b1 -> is_decimal ds -> ~ starts_with_digit s -> bad_entry (b1 ++ ds ++ 45 :: s)
| bad_order : forall b1 ds es s,
    blanks b1 -> is_decimal ds -> is_decimal es -> ~ starts_with_digit s ->
    dec_value es < dec_value ds ->
    bad_entry (b1 ++ ds ++ 45 :: es ++ s).

(** A range followed by characters that do not belong to it. *)
Inductive junk_entry : list N -> N -> N -> Prop :=
| junk_range : forall b1 ds es s,
    blanks b1 -> is_decimal ds -> is_decimal es -> ~ starts_with_digit s -> ~ blanks s ->
    dec_value ds <= dec_value es ->
    junk_entry (b1 ++ ds ++ 45 :: es ++ s) (dec_value ds) (dec_value es).

(** Lines are handed to a handler one by one, in order, until it refuses one. *)
Fixpoint run_lines {S} (handle : S -> list N -> bool * S) (ctx : S) (lines : list (list N))
  : bool * S :=
  match lines with
  | [] => (true, ctx)
  | l :: ls => match handle ctx l with
               | (true, ctx') => run_lines handle ctx' ls
               | (false, ctx') => (false, ctx')
               end
  end.

(** Entries of a CPU list fit in 255 characters. *)
Definition short_entry (e : list N) : Prop := (length e < 256)%nat.

(** An entry with its meaning: [Some (first, last)] for a well-formed entry
    below 2^32-1, [None] for a malformed one (whose leading number, if any, fits
    in 32 bits). *)
Definition entry_meaning (text : list N) (m : option (N * N)) : Prop :=
  match m with
  | Some (f, l) => cpu_entry text f l /\ l < u32max
  | None => bytes text /\ bad_entry text /\
            (forall b1 ds s, text = b1 ++ ds ++ s -> blanks b1 -> is_decimal ds ->
                             dec_value ds < two32)
  end.

(** Ranges are handed to a handler, in order, as [first, last + 1) pairs; a
    malformed entry only spoils the status. *)
Fixpoint run_ranges {S} (handle : S -> N -> N -> bool * S) (status : bool) (ctx : S)
         (rs : list (option (N * N))) : bool * S :=
  match rs with
  | [] => (status, ctx)
  | None :: rs' => run_ranges handle false ctx rs'
  | Some (f, l) :: rs' =>
      let '(ok, ctx') := handle ctx f (l + 1) in run_ranges handle (status && ok) ctx' rs'
  end.

(** CPU [c] is in one of the ranges. *)
Definition listed (rs : list (N * N)) (c : N) : Prop := exists f l, In (f, l) rs /\ f <= c <= l.

(** The file is a well-formed CPU list naming the ranges [rs]: comma-separated
    entries shorter than 256 characters. *)
Definition cpu_list_file (contents : list N) (rs : list (N * N)) : Prop :=
  exists entries, entries <> [] /\ contents = join 44 entries /\ Forall short_entry entries /\
    Forall2 (fun e r => cpu_entry e (fst r) (snd r) /\ snd r < u32max) entries rs.
