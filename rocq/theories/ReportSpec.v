(** Reading the reports that the tools print: words, numbers, lines and sections. *)
From Verif Require Import Base Text LinuxTextSpec.
Open Scope N_scope.

(** What stands behind [p]. *)
Fixpoint after (p s : list N) : option (list N) :=
  match p, s with
  | [], _ => Some s
  | a :: p', c :: s' => if a =? c then after p' s' else None
  | _ :: _, [] => None
  end.
(** The digits at the start, and the rest. *)
Fixpoint leading_digits (s : list N) : list N * list N :=
  match s with
  | c :: s' => if (48 <=? c) && (c <=? 57) then let '(ds, r) := leading_digits s' in (c :: ds, r) else ([], s)
  | [] => ([], [])
  end.
Definition a_number (s : list N) : option (N * list N) :=
  match leading_digits s with ([], _) => None | (ds, r) => Some (dec_value ds, r) end.
(** A number and what must follow it. *)
Definition number_then (p s : list N) : option (N * list N) :=
  match a_number s with
  | Some (n, r) => match after p r with Some r => Some (n, r) | None => None end
  | None => None
  end.
(** The first of several texts, and its meaning. *)
Fixpoint one_of {A} (l : list (list N * A)) (s : list N) : option (A * list N) :=
  match l with
  | [] => None
  | (p, a) :: l' => match after p s with Some r => Some (a, r) | None => one_of l' s end
  end.

Local Notation "'let*' x := e 'in' f" := (match e with Some x => f | None => None end) (at level 200, x pattern, f at level 200).

(** The lines of a text in which every line ends. *)
Fixpoint lines_from (current s : list N) : option (list (list N)) :=
  match s with
  | [] => match current with [] => Some [] | _ => None end
  | c :: s' => if c =? 10 then let* ls := lines_from [] s' in Some (current :: ls) else lines_from (current ++ [c]) s'
  end.

(** A report in sections: headings, and under each the lines that start with a tab, here
    without it. *)
Definition section : Type := list N * list (list N).
Fixpoint sections_of (ls : list (list N)) : list (list N) * list section :=
  match ls with
  | [] => ([], [])
  | l :: ls' =>
      let '(items, ss) := sections_of ls' in
      match l with
      | c :: r => if c =? 9 then (r :: items, ss) else ([], (l, items) :: ss)
      | [] => ([], (l, items) :: ss)
      end
  end.
Definition sections (s : list N) : option (list section) :=
  let* ls := lines_from [] s in
  match sections_of ls with ([], ss) => Some ss | _ => None end.

(** Hexadecimal digits of either case and their value. *)
Definition hex_value (c : N) : option N :=
  if (48 <=? c) && (c <=? 57) then Some (c - 48)
  else if (65 <=? c) && (c <=? 70) then Some (c - 55)
  else if (97 <=? c) && (c <=? 102) then Some (c - 87)
  else None.
Fixpoint hex_read (s : list N) (n : N) : option N :=
  match s with
  | [] => Some n
  | c :: s' => let* d := hex_value c in hex_read s' (n * 16 + d)
  end.
