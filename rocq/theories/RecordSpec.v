(** What a C compiler makes of a header with mock files.  Of C there are string literals,
    adjacent ones being joined, with simple and octal escapes, and the initializers of
    struct cpuinfo_mock_file; there are no trigraphs. *)
From Verif Require Import Base Text ReportSpec MockFileModel.
Open Scope N_scope.

Local Notation "'let*' x := e 'in' f" := (match e with Some x => f | None => None end) (at level 200, x pattern, f at level 200).

Definition blank (c : N) : bool := (c =? 32) || (c =? 9) || (c =? 10).
Fixpoint skip_blanks (s : list N) : list N :=
  match s with c :: s' => if blank c then skip_blanks s' else s | [] => [] end.
Definition token (p s : list N) : option (list N) := after p (skip_blanks s).

(** Where in a sequence of literals a character stands: between two, in one, behind a
    backslash, or behind [k] octal digits that give [v] so far. *)
Inductive place := Between | Within | Backslash | Octal (k v : N).
Definition octal (c : N) : bool := (48 <=? c) && (c <=? 55).
Definition and_then (c : N) (r : option (list N * list N)) : option (list N * list N) := let* (l, s) := r in Some (c :: l, s).
(** \a \b \f \n \r \t \v and the characters that stand for themselves. *)
Definition simple_escape (c : N) : option N :=
  let* (v, _) := one_of [([97], 7); ([98], 8); ([102], 12); ([110], 10); ([114], 13); ([116], 9); ([118], 11);
                         ([92], 92); ([34], 34); ([39], 39); ([63], 63)] [c] in Some v.
(** The bytes, and what stands behind the literals. *)
Fixpoint literals (p : place) (s : list N) : option (list N * list N) :=
  match s with
  | [] => match p with Between => Some ([], []) | _ => None end
  | c :: s' =>
      let within := if c =? 34 then literals Between s' else if c =? 92 then literals Backslash s' else if c =? 10 then None
                    else and_then c (literals Within s') in
      match p with
      | Between => if blank c then literals Between s' else if c =? 34 then literals Within s' else Some ([], s)
      | Within => within
      | Backslash => if octal c then literals (Octal 1 (c - 48)) s' else let* v := simple_escape c in and_then v (literals Within s')
      | Octal k v => if octal c && (k <? 3) then literals (Octal (k + 1) (8 * v + (c - 48))) s'
                     else if 255 <? v then None else and_then v within
      end
  end.
Definition c_string (s : list N) : option (list N * list N) :=
  let* s := token [34] s in literals Within s.

(** { .path = "...", .size = ..., .content = "...", }, *)
Definition entry : Type := list N * N * list N.
Definition initializer (s : list N) : option (entry * list N) :=
  let* s := token (text ".path") s in let* s := token (text "=") s in
  let* (path, s) := c_string s in let* s := token (text ",") s in
  let* s := token (text ".size") s in let* s := token (text "=") s in
  let* (size, s) := a_number (skip_blanks s) in let* s := token (text ",") s in
  let* s := token (text ".content") s in let* s := token (text "=") s in
  let* (content, s) := c_string s in let* s := token (text ",") s in
  let* s := token (text "}") s in let* s := token (text ",") s in
  Some ((path, size, content), s).
(** Up to { NULL }. *)
Fixpoint initializers (fuel : nat) (s : list N) : option (list entry * list N) :=
  match fuel with
  | O => None
  | S fuel =>
      let* s := token (text "{") s in
      match token (text "NULL") s with
      | Some s => let* s := token (text "}") s in let* s := token (text ",") s in Some ([], s)
      | None => let* (e, s) := initializer s in let* (es, s) := initializers fuel s in Some (e :: es, s)
      end
  end.
(** struct cpuinfo_mock_file filesystem[] = { ... }; *)
Definition mock_files (s : list N) : option (list entry * list N) :=
  let* s := token (text "struct") s in let* s := token (text "cpuinfo_mock_file") s in let* s := token (text "filesystem") s in
  let* s := token (text "[") s in let* s := token (text "]") s in let* s := token (text "=") s in let* s := token (text "{") s in
  let* (es, s) := initializers (length s) s in
  let* s := token (text "}") s in let* s := token (text ";") s in Some (es, s).
Definition read_header (s : list N) : option (list entry) :=
  let* (es, s) := mock_files s in
  match skip_blanks s with [] => Some es | _ => None end.

(** The mock file: behind the bytes stands a zero. *)
Definition as_mock_file (e : entry) : mock_file :=
  let '(path, size, content) := e in MockFile path (N.to_nat size) (content ++ [0]) None.

Definition bytes (s : list N) : Prop := Forall (fun c => c < 256) s.
(** What the scripts can record: text, and zeros that are not followed by a digit. *)
Definition text_byte (c : N) : Prop := c = 9 \/ c = 10 \/ c = 13 \/ 32 <= c <= 126 \/ c = 0.
Definition zeros_apart (s : list N) : Prop :=
  forall i d, nth_error s i = Some 0 -> nth_error s (S i) = Some d -> ~ 48 <= d <= 55.
