(** What the name of an x86 processor should be, on words instead of a buffer (C26).
    Written from the comments and tests of the library; no pointers, no in-place edits. *)
From Verif Require Import Base Text.
Open Scope nat_scope.

Definition word := list N.
Definition word_dec : forall a b : word, {a = b} + {a <> b} := list_eq_dec N.eq_dec.
Definition is_word (w : word) (s : string) : bool := if word_dec w (text s) then true else false.
Arguments is_word w s%string.
Definition one_of (w : word) (l : list string) : bool := existsb (is_word w) l.

(** ** From bytes to words *)

(** The string without its trailing zeros. *)
Fixpoint without_zeros (s : list N) : list N :=
  match s with
  | [] => []
  | c :: t => match without_zeros t with
              | [] => if (c =? 0)%N then [] else [c]
              | t' => c :: t'
              end
  end.

(** Parenthesised text, '@', tabs and zeros count as blanks. *)
Fixpoint blanked (inside : bool) (s : list N) : list N :=
  match s with
  | [] => []
  | c :: t =>
      if (c =? 40)%N then 32%N :: blanked true t
      else if (c =? 41)%N then 32%N :: blanked false t
      else (if inside || (c =? 64) || (c =? 0) || (c =? 9) then 32 else c)%N :: blanked inside t
  end.

(** Words are separated by blanks. *)
Fixpoint words_from (w : word) (s : list N) : list word :=
  match s with
  | [] => match w with [] => [] | _ => [w] end
  | c :: t => if (c =? 32)%N then match w with [] => words_from [] t | _ => w :: words_from [] t end else words_from (w ++ [c]) t
  end.
Definition words (s : list N) : list word := words_from [] s.

(** The place of the last '@', which separates the frequency. *)
Fixpoint last_at (s : list N) : option nat :=
  match s with
  | [] => None
  | c :: t => match last_at t with Some k => Some (S k) | None => if (c =? 64)%N then Some 0 else None end
  end.

(** ** What is kept of the words *)

Definition digit (c : N) : bool := ((48 <=? c) && (c <=? 57))%N.
Definition capital (c : N) : bool := ((65 <=? c) && (c <=? 90))%N.

(** Words that are left out. *)
Definition dropped : list string :=
  ["CPU"; "AMD"; "VIA"; "IDT"; "Intel"; "Cyrix"; "family"; "Genuine"; "12-Core"; "16-Core"; "Processor"; "processor"; "Transmeta"]%string.
(** The same, but "Mobile" after them is left out, too. *)
Definition cores : list string :=
  ["QuadCore"; "Six-Core"; "Dual-Core"; "Quad-Core"; "Eight-Core"; "Triple-Core"]%string.
(** Words that are left out with all that follow. *)
Definition ending : list string := ["w/"; "SOC"; "MMX"; "APU"; "Radeon"; "RADEON"]%string.

(** "K6tm" is "K6"; "AMD-K6" is "K6". *)
Definition without_tm (w : word) : word :=
  match rev w with
  | m :: t :: c :: r => if (m =? 109)%N && (t =? 116)%N && (digit c || capital c) then rev (c :: r) else w
  | _ => w
  end.
Definition without_amd (w : word) : word :=
  if is_word (firstn 4 w) "AMD-" && (4 <? length w) then skipn 4 w else w.

(** What matters about the word before. *)
Inductive tag := Plain | Letter (c : N) | Dual_ | Core_ | Model_.

(** Kept words, with whether they stand after the '@'. *)
Record state := State {
  st_kept : list (bool * word); st_tag : tag; st_engineering : bool; st_sample : bool; st_number : bool; st_frequency : bool }.

Fixpoint two_digits (w : word) : bool :=
  match w with a :: ((b :: _) as t) => (digit a && digit b) || two_digits t | _ => false end.
Definition frequency (w : word) : bool :=
  match rev w with
  | z :: h :: u :: _ :: _ => (z =? 122)%N && (h =? 72)%N && ((u =? 75) || (u =? 77) || (u =? 71))%N
  | _ => false
  end.
Definition lower_v (w : word) : word :=
  match w with [v; d] => if (v =? 86)%N && digit d then [118%N; d] else w | _ => w end.
Definition tag_of (w : word) : tag :=
  match w with
  | [c] => if capital c then Letter c else Plain
  | _ => if is_word w "Dual" then Dual_ else if is_word w "model" then Model_ else Plain
  end.

Definition set_tag (s : state) (t : tag) : state :=
  State (st_kept s) t (st_engineering s) (st_sample s) (st_number s) (st_frequency s).
Definition forget_last (s : state) : state :=
  State (removelast (st_kept s)) (st_tag s) (st_engineering s) (st_sample s) (st_number s) (st_frequency s).

(** A letter before a number of two to five digits goes behind it: "X 990" is "990X". *)
Definition merges (s : state) (w : word) : option word :=
  match st_tag s with
  | Letter c => if forallb digit w && (2 <=? length w) && (length w <=? 5) then Some (w ++ [c]) else None
  | _ => None
  end.

Definition keep (has_at after : bool) (s : state) (w : word) : state :=
  let s' := match merges s w with Some _ => forget_last s | None => s end in
  let w' := match merges s w with Some w' => w' | None => lower_v w end in
  State (st_kept s' ++ [(after, w')]) (tag_of w) (st_engineering s || one_of w ["Eng"; "Engineering"]%string) (st_sample s)
        (st_number s || (has_at && two_digits w')) (st_frequency s || frequency w').

(** One word without its prefix and suffix; [false] if all that follows is left out. *)
Definition settle (has_at after : bool) (s : state) (w : word) : state * bool :=
  if one_of w ending then (set_tag s Plain, false)
  else if is_word w "Geode" then (keep has_at after s w, false)
  else if one_of w dropped then (set_tag s Plain, true)
  else if one_of w cores then (set_tag s Core_, true)
  else match st_tag s, is_word w "Core", is_word w "Mobile", is_word w "unknown" with
  | Dual_, true, _, _ => (set_tag (forget_last s) Core_, true)
  | Core_, _, true, _ => (set_tag s Plain, true)
  | Model_, _, _, true => (set_tag (forget_last s) Plain, true)
  | _, _, _, _ =>
      if st_engineering s && one_of w ["Sample"; "Sample,"; "Sample:"]%string then
        (State (st_kept s) Plain (st_engineering s) true (st_number s) (st_frequency s), false)
      else if forallb (fun c => c =? 48)%N w then (set_tag s Plain, true)
      else (keep has_at after s w, true)
  end.

(** Words after the '@' are left out once there was a model number. *)
Definition after_word (has_at after : bool) (s : state) (w : word) : state * bool :=
  if after && st_number s then (set_tag s Plain, true) else settle has_at after s (without_amd (without_tm w)).

Fixpoint after_words (has_at after : bool) (s : state) (ws : list word) : state * bool :=
  match ws with
  | [] => (s, true)
  | w :: rest => match after_word has_at after s w with
                 | (s, true) => after_words has_at after s rest
                 | (s, false) => (s, false)
                 end
  end.

(** ** From words to the name *)

Definition starts_with_dash (w : word) : bool := match w with c :: _ => (c =? 45)%N | [] => false end.
Definition ends_with_dash (w : word) : bool := starts_with_dash (rev w).

(** Words are separated by one blank, except at dashes. *)
Fixpoint join_after (dash : bool) (ws : list word) : list N :=
  match ws with
  | [] => []
  | w :: rest => (if dash || starts_with_dash w then [] else [32%N]) ++ w ++ join_after (ends_with_dash w) rest
  end.
Definition join (ws : list word) : list N := join_after true ws.

Definition state0 : state := State [] Plain false false false false.

(** The name of the processor with the brand string [raw]; no name for an engineering sample,
    if nothing is left before the '@', or if only a frequency is left. *)
Definition brand_name (raw : list N) : list N :=
  let s := without_zeros raw in
  let t := blanked false s in
  let '(st, before_missing) :=
    match last_at s with
    | None => (fst (after_words false false state0 (words t)), false)
    | Some k =>
        let st := match after_words true false state0 (words (firstn k t)) with
                  | (st, true) => fst (after_words true true st (words (skipn (S k) t)))
                  | (st, false) => st
                  end in
        (st, forallb fst (st_kept st))
    end in
  let name := join (map snd (st_kept st)) in
  if st_sample st || before_missing || (st_frequency st && negb (existsb (N.eqb 32) name)) then [] else name.

(** ** A clean name *)

(** No blank at either end, no two blanks in sequence. *)
Fixpoint single_blanks (s : list N) : Prop :=
  match s with
  | a :: ((b :: _) as t) => ~ (a = 32%N /\ b = 32%N) /\ single_blanks t
  | _ => True
  end.
Definition clean (s : list N) : Prop :=
  hd_error s <> Some 32%N /\ hd_error (rev s) <> Some 32%N /\ single_blanks s.

(** The characters of the C string in an array. *)
Definition holds_string (m s : list N) : Prop := exists rest, m = s ++ 0%N :: rest /\ ~ In 0%N s.

(** Words that are never part of a name. *)
Definition never_named : list string := (dropped ++ cores ++ ending)%list.

(** ** The name of a package *)

(** Values of enum cpuinfo_vendor (include/cpuinfo.h) and the names that are prefixed. *)
Definition vendor_names : list (N * string) :=
  [(1, "Intel"); (2, "AMD"); (11, "VIA"); (16, "Hygon"); (32, "RDC"); (33, "DM&P"); (50, "Transmeta"); (51, "Cyrix"); (52, "Rise");
   (53, "NSC"); (54, "SiS"); (55, "NexGen"); (56, "UMC")]%N%string.
Definition vendor_prefix (vendor : N) : list N :=
  match find (fun x => (fst x =? vendor)%N) vendor_names with Some x => text (snd x) ++ [32%N] | None => [] end.

(** The vendor and the name of the processor, as much as fits into 48 bytes with a NUL. *)
Definition package_name (vendor : N) (name : list N) : list N :=
  match name with [] => [] | _ => firstn 47 (vendor_prefix vendor ++ name) end.
