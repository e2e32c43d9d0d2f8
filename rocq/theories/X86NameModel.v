(** Model of src/x86/name.c: the brand string of an x86 processor becomes a name.
    Characters are byte values; pointers into the 48-byte array [name] are indexes. *)
From Verif Require Import Base Text.
Open Scope nat_scope.

(** Memory functions of the C library on an array. *)
Fixpoint read_bytes (m : list N) (p len : nat) : res (list N) :=
  match len with
  | O => Ok []
  | S k => do c <- rd m p; do t <- read_bytes m (S p) k; Ok (c :: t)
  end.
Fixpoint write_bytes (m : list N) (p : nat) (bytes : list N) : res (list N) :=
  match bytes with
  | [] => Ok m
  | c :: t => do m <- wr m p c; write_bytes m (S p) t
  end.
Definition memset (m : list N) (p : nat) (c : N) (len : nat) : res (list N) := write_bytes m p (repeat c len).
Definition bytes_eqb (a b : list N) : bool := if list_eq_dec N.eq_dec a b then true else false.
(** memcmp(…) == 0 with the first [len] bytes of a literal. *)
Definition memequal (m : list N) (p len : nat) (target : string) : res bool :=
  do bytes <- read_bytes m p len; Ok (bytes_eqb bytes (firstn len (text target))).

(** struct parser_state, src/x86/name.c:12-56. *)
Record parser := Parser {
  ps_model : option nat; ps_letter : option nat; ps_dual : option nat; ps_core : option nat; ps_engineering : option nat;
  ps_separator : option nat;
  ps_frequency : bool; ps_xeon : bool; ps_number : bool; ps_sample : bool }.

(** src/x86/name.c:60-65; context_engineering is not among those that are reset. *)
Definition reset_context (st : parser) : parser :=
  Parser None None None None (ps_engineering st) (ps_separator st) (ps_frequency st) (ps_xeon st) (ps_number st) (ps_sample st).

(** src/x86/name.c:79-85. *)
Definition erase_matching (m : list N) (p len : nat) (target : string) : res (list N * bool) :=
  do hit <- memequal m p len target;
  if hit then do m <- memset m p 32 len; Ok (m, true) else Ok (m, false).

(** src/x86/name.c:95-97, 105-107. *)
Definition is_upper_letter (c : N) : bool := ((65 <=? c) && (c <=? 90))%N.
Definition is_digit (c : N) : bool := ((48 <=? c) && (c <? 58))%N.

(** src/x86/name.c:109-134, on the characters of the token.  (The loops stop reading at the
    first character that decides; here all are read.) *)
Definition token_is (f : N -> bool) (m : list N) (start finish : nat) : res bool :=
  do bytes <- read_bytes m start (finish - start); Ok (forallb f bytes).
Definition is_zero_number := token_is (fun c => c =? 48)%N.
Definition is_space := token_is (fun c => c =? 32)%N.
Definition is_number := token_is is_digit.

(** src/x86/name.c:136-143. *)
Fixpoint digit_pair (bytes : list N) : bool :=
  match bytes with
  | a :: ((b :: _) as t) => (is_digit a && is_digit b) || digit_pair t
  | _ => false
  end.
Definition is_model_number (m : list N) (start finish : nat) : res bool :=
  do bytes <- read_bytes m start (finish - start); Ok (digit_pair bytes).

(** src/x86/name.c:145-156. *)
Definition is_frequency (m : list N) (start finish : nat) : res bool :=
  if 3 <? finish - start then
    do h <- rd m (finish - 2); do z <- rd m (finish - 1);
    if ((h =? 72) && (z =? 122))%N then
      do c <- rd m (finish - 3); Ok ((c =? 75) || (c =? 77) || (c =? 71))%N
    else Ok false
  else Ok false.

(** src/x86/name.c:161-165. *)
Definition move_token (m : list N) (start finish : nat) (target : list N) (out : nat) : res (list N * nat) :=
  do bytes <- read_bytes m start (finish - start);
  do target <- write_bytes target out bytes; Ok (target, out + (finish - start)).

(** The contexts of the previous token. *)
Inductive context := C_model | C_dual | C_core | C_engineering.
Definition context_of (st : parser) (c : context) : option nat :=
  match c with C_model => ps_model st | C_dual => ps_dual st | C_core => ps_core st | C_engineering => ps_engineering st end.
Definition set_context (st : parser) (c : context) (p : nat) : parser :=
  Parser (match c with C_model => Some p | _ => ps_model st end) (ps_letter st)
         (match c with C_dual => Some p | _ => ps_dual st end) (match c with C_core => Some p | _ => ps_core st end)
         (match c with C_engineering => Some p | _ => ps_engineering st end)
         (ps_separator st) (ps_frequency st) (ps_xeon st) (ps_number st) (ps_sample st).
Definition set_letter (st : parser) (p : nat) : parser :=
  Parser (ps_model st) (Some p) (ps_dual st) (ps_core st) (ps_engineering st)
         (ps_separator st) (ps_frequency st) (ps_xeon st) (ps_number st) (ps_sample st).
Definition set_flags (st : parser) (frequency xeon number sample : bool) : parser :=
  Parser (ps_model st) (ps_letter st) (ps_dual st) (ps_core st) (ps_engineering st) (ps_separator st)
         (ps_frequency st || frequency) (ps_xeon st || xeon) (ps_number st || number) (ps_sample st || sample).

(** The [if]s of the cases of the switch, src/x86/name.c:207-521, as tables.  A rule applies
    if the context it asks for is set and the token is the word. *)
Inductive action :=
| Erase (result : bool)                     (* if (erase_matching(…)) return result; *)
| Erase_core                                (* the same, context_core = token_end; return true; *)
| Erase_since (c : context) (core : bool)   (* memset from the context to the end of the token; return true; *)
| Note (c : context) (result : option bool) (* the context is the token; return or go on *)
| Xeon                                      (* state->xeon = true *)
| Sample                                    (* state->engineering_sample = true; return false; *)
| Return (result : bool).
Record rule := Rule { r_when : option context; r_word : string; r_action : action }.

Definition token_rules (len : nat) : list rule :=
  match len with
  | 2 => [Rule None "w/" (Erase false)]
  | 3 => [Rule None "CPU" (Erase true); Rule None "SOC" (Erase false); Rule None "AMD" (Erase true); Rule None "VIA" (Erase true);
          Rule None "IDT" (Erase true); Rule None "MMX" (Erase false); Rule None "APU" (Erase false); Rule None "Eng" (Note C_engineering None)]
  | 4 => [Rule None "Dual" (Note C_dual None); Rule None "Xeon" Xeon; Rule (Some C_dual) "Core" (Erase_since C_dual true)]
  | 5 => [Rule None "Intel" (Erase true); Rule None "Cyrix" (Erase true); Rule None "Geode" (Return false); Rule None "model" (Note C_model (Some true))]
  | 6 => [Rule None "Radeon" (Erase false); Rule None "RADEON" (Erase false); Rule (Some C_core) "Mobile" (Erase true);
          Rule None "family" (Erase true); Rule (Some C_engineering) "Sample" Sample]
  | 7 => [Rule None "Genuine" (Erase true); Rule None "12-Core" (Erase true); Rule None "16-Core" (Erase true);
          Rule (Some C_model) "unknown" (Erase_since C_model false);
          Rule (Some C_engineering) "Sample," Sample; Rule (Some C_engineering) "Sample:" Sample]
  | 8 => [Rule None "QuadCore" Erase_core; Rule None "Six-Core" Erase_core]
  | 9 => [Rule None "Processor" (Erase true); Rule None "processor" (Erase true); Rule None "Dual-Core" Erase_core;
          Rule None "Quad-Core" Erase_core; Rule None "Transmeta" (Erase true)]
  | 10 => [Rule None "Eight-Core" Erase_core]
  | 11 => [Rule None "Triple-Core" Erase_core; Rule None "Engineering" (Note C_engineering (Some true))]
  | _ => []
  end%string.

(** What is left of the name, the state, and the result if the function returns here. *)
Definition outcome := (list N * parser * option bool)%type.

Definition act (m : list N) (start finish : nat) (previous st : parser) (a : action) : res outcome :=
  match a with
  | Erase result => do m <- memset m start 32 (finish - start); Ok (m, st, Some result)
  | Erase_core => do m <- memset m start 32 (finish - start); Ok (m, set_context st C_core finish, Some true)
  | Erase_since c core =>
      match context_of previous c with
      | Some p => do m <- memset m p 32 (finish - p); Ok (m, if core then set_context st C_core finish else st, Some true)
      | None => UB
      end
  | Note c result => Ok (m, set_context st c start, result)
  | Xeon => Ok (m, set_flags st false true false false, None)
  | Sample => Ok (m, set_flags st false false false true, Some false)
  | Return result => Ok (m, st, Some result)
  end.

Fixpoint run_rules (rules : list rule) (m : list N) (start finish : nat) (previous st : parser) : res outcome :=
  match rules with
  | [] => Ok (m, st, None)
  | r :: rest =>
      let asked := match r_when r with None => true | Some c => match context_of previous c with Some _ => true | None => false end end in
      if asked then
        do hit <- memequal m start (finish - start) (r_word r);
        if hit then
          do o <- act m start finish previous st (r_action r);
          match o with
          | (m, st, None) => run_rules rest m start finish previous st
          | o => Ok o
          end
        else run_rules rest m start finish previous st
      else run_rules rest m start finish previous st
  end.

(** The switch, src/x86/name.c:206-522. *)
Definition token_switch (m : list N) (start finish : nat) (previous st : parser) : res outcome :=
  match finish - start with
  | 1 =>
      do c <- rd m start;
      if is_upper_letter c then Ok (m, set_letter st start, Some true) else Ok (m, st, None)
  | 2 =>
      do o <- run_rules (token_rules 2) m start finish previous st;
      match o with
      | (m, st, None) =>
          do v <- rd m start; do d <- rd m (start + 1);
          if (v =? 86)%N && is_digit d then do m <- wr m start 118%N; Ok (m, st, Some true) else Ok (m, st, None)
      | o => Ok o
      end
  | len => run_rules (token_rules len) m start finish previous st
  end.

(** src/x86/name.c:523-572, after the switch. *)
Definition token_rest (m : list N) (start finish : nat) (previous st : parser) : res (list N * parser * bool) :=
  do zero <- is_zero_number m start finish;
  if zero then do m <- memset m start 32 (finish - start); Ok (m, st, true) else
  do p <- match ps_letter previous with
          | Some letter_at =>
              if (2 <=? finish - start) && (finish - start <=? 5) then
                do number <- is_number m start finish;
                if number then
                  do letter <- rd m letter_at;
                  do m <- wr m letter_at 32%N;
                  match start with
                  | O => UB
                  | S start' =>
                      do p <- move_token m start finish m start';
                      do m <- wr (fst p) (finish - 1) letter; Ok (m, start')
                  end
                else Ok (m, start)
              else Ok (m, start)
          | None => Ok (m, start)
          end;
  let '(m, start) := p in
  do number <- match ps_separator st with Some _ => is_model_number m start finish | None => Ok false end;
  do frequency <- is_frequency m start finish;
  Ok (m, set_flags st frequency false number false, true).

(** src/x86/name.c:167-572. *)
Definition transform_token (m : list N) (start finish : nat) (state : parser) : res (list N * parser * bool) :=
  let previous := state in
  let st := reset_context state in
  (* 173-179 *)
  do m <- match ps_separator st with
          | Some separator =>
              if (separator <? start) && ps_number st then memset m start 32 (finish - start) else Ok m
          | None => Ok m
          end;
  (* 181-193 *)
  do p <- if 2 <? finish - start then
            do c <- rd m (finish - 3);
            if is_digit c || is_upper_letter c then
              do e <- erase_matching m (finish - 2) 2 "tm"%string;
              Ok (fst e, if snd e then finish - 2 else finish)
            else Ok (m, finish)
          else Ok (m, finish);
  let '(m, finish) := p in
  (* 194-205 *)
  do p <- if 4 <? finish - start then
            do e <- erase_matching m start 4 "AMD-"%string;
            Ok (fst e, if snd e then start + 4 else start)
          else Ok (m, start);
  let '(m, start) := p in
  do o <- token_switch m start finish previous st;
  match o with
  | (m, st, Some result) => Ok (m, st, result)
  | (m, st, None) => token_rest m start finish previous st
  end.

(** src/x86/name.c:579-594: the end of the string without its trailing zeros; 0 if there
    is nothing else. *)
Fixpoint find_end (m : list N) (k : nat) : res nat :=
  match k with
  | O => Ok 0
  | S j => do c <- rd m j; if (c =? 0)%N then find_end m j else Ok k
  end.

(** src/x86/name.c:600-627: the array and the position of the last '@'. *)
Fixpoint unify_spaces (m : list N) (p count : nat) (inside : bool) (separator : option nat) : res (list N * option nat) :=
  match count with
  | O => Ok (m, separator)
  | S k =>
      do c <- rd m p;
      if (c =? 40)%N then do m <- wr m p 32%N; unify_spaces m (S p) k true separator
      else if (c =? 41)%N then do m <- wr m p 32%N; unify_spaces m (S p) k false separator
      else if (c =? 64)%N then do m <- wr m p 32%N; unify_spaces m (S p) k inside (Some p)
      else if (c =? 0)%N || (c =? 9)%N || inside then do m <- wr m p 32%N; unify_spaces m (S p) k inside separator
      else unify_spaces m (S p) k inside separator
  end.

(** src/x86/name.c:631-654: [token] is token_start if is_token.  The result has the final
    array, state and name_end. *)
Fixpoint scan_tokens (m : list N) (p count : nat) (token : option nat) (st : parser) : res (list N * parser * nat) :=
  match count with
  | O =>
      match token with
      | Some start => do o <- transform_token m start p st; let '(m, st, _) := o in Ok (m, st, p)
      | None => Ok (m, st, p)
      end
  | S k =>
      do c <- rd m p;
      if (c =? 32)%N then
        match token with
        | Some start =>
            do o <- transform_token m start p st;
            let '(m, st, go_on) := o in
            if go_on then scan_tokens m (S p) k None st else Ok (m, st, p)
        | None => scan_tokens m (S p) k None st
        end
      else scan_tokens m (S p) k (match token with Some start => Some start | None => Some p end) st
  end.

(** Output of a token, src/x86/name.c:682-687, 702-707: the separating space and the token. *)
Definition put_token (m : list N) (start finish : nat) (space : bool) (out : list N) (out_ptr : nat) : res (list N * nat) :=
  do p <- if space then do out <- wr out out_ptr 32%N; Ok (out, S out_ptr) else Ok (out, out_ptr);
  let '(out, out_ptr) := p in move_token m start finish out out_ptr.

(** src/x86/name.c:671-708.  [token] is the start of the current token and whether it starts
    with a dash; [dash]: previous_token_ends_with_dash.  The result has the output, its end
    and token_count. *)
Fixpoint compact_tokens (m : list N) (p count : nat) (token : option (nat * bool)) (dash : bool)
    (out : list N) (out_ptr tokens : nat) : res (list N * nat * nat) :=
  match count with
  | O =>
      match token with
      | Some (start, starts_with_dash) =>
          let space := negb starts_with_dash && negb dash in
          do o <- put_token m start p space out out_ptr;
          Ok (fst o, snd o, if space then S tokens else tokens)
      | None => Ok (out, out_ptr, tokens)
      end
  | S k =>
      do c <- rd m p;
      if (c =? 32)%N then
        match token with
        | Some (start, starts_with_dash) =>
            let space := negb starts_with_dash && negb dash in
            do o <- put_token m start p space out out_ptr;
            do before <- rd m (p - 1);
            compact_tokens m (S p) k None (before =? 45)%N (fst o) (snd o) (if space then S tokens else tokens)
        | None => compact_tokens m (S p) k None dash out out_ptr tokens
        end
      else compact_tokens m (S p) k (match token with Some t => Some t | None => Some (p, (c =? 45)%N) end) dash out out_ptr tokens
  end.

(** src/x86/name.c:574-720: [normalized] is the caller's array.  The result has the array
    and the returned length. *)
Definition normalize_brand_string (raw normalized : list N) : res (list N * nat) :=
  do normalized <- wr normalized 0 0%N;
  let name := firstn 48 raw in
  do name_end <- find_end name 48;
  if name_end =? 0 then Ok (normalized, 0) else
  do u <- unify_spaces name 0 name_end false None;
  let st := Parser None None None None None (snd u) false false false false in
  do s <- scan_tokens (fst u) 0 name_end None st;
  let '(name, st, name_end) := s in
  if ps_sample st then Ok (normalized, 0) else
  do only_frequency <- match ps_separator st with Some separator => is_space name 0 separator | None => Ok false end;
  if only_frequency then Ok (normalized, 0) else
  do c <- compact_tokens name 0 name_end None true normalized 0 1;
  let '(normalized, out_ptr, tokens) := c in
  if ps_frequency st && (tokens <=? 1) then do normalized <- wr normalized 0 0%N; Ok (normalized, 0) else
  do normalized <- if out_ptr <? 48 then wr normalized out_ptr 0%N else wr normalized 47 0%N;
  Ok (normalized, out_ptr).

(** vendor_string_map, src/x86/name.c:717-731, by the value of enum cpuinfo_vendor
    (include/cpuinfo.h:157-307). *)
Definition vendor_string (vendor : N) : option string :=
  match vendor with
  | 1 => Some "Intel" | 2 => Some "AMD" | 11 => Some "VIA" | 16 => Some "Hygon" | 32 => Some "RDC" | 33 => Some "DM&P"
  | 50 => Some "Transmeta" | 51 => Some "Cyrix" | 52 => Some "Rise" | 53 => Some "NSC" | 54 => Some "SiS" | 55 => Some "NexGen"
  | 56 => Some "UMC" | _ => None
  end%N%string.

(** The characters of a C string in an array, up to its NUL; a string that is not
    terminated is read outside the array. *)
Fixpoint c_string (m : list N) : res (list N) :=
  match m with
  | [] => UB
  | c :: t => if (c =? 0)%N then Ok [] else do s <- c_string t; Ok (c :: s)
  end.

(** strncpy(…, size): the characters, then zeros up to the size. *)
Definition strncpy (m source : list N) (size : nat) : res (list N) :=
  do s <- c_string source;
  write_bytes m 0 (firstn size (s ++ repeat 0%N size)).
(** snprintf(…, size, "%s", s). *)
Definition snprintf (m s : list N) (size : nat) : res (list N) := write_bytes m 0 (firstn (size - 1) s ++ [0%N]).

(** src/x86/name.c:733-754. *)
Definition format_package_name (vendor : N) (normalized package_name : list N) : res (list N * nat) :=
  do c <- rd normalized 0;
  if (c =? 0)%N then do package_name <- wr package_name 0 0%N; Ok (package_name, 0) else
  match vendor_string vendor with
  | None =>
      do package_name <- strncpy package_name normalized 48;
      do package_name <- wr package_name 47 0%N; Ok (package_name, 0)
  | Some v =>
      do s <- c_string normalized;
      do package_name <- snprintf package_name (text v ++ 32%N :: s) 48;
      Ok (package_name, S (length (text v)))
  end.
