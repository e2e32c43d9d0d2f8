(** Reading the header recorded from an Android device: the preprocessor's conditions, the files and
    the properties; and what the device has. *)
From Verif Require Import Base Text ReportSpec RecordSpec.
Open Scope N_scope.

Local Notation "'let*' x := e 'in' f" := (match e with Some x => f | None => None end) (at level 200, x pattern, f at level 200).

(** #if NAME, #ifdef NAME, #elif NAME and #endif, which are not nested.  [state] says whether a
    branch has been taken, and whether the present one is. *)
Fixpoint choose (defined : list N -> bool) (state : option (bool * bool)) (ls : list (list N)) : option (list N) :=
  match ls with
  | [] => match state with None => Some [] | Some _ => None end
  | l :: ls' =>
      if match l with c :: _ => c =? 35 | [] => false end then
        match one_of [(text "#ifdef ", 0); (text "#if ", 0); (text "#elif ", 1); (text "#endif", 2)] l, state with
        | Some (0, name), None => choose defined (Some (defined name, defined name)) ls'
        | Some (1, name), Some (taken, _) => choose defined (Some (taken || defined name, negb taken && defined name)) ls'
        | Some (2, _), Some _ => choose defined None ls'
        | _, _ => None
        end
      else let* r := choose defined state ls' in
           Some (if match state with Some (_, a) => a | None => true end then l ++ [10] ++ r else r)
  end.
Definition preprocess (defined : list N -> bool) (s : list N) : option (list N) :=
  let* ls := lines_from [] s in choose defined None ls.

(** { .key = "...", .value = "...", }, *)
Definition property_initializer (s : list N) : option ((list N * list N) * list N) :=
  let* s := token (text ".key") s in let* s := token (text "=") s in
  let* (key, s) := c_string s in let* s := token (text ",") s in
  let* s := token (text ".value") s in let* s := token (text "=") s in
  let* (value, s) := c_string s in let* s := token (text ",") s in
  let* s := token (text "}") s in let* s := token (text ",") s in
  Some ((key, value), s).
Fixpoint property_initializers (fuel : nat) (s : list N) : option (list (list N * list N) * list N) :=
  match fuel with
  | O => None
  | S fuel =>
      let* s := token (text "{") s in
      match token (text "NULL") s with
      | Some s => let* s := token (text "}") s in let* s := token (text ",") s in Some ([], s)
      | None => let* (e, s) := property_initializer s in let* (es, s) := property_initializers fuel s in Some (e :: es, s)
      end
  end.
Definition mock_properties (s : list N) : option (list (list N * list N) * list N) :=
  let* s := token (text "struct") s in let* s := token (text "cpuinfo_mock_property") s in let* s := token (text "properties") s in
  let* s := token (text "[") s in let* s := token (text "]") s in let* s := token (text "=") s in let* s := token (text "{") s in
  let* (es, s) := property_initializers (length s) s in
  let* s := token (text "}") s in let* s := token (text ";") s in Some (es, s).

(** A build for 32-bit or 64-bit ARM, for Android. *)
Inductive arch := Arm32 | Arm64.
Definition defined_for (a : arch) (name : list N) : bool :=
  match one_of [(text "CPUINFO_ARCH_ARM64", match a with Arm64 => true | Arm32 => false end);
                (text "CPUINFO_ARCH_ARM", match a with Arm64 => false | Arm32 => true end); (text "__ANDROID__", true)] name with
  | Some (b, []) => b
  | _ => false
  end.
Definition read_android (a : arch) (s : list N) : option (list entry * list (list N * list N)) :=
  let* s := preprocess (defined_for a) s in
  let* (es, s) := mock_files s in
  let* (ps, s) := mock_properties s in
  match skip_blanks s with [] => Some (es, ps) | _ => None end.

(** What passes through adb shell: older versions turn each newline into two characters. *)
Definition through_adb (crlf : bool) (s : list N) : list N := flat_map (fun c => if crlf && (c =? 10) then [13; 10] else [c]) s.
(** What getprop prints. *)
Definition getprop (ps : list (list N * list N)) : list N :=
  flat_map (fun p => text "[" ++ fst p ++ text "]: [" ++ snd p ++ text "]" ++ [10]) ps.
(** Without the newline at the end. *)
Definition without_newline (s : list N) : list N := match rev s with c :: r => if c =? 10 then rev r else s | [] => [] end.
(** The value of a property, empty if there is none. *)
Fixpoint property_of (ps : list (list N * list N)) (key : list N) : list N :=
  match ps with
  | [] => []
  | (k, v) :: ps' => if list_eq_dec N.eq_dec k key then v else property_of ps' key
  end.

(** What properties consist of: printable characters other than the closing bracket. *)
Definition property_text (s : list N) : Prop := Forall (fun c => 32 <= c <= 126 /\ c <> 93) s.
(** The files of a device as a program for [a] finds them: on a 64-bit device /proc/cpuinfo is
    another one for 32-bit programs. *)
Definition device_file (a : arch) (arm64 : bool) (file : list N -> option (list N)) (cpuinfo32 : option (list N)) (path : list N) : option (list N) :=
  match a with
  | Arm32 => if arm64 && (if list_eq_dec N.eq_dec path (text "/proc/cpuinfo") then true else false) then cpuinfo32 else file path
  | Arm64 => file path
  end.
Definition arm64_device (props : list (list N * list N)) : bool :=
  if list_eq_dec N.eq_dec (property_of props (text "ro.product.cpu.abi")) (text "arm64-v8a") then true else false.
