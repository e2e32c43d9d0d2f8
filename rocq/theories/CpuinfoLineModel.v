(** Model of the part of parse_line shared by src/x86/linux/cpuinfo.c and
    src/arm/linux/cpuinfo.c: splitting a line of /proc/cpuinfo into key and
    value, with every character access checked.  Definitions only. *)
From Verif Require Import Base LinuxTextModel.
Open Scope N_scope.

(** Forward scan: for (; p != line_end; p++) if (stop( *p)) break;
    The position is an index into the line. *)
Fixpoint scan_fwd (fuel : nat) (stop : N -> bool) (line : list N) (k : nat) : res nat :=
  match fuel with
  | O => Hang
  | S fuel' =>
      if (k =? length line)%nat then Ok k
      else do c <- rd line k;
           if stop c then Ok k else scan_fwd fuel' stop line (S k)
  end.

(** Backward scan: for (; p != low; p--) if (stop(p[-1])) break;
    An access below the start of the line is undefined. *)
Fixpoint scan_back (fuel : nat) (stop : N -> bool) (line : list N) (low k : nat) : res nat :=
  match fuel with
  | O => Hang
  | S fuel' =>
      if (k =? low)%nat then Ok k
      else match k with
           | O => UB
           | S k' => do c <- rd line k';
                     if stop c then Ok k else scan_back fuel' stop line low k'
           end
  end.

(** The characters from [a] to [b]. *)
Definition slice (line : list N) (a b : nat) : list N := firstn (b - a) (skipn a line).

(** src/x86/linux/cpuinfo.c:89-148 and src/arm/linux/cpuinfo.c:731-787: [None]
    when the line is skipped, otherwise the key and the value. *)
Definition split_line (line : list N) : res (option (list N * list N)) :=
  let len := length line in
  let fuel := S len in
  if (len =? 0)%nat then Ok None else
  do sep <- scan_fwd fuel (fun c => c =? chr_colon) line 0%nat;
  if (sep =? len)%nat then Ok None else
  do key_end <- scan_back fuel (fun c => negb (c =? chr_space) && negb (c =? chr_tab)) line 0%nat sep;
  if (key_end =? 0)%nat then Ok None else
  do value_start <- scan_fwd fuel (fun c => negb (c =? chr_space)) line (S sep);
  if (value_start =? len)%nat then Ok None else
  do value_end <- scan_back fuel (fun c => negb (c =? chr_space)) line value_start len;
  Ok (Some (slice line 0 key_end, slice line value_start value_end)).
