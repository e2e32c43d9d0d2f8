(** ASCII text as byte values: notation for file names and sample files. *)
From Coq Require Export String Ascii.
From Verif Require Export Base.

(** The bytes of a string literal (a notation aid; models no code). *)
Definition text (s : string) : list N := List.map N_of_ascii (list_ascii_of_string s).
Arguments text s%string.
