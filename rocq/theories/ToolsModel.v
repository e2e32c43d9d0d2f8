(** What the tools print with printf: numbers.  Definitions only. *)
From Verif Require Import Base Text CpuidDumpModel.
From Verif Require ArmMachModel.
Import ArmMachModel(decimal).
Open Scope N_scope.

(** printf of %u. *)
Definition number (n : N) : list N := decimal 10 n.
(** printf of %08x: [hex] prints upper-case digits. *)
Definition lower (c : N) : N := if 65 <=? c then c + 32 else c.
Definition hex08 (n : N) : list N := map lower (hex 8 n).
Definition newline : N := 10.
Definition tab : N := 9.
