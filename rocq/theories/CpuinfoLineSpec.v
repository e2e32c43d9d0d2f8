(** Shape of a "key : value" line of /proc/cpuinfo, independent of the parser. *)
From Verif Require Import Base.
Open Scope N_scope.

Definition spaces (s : list N) : Prop := Forall (fun c => c = 32) s.
Definition spaces_tabs (s : list N) : Prop := Forall (fun c => c = 32 \/ c = 9) s.

(** [key_value line key value]: the key is what stands before the first ':'
    without blanks at its end; the value what stands after it without spaces
    around; neither is empty. *)
Definition key_value (line key value : list N) : Prop :=
  exists k0 kc pad sp1 v0 vc sp2,
    key = k0 ++ [kc] /\ kc <> 32 /\ kc <> 9 /\ spaces_tabs pad /\ ~ In 58 (key ++ pad) /\
    spaces sp1 /\ spaces sp2 /\
    value = v0 ++ [vc] /\ vc <> 32 /\ hd vc v0 <> 32 /\
    line = key ++ pad ++ [58] ++ sp1 ++ value ++ sp2.
