(** What the lines of an x86 /proc/cpuinfo mean, independent of the parser. *)
From Verif Require Import Base Text LinuxTextSpec CpuinfoLineSpec.
Open Scope N_scope.

Inductive meaning := Announces (cpu : N) | Gives (apic : N) | Nothing.

Inductive line_means : list N -> meaning -> Prop :=
| means_processor : forall line v, key_value line (text "processor") v -> is_decimal v ->
    dec_value v < two32 -> line_means line (Announces (dec_value v))
| means_apicid : forall line v, key_value line (text "apicid") v -> is_decimal v ->
    dec_value v < two32 -> line_means line (Gives (dec_value v))
| means_nothing : forall line,
    (forall k v, key_value line k v -> k <> text "processor" /\ k <> text "apicid") ->
    line_means line Nothing.

(** The APIC id given last while [cpu] was the processor announced last
    (processor 0 before any announcement). *)
Fixpoint apic_given (ms : list meaning) (current cpu : N) (acc : option N) : option N :=
  match ms with
  | [] => acc
  | Announces n :: r => apic_given r n cpu acc
  | Gives a :: r => apic_given r current cpu (if current =? cpu then Some a else acc)
  | Nothing :: r => apic_given r current cpu acc
  end.

(** A block: "processor : n", then lines that mean nothing, "apicid : a", more
    such lines. *)
Definition block (n a : N) (before after : nat) : list meaning :=
  Announces n :: repeat Nothing before ++ Gives a :: repeat Nothing after.
