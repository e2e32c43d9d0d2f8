(** Sample for the examples about leaf 2. *)
From Verif Require Import Base X86DescriptorModel X86DecodeModel X86DecodeSample Leaf2Spec Leaf2Proofs.
From Coq Require Import List. Import ListNotations.
Open Scope N_scope.

(** A Pentium 4: 8 KB of data, trace cache, 256 KB in the second level; the same descriptors in another order. *)
Definition pentium4 (answer : regs) : cpu :=
  Cpu (fun l s => if l =? 0 then intel_leaf0 2 else if l =? 1 then Regs 0xF0A 0x8 0 0x3FEBFBFF else if l =? 0x80000000 then Regs 0x80000004 0 0 0 else regs0)
    (fun _ => answer) 0 0xFFFF.
Definition told : regs := Regs 0x665B5001 0 0 0x007A7040.
Definition shuffled : regs := Regs 0x7A004001 0x00700066 0x50 0x5B000000.

Lemma names_told d : names (pentium4 told) d <-> In d [0x66; 0x5B; 0x50; 0x7A; 0x70; 0x40].
Proof. rewrite names_in. vm_compute all_bytes. cbn [In]. intuition (subst; try discriminate; tauto). Qed.
Lemma names_shuffled d : names (pentium4 shuffled) d <-> In d [0x66; 0x5B; 0x50; 0x7A; 0x70; 0x40].
Proof. rewrite names_in. vm_compute all_bytes. cbn [In]. intuition (subst; try discriminate; tauto). Qed.
