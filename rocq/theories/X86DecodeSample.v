(** Sample processors for the examples about CPUID decoding. *)
From Verif Require Import Base Text LinuxTextModel TopologySpec X86LinuxModel X86LinuxSpec X86Sample X86DescriptorModel X86DecodeModel X86DecodeSpec.
Open Scope N_scope.

(** "GenuineIntel" in leaf 0. *)
Definition intel_leaf0 (max_base : N) : regs := Regs max_base 0x756E6547 0x6C65746E 0x49656E69.

(** Leaf 4 of a processor with 32 KB + 32 KB L1 and 256 KB L2 shared by the two
    threads of a core, and 8 MB L3; [cores] core ids in the package. *)
Definition sample_leaf4 (cores i : N) : regs :=
  let w := 2 ^ 26 * (cores - 1) in
  if i =? 0 then Regs (w + 0x4121) 0x01C0003F 63 0
  else if i =? 1 then Regs (w + 0x4122) 0x01C0003F 63 0
  else if i =? 2 then Regs (w + 0x4143) 0x00C0003F 1023 0
  else if i =? 3 then Regs (w + 0xC163) 0x03C0003F 8191 6
  else Regs w 0 0 0.

(** With x2APIC: leaf 0xB says thread ids are [smt] bits wide, thread and core ids
    together [core] bits. *)
Definition x2apic_cpu (smt core : N) : cpu :=
  Cpu (fun leaf i =>
    if leaf =? 0 then intel_leaf0 0x16
    else if leaf =? 1 then Regs 0x000906EA 0x00100800 0x7FFAFBBF 0xBFEBFBFF
    else if leaf =? 4 then sample_leaf4 8 i
    else if leaf =? 0xB then
      if i =? 0 then Regs smt 2 0x100 0 else if i =? 1 then Regs core 4 0x201 0 else Regs 0 0 2 0
    else if leaf =? 0x80000000 then Regs 0x80000008 0 0 0
    else regs0) (fun _ => Regs 0x76036301 0x00F0B5FF 0 0x00C30000) 7 0xFFFF.

(** Without x2APIC: [logical] logical processors per package, [cores] core ids. *)
Definition legacy_cpu (logical cores : N) : cpu :=
  Cpu (fun leaf i =>
    if leaf =? 0 then intel_leaf0 0xA
    else if leaf =? 1 then Regs 0x00010676 (2 ^ 16 * logical + 0x800) 0x0008E3BD 0xBFEBFBFF
    else if leaf =? 4 then sample_leaf4 cores i
    else if leaf =? 0x80000000 then Regs 0x80000008 0 0 0
    else regs0) (fun _ => Regs 0x05B0B101 0x005657F0 0 0x2CB4304E) 7 0xFFFF.

Lemma sample_leaf4_ok cores i : cores <= 64 -> regs_ok (sample_leaf4 cores i).
Proof.
  intros H. unfold sample_leaf4. change (2 ^ 26) with 67108864.
  repeat match goal with |- context [if ?b then _ else _] => destruct b end; unfold regs_ok, two32; cbn [eax ebx ecx edx]; lia.
Qed.

Lemma x2apic_cpu_ok smt core : smt < 32 -> core < 32 -> forall l i, regs_ok (cpuidex (x2apic_cpu smt core) l i).
Proof.
  intros H1 H2 l i. unfold x2apic_cpu. cbn [cpuidex].
  destruct (l =? 4) eqn:E4.
  - apply N.eqb_eq in E4. subst l. cbn [N.eqb Pos.eqb]. apply sample_leaf4_ok. lia.
  - repeat match goal with |- context [if ?b then _ else _] => destruct b end; unfold regs_ok, two32, intel_leaf0, regs0; cbn [eax ebx ecx edx]; lia.
Qed.

Lemma legacy_cpu_ok logical cores : logical < 256 -> cores <= 64 -> forall l i, regs_ok (cpuidex (legacy_cpu logical cores) l i).
Proof.
  intros H1 H2 l i. unfold legacy_cpu. cbn [cpuidex].
  destruct (l =? 4) eqn:E4.
  - apply N.eqb_eq in E4. subst l. cbn [N.eqb Pos.eqb]. now apply sample_leaf4_ok.
  - change (2 ^ 16) with 65536.
    repeat match goal with |- context [if ?b then _ else _] => destruct b end; unfold regs_ok, two32, intel_leaf0, regs0; cbn [eax ebx ecx edx]; lia.
Qed.

Ltac leaf_end k := exists k; split; [lia|]; split; [reflexivity|]; split; [reflexivity|];
  intros i Hi; repeat (destruct i as [|i]; [vm_compute; discriminate|]); lia.

Lemma x2apic_cpu_ends : leaves_end (x2apic_cpu 1 2) 10 /\ leaves_end (x2apic_cpu 0 3) 10.
Proof. split; (split; [leaf_end 4%nat|leaf_end 0%nat]). Qed.

Lemma legacy_cpu_ends : leaves_end (legacy_cpu 4 2) 10.
Proof. split; [leaf_end 4%nat|leaf_end 0%nat]. Qed.

(** Two CPUs with APIC ids 0 and 4. *)
Definition two_cpu_files : linux_files :=
  let list := File (Some (text "0-1" ++ [10])) [] in
  LinuxFiles (File (Some (text "63" ++ [10])) []) list list list list
             (File (Some (text "processor : 0" ++ [10] ++ text "apicid : 0" ++ [10] ++ text "processor : 1" ++ [10] ++
                          text "apicid : 4" ++ [10])) []).

(** An AMD processor ("AuthenticAMD") whose leaf 0x8000001D describes the same
    caches; [ext] says whether it announces the topology extensions. *)
Definition amd_cpu (ext : bool) : cpu :=
  Cpu (fun leaf i =>
    if leaf =? 0 then Regs 0xD 0x68747541 0x444D4163 0x69746E65
    else if leaf =? 1 then Regs 0x00800F11 0x00100800 0x7ED8320B 0x178BFBFF
    else if leaf =? 0x80000000 then Regs 0x8000001F 0 0 0
    else if leaf =? 0x80000001 then Regs 0x00800F11 0 (if ext then 0x35C233FF else 0x358233FF) 0
    else if leaf =? 0x8000001D then sample_leaf4 1 i
    else regs0) (fun _ => regs0) 7 0xFFFF.

Lemma amd_cpu_ok ext : forall l i, regs_ok (cpuidex (amd_cpu ext) l i).
Proof.
  intros l i. unfold amd_cpu. cbn [cpuidex].
  destruct (l =? 0x8000001D) eqn:E4.
  - apply N.eqb_eq in E4. subst l. cbn [N.eqb Pos.eqb]. apply sample_leaf4_ok. lia.
  - repeat match goal with |- context [if ?b then _ else _] => destruct b end; unfold regs_ok, two32, regs0; cbn [eax ebx ecx edx]; lia.
Qed.

Lemma amd_cpu_ends ext : leaves_end (amd_cpu ext) 10.
Proof. split; [leaf_end 0%nat|leaf_end 4%nat]. Qed.
