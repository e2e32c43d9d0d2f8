(** What a CPUID recording should contain, independent of the recorder: which leaves and
    subleaves a processor has, the text of one line, and when a recording stands for
    its processor.  Written from the processor manuals (CPUID: the highest base and
    extended leaf, the leaves with subleaves and how their subleaves end). *)
From Coq Require Import Sorted.
From Verif Require Import Base Text X86DescriptorModel X86DecodeModel ArmCpuinfoSpec CpuidDumpModel.
Open Scope N_scope.

Definition highest_base (m : cpu) : N := eax (cpuidex m 0 0).
Definition highest_extended (m : cpu) : N := eax (cpuidex m 0x80000000 0).

(** Leaves whose subleaf 0 gives the highest subleaf in eax. *)
Definition indexed_leaves : list N := [7; 0x14; 0x17; 0x24].

(** Leaf 4 lists caches until one of type 0, leaf 0xB levels until one of type 0, leaf
    0x12 (with SGX) sections from subleaf 2 on until one of type 0. *)
Inductive exists_in (m : cpu) : N -> N -> Prop :=
| a_cache : forall sub, 4 <= highest_base m -> sub < two32 ->
    (forall s, s <= sub -> eax (cpuidex m 4 s) mod 32 <> 0) -> exists_in m 4 sub
| a_level : forall sub, 0xB <= highest_base m -> sub < two32 ->
    (forall s, s <= sub -> (ecx (cpuidex m 0xB s) / 256) mod 256 <> 0) -> exists_in m 0xB sub
| an_enclave : forall sub, 0x12 <= highest_base m -> sub < two32 -> N.testbit (ebx (cpuidex m 7 0)) 2 = true ->
    (forall s, 2 <= s <= sub -> eax (cpuidex m 0x12 s) mod 16 <> 0) -> exists_in m 0x12 sub
| an_indexed : forall leaf sub, In leaf indexed_leaves -> leaf <= highest_base m -> sub <= eax (cpuidex m leaf 0) ->
    exists_in m leaf sub
| a_single : forall leaf, leaf <= highest_base m -> ~ In leaf ([4; 0xB; 0x12] ++ indexed_leaves) -> exists_in m leaf 0
| an_extended : forall leaf, 0x80000000 <= leaf <= highest_extended m -> exists_in m leaf 0.

(** One reading: leaf, subleaf and the registers. *)
Definition reading : Type := N * N * regs.
Definition earlier (a b : reading) : Prop :=
  fst (fst a) < fst (fst b) \/ (fst (fst a) = fst (fst b) /\ snd (fst a) < snd (fst b)).

(** The readings of all that exists, each once and in order. *)
Definition transcript (m : cpu) (rs : list reading) : Prop :=
  (forall leaf sub r, In (leaf, sub, r) rs <-> exists_in m leaf sub /\ r = cpuidex m leaf sub) /\
  StronglySorted earlier rs.

(** The registers are 32 bits wide, and the base leaves end below the extended ones. *)
Definition narrow (r : regs) : Prop := eax r < two32 /\ ebx r < two32 /\ ecx r < two32 /\ edx r < two32.
Definition sane (m : cpu) : Prop := (forall leaf sub, narrow (cpuidex m leaf sub)) /\ highest_base m < 0x80000000.

(** Text: exactly [width] upper-case hexadecimal digits, or at least [width] without
    further leading zeros. *)
Definition is_upper_hex (c : N) : Prop := 48 <= c <= 57 \/ 65 <= c <= 70.
Definition hex_text (width : nat) (n : N) (ds : list N) : Prop :=
  Forall is_upper_hex ds /\ hex_number ds = n /\ (width <= length ds)%nat /\
  ((width < length ds)%nat -> hd 0 ds <> 48).

(** The four characters in a register, lowest byte first, and a string of registers up to
    the first null. *)
Definition register_text (w : N) : list N := map (fun k => (w / 256 ^ k) mod 256) [0; 1; 2; 3].
Inductive string_in : list N -> list N -> Prop :=
| full_string : forall s, ~ In 0 s -> string_in s s
| ended_string : forall s rest, ~ In 0 s -> string_in (s ++ 0 :: rest) s.

(** Leaves 0 and 0x80000000 name the vendor in ebx, edx, ecx; leaves 0x80000002 to
    0x80000004 hold the brand string. *)
Definition vendor_leaves : list N := [0; 0x80000000].
Definition brand_leaves : list N := [0x80000002; 0x80000003; 0x80000004].
Definition vendor_text (r : regs) : list N := register_text (ebx r) ++ register_text (edx r) ++ register_text (ecx r).
Definition brand_text (r : regs) : list N :=
  register_text (eax r) ++ register_text (ebx r) ++ register_text (ecx r) ++ register_text (edx r).
Definition subleaf_leaves : list N := [4; 0xB; 0x12] ++ indexed_leaves.

(** "CPUID 00000001: 000106A5-00100800-009CE3BD-BFEBFBFF" and what follows it. *)
Inductive remark : reading -> list N -> Prop :=
| no_remark : forall leaf r, ~ In leaf subleaf_leaves -> ~ In leaf vendor_leaves -> ~ In leaf brand_leaves ->
    remark (leaf, 0, r) []
| remark_sub : forall leaf sub r ds, In leaf subleaf_leaves -> hex_text 2 sub ds ->
    remark (leaf, sub, r) (text " [SL " ++ ds ++ text "]")
| remark_vendor : forall leaf r s, In leaf vendor_leaves -> (ebx r <> 0 \/ ecx r <> 0 \/ edx r <> 0) -> string_in (vendor_text r) s ->
    remark (leaf, 0, r) (text " [" ++ s ++ text "]")
| remark_no_vendor : forall leaf r, In leaf vendor_leaves -> ebx r = 0 -> ecx r = 0 -> edx r = 0 -> remark (leaf, 0, r) []
| remark_brand : forall leaf r s, In leaf brand_leaves -> string_in (brand_text r) s ->
    remark (leaf, 0, r) (text " [" ++ s ++ text "]").
Definition line_of (rd : reading) (l : list N) : Prop :=
  let '(leaf, sub, r) := rd in
  exists dl da db dc dd after,
    l = text "CPUID " ++ dl ++ text ": " ++ da ++ text "-" ++ db ++ text "-" ++ dc ++ text "-" ++ dd ++ after /\
    hex_text 8 leaf dl /\ hex_text 8 (eax r) da /\ hex_text 8 (ebx r) db /\ hex_text 8 (ecx r) dc /\ hex_text 8 (edx r) dd /\
    length dl = 8%nat /\ length da = 8%nat /\ length db = 8%nat /\ length dc = 8%nat /\ length dd = 8%nat /\
    remark rd after.

(** Every list of subleaves ends, and no highest leaf or subleaf is the highest number. *)
Definition finite (m : cpu) : Prop :=
  highest_extended m <> u32max /\
  (4 <= highest_base m -> exists s, s < two32 /\ eax (cpuidex m 4 s) mod 32 = 0) /\
  (0xB <= highest_base m -> exists s, s < two32 /\ (ecx (cpuidex m 0xB s) / 256) mod 256 = 0) /\
  (0x12 <= highest_base m -> N.testbit (ebx (cpuidex m 7 0)) 2 = true ->
     exists s, 2 <= s < two32 /\ eax (cpuidex m 0x12 s) mod 16 = 0) /\
  (forall leaf, In leaf indexed_leaves -> leaf <= highest_base m -> eax (cpuidex m leaf 0) <> u32max).

(** The vendor name and the brand string are ASCII. *)
Definition ascii_names (m : cpu) : Prop :=
  (forall leaf c, In leaf vendor_leaves -> In c (vendor_text (cpuidex m leaf 0)) -> c < 128) /\
  (forall leaf c, In leaf brand_leaves -> In c (brand_text (cpuidex m leaf 0)) -> c < 128).

(** A subleaf that reads the same in decimal and hexadecimal digits. *)
Definition two_decimals (sub : N) : bool := (sub / 16 <=? 9) && (sub mod 16 <=? 9).

(** The table entry of a reading; only such subleaves come back. *)
Definition read_back (rd : reading) (e : entry) : Prop :=
  let '(leaf, sub, r) := rd in
  input_eax e = leaf /\ answer e = r /\
  (~ In leaf (vendor_leaves ++ brand_leaves) -> input_ecx e = if two_decimals sub then sub else 0).

(** What a recording cannot show, and so must not matter: successive reads of leaf 2
    that differ, subleaf 1 of leaf 7 where it does not exist, AVX10 versions where leaf
    0x24 does not exist, subleaves from 10 on, further caches in leaf 0x8000001D, and
    the leaves from 0xC0000000 of VIA processors. *)
Record faithful (m : cpu) : Prop := {
  same_descriptors : 2 <= highest_base m -> forall i, cpuid2 m i = cpuidex m 2 0;
  no_structured : 7 <= highest_base m -> eax (cpuidex m 7 0) = 0 -> cpuidex m 7 1 = regs0;
  no_avx10 : 7 <= highest_base m -> highest_base m < 0x24 ->
    N.testbit (edx (cpuidex m 7 1)) 19 = false \/ ebx (cpuidex m 0x24 0) mod 256 < 2;
  few_caches : 4 <= highest_base m -> exists s, s <= 10 /\ eax (cpuidex m 4 s) mod 32 = 0;
  few_levels : 0xB <= highest_base m -> exists s, s <= 10 /\ (ecx (cpuidex m 0xB s) / 256) mod 256 = 0;
  one_amd_cache : 0x8000001D <= highest_extended m -> N.testbit (ecx (cpuidex m 0x80000001 0)) 22 = true ->
    eax (cpuidex m 0x8000001D 0) mod 32 = 0 \/ eax (cpuidex m 0x8000001D 1) mod 32 = 0;
  not_via : string_in (vendor_text (cpuidex m 0 0)) (text "CentaurHauls") \/
            string_in (vendor_text (cpuidex m 0 0)) (text "VIA VIA VIA ") -> eax (cpuidex m 0xC0000000 0) < 0xC0000001
}.
