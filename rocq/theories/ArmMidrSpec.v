(** The fields of the ARM main id register, from the architecture manual, and the
    roles of the cores; independent of src/arm/midr.h. *)
From Verif Require Import Base.
Open Scope N_scope.

(** Bits 31-24, 23-20, 19-16, 15-4 and 3-0. *)
Inductive midr_field := Implementer | Variant | Architecture | PartNumber | Revision.
Definition lowest_bit (f : midr_field) : N :=
  match f with Implementer => 24 | Variant => 20 | Architecture => 16 | PartNumber => 4 | Revision => 0 end.
Definition field_width (f : midr_field) : N :=
  match f with Implementer => 8 | Variant => 4 | Architecture => 4 | PartNumber => 12 | Revision => 4 end.
Definition field_of (f : midr_field) (midr : N) : N := (midr / 2 ^ lowest_bit f) mod 2 ^ field_width f.

(** [r] is [midr] with field [f] replaced by [v]. *)
Definition replaced (f : midr_field) (v midr r : N) : Prop :=
  is_u32 r /\ field_of f r = v /\ forall g, g <> f -> field_of g r = field_of g midr.

(** Identification of a core design: implementer and part number. *)
Definition design (midr : N) : N * N := (field_of Implementer midr, field_of PartNumber midr).

(** Designs that are paired as big and LITTLE cores of one chip: Cortex-A75 with
    A55; A73, A72, A57 and Exynos M1/M2 with Cortex-A53; A17 and A15 with A7;
    Kryo 280 Gold and Silver; Kryo Gold and Silver; Denver 2 with Cortex-A57. *)
Definition pairs : list ((N * N) * (N * N)) :=
  [((0x41, 0xD0A), (0x41, 0xD05)); ((0x41, 0xD09), (0x41, 0xD03)); ((0x41, 0xD08), (0x41, 0xD03));
   ((0x41, 0xD07), (0x41, 0xD03)); ((0x53, 0x001), (0x41, 0xD03)); ((0x41, 0xC0E), (0x41, 0xC07));
   ((0x41, 0xC0F), (0x41, 0xC07)); ((0x51, 0x800), (0x51, 0x801)); ((0x51, 0x205), (0x51, 0x211));
   ((0x4E, 0x003), (0x41, 0xD07))].
Definition kryo_280_gold : N * N := (0x51, 0x800).

(** Designs only ever used for the faster cores of a chip that mixes designs: Cortex-X1,
    X2, X3, A72, A73, A75, A76, A76AE, A77, A78, A710, A715, the HiSilicon A76, Denver 2,
    Kryo Gold, Kryo 280, 385 and 485 Gold, Exynos M1/M2, M3, M4, M5. *)
Definition fast_designs : list (N * N) :=
  [(0x41, 0xD44); (0x41, 0xD48); (0x41, 0xD4E); (0x41, 0xD08); (0x41, 0xD09); (0x41, 0xD0A); (0x41, 0xD0B);
   (0x41, 0xD0E); (0x41, 0xD0D); (0x41, 0xD41); (0x41, 0xD47); (0x41, 0xD4D); (0x48, 0xD40); (0x4E, 0x003);
   (0x51, 0x205); (0x51, 0x800); (0x51, 0x802); (0x51, 0x804); (0x53, 0x001); (0x53, 0x002); (0x53, 0x003); (0x53, 0x004)].
(** Designs used for the slower cores: Cortex-A35, A53, A55, A510, Kryo Silver (two
    part numbers), Kryo 280, 385 and 485 Silver. *)
Definition slow_designs : list (N * N) :=
  [(0x41, 0xD04); (0x41, 0xD03); (0x41, 0xD05); (0x41, 0xD46); (0x51, 0x201); (0x51, 0x211); (0x51, 0x801);
   (0x51, 0x803); (0x51, 0x805)].
(** Cortex-X cores are faster than the Cortex-A7x cores they are combined with. *)
Definition prime_designs : list (N * N) := [(0x41, 0xD44); (0x41, 0xD48); (0x41, 0xD4E)].
Definition partner_designs : list (N * N) := [(0x41, 0xD0B); (0x41, 0xD0D); (0x41, 0xD41); (0x41, 0xD47); (0x41, 0xD4D)].
