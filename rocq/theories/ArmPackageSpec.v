(** Which chip a machine tells about, independent of the buffers that the text goes through. *)
From Verif Require Import Base Text ArmCpuinfoSpec ArmChipsetModel ArmChipsetSpec ArmChipsetNameSpec ArmChipsetFixupSpec ArmChipsetAndroidSpec.
Import ArmChipsetModel(chip, android_properties).
From Verif Require ArmLinuxSpec.
Import ArmLinuxSpec(latest).
Open Scope N_scope.

(** The text of the last Hardware line, as far as it is looked at. *)
Definition hardware_text (ms : list arm_meaning) : list N :=
  match latest board_said ms with Some v => firstn 64 v | None => [] end.

(** The chip that the Hardware and Revision lines mean for so many cores: on a Raspberry Pi the
    revision tells the model. *)
Inductive linux_tells (arm32 : bool) (cores : N) (ms : list arm_meaning) : chip -> Prop :=
| Tells_unknown : ArmChipsetNameSpec.hardware arm32 cores 0 (hardware_text ms) unknown_chip -> linux_tells arm32 cores ms unknown_chip
| Tells_broadcom : forall v c m, ArmChipsetNameSpec.hardware arm32 cores 0 (hardware_text ms) c -> chp_vendor c = ve_broadcom ->
    latest board_revision_said ms = Some v -> pi_model arm32 (firstn 9 v) (chp_model c) m ->
    linux_tells arm32 cores ms (chip_of ve_broadcom se_bcm m [])
| Tells_other : forall c c', ArmChipsetNameSpec.hardware arm32 cores 0 (hardware_text ms) c -> chp_vendor c <> ve_broadcom -> chp_vendor c <> ve_unknown ->
    corrected arm32 cores 0 c c' -> linux_tells arm32 cores ms c'.

(** The lines are text, and a Broadcom chip comes with a Revision line. *)
Definition plain_lines (ms : list arm_meaning) : Prop :=
  (forall v, latest board_said ms = Some v -> plain v) /\ (forall v, latest board_revision_said ms = Some v -> plain v).
Definition revision_if_needed (arm32 : bool) (ms : list arm_meaning) : Prop :=
  latest board_revision_said ms = None -> forall cores c, ArmChipsetNameSpec.hardware arm32 cores 0 (hardware_text ms) c -> chp_vendor c <> ve_broadcom.

(** The properties of an Android device, with the names documented for them. *)
Definition property_name (x : source) : list N :=
  match x with
  | Hardware => []
  | Board => text "ro.product.board"
  | Platform => text "ro.board.platform"
  | Mediatek => text "ro.mediatek.platform"
  | Arch => text "ro.arch"
  | Chipname => text "ro.chipname"
  | Hardware_chipname => text "ro.hardware.chipname"
  end.
Definition value_of (p : android_properties) (x : source) : list N :=
  match x with
  | Hardware => an_hardware p | Board => an_board p | Platform => an_platform p | Mediatek => an_mediatek p | Arch => an_arch p
  | Chipname => an_chipname p | Hardware_chipname => an_hardware_chipname p
  end.
(** The device says these properties. *)
Definition device_says (get : list N -> list N) (ms : list arm_meaning) (p : android_properties) : Prop :=
  value_of p Hardware = hardware_text ms /\ forall x, x <> Hardware -> value_of p x = get (property_name x).

(** What the sources decide: [c x] is what source [x] means. *)
Record decided (c : source -> chip) (r : chip) : Prop := {
  dc_nothing : (forall x, ~ recognized (c x)) -> r = unknown_chip;
  dc_vendors : forall x y, recognized (c x) -> recognized (c y) -> chp_vendor (c x) <> chp_vendor (c y) -> r = unknown_chip;
  dc_agreement : forall whole, agreement c whole -> r = whole;
  dc_disagreement : forall v x y, (forall x, recognized (c x) -> chp_vendor (c x) = v) -> recognized (c x) -> recognized (c y) -> ~ same_model (c x) (c y) ->
    (forall order z, In (v, order) believed -> first_known c order z -> same_model r (c z)) /\
    (forall order, In (v, order) believed -> (forall z, In z order -> ~ recognized (c z)) -> r = unknown_chip) /\
    ((forall order, ~ In (v, order) believed) -> r = unknown_chip);
  dc_source : r = unknown_chip \/ exists x, recognized (c x) /\ same_model r (c x)
}.
(** The chip of a device with so many cores. *)
Definition android_tells (arm32 : bool) (cores : N) (get : list N -> list N) (ms : list arm_meaning) (r : chip) : Prop :=
  exists p c, device_says get ms p /\ meaning arm32 cores 0 p c /\ decided c r.
Definition plain_device (get : list N -> list N) (ms : list arm_meaning) : Prop :=
  (forall v, latest board_said ms = Some v -> plain v) /\ forall x, x <> Hardware -> plain (get (property_name x)).
