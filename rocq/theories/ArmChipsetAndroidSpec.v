(** What the properties of an Android device say together. *)
From Verif Require Import Base Text LinuxTextSpec ArmClusterMidrModel ArmCpuinfoModel ArmChipsetModel ArmChipsetSpec ArmChipsetNameSpec ArmChipsetFixupSpec.
Open Scope N_scope.

Definition plain_properties (p : android_properties) : Prop :=
  plain (an_hardware p) /\ plain (an_board p) /\ plain (an_platform p) /\ plain (an_mediatek p) /\ plain (an_arch p) /\ plain (an_chipname p) /\ plain (an_hardware_chipname p).

(** The Hardware line, and the properties ro.product.board, ro.board.platform, ro.mediatek.platform,
    ro.arch, ro.chipname and ro.hardware.chipname. *)
Inductive source := Hardware | Board | Platform | Mediatek | Arch | Chipname | Hardware_chipname.
Definition tegra_platform (p : android_properties) : Prop := an_platform p = text "tegra" \/ an_platform p = text "tegra3".
Definition says (arm32 : bool) (cores frequency : N) (p : android_properties) (x : source) (c : chip) : Prop :=
  match x with
  | Hardware =>
      tegra_platform p /\ tegra_hardware arm32 (an_hardware p) c \/ ~ tegra_platform p /\ hardware arm32 cores frequency (an_hardware p) c
  | Board => board arm32 cores frequency (an_board p) c
  | Platform => platform arm32 cores frequency (an_platform p) c
  | Mediatek => mediatek (an_mediatek p) c
  | Arch => arch (an_arch p) c
  | Chipname => chipname arm32 (an_chipname p) c
  | Hardware_chipname => chipname arm32 (an_hardware_chipname p) c
  end.
(** What every source says, and what that means with so many cores. *)
Definition saying (arm32 : bool) (cores frequency : N) (p : android_properties) (c : source -> chip) : Prop := forall x, says arm32 cores frequency p x (c x).
Definition meaning (arm32 : bool) (cores frequency : N) (p : android_properties) (c : source -> chip) : Prop :=
  exists d, saying arm32 cores frequency p d /\ forall x, corrected arm32 cores frequency (d x) (c x).
Definition recognized (c : chip) : Prop := c <> unknown_chip.

(** Which source is believed, by vendor. *)
Definition believed : list (N * list source) := [
  (ve_qualcomm, [Hardware_chipname; Chipname; Hardware; Board; Platform]);
  (ve_mediatek, [Chipname; Hardware; Board; Platform; Mediatek]);
  (ve_hisilicon, [Hardware; Board; Platform]);
  (ve_amlogic, [Hardware; Platform]);
  (ve_marvell, [Chipname; Board; Hardware]);
  (ve_rockchip, [Board; Hardware; Platform]);
  (ve_spreadtrum, [Chipname; Board; Hardware; Platform])
].
(** [first_known c order y]: [y] is the first in the order that is recognized. *)
Definition first_known (c : source -> chip) (order : list source) (y : source) : Prop :=
  exists before after, order = before ++ y :: after /\ recognized (c y) /\ forall x, In x before -> ~ recognized (c x).

Definition same_model (a b : chip) : Prop := chp_vendor a = chp_vendor b /\ chp_series a = chp_series b /\ chp_model a = chp_model b.
(** One vendor, series and model, and suffixes that are all beginnings of the longest one. *)
Definition agreement (c : source -> chip) (whole : chip) : Prop :=
  exists w, holds_suffix (chp_suffix whole) w /\ (exists x, c x = whole) /\ recognized whole /\
    forall x, recognized (c x) -> same_model (c x) whole /\ exists v rest, holds_suffix (chp_suffix (c x)) v /\ w = v ++ rest.
