(** The chip in src/arm/linux/init.c: its decoder for GNU/Linux and for Android, and the name
    of the package.  Definitions only. *)
From Verif Require Import Base Text LinuxTextModel ArmClusterMidrModel ArmCpuinfoModel ArmLinuxModel ArmChipsetModel.
From Coq Require Import String.

(** src/arm/linux/init.c:245-246: the frequency is always 0. *)
Definition linux_decoder (arm32 : bool) (hardware revision : chars) (cores : nat) : res chip :=
  linux_chip arm32 (N.of_nat cores) 0 hardware revision.

(** src/arm/android/properties.c:43-66: [get] stands for __system_property_get, which gives the
    empty string for a property that is not there.  The Hardware line is not a property. *)
Definition parse_properties (get : list N -> list N) : android_properties :=
  AndroidProperties [] (get (text "ro.product.board")) (get (text "ro.board.platform")) (get (text "ro.mediatek.platform"))
    (get (text "ro.arch")) (get (text "ro.chipname")) (get (text "ro.hardware.chipname")).
Definition with_hardware (s : list N) (p : android_properties) : android_properties :=
  AndroidProperties s (an_board p) (an_platform p) (an_mediatek p) (an_arch p) (an_chipname p) (an_hardware_chipname p).

(** src/arm/linux/init.c:170-183 and 241-243: the buffer of the Hardware line is that of the
    properties; the revision is not used. *)
Definition android_decoder (arm32 : bool) (get : list N -> list N) (hardware revision : chars) (cores : nat) : res chip :=
  do s <- c_string hardware_value_max hardware;
  android_chip arm32 (N.of_nat cores) 0 (with_hardware s (parse_properties get)).

(** What the rest of detection gets. *)
Definition chipset_by (decode : chars -> chars -> nat -> res chip) (hardware revision : chars) (cores : nat) : res chipset :=
  do c <- decode hardware revision cores; Ok (seen c).

(** src/arm/linux/init.c:121-246 and 513: the name of the package, if it is written. *)
Definition arm_package_name (sg arm32 : bool) (default_max : N) (calloc_ok : ablock -> bool) (decode : chars -> chars -> nat -> res chip)
           (fs : arm_files) : res (option (list N)) :=
  with_lists sg default_max calloc_ok fs None (fun mask flags =>
    do r <- read_board sg arm32 mask fs flags;
    match r with
    | None => Ok None
    | Some (hardware, revision, usable, _) => do c <- decode hardware revision usable; do name <- chip_name c; Ok (Some name)
    end).
