(** Hardware lines, revisions and Android properties for the examples. *)
From Verif Require Import Base Text LinuxTextSpec ArmClusterMidrModel ArmCpuinfoModel ArmChipsetModel ArmChipsetSpec ArmChipsetNameSpec ArmChipsetFixupSpec ArmChipsetAndroidSpec.
Open Scope N_scope.

(** A text in a buffer whose other cells were never written. *)
Definition buffered (size : nat) (s : string) : chars := map Some (text s) ++ Some 0 :: repeat None (size - length (text s) - 1).
Definition nothing_written : chars := repeat None 9.
Definition on_linux (arm32 : bool) (cores frequency : N) (hw revision : string) : res (list N) :=
  do c <- linux_chip arm32 cores frequency (buffered 64 hw) (buffered 9 revision); chip_name c.
Definition properties_of (hw board platform mediatek arch chipname hardware_chipname : string) : android_properties :=
  AndroidProperties (text hw) (text board) (text platform) (text mediatek) (text arch) (text chipname) (text hardware_chipname).
Definition on_android (arm32 : bool) (cores frequency : N) (p : android_properties) : res (list N) :=
  do c <- android_chip arm32 cores frequency p; chip_name c.
