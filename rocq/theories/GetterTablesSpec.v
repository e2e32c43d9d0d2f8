(** What the getters tell of the published tables, on every system. *)
From Verif Require Import Base TopologySpec ApiModel.
From Verif Require RiscvLinuxModel ArmLinuxModel ArmWindowsModel.
Open Scope nat_scope.

(** A table of [n] elements: the count getter answers [n], each index below has its element,
    every other index NULL, and the getter of the whole table the first element. *)
Definition table_shown (c : config) (g : globals) (tb : table) (n : nat) : Prop := forall cpu,
  ask c g cpu (Get_count tb) = Number (N.of_nat n) /\
  (forall i, ask c g cpu (Get_element tb i) = if (i <? N.of_nat n)%N then Pointer tb (N.to_nat i) else Null) /\
  (0 < n -> ask c g cpu (Get_table tb) = Pointer tb 0).

Definition largest_shown (c : config) (g : globals) (n : N) : Prop := forall cpu, ask c g cpu Get_max_cache_size = Number n.

(** How many elements the tables have. *)
Definition rows (t : tables) (uarchs : nat) (tb : table) : nat :=
  match tb with
  | Processors => length (t_processors t)
  | Cores => length (t_cores t)
  | Clusters => length (t_clusters t)
  | Packages => length (t_packages t)
  | Uarchs => uarchs
  | Caches L1i => length (t_l1i t)
  | Caches L1d => length (t_l1d t)
  | Caches L2 => length (t_l2 t)
  | Caches L3 => length (t_l3 t)
  | Caches L4 => length (t_l4 t)
  end.
Definition riscv_rows (t : RiscvLinuxModel.riscv_tables) (tb : table) : nat :=
  match tb with
  | Processors => length (RiscvLinuxModel.rt_processors t)
  | Cores => length (RiscvLinuxModel.rt_cores t)
  | Clusters => length (RiscvLinuxModel.rt_clusters t)
  | Packages => length (RiscvLinuxModel.rt_packages t)
  | Uarchs => length (RiscvLinuxModel.rt_uarchs t)
  | Caches _ => 0
  end.
Definition arm_rows (t : ArmLinuxModel.arm_tables) (tb : table) : nat :=
  match tb with
  | Processors => length (ArmLinuxModel.at_processors t)
  | Cores => length (ArmLinuxModel.at_cores t)
  | Clusters => length (ArmLinuxModel.at_clusters t)
  | Packages => 1
  | Uarchs => length (ArmLinuxModel.at_uarchs t)
  | Caches L1i => length (ArmLinuxModel.at_l1i t)
  | Caches L1d => length (ArmLinuxModel.at_l1d t)
  | Caches L2 => length (ArmLinuxModel.at_l2 t)
  | Caches L3 => length (ArmLinuxModel.at_l3 t)
  | Caches L4 => 0
  end.
Definition arm_windows_rows (t : ArmWindowsModel.arm_windows_tables) (tb : table) : nat :=
  match tb with
  | Processors => length (ArmWindowsModel.awt_processors t)
  | Cores => length (ArmWindowsModel.awt_cores t)
  | Clusters => length (ArmWindowsModel.awt_clusters t)
  | Packages => length (ArmWindowsModel.awt_packages t)
  | Uarchs => length (ArmWindowsModel.awt_uarchs t)
  | Caches L1i => length (ArmWindowsModel.awt_caches t ArmWindowsModel.K1i)
  | Caches L1d => length (ArmWindowsModel.awt_caches t ArmWindowsModel.K1d)
  | Caches L2 => length (ArmWindowsModel.awt_caches t ArmWindowsModel.K2)
  | Caches L3 => length (ArmWindowsModel.awt_caches t ArmWindowsModel.K3)
  | Caches L4 => 0
  end.
