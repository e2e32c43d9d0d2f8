(** What it means that two runs see the same machine. *)
From Coq Require Import NArith List.
From Verif Require Import Base LinuxTextModel LinuxTextSpec X86LinuxModel ArmClustersModel ArmLinuxModel RiscvLinuxModel.
Import ListNotations.

(** The same file, read twice: the same bytes, which the kernel hands over in pieces of
    any sizes, without I/O errors. *)
Record same_file (f g : file) : Prop := {
  sf_same : f_contents f = f_contents g;
  sf_bytes : forall c, f_contents f = Some c -> bytes c;
  sf_reads : no_io_error (f_reads f) /\ no_io_error (f_reads g)
}.

(** x86 Linux: all files. *)
Record same_linux_files (fs gs : linux_files) : Prop := {
  sx_kernel_max : same_file (lf_kernel_max fs) (lf_kernel_max gs);
  sx_possible_max : same_file (lf_possible_max fs) (lf_possible_max gs);
  sx_present_max : same_file (lf_present_max fs) (lf_present_max gs);
  sx_possible : same_file (lf_possible fs) (lf_possible gs);
  sx_present : same_file (lf_present fs) (lf_present gs);
  sx_cpuinfo : same_file (lf_cpuinfo fs) (lf_cpuinfo gs)
}.

(** ARM Linux: the files of one processor, and all files. *)
Record same_arm_cpu (f g : acpu_files) : Prop := {
  sc_max : same_file (ac_max_frequency f) (ac_max_frequency g);
  sc_min : same_file (ac_min_frequency f) (ac_min_frequency g);
  sc_package : same_file (ac_package_id f) (ac_package_id g);
  sc_cluster_cpus : same_file (sf_cluster_cpus (ac_siblings f)) (sf_cluster_cpus (ac_siblings g));
  sc_core_siblings : same_file (sf_core_siblings (ac_siblings f)) (sf_core_siblings (ac_siblings g))
}.
Record same_arm_files (fs gs : arm_files) : Prop := {
  sa_kernel_max : same_file (amf_kernel_max fs) (amf_kernel_max gs);
  sa_possible_max : same_file (amf_possible_max fs) (amf_possible_max gs);
  sa_present_max : same_file (amf_present_max fs) (amf_present_max gs);
  sa_possible : same_file (amf_possible fs) (amf_possible gs);
  sa_present : same_file (amf_present fs) (amf_present gs);
  sa_cpuinfo : same_file (amf_cpuinfo fs) (amf_cpuinfo gs);
  sa_cpu : forall i, same_arm_cpu (amf_cpu fs i) (amf_cpu gs i)
}.

(** RISC-V Linux. *)
Record same_riscv_cpu (f g : rcpu_files) : Prop := {
  sr_core_cpus : same_file (rc_core_cpus f) (rc_core_cpus g);
  sr_core_id : same_file (rc_core_id f) (rc_core_id g);
  sr_frequency : same_file (rc_frequency f) (rc_frequency g);
  sr_cluster_cpus : same_file (rc_cluster_cpus f) (rc_cluster_cpus g);
  sr_package_cpus : same_file (rc_package_cpus f) (rc_package_cpus g);
  sr_hwprobe : rc_hwprobe f = rc_hwprobe g
}.
Record same_riscv_files (fs gs : riscv_files) : Prop := {
  sr_kernel_max : same_file (rf_kernel_max fs) (rf_kernel_max gs);
  sr_present_max : same_file (rf_present_max fs) (rf_present_max gs);
  sr_present : same_file (rf_present fs) (rf_present gs);
  sr_cpu : forall i, same_riscv_cpu (rf_cpu fs i) (rf_cpu gs i);
  sr_hwcap : rf_hwcap fs = rf_hwcap gs
}.
