(** The names of all packages on the x86 systems and on WebAssembly.  Definitions only.  The tables of the
    packages are in X86LinuxModel, X86CountsModel, X86WindowsModel and EmscriptenModel, without the names. *)
From Verif Require Import Base Text X86DescriptorModel X86DecodeModel X86NameModel X86PackageModel Fill.
From Verif Require X86CpuinfoModel X86LinuxModel X86CountsModel X86WindowsModel.
From Coq Require Import String List.
Import ListNotations.
Import X86CpuinfoModel(xproc, x_apic_id, x_flags, flag_valid).
Import X86LinuxModel(xinfo, llc_apic_bits, apic_masks, bitmask_all, count_objects, detect_linux_processors, linux_files).
Open Scope nat_scope.

(** The packages are in zeroed memory; CPUINFO_PACKAGE_NAME_MAX is 48. *)
Definition no_name : list N := repeat 0%N 48.

(** src/x86/linux/init.c:394-487: of the main loop, what decides where names are written, namely the variables
    package_index ([ki]) and last_apic_package_id ([last]). *)
Fixpoint name_packages (package_mask : N) (name : list N) (l : list xproc) (last : N) (ki : option nat) (names : list (list N))
  : res (list (list N)) :=
  match l with
  | [] => Ok names
  | p :: l' =>
      if bitmask_all (x_flags p) flag_valid then
        let id := N.land (x_apic_id p) package_mask in
        if negb (id =? last)%N then
          do names <- wr_at names (incr_index ki) name;
          name_packages package_mask name l' id (incr_index ki) names
        else name_packages package_mask name l' last ki names
      else name_packages package_mask name l' last ki names
  end.

(** src/x86/linux/init.c:161-487, as far as it concerns names, if all memory is allocated. *)
Definition x86_linux_package_names (sg : bool) (default_max : N) (sorter : list xproc -> list xproc) (b : build) (m : cpu) (x : xinfo)
  (stack : list N) (fs : linux_files) : res (option (list (list N))) :=
  do d <- detect_linux_processors sg default_max fs;
  match d with
  | None => Ok None
  | Some (procs, mask) =>
      do name <- detect_package_name b m stack;
      do masks <- apic_masks x (llc_apic_bits x);
      let '(_, package_mask, _) := masks in
      let sorted := sorter procs in
      do names <- name_packages package_mask name sorted u32max None (repeat no_name (count_objects mask package_mask sorted));
      Ok (Some names)
  end.

(** src/x86/mach/init.c:68-93, src/x86/freebsd/init.c:73-98 and src/x86/windows/init.c:123-124, 398-409: a loop over
    the packages. *)
Definition name_each (b : build) (m : cpu) (stack : list N) (packages : nat) : res (list (list N)) :=
  do name <- detect_package_name b m stack;
  fill (fun _ => Ok name) packages (repeat no_name packages).

Definition x86_mach_package_names (b : build) (m : cpu) (stack : list N) (a : X86CountsModel.mach_answers) : res (list (list N)) :=
  name_each b m stack (X86CountsModel.mt_packages (X86CountsModel.mach_detect_topology a)).
Definition x86_freebsd_package_names (b : build) (m : cpu) (stack : list N) (a : X86CountsModel.freebsd_answers) : res (option (list (list N))) :=
  do d <- X86CountsModel.freebsd_detect_topology a;
  match d with
  | None => Ok None
  | Some (packages, _, _, _) => do names <- name_each b m stack packages; Ok (Some names)
  end.
(** Lines 200-240: every record about a package is one. *)
Definition x86_windows_package_names (b : build) (m : cpu) (stack : list N) (a : X86WindowsModel.windows_answers) : res (option (list (list N))) :=
  match X86WindowsModel.wa_packages a with
  | None => Ok None
  | Some infos => do names <- name_each b m stack (length (filter X86WindowsModel.wi_expected infos)); Ok (Some names)
  end.

(** src/emscripten/init.c:115-119; the package is static and zeroed. *)
Definition emscripten_package_name (is_x86 : bool) : res (list N) :=
  strncpy no_name (text (if is_x86 then "x86 vCPU" else "ARM vCPU") ++ [0%N]) 48.
