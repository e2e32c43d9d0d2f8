(** Property theorems about the names of packages: C97. *)
From Verif Require Import Base Text TopologySpec X86DescriptorModel X86DecodeModel X86NameSpec X86PackageNamesModel X86PackageNamesSpec X86PackageNamesProofs
  CpuidDumpSample X86Sample X86OfflineSample.
From Verif Require X86LinuxModel X86CountsModel X86CountsSpec X86CountsProps X86WindowsModel X86WindowsSpec X86WindowsProps EmscriptenModel.
From Coq Require Import String List.
Import ListNotations.
Open Scope nat_scope.

(** Linux: whatever the files say, each package that is published bears the name. *)
Theorem x86_linux_packages_named : forall b m fuel x stack char_signed default sorter calloc_ok files o t,
  init_processor b m fuel = Ok x -> length stack = 48 -> X86LinuxModel.qsort_contract sorter ->
  X86LinuxModel.x86_linux_init char_signed default sorter calloc_ok x files = Ok o -> X86LinuxModel.o_published o = Some t ->
  exists names, x86_linux_package_names char_signed default sorter b m x stack files = Ok (Some names) /\
    all_named (length (t_packages t)) (processor_name x m) names.
Proof. exact linux_named. Qed.
Print Assumptions x86_linux_packages_named.

(** macOS, whatever the kernel answers. *)
Theorem x86_mach_packages_named : forall b m fuel x stack calloc_ok a o t, init_processor b m fuel = Ok x -> length stack = 48 ->
  X86CountsModel.x86_mach_init calloc_ok x a = Ok o -> X86CountsModel.o_published o = Some t ->
  exists names, x86_mach_package_names b m stack a = Ok names /\ all_named (length (t_packages t)) (processor_name x m) names.
Proof. exact mach_named. Qed.
Print Assumptions x86_mach_packages_named.

(** FreeBSD, whatever the kernel answers. *)
Theorem x86_freebsd_packages_named : forall b m fuel x stack calloc_ok a o t, init_processor b m fuel = Ok x -> length stack = 48 ->
  X86CountsModel.x86_freebsd_init calloc_ok x a = Ok o -> X86CountsModel.o_published o = Some t ->
  exists names, x86_freebsd_package_names b m stack a = Ok (Some names) /\ all_named (length (t_packages t)) (processor_name x m) names.
Proof. exact freebsd_named. Qed.
Print Assumptions x86_freebsd_packages_named.

(** Windows, for each machine that it describes. *)
Theorem x86_windows_packages_named : forall b m fuel x stack heap_ok a sizes machine o t, init_processor b m fuel = Ok x -> length stack = 48 ->
  X86WindowsSpec.windows_says a sizes machine -> X86CountsSpec.fields_defined x -> X86WindowsSpec.caches_defined x ->
  X86WindowsModel.x86_windows_init heap_ok x a = Ok o -> X86WindowsModel.o_published o = Some t ->
  exists names, x86_windows_package_names b m stack a = Ok (Some names) /\
    all_named (length (t_packages (X86WindowsModel.wt_tables t))) (processor_name x m) names.
Proof. exact windows_named. Qed.
Print Assumptions x86_windows_packages_named.

(** WebAssembly: the one package is named after the kind of machine that the engine seems to run on. *)
Theorem emscripten_package_named : forall is_x86 logical calloc_ok o t,
  EmscriptenModel.emscripten_init is_x86 logical calloc_ok = Ok o -> EmscriptenModel.o_published o = Some t ->
  exists name, emscripten_package_name is_x86 = Ok name /\ all_named (length (t_packages t)) (text (if is_x86 then "x86 vCPU" else "ARM vCPU")) [name].
Proof. exact emscripten_named. Qed.
Print Assumptions emscripten_package_named.

(** Two packages on each system, of a processor with a name. *)
Definition two_packages : X86LinuxModel.linux_files :=
  four_cpus [text "processor : 0"; text "apicid : 0"; text "processor : 1"; text "apicid : 256";
             text "processor : 2"; text "apicid : 1"; text "processor : 3"; text "apicid : 257"].
Definition stack_garbage : list N := repeat 85%N 48.
Example x86_packages_named_case : let b := Build false false in
  exists x, init_processor b recorded_cpu 20 = Ok x /\ processor_name x recorded_cpu = text "Intel Sample" /\ length stack_garbage = 48 /\
    X86CountsSpec.fields_defined x /\
    (exists o t, X86LinuxModel.x86_linux_init true 32 sample_sort (fun _ => true) x two_packages = Ok o /\ X86LinuxModel.o_published o = Some t /\
       length (t_packages t) = 2) /\
    (exists o t, X86CountsModel.x86_mach_init (fun _ => true) x X86CountsProps.mach_sample = Ok o /\ X86CountsModel.o_published o = Some t /\
       length (t_packages t) = 2) /\
    (exists o t, X86CountsModel.x86_freebsd_init (fun _ => true) x (X86CountsProps.freebsd_sample 8) = Ok o /\ X86CountsModel.o_published o = Some t /\
       length (t_packages t) = 2) /\
    (exists o t, X86WindowsModel.x86_windows_init (fun _ => true) x X86WindowsProps.windows_sample = Ok o /\ X86WindowsModel.o_published o = Some t /\
       length (t_packages (X86WindowsModel.wt_tables t)) = 2) /\
    exists names, x86_linux_package_names true 32 sample_sort b recorded_cpu x stack_garbage two_packages = Ok (Some names) /\
      map (firstn 13) names = repeat (text "Intel Sample" ++ [0%N]) 2.
Proof.
  cbv zeta. eexists. split; [vm_compute; reflexivity|]. split; [vm_compute; reflexivity|]. split; [reflexivity|]. split; [reflexivity|].
  split; [|split; [|split; [|split]]].
  1-4: do 2 eexists; (split; [vm_compute; reflexivity|]); (split; [reflexivity|]); reflexivity.
  eexists. split; vm_compute; reflexivity.
Qed.
Example x86_packages_named_windows_case : exists x, init_processor (Build false false) recorded_cpu 20 = Ok x /\ X86CountsSpec.fields_defined x /\
  X86WindowsSpec.caches_defined x /\ X86WindowsSpec.windows_says X86WindowsProps.windows_sample [4; 4] X86WindowsProps.machine_sample.
Proof.
  eexists. split; [vm_compute; reflexivity|]. split; [reflexivity|]. split; [|exact X86WindowsProps.windows_sample_says].
  intros c H _. cbn in H. repeat destruct H as [<-|H]; try reflexivity. destruct H.
Qed.
Example emscripten_package_named_case : exists o t, EmscriptenModel.emscripten_init false 6 (fun _ => true) = Ok o /\ EmscriptenModel.o_published o = Some t.
Proof. do 2 eexists. split; [vm_compute; reflexivity|reflexivity]. Qed.
