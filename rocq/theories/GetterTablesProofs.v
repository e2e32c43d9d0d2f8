(** The getters tell of the published tables. *)
From Verif Require Import Base BaseProofs Sorting TopologySpec ApiModel OnceModel ApiProofs GetterTablesSpec.
From Verif Require X86LinuxModel X86LinuxSpec X86ApiProofs RiscvLinuxModel RiscvApiModel RiscvApiProofs ArmLinuxModel ArmApiModel ArmApiProofs ArmInitProofs
  X86CountsModel X86CountsSpec X86CountsFinal X86WindowsModel X86WindowsSpec X86WindowsFinal ArmMachModel ArmMachSpec ArmMachFinal
  ArmWindowsModel ArmWindowsChip EmscriptenModel EmscriptenSpec EmscriptenProofs.
Open Scope nat_scope.

(** The array behind a table has [n] elements. *)
Definition holds (g : globals) (tb : table) (n : nat) : Prop := gl_pointer g tb = Some (tb, n) \/ (gl_pointer g tb = None /\ n = 0).

Lemma holds_block {A} g tb (l : list A) : gl_pointer g tb = block_of tb l -> holds g tb (length l).
Proof. intros E. unfold holds. rewrite E. destruct l; [now right|now left]. Qed.

Lemma agrees_count g tb n : agrees g tb -> holds g tb n -> gl_count g tb = N.of_nat n.
Proof.
  intros [A|(A & C)] [H|(H & ->)]; rewrite A in H; try discriminate; [|now rewrite C].
  injection H as <-. now rewrite N2Nat.id.
Qed.

Lemma shown_table c g tb n : gl_initialized g = true -> (tb = Uarchs -> cf_multi_uarch c = true) -> agrees g tb -> holds g tb n ->
  table_shown c g tb n.
Proof.
  intros I U A H cpu. pose proof (agrees_count g tb n A H) as C.
  assert (E : forall i, run_prog g cpu (indexed tb i) = if (i <? N.of_nat n)%N then Pointer tb (N.to_nat i) else Null).
  { intros i. rewrite <- C. now apply run_indexed. }
  assert (W : 0 < n -> run_prog g cpu (whole_table tb) = Pointer tb 0).
  { intros P. unfold whole_table. cbn [run_prog]. destruct H as [->|(_ & ->)]; [reflexivity|lia]. }
  unfold ask, getter_prog, guarded. cbn [run_prog]. rewrite I.
  destruct tb as [| | | | |[]]; cbn [getter_body]; unfold uarchs_count, uarchs_indexed, uarchs_table; rewrite ?U by reflexivity;
    cbn [run_prog]; rewrite ?C; split; auto.
Qed.

Lemma shown_uarch c g : gl_initialized g = true -> cf_multi_uarch c = false -> table_shown c g Uarchs 1.
Proof.
  intros I U cpu. unfold ask, getter_prog, guarded. cbn [run_prog]. rewrite I. cbn [getter_body].
  unfold uarchs_count, uarchs_indexed, uarchs_table. rewrite U. split; [reflexivity|]. split; [|reflexivity].
  intros i. change (N.of_nat 1) with 1%N. destruct (N.eqb_spec i 0), (N.ltb_spec i 1); cbn; try lia; subst; reflexivity.
Qed.

Lemma shown_largest c g : gl_initialized g = true -> largest_shown c g (gl_max_cache_size g).
Proof. intros I cpu. unfold ask, getter_prog, guarded. cbn [run_prog]. now rewrite I. Qed.

(** ** x86 Linux *)
Section X86Linux.
Import X86LinuxModel X86LinuxSpec X86ApiProofs.
Lemma x86_linux_shown sg default sorter calloc_ok x files o t : qsort_contract sorter ->
  x86_linux_init sg default sorter calloc_ok x files = Ok o -> o_published o = Some t ->
  (forall tb, table_shown x86_linux (published_globals t) tb (rows t 1 tb)) /\ largest_shown x86_linux (published_globals t) (t_max_cache_size t).
Proof.
  intros Q E P. pose proof (published_counts t (published_counted sg default sorter calloc_ok x files o t Q E P)) as C.
  split; [|exact (shown_largest x86_linux (published_globals t) eq_refl)].
  intros tb. assert (D : tb = Uarchs \/ tb <> Uarchs) by (destruct tb; (now left) || (right; discriminate)). destruct D as [->|D].
  - now apply shown_uarch.
  - apply shown_table; [reflexivity|congruence|apply C; congruence|]. destruct tb as [| | | | |[]]; try congruence; try (now left); now apply holds_block.
Qed.
End X86Linux.

(** ** RISC-V Linux *)
Section Riscv.
Import RiscvLinuxModel RiscvApiModel RiscvApiProofs.
Lemma riscv_shown t : (forall tb, table_shown riscv_linux (riscv_globals t) tb (riscv_rows t tb)) /\ largest_shown riscv_linux (riscv_globals t) 0.
Proof.
  split; [|exact (shown_largest riscv_linux (riscv_globals t) eq_refl)].
  intros tb. apply shown_table; [reflexivity|reflexivity|now apply riscv_counts|]. destruct tb as [| | | | |[]]; (now left) || (now right).
Qed.
End Riscv.

(** ** ARM Linux *)
Section ArmLinux.
Import ArmLinuxModel ArmApiModel ArmApiProofs ArmInitProofs.
Lemma arm_linux_shown sg arm32 android garbage default sorter calloc_ok d fs o t :
  arm_linux_init sg arm32 android garbage default sorter calloc_ok d fs = Ok o -> ao_published o = Some t ->
  (forall tb, table_shown arm_linux (arm_globals t) tb (arm_rows t tb)) /\ largest_shown arm_linux (arm_globals t) (at_max_cache_size t).
Proof.
  intros H P. destruct (init_sizes _ _ _ _ _ _ _ _ _ _ _ H P) as (Z1 & Z2 & Z3 & _).
  split; [|exact (shown_largest arm_linux (arm_globals t) eq_refl)].
  intros tb. apply shown_table; [reflexivity|reflexivity|now apply arm_counts|].
  destruct tb as [| | | | |[]]; (now left) || (now apply holds_block) || (now right).
Qed.
End ArmLinux.

(** ** x86 macOS, FreeBSD and Windows *)
Section Counts.
Import X86CountsModel X86CountsSpec X86CountsFinal.
Lemma counts_shown t tb : (tb <> Uarchs -> agrees (final (x86_counts_commit t)) tb) ->
  table_shown x86_counts (final (x86_counts_commit t)) tb (rows t 1 tb).
Proof.
  intros A. assert (D : tb = Uarchs \/ tb <> Uarchs) by (destruct tb; (now left) || (right; discriminate)). destruct D as [->|D].
  - now apply shown_uarch.
  - apply shown_table; [reflexivity|congruence|now apply A|]. destruct (counts_pointers t) as (_ & PT & _). specialize (PT tb). cbv zeta in PT.
    destruct tb as [| | | | |[]]; try congruence; try (left; exact PT); apply holds_block; exact PT.
Qed.
Lemma counts_largest t : largest_shown x86_counts (final (x86_counts_commit t)) (t_max_cache_size t).
Proof. exact (shown_largest x86_counts (final (x86_counts_commit t)) eq_refl). Qed.

Lemma x86_mach_shown calloc_ok x a o t : x86_mach_init calloc_ok x a = Ok o -> o_published o = Some t ->
  (forall tb, both_or_neither x \/ ~ In tb [Caches L1i; Caches L1d] -> table_shown x86_counts (final (x86_counts_routine o)) tb (rows t 1 tb)) /\
  largest_shown x86_counts (final (x86_counts_routine o)) (t_max_cache_size t).
Proof.
  intros E P. unfold x86_counts_routine. rewrite P. split; [|apply counts_largest].
  intros tb C. apply counts_shown. exact (mach_agree calloc_ok x a o t tb E P C).
Qed.
Lemma x86_freebsd_shown calloc_ok x a o t : x86_freebsd_init calloc_ok x a = Ok o -> o_published o = Some t ->
  (forall tb, both_or_neither x \/ ~ In tb [Caches L1i; Caches L1d] -> table_shown x86_counts (final (x86_counts_routine o)) tb (rows t 1 tb)) /\
  largest_shown x86_counts (final (x86_counts_routine o)) (t_max_cache_size t).
Proof.
  intros E P. unfold x86_counts_routine. rewrite P. split; [|apply counts_largest].
  intros tb C. apply counts_shown. exact (freebsd_agree calloc_ok x a o t tb E P C).
Qed.
End Counts.

Section Windows.
Import X86WindowsModel X86WindowsSpec X86WindowsFinal.
Lemma x86_windows_shown heap_ok x a o t sizes m : windows_says a sizes m -> X86CountsSpec.fields_defined x -> caches_defined x ->
  x86_windows_init heap_ok x a = Ok o -> o_published o = Some t ->
  (forall tb, table_shown X86CountsModel.x86_counts (final (x86_windows_routine o)) tb (rows (wt_tables t) 1 tb)) /\
  largest_shown X86CountsModel.x86_counts (final (x86_windows_routine o)) (t_max_cache_size (wt_tables t)).
Proof.
  intros W FD CD E P. pose proof (fun tb => init_agree heap_ok x a o t tb sizes m W FD CD E P) as A.
  unfold x86_windows_routine in *. rewrite P in *. split; [|apply counts_largest]. intros tb. apply counts_shown, A.
Qed.
End Windows.

(** ** Apple *)
Section Apple.
Import ArmMachModel ArmMachSpec ArmMachFinal.
Lemma apple_shown calloc_ok a o p l1i l1d : arm_mach_init calloc_ok a = Ok o -> mo_published o = Some p ->
  tells (aa_l1i a) l1i -> tells (aa_l1d a) l1d ->
  (forall tb, (l1i = 0%N <-> l1d = 0%N) \/ ~ In tb [Caches L1i; Caches L1d] -> tb <> Caches L4 ->
     table_shown arm_mach (final (arm_mach_routine o)) tb (rows (at_tables p) (length (at_uarchs p)) tb)) /\
  table_shown arm_mach (final (arm_mach_routine o)) (Caches L4) 0 /\
  largest_shown arm_mach (final (arm_mach_routine o)) (t_max_cache_size (at_tables p)).
Proof.
  intros E P TI TD. pose proof (fun tb => mach_agree calloc_ok a o p l1i l1d tb E P TI TD) as A.
  rewrite (mach_routine_final calloc_ok a o p E P). split; [|split; [|exact (shown_largest arm_mach (final (arm_mach_commit p)) eq_refl)]].
  - intros tb C L4. apply shown_table; [reflexivity|reflexivity|now apply A|]. destruct (mach_pointers p) as (_ & PT & _). specialize (PT tb). cbv zeta in PT.
    destruct tb as [| | | | |[]]; try congruence; try (left; exact PT); apply holds_block; exact PT.
  - apply shown_table; [reflexivity|discriminate| |]; right; split; reflexivity.
Qed.
End Apple.

(** ** ARM Windows *)
Section ArmWindows.
Import ArmWindowsModel ArmWindowsChip.
Lemma arm_windows_shown o t : wo_published o = Some t ->
  (forall tb, table_shown arm_windows (final (arm_windows_routine o)) tb (arm_windows_rows t tb)) /\
  largest_shown arm_windows (final (arm_windows_routine o)) (awt_max_cache_size t).
Proof.
  intros P. rewrite (windows_final o t P). split; [|exact (shown_largest arm_windows (final (arm_windows_commit t)) eq_refl)].
  intros tb. destruct (windows_pointers t) as (_ & PT). apply shown_table; [reflexivity|reflexivity|left; exact (PT tb)|].
  left. rewrite PT, windows_counts, Nat2N.id. now destruct tb as [| | | | |[]].
Qed.
End ArmWindows.

(** ** Emscripten *)
Section Emscripten.
Import EmscriptenModel EmscriptenSpec EmscriptenProofs.
Lemma emscripten_shown is_x86 logical calloc_ok o t : emscripten_init is_x86 logical calloc_ok = Ok o -> o_published o = Some t ->
  (forall tb, is_x86 = false \/ Nat.Odd (processors_of logical) \/ ~ In tb [Caches L1i; Caches L1d] ->
     table_shown emscripten (final (emscripten_routine is_x86 o)) tb (rows t 1 tb)) /\
  largest_shown emscripten (final (emscripten_routine is_x86 o)) (t_max_cache_size t).
Proof.
  intros E P. pose proof (fun tb => emscripten_agree is_x86 logical calloc_ok o t tb E P) as A.
  pose proof (published_tables is_x86 logical calloc_ok o t E P) as T.
  destruct (emscripten_describes is_x86 logical) as (t' & T' & _ & _ & _ & _ & _ & _ & _ & _ & _ & _ & _ & _ & _ & _ & _ & Z4 & Z3 & _).
  rewrite T in T'. injection T' as <-.
  unfold emscripten_routine. rewrite P. destruct (emscripten_pointer_counts is_x86 t) as (I & PT & _). cbv zeta in *. split.
  - intros tb C. assert (D : tb = Uarchs \/ tb <> Uarchs) by (destruct tb; (now left) || (right; discriminate)). destruct D as [->|D].
    + now apply shown_uarch.
    + apply shown_table; [exact I|congruence|now apply A|]. specialize (PT tb).
      destruct tb as [| | | | |[]]; try congruence; try (left; exact PT).
      * destruct is_x86; [left; exact PT|]. right. split; [exact PT|]. cbn [rows]. now rewrite Z3.
      * right. split; [exact PT|]. cbn [rows]. now rewrite Z4.
  - destruct is_x86; exact (shown_largest emscripten _ I).
Qed.
End Emscripten.

Lemma emscripten_largest is_x86 : exists o t,
  EmscriptenModel.emscripten_init is_x86 5 (fun _ => true) = Ok o /\ EmscriptenModel.o_published o = Some t /\
  forall c, In c (t_l1i t ++ t_l1d t ++ t_l2 t ++ t_l3 t ++ t_l4 t) -> (g_size (ca_geometry c) < t_max_cache_size t)%N.
Proof.
  destruct is_x86; do 2 eexists; (split; [vm_compute; reflexivity|]); (split; [reflexivity|]); intros c H; vm_compute in H;
    repeat (destruct H as [<-|H]; [vm_compute; reflexivity|]); destruct H.
Qed.

(** ** Every schedule *)
Lemma shown_any_schedule c routine tb n : flag_last routine -> table_shown c (final routine) tb n ->
  forall events1 thread a events2 s,
  run c routine system0 (events1 ++ Getter_ends thread (Get_count tb) a :: events2) s -> a = Fatal \/ a = Number (N.of_nat n).
Proof.
  intros F T l1 k a l2 s R. apply getter_answers in R; [|exact F]. destruct R as [->|(_ & _ & cpu & ->)]; [now left|right]. apply T.
Qed.
