(** Proofs about the tests of the lookups of the current processor. *)
From Verif Require Import Base BaseProofs Sorting TopologySpec ApiModel OnceModel ApiProofs CurrentTestModel.
From Verif Require X86LinuxModel X86LinuxSpec X86LinuxProps X86ApiProofs ArmLinuxModel ArmLinuxSpec ArmApiModel ArmApiProofs
  RiscvLinuxModel RiscvLinuxSpec RiscvApiModel RiscvInitProofs RiscvApiProofs.
From Coq Require Import List Lia. Import ListNotations.
Open Scope nat_scope.

(** What a set of getters must satisfy. *)
Lemma tests_pass ask moves np nc nu :
  (forall cpu, ask cpu (Get_table Processors) = Pointer Processors 0) -> (forall cpu, ask cpu (Get_table Cores) = Pointer Cores 0) ->
  (forall cpu, ask cpu (Get_count Processors) = Number (N.of_nat np)) -> (forall cpu, ask cpu (Get_count Cores) = Number (N.of_nat nc)) ->
  (forall cpu, ask cpu (Get_count Uarchs) = Number nu) ->
  (forall cpu, ask cpu Get_current_processor = Null \/ exists i, ask cpu Get_current_processor = Pointer Processors i /\ i < np) ->
  (forall cpu, ask cpu Get_current_core = Null \/ exists i, ask cpu Get_current_core = Pointer Cores i /\ i < nc) ->
  (forall cpu, exists u, ask cpu Get_current_uarch_index = Number u /\ (u < nu)%N) ->
  (forall cpu, exists v, ask cpu (Get_current_uarch_index_with_default nu) = Number v /\ (v <= nu)%N) ->
  ~ In Failed (verdicts ask moves).
Proof.
  intros P0 C0 PN CN UN P C U D. unfold verdicts, current_tests. cbn [map snd].
  intros [H|[H|[H|[H|[]]]]]; revert H.
  - unfold current_element_test. rewrite P0, PN. destruct (P (moves 0)) as [-> |(i & -> & L)]; [discriminate|].
    cbn [pointer_within table_eqb]. rewrite Nat2N.id. cbn [Nat.leb Nat.add andb]. destruct (Nat.ltb_spec i np); [discriminate|lia].
  - unfold current_element_test. rewrite C0, CN. destruct (C (moves 0)) as [-> |(i & -> & L)]; [discriminate|].
    cbn [pointer_within table_eqb]. rewrite Nat2N.id. cbn [Nat.leb Nat.add andb]. destruct (Nat.ltb_spec i nc); [discriminate|lia].
  - unfold current_uarch_test. rewrite UN. destruct (U (moves 0)) as (u & -> & L). cbn [number_test]. destruct (N.ltb_spec u nu); [discriminate|lia].
  - unfold current_uarch_default_test. rewrite !UN. destruct (D (moves 1)) as (u & -> & L). cbn [number_test]. destruct (N.leb_spec u nu); [discriminate|lia].
Qed.

(** The CPU is that of a listed processor, or of none. *)
Lemma listed_or_not (ps : list processor) (cpu : option N) :
  (exists i p, nth_error ps i = Some p /\ cpu = Some (p_linux_id p)) \/ (forall p, In p ps -> cpu <> Some (p_linux_id p)).
Proof.
  induction ps as [|p ps [(i & q & H & E)|H]]; [right; intros ? []|left; exists (S i), q; auto|].
  destruct cpu as [c|]; [|right; discriminate]. destruct (N.eq_dec c (p_linux_id p)) as [-> |X]; [left; exists 0, p; auto|].
  right. intros q [-> |Q]; [congruence|auto].
Qed.

Lemma pointed ps (cs : list core) i p : points_to (map p_core ps) (map core_processors cs) -> nth_error ps i = Some p ->
  exists j, p_core p = Some j /\ j < length cs.
Proof.
  intros (owner & E & G) H. apply (map_nth_error p_core) in H. rewrite E, nth_error_map in H.
  destruct (nth_error owner i) as [j|] eqn:O; [|discriminate]. cbn in H. injection H as H. exists j. split; [auto|].
  destruct G as (_ & G). rewrite <- (map_length core_processors).
  apply G in O. destruct O as (s & c & O & _). now apply nth_error_some_lt in O.
Qed.

(** ** x86 Linux *)
Section X86.
Import X86LinuxModel X86LinuxSpec X86ApiProofs.
Lemma x86_tests sg default sorter calloc_ok x files o t moves : qsort_contract sorter -> threads_share_last_level x ->
  x86_linux_init sg default sorter calloc_ok x files = Ok o -> o_published o = Some t ->
  ~ In Failed (verdicts (ask x86_linux (published_globals t)) moves).
Proof.
  intros Q TS H P. pose proof (X86LinuxProps.x86_linux_topology_consistent _ _ _ _ _ _ _ _ Q TS H P) as (_ & K).
  pose proof (published_counted _ _ _ _ _ _ _ _ Q H P) as N.
  pose proof (published_lookups _ _ _ _ _ _ _ _ Q H P) as L.
  apply (tests_pass _ _ (length (t_processors t)) (length (t_cores t)) 1%N).
  1, 2: reflexivity.
  - intros cpu. rewrite <- (n_processors t N). reflexivity.
  - intros cpu. rewrite <- (n_cores t N). reflexivity.
  - reflexivity.
  - intros cpu. destruct (L cpu) as ((A & B) & _). destruct (listed_or_not (t_processors t) cpu) as [(i & p & I & E)|E]; [right|left; auto].
    exists i. split; [now apply (A i p)|]. now apply nth_error_some_lt in I.
  - intros cpu. destruct (L cpu) as (_ & (A & B)). destruct (listed_or_not (t_processors t) cpu) as [(i & p & I & E)|E]; [right|left; auto].
    destruct (pointed _ _ i p (processors_in_cores _ _ _ _ K) I) as (j & J & LT). exists j. split; [now apply (A i p)|exact LT].
  - intros cpu. exists 0%N. split; [reflexivity|lia].
  - intros cpu. exists 0%N. split; [reflexivity|lia].
Qed.
End X86.

(** ** ARM Linux *)
Section ARM.
Import ArmLinuxModel ArmLinuxSpec ArmApiModel ArmApiProofs.
Lemma arm_tests arm32 d usable ms version t moves : arm_reports arm32 d usable ms version t ->
  ~ In Failed (verdicts (ask arm_linux (arm_globals t)) moves).
Proof.
  intros R. pose proof (fun cpu => arm_current t cpu (rp_maps _ _ _ _ _ _ R)) as L.
  destruct (rp_kinds _ _ _ _ _ _ R) as (kind & K).
  pose proof (fun cpu default => arm_current_uarch t kind cpu default (rp_maps _ _ _ _ _ _ R) K) as U.
  pose proof (ap_own_core _ _ (rp_topology _ _ _ _ _ _ R)) as O.
  apply (tests_pass _ _ (length (at_processors t)) (length (at_processors t)) (N.of_nat (length (at_uarchs t)))).
  1, 2, 3, 4, 5: reflexivity.
  - intros cpu. destruct (L cpu) as ((A & B) & _). destruct (listed_or_not (at_processors t) cpu) as [(i & p & I & E)|E]; [right|left; auto].
    exists i. split; [now apply (A i p)|]. now apply nth_error_some_lt in I.
  - intros cpu. destruct (L cpu) as (_ & (A & B)). destruct (listed_or_not (at_processors t) cpu) as [(i & p & I & E)|E]; [right|left; auto].
    exists i. split; [apply (A i p i I E (O i p I))|now apply nth_error_some_lt in I].
  - intros cpu. destruct (U cpu 0%N) as (n & u & v & E & F & LT & _). change (Number (N.of_nat (length (at_uarchs t))) = Number n) in E. injection E as <-. now exists u.
  - intros cpu. destruct (U cpu (N.of_nat (length (at_uarchs t)))) as (n & u & v & E & F & LT & G & D & _). change (Number (N.of_nat (length (at_uarchs t))) = Number n) in E. injection E as <-.
    exists v. split; [exact G|]. destruct (N.eq_dec v u) as [-> |X]; [lia|]. destruct (D X) as (-> & _). lia.
Qed.
End ARM.

(** ** RISC-V Linux *)
Section RISCV.
Import RiscvLinuxModel RiscvLinuxSpec RiscvApiModel RiscvApiProofs.
Lemma riscv_tests sg default sorter calloc_ok fs o t moves : riscv_sorter sorter ->
  riscv_linux_init sg default sorter calloc_ok fs = Ok o -> ro_published o = Some t ->
  rt_processors t <> [] -> (forall p, In p (rt_processors t) -> exists c, its_core t p c) ->
  ~ In Failed (verdicts (ask riscv_linux (riscv_globals t)) moves).
Proof.
  intros Q H P NE C. pose proof (riscv_current _ _ _ _ _ _ _ Q H P) as L.
  pose proof (fun cpu d => riscv_current_uarch _ _ _ _ _ _ _ Q H P cpu d NE) as U.
  apply (tests_pass _ _ (length (rt_processors t)) (length (rt_cores t)) (N.of_nat (length (rt_uarchs t)))).
  1, 2, 3, 4, 5: reflexivity.
  - intros cpu. destruct (L cpu) as ((A & B) & _). destruct (listed_or_not (rt_processors t) cpu) as [(i & p & I & E)|E]; [right|left; auto].
    exists i. split; [now apply (A i p)|]. now apply nth_error_some_lt in I.
  - intros cpu. destruct (L cpu) as (_ & (A & B)). destruct (listed_or_not (rt_processors t) cpu) as [(i & p & I & E)|E]; [right|left; auto].
    destruct (C p (nth_error_In _ _ I)) as (c & j & J & K). exists j. split; [now apply (A i p)|now apply nth_error_some_lt in K].
  - intros cpu. destruct (U cpu 0%N) as (n & u & v & E & F & LT & _). change (Number (N.of_nat (length (rt_uarchs t))) = Number n) in E. injection E as <-. now exists u.
  - intros cpu. destruct (U cpu (N.of_nat (length (rt_uarchs t)))) as (n & u & v & E & F & LT & G & D). change (Number (N.of_nat (length (rt_uarchs t))) = Number n) in E. injection E as <-.
    exists v. split; [exact G|]. destruct (match cpu with Some _ => _ | None => _ end); lia.
Qed.

Lemma riscv_machine_tests sg default sorter fs cpus group : riscv_files_say default fs cpus group -> nested cpus group -> contiguous cpus group ->
  order_keeping sorter -> cpus <> [] ->
  exists t o, riscv_linux_init sg default sorter (fun _ => true) fs = Ok o /\ ro_published o = Some t /\
    forall moves, ~ In Failed (verdicts (ask riscv_linux (riscv_globals t)) moves).
Proof.
  intros F Ne C S NN. destruct (RiscvInitProofs.init_reports sg default sorter fs cpus group F Ne C S) as (t & o & I & P & R & _ & LP & _).
  exists t, o. split; [exact I|]. split; [exact P|]. intros moves. apply (riscv_tests _ _ _ _ _ _ _ _ (proj1 S) I P).
  - intros X. rewrite X in LP. destruct cpus; [congruence|discriminate].
  - intros p Hp. destruct (rr_records _ _ _ R p Hp) as (c & l & k & J & _). now exists c.
Qed.
End RISCV.

(** ** Systems without a current CPU *)
Lemma other_tests c g moves : gl_initialized g = true -> cf_linux c = false -> (cf_multi_uarch c = true -> 0 < gl_count g Uarchs)%N ->
  verdicts (ask c g) moves = [Skipped; Skipped; Passed; Passed].
Proof.
  destruct c as [lx mu]. cbn [cf_linux cf_multi_uarch]. intros I -> U. unfold verdicts, current_tests. cbn [map snd].
  unfold current_element_test, current_uarch_test, current_uarch_default_test, ask, getter_prog, guarded.
  cbn [run_prog getter_body current_processor current_core current_uarch uarchs_count cf_linux cf_multi_uarch]. rewrite !I.
  destruct mu; cbn [run_prog number_test]; rewrite ?I; cbn [run_prog number_test]; [|reflexivity].
  specialize (U eq_refl). destruct (N.ltb_spec 0 (gl_count g Uarchs)); [|lia]. repeat (rewrite ?I; cbn [run_prog number_test getter_body current_uarch cf_multi_uarch cf_linux uarchs_count]). rewrite N.leb_refl. unfold verdict_of. cbn. rewrite ?I. cbn. destruct (N.ltb_spec 0 (gl_count g Uarchs)); [reflexivity|lia].
Qed.
