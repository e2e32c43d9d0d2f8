(** Sample machines and sorts for the examples about RISC-V Linux. *)
From Verif Require Import Base Sorting Text LinuxTextModel LinuxTextSpec LinuxTextProps TopologySpec X86LinuxSpec
  RiscvLinuxModel RiscvLinuxSpec RiscvGroupProofs RiscvInitProofs.
Open Scope nat_scope.

(** ** Sorts *)
Definition by_uarch (a b : rproc) : Z := (Z.of_N (r_uarch a) - Z.of_N (r_uarch b))%Z.
Definition stable_sort : list rproc -> list rproc := isort by_uarch.
(** Puts elements with equal keys in the opposite order. *)
Definition unstable_sort (l : list rproc) : list rproc := isort by_uarch (rev l).

Lemma by_uarch_preorder : total_preorder by_uarch.
Proof. split; unfold by_uarch; intros; lia. Qed.

Lemma by_uarch_order l : Forall enum_uarch l -> StronglySorted (fun a b => (by_uarch a b <= 0)%Z) l -> in_uarch_order l.
Proof.
  intros HF. induction 1 as [|a l Hs IH Ha]; [constructor|]. apply Forall_cons_iff in HF. destruct HF as (Hu & HF).
  constructor; [now apply IH|]. rewrite Forall_forall in *. intros b Hb. rewrite riscv_cmp_exact by auto. now apply Ha.
Qed.

Lemma stable_sort_sorts : order_keeping stable_sort.
Proof.
  split.
  - intros l HF. destruct (isort_sorts _ by_uarch by_uarch_preorder l) as (P & S). split; [exact P|].
    apply by_uarch_order; [|exact S]. rewrite Forall_forall in *. intros a Ha. apply HF. now apply (Permutation_in _ (Permutation_sym P)).
  - unfold stable_sort. induction l as [|a l IH]; intros HF HS; [reflexivity|]. cbn [isort].
    apply Forall_cons_iff in HF. destruct HF as (Hu & HF). apply StronglySorted_inv in HS. destruct HS as (HS & Ha).
    rewrite IH by assumption. destruct l as [|b l]; [reflexivity|]. cbn [insert].
    apply Forall_cons_iff in Ha. destruct Ha as (Ha & _). apply Forall_cons_iff in HF. destruct HF as (Hb & _).
    rewrite riscv_cmp_exact in Ha by assumption. unfold by_uarch. destruct (Z.leb_spec (Z.of_N (r_uarch a) - Z.of_N (r_uarch b)) 0); [reflexivity|lia].
Qed.

Lemma unstable_sort_sorts : riscv_sorter unstable_sort.
Proof.
  intros l HF. destruct (isort_sorts _ by_uarch by_uarch_preorder (rev l)) as (P & S).
  assert (P' : Permutation l (unstable_sort l)) by (apply (perm_trans (Permutation_rev l)), P).
  split; [exact P'|]. apply by_uarch_order; [|exact S]. rewrite Forall_forall in *. intros a Ha. apply HF.
  now apply (Permutation_in _ (Permutation_sym P')).
Qed.

(** ** Files for machines with CPU numbers below 10 *)
Fixpoint entries (cpus : list nat) : list (list N) :=
  match cpus with
  | [] => []
  | [c] => [[48 + N.of_nat c; 10]%N]
  | c :: cpus' => [48 + N.of_nat c]%N :: entries cpus'
  end.
Definition list_file (cpus : list nat) : file := File (Some (join 44 (entries cpus))) [].
Definition clock_file (c : nat) : file := File (if c <? 5 then Some (text "1500000" ++ [10%N]) else None) [].
Definition machine_files (cpus : list nat) (group : grouping_fn) (hwcap : N) : riscv_files :=
  RiscvFiles (File (Some (text "63" ++ [10%N])) []) (list_file cpus) (list_file cpus)
    (fun c => RCpuFiles (list_file (members cpus group RCore c)) (File (Some [48 + N.of_nat c; 10]%N) []) (clock_file c)
                        (list_file (members cpus group RCluster c)) (list_file (members cpus group RPackage c))
                        (Some (0x489, 0x8000000000000007, 0)%N)) hwcap.

Lemma list_file_says cpus : cpus <> [] -> Forall (fun c => c < 10) cpus ->
  list_says (list_file cpus) (Some (map (fun c => (N.of_nat c, N.of_nat c)) cpus)).
Proof.
  intros Hne HF. eapply says_ranges; [reflexivity|constructor|]. exists (entries cpus).
  assert (D : forall c, c < 10 -> cpu_entry [48 + N.of_nat c]%N (N.of_nat c) (N.of_nat c)).
  { intros c Hc. apply entry_text_single; [unfold is_digit; lia|lia]. }
  assert (E : forall c, c < 10 -> cpu_entry [48 + N.of_nat c; 10]%N (N.of_nat c) (N.of_nat c)).
  { intros c Hc. replace (N.of_nat c) with (dec_value [48 + N.of_nat c]%N) at 2 3 by (unfold dec_value; cbn; lia).
    apply (entry_single [] [48 + N.of_nat c]%N [10%N]); chars. }
  split; [destruct cpus as [|c [|d l]]; [congruence|discriminate|discriminate]|]. split; [reflexivity|]. clear Hne.
  induction HF as [|c l Hc HF IH]; [split; constructor|]. destruct l as [|d l].
  - split; (constructor; [|constructor]); [unfold short_entry; cbn; lia|]. cbn [fst snd]. split; [now apply E|unfold u32max; lia].
  - destruct IH as (A & B). change (entries (c :: d :: l)) with ([48 + N.of_nat c]%N :: entries (d :: l)). split.
    + constructor; [unfold short_entry; cbn; lia|exact A].
    + cbn [map]. constructor; [|exact B]. cbn [fst snd]. split; [now apply D|unfold u32max; lia].
Qed.

Lemma singles_listed cpus q : listed (map (fun c => (N.of_nat c, N.of_nat c)) cpus) (N.of_nat q) <-> In q cpus.
Proof.
  unfold listed. split.
  - intros (f & l & H & H1). apply in_map_iff in H. destruct H as (c & E & Hc). injection E as <- <-. assert (c = q) by lia. now subst.
  - intros H. exists (N.of_nat q), (N.of_nat q). split; [apply in_map_iff; eauto|lia].
Qed.

Lemma machine_says cpus group hwcap : cpus <> [] -> StronglySorted lt cpus -> Forall (fun c => c < 10) cpus ->
  riscv_files_say 64 (machine_files cpus group hwcap) cpus group.
Proof.
  intros Hne Hs Hb. split.
  - exact Hs.
  - exists 64%N. split; [|split; [unfold two32; lia|eapply Forall_impl; [|exact Hb]; intros a Ha; cbn in Ha; lia]].
    apply (max_number 64 (rf_kernel_max (machine_files cpus group hwcap)) (text "63") [10%N]); try reflexivity; try chars; try constructor.
    + intros (c & s & E & H). injection E as <- _. unfold is_digit in H. lia.
  - exists (map (fun c => (N.of_nat c, N.of_nat c)) cpus). split; [now apply list_file_says|]. split; [now apply list_file_says|].
    intros c. apply singles_listed.
  - intros v p Hp. exists (map (fun c => (N.of_nat c, N.of_nat c)) (members cpus group v p)).
    assert (Hm : forall q, In q (members cpus group v p) -> In q cpus) by (intros q Hq; now apply filter_In in Hq).
    split; [|split].
    + replace (level_file v (rf_cpu (machine_files cpus group hwcap) p)) with (list_file (members cpus group v p)) by (now destruct v).
      apply list_file_says.
      * intros E. assert (X : In p (members cpus group v p)) by (apply filter_In; split; [exact Hp|apply Nat.eqb_refl]). rewrite E in X. destruct X.
      * rewrite Forall_forall in *. intros q Hq. now apply Hb, Hm.
    + assert (S : StronglySorted lt (members cpus group v p)) by (apply sorted_filter, Hs). unfold ascending.
      induction S as [|a l S IH HF]; cbn [map]; [constructor|]. constructor; [apply IH; intros q Hq; apply Hm; now right|].
      rewrite Forall_forall in *. intros r Hr. apply in_map_iff in Hr. destruct Hr as (b & <- & Hx). cbn. specialize (HF b Hx). lia.
    + intros q. apply singles_listed.
Qed.

(** Two clusters of two cores with two threads each; CPU 4 is missing. *)
Definition smt_cpus : list nat := [0; 1; 2; 3; 5; 6; 7; 8].
Definition smt_group : grouping_fn := fun v c =>
  match v with
  | RCore => if c <? 4 then c / 2 else (c - 1) / 2
  | RCluster => if c <? 4 then 0 else 1
  | RPackage => 0
  end.
(** Four CPUs, each a core of its own, in one cluster and package. *)
Definition plain_group : grouping_fn := fun v c => match v with RCore => c | _ => 0 end.
(** The second threads are numbered after all first threads. *)
Definition interleaved_group : grouping_fn := fun v c => match v with RCore => c mod 2 | _ => 0 end.

Definition smt_khz (c : nat) : option N := if c <? 5 then Some 1500000%N else None.
Lemma smt_numbers : riscv_numbers_say (machine_files smt_cpus smt_group 0) smt_cpus (fun c => Some (N.of_nat c)) smt_khz.
Proof.
  intros c Hc. assert (L : c < 10) by (cbn in Hc; repeat destruct Hc as [<-|Hc]; lia || contradiction). clear Hc.
  assert (NB : ~ starts_with_digit [10%N]) by (intros (d & s & E & D); injection E as <- <-; unfold is_digit in D; lia).
  assert (B : bytes [10%N]) by (repeat constructor).
  split.
  - replace (N.of_nat c) with (dec_value [48 + N.of_nat c]%N) by (unfold dec_value; cbn; lia).
    apply (number_there _ [48 + N.of_nat c]%N [10%N]); [reflexivity|constructor| |exact B|exact NB| |cbn; lia].
    + split; [discriminate|]. repeat constructor; unfold is_digit; lia.
    + unfold dec_value, two32. cbn. lia.
  - unfold smt_khz, machine_files, clock_file. cbn [rf_cpu rc_frequency]. destruct (c <? 5) eqn:E; [|now apply number_no_file].
    change 1500000%N with (dec_value (text "1500000")).
    apply (number_there _ (text "1500000") [10%N]); [reflexivity|constructor| |exact B|exact NB|reflexivity|cbn; lia].
    split; [discriminate|]. repeat constructor; discriminate.
Qed.
