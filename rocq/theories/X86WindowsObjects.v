(** Lemmas about the model of Windows: the processors, cores, clusters and packages. *)
From Verif Require Import Base BaseProofs Loops Fill TopologySpec X86WindowsModel X86CountsSpec X86CountsModel X86CountsProofs X86WindowsSpec X86WindowsProofs
  X86WindowsRows X86WindowsTables.
From Verif Require X86LinuxModel Masks.
Import X86WindowsModel.
Import X86LinuxModel(xinfo, xc_geometry, xi_vendor, xi_uarch, xi_cpuid, xi_thread_offset, xi_thread_length, xi_core_offset,
  xi_core_length, xi_l1i, xi_l1d, xi_l2, xi_l3, xi_l4, xc_apic_bits, bit_mask).
Ltac Zify.zify_post_hook ::= idtac.
Open Scope nat_scope.

(** ** Rows and the machine *)

Lemma counted_in {A} : forall (l : list A) q b a, In (q, a) (counted b l) -> b <= q /\ nth_error l (q - b) = Some a.
Proof.
  induction l as [|c l IH]; intros q b a H; [destruct H|]. cbn [counted] in H. destruct H as [H|H].
  - injection H as -> ->. rewrite Nat.sub_diag. now split.
  - apply IH in H. destruct H as (L & H). split; [lia|]. replace (q - b) with (S (q - S b)) by lia. exact H.
Qed.

Lemma tagged_in {A} : forall (sets : list (list A)) k j a, In (j, a) (tagged k sets) -> k <= j /\ exists s, nth_error sets (j - k) = Some s /\ In a s.
Proof.
  induction sets as [|s sets IH]; intros k j a H; [destruct H|]. cbn [tagged] in H. apply in_app_or in H. destruct H as [H|H].
  - apply in_map_iff in H. destruct H as (b & E & H). injection E as -> ->. rewrite Nat.sub_diag. split; [lia|]. now exists s.
  - apply IH in H. destruct H as (L & t & H & Hin). split; [lia|]. exists t. replace (j - k) with (S (j - S k)) by lia. now split.
Qed.

Lemma row_in_core m n i r : concat (concat m) = seq 0 n -> nth_error (rows 0 0 m) i = Some r ->
  exists s, nth_error (machine_cores m) (r_core r) = Some s /\ nth_error s (r_smt r) = Some i.
Proof.
  intros C H. pose proof (rows_cores m 0 0) as E. set (F := tagged 0 (map (counted 0) (machine_cores m))) in *.
  assert (G : nth_error (map core_tag F) i = Some (r_core r, r_smt r)) by (rewrite <- E, nth_error_map, H; reflexivity).
  rewrite nth_error_map in G. destruct (nth_error F i) as [(j, (q, a))|] eqn:Fi; [|discriminate]. cbn in G. unfold core_tag in G. cbn in G.
  injection G as -> ->.
  assert (A : nth_error (map (fun e => snd (snd e)) F) i = Some a) by (rewrite nth_error_map, Fi; reflexivity).
  rewrite <- (map_map snd snd) in A. unfold F in A. rewrite tagged_snd, concat_map, map_map in A.
  rewrite (map_ext _ (fun l => l)) in A by (intros l; apply counted_snd). rewrite map_id in A. unfold machine_cores in A. rewrite C in A.
  assert (a = i).
  { assert (Hi : i < n) by (rewrite <- (seq_length n 0); apply nth_error_Some; congruence).
    rewrite (nth_error_nth' _ 0) in A by now rewrite seq_length. rewrite seq_nth in A by exact Hi. cbn in A. congruence. }
  subst a. apply nth_error_In in Fi. apply tagged_in in Fi. destruct Fi as (_ & s' & Hs & Hin). rewrite Nat.sub_0_r, nth_error_map in Hs.
  destruct (nth_error (machine_cores m) (r_core r)) as [s|]; [|discriminate]. cbn in Hs. injection Hs as <-. exists s. split; [reflexivity|].
  apply counted_in in Hin. destruct Hin as (_ & Hin). now rewrite Nat.sub_0_r in Hin.
Qed.

Lemma rows_core_in k j jl : forall c s r, In r (rows_core k j jl s c) -> r_package r = k /\ r_core r = j /\ r_local r = jl.
Proof.
  induction c as [|a c IH]; intros s r H; [destruct H|]. cbn [rows_core] in H. destruct H as [<-|H]; [now cbn|]. now apply IH in H.
Qed.

Lemma rows_package_in k : forall p j jl r, In r (rows_package k j jl p) ->
  r_package r = k /\ jl <= r_local r < jl + length p /\ r_core r + jl = j + r_local r.
Proof.
  induction p as [|c p IH]; intros j jl r H; [destruct H|]. cbn [rows_package] in H. apply in_app_or in H. cbn [length]. destruct H as [H|H].
  - apply rows_core_in in H. lia.
  - apply IH in H. lia.
Qed.

Lemma rows_in : forall m k j r, In r (rows k j m) ->
  k <= r_package r /\ exists p, nth_error m (r_package r - k) = Some p /\ r_local r < length p /\ r_local r <= r_core r /\
    nth_error (blocks j m) (r_package r - k) = Some (seq (r_core r - r_local r) (length p)).
Proof.
  induction m as [|p m IH]; intros k j r H; [destruct H|]. cbn [rows] in H. apply in_app_or in H. destruct H as [H|H].
  - apply rows_package_in in H. destruct H as (-> & B & C). split; [lia|]. exists p. rewrite Nat.sub_diag. cbn [nth_error blocks].
    split; [reflexivity|]. split; [lia|]. split; [lia|]. do 2 f_equal. lia.
  - apply IH in H. destruct H as (L & q & H1 & H2 & H3 & H4). split; [lia|]. exists q. replace (r_package r - k) with (S (r_package r - S k)) by lia.
    cbn [nth_error blocks]. auto.
Qed.

Lemma concat_nonempty (m : machine) : Forall (fun c => c <> []) (concat m) -> Forall (fun p => p <> []) m -> Forall (fun p => p <> []) (machine_packages m).
Proof.
  unfold machine_packages. induction m as [|p m IH]; intros Fc Fp; cbn [map]; constructor; cbn [concat] in Fc; apply Forall_app in Fc; destruct Fc as (F1 & Fc);
    apply Forall_cons_iff in Fp; destruct Fp as (Fp1 & Fp).
  - destruct p as [|c p]; [congruence|]. apply Forall_inv in F1. destruct c; [congruence|discriminate].
  - now apply IH.
Qed.

Lemma map_nth_seq {A B} (g : A -> B) (d : A) (l : list A) : map (fun j => g (nth j l d)) (seq 0 (length l)) = map g l.
Proof.
  apply nth_error_ext. intros i. rewrite nth_error_table, nth_error_map. destruct (Nat.ltb_spec i (length l)) as [H|H].
  - now rewrite (nth_error_nth' l d H).
  - now rewrite (proj2 (nth_error_None l i) H).
Qed.

Section OBJECTS.
Context (x : xinfo) (sizes : list nat) (m : machine) (n : nat).
Context (Or : ordered n m) (N0 : 0 < n) (FD : fields_defined x).
Context (ids : list (nat * nat)) (Lids : length ids = n).
Let R := rows 0 0 m.
Let P := map (second_pass x) (combine R ids).
Let cores := machine_cores m.
Let packs := machine_packages m.
Let C := length cores.
Let K := length m.

Lemma R_length : length R = n.
Proof. unfold R. rewrite rows_length, (or_all _ _ Or). apply seq_length. Qed.

Lemma P_length : length P = n.
Proof. unfold P. rewrite map_length, combine_length, R_length, Lids. apply Nat.min_id. Qed.

Lemma P_nth i : i < n -> exists r gb, nth_error R i = Some r /\ nth_error ids i = Some gb /\ nth_error P i = Some (second_pass x (r, gb)).
Proof.
  intros H. destruct (nth_error R i) as [r|] eqn:Er; [|apply nth_error_None in Er; rewrite R_length in Er; lia].
  destruct (nth_error ids i) as [gb|] eqn:Eg; [|apply nth_error_None in Eg; lia]. exists r, gb. repeat split.
  unfold P. rewrite nth_error_map. replace (nth_error (combine R ids) i) with (Some (r, gb)); [reflexivity|].
  symmetry. clear - Er Eg. generalize dependent ids. generalize dependent R. induction i as [|i IH]; intros [|a R'] Er [|b l] Eg; cbn in *; try discriminate.
  - congruence.
  - now apply IH.
Qed.

Lemma cores_all : concat cores = seq 0 n.
Proof. apply (or_all _ _ Or). Qed.
Lemma packs_all : concat packs = seq 0 n.
Proof. unfold packs. rewrite concat_packages. apply (or_all _ _ Or). Qed.
Lemma cores_nonempty : Forall (fun s => s <> []) cores.
Proof. apply (or_cores _ _ Or). Qed.
Lemma packs_nonempty : Forall (fun s => s <> []) packs.
Proof. apply concat_nonempty; [apply (or_cores _ _ Or)|apply (or_packages _ _ Or)]. Qed.
Lemma blocks_all : concat (blocks 0 m) = seq 0 C.
Proof. rewrite blocks_concat. reflexivity. Qed.
Lemma packs_length : length packs = K.
Proof. unfold packs, machine_packages. apply map_length. Qed.

Lemma row_core i r : nth_error R i = Some r -> owner_of cores i = r_core r.
Proof.
  intros H. unfold owner_of. apply nth_error_nth. pose proof (rows_cores m 0 0) as E.
  apply (f_equal (map fst)) in E. rewrite !map_map in E. unfold core_tag in E. cbn [fst] in E. rewrite tagged_fst in E.
  rewrite owners_map in E by (intros; apply counted_length). fold cores in E. rewrite <- E. fold R. rewrite nth_error_map, H. reflexivity.
Qed.

Lemma row_package i r : nth_error R i = Some r -> owner_of packs i = r_package r.
Proof.
  intros H. unfold owner_of. apply nth_error_nth. unfold packs. rewrite <- (rows_packages m 0 0). fold R. rewrite nth_error_map, H. reflexivity.
Qed.

Lemma row_owner i r : nth_error R i = Some r -> owner_of m (r_core r) = r_package r.
Proof.
  intros H. apply nth_error_In in H. apply rows_in in H. destruct H as (_ & p & H1 & H2 & H3 & H4). rewrite Nat.sub_0_r in *.
  unfold owner_of. rewrite <- (blocks_owners m 0 0). apply nth_error_nth.
  apply (nth_owners (blocks 0 m) 0 0 C (r_core r) (r_package r) blocks_all).
  - apply blocks_nonempty. apply (or_packages _ _ Or).
  - exists (r_core r - r_local r), (length p). split; [|lia]. rewrite nth_error_map, H4. cbn [option_map]. unfold span. rewrite seq_length.
    destruct p; [cbn in H2; lia|]. reflexivity.
Qed.

Lemma core_first j s : nth_error cores j = Some s -> hd 0 s < n /\ exists r, nth_error R (hd 0 s) = Some r /\ r_core r = j /\ r_smt r = 0.
Proof.
  intros H. assert (NE : s <> []) by (pose proof cores_nonempty as F; rewrite Forall_forall in F; apply F; eapply nth_error_In; eauto).
  assert (Hin : In (hd 0 s) (concat cores)).
  { apply in_concat. exists s. split; [eapply nth_error_In; eauto|]. destruct s; [congruence|now left]. }
  rewrite cores_all in Hin. apply in_seq in Hin. split; [lia|]. destruct (P_nth (hd 0 s) ltac:(lia)) as (r & gb & Er & _). exists r. split; [exact Er|].
  pose proof (row_in_core m n (hd 0 s) r (or_all _ _ Or) Er) as (s' & Hs' & Hq). fold cores in Hs'.
  assert (J : owner_of cores (hd 0 s) = j).
  { unfold owner_of. apply nth_error_nth. apply (nth_owners cores 0 0 n (hd 0 s) j cores_all cores_nonempty).
    exists (hd 0 s), (length s). split; [rewrite nth_error_map, H; reflexivity|]. destruct s; [congruence|cbn; lia]. }
  rewrite (row_core _ _ Er) in J. split; [exact J|]. rewrite J in Hs'. assert (s' = s) by congruence. subst s'.
  pose proof (set_seq cores n s cores_all (nth_error_In _ _ H) NE) as Q. rewrite Q in Hq at 1.
  assert (Lq : r_smt r < length s) by (apply nth_error_Some; rewrite Q, Hq; discriminate).
  rewrite (nth_error_nth' _ 0) in Hq by now rewrite seq_length. rewrite seq_nth in Hq by exact Lq. injection Hq as Hq. lia.
Qed.

(** ** The first downward loop *)

Definition state1 (l : list nat) : objects :=
  Objects (taken core_takes (fun _ => core0) (owner_of cores) C l) (taken cluster_takes (fun _ => cluster0) (fun _ => 0) K l)
          (taken package_takes (fun _ => package0) (owner_of packs) K l).

Lemma K_pos : 0 < K.
Proof.
  unfold K. destruct m as [|p m'] eqn:E; [|cbn; lia]. exfalso. pose proof (or_all _ _ Or) as A. cbn in A. destruct n; [lia|discriminate].
Qed.

Lemma adjust_ok pre i l : seq 0 n = pre ++ i :: l -> adjust P i (state1 l) = Ok (state1 (i :: l)).
Proof.
  intros E. assert (Hi : i < n).
  { assert (H : In i (seq 0 n)) by (rewrite E; apply in_or_app; right; now left). apply in_seq in H. lia. }
  destruct (P_nth i Hi) as (r & gb & Er & _ & Ep). unfold adjust, rd. rewrite Ep. cbn [bind]. unfold state1. cbn [ob_packages ob_clusters ob_cores].
  cbn [second_pass fst snd wp_package wp_core]. rewrite <- (row_package _ _ Er), <- (row_core _ _ Er).
  rewrite taken_modify. 2:{ rewrite <- packs_length. apply owner_bound. now rewrite packs_all, seq_length. }
  cbn [bind]. rewrite (taken_modify cluster_takes (fun _ => cluster0) (fun _ => 0) K l i K_pos). cbn [bind].
  rewrite taken_modify. 2:{ apply owner_bound. now rewrite cores_all, seq_length. } reflexivity.
Qed.

Lemma first_loop : for_down (adjust P) n (Objects (repeat core0 C) (repeat cluster0 K) (repeat package0 K)) = Ok (state1 (seq 0 n)).
Proof.
  rewrite for_down_each. rewrite <- (each_rev (adjust P) state1 (seq 0 n) adjust_ok). f_equal. unfold state1. rewrite !taken_nil, !repeat_seq. reflexivity.
Qed.

(** ** The second downward loop *)

Lemma core_takes_fold z : forall s, fold_right core_takes z s =
  Core (hd (c_processor_start z) s) (length s + c_processor_count z) (c_core_id z) (c_cluster z) (c_package z) (c_vendor z) (c_uarch z) (c_cpuid z).
Proof. induction s as [|a s IH]; cbn [fold_right hd length]; [now destruct z|]. rewrite IH. reflexivity. Qed.
Lemma package_takes_fold z : forall s, fold_right package_takes z s =
  Package (hd (pk_processor_start z) s) (length s + pk_processor_count z) (pk_core_start z) (pk_core_count z) (pk_cluster_start z) (pk_cluster_count z).
Proof. induction s as [|a s IH]; cbn [fold_right hd length]; [now destruct z|]. rewrite IH. reflexivity. Qed.
Lemma package_cores_fold z : forall s, fold_right package_takes_core z s =
  Package (pk_processor_start z) (pk_processor_count z) (hd (pk_core_start z) s) (length s + pk_core_count z) (pk_cluster_start z) (pk_cluster_count z).
Proof. induction s as [|a s IH]; cbn [fold_right hd length]; [now destruct z|]. rewrite IH. reflexivity. Qed.
Lemma cluster_takes_fold z : forall s, fold_right cluster_takes z s =
  Cluster (hd (cl_processor_start z) s) (length s + cl_processor_count z) (cl_core_start z) (cl_core_count z) (cl_cluster_id z) (cl_package z) (cl_vendor z) (cl_uarch z) (cl_cpuid z).
Proof. induction s as [|a s IH]; cbn [fold_right hd length]; [now destruct z|]. rewrite IH. reflexivity. Qed.
Lemma cluster_cores_fold z : forall s, fold_right cluster_takes_core z s =
  Cluster (cl_processor_start z) (cl_processor_count z) (hd (cl_core_start z) s) (length s + cl_core_count z) (cl_cluster_id z) (cl_package z) (cl_vendor z) (cl_uarch z) (cl_cpuid z).
Proof. induction s as [|a s IH]; cbn [fold_right hd length]; [now destruct z|]. rewrite IH. reflexivity. Qed.

Lemma filter_zero j l : filter (fun _ : nat => 0 =? j) l = if j =? 0 then l else [].
Proof. destruct j; cbn [Nat.eqb]; induction l as [|a l IH]; cbn; congruence. Qed.

Definition core1 (j : nat) : core := let s := nth j cores [] in Core (hd 0 s) (length s) 0 None None 0 0 0.
Definition cluster1 (j : nat) : cluster := if j =? 0 then Cluster 0 n 0 0 0 None 0 0 0 else cluster0.
Definition package1 (j : nat) : package := let s := nth j packs [] in Package (hd 0 s) (length s) 0 0 0 0.

Lemma state1_is : state1 (seq 0 n) = Objects (map core1 (seq 0 C)) (map cluster1 (seq 0 K)) (map package1 (seq 0 K)).
Proof.
  unfold state1. f_equal.
  - unfold C. rewrite (taken_sets _ _ cores n cores_all). apply map_ext. intros j. rewrite core_takes_fold. cbn. unfold core1. now rewrite Nat.add_0_r.
  - unfold taken. apply map_ext. intros j. rewrite filter_zero. unfold cluster1. destruct (j =? 0); [|reflexivity]. rewrite cluster_takes_fold.
    rewrite seq_length. cbn. rewrite Nat.add_0_r. destruct n; [lia|reflexivity].
  - rewrite <- packs_length. rewrite (taken_sets _ _ packs n packs_all). apply map_ext. intros j. rewrite package_takes_fold. cbn. unfold package1. now rewrite Nat.add_0_r.
Qed.

Definition first_apic (j : nat) : N :=
  match nth_error R (hd 0 (nth j cores [])) with Some r => row_apic x r | None => 0%N end.
Definition core2 (j : nat) : core :=
  let s := nth j cores [] in
  Core (hd 0 s) (length s) (N.to_nat (N.land (cmask x) (N.shiftr (first_apic j) (xi_core_offset x)))) (Some 0) (Some (owner_of m j))
       (xi_vendor x) (xi_uarch x) (xi_cpuid x).
Definition state2 (l : list nat) : objects :=
  Objects (given core2 core1 C l) (taken cluster_takes_core cluster1 (fun _ => 0) K l) (taken package_takes_core package1 (owner_of m) K l).

Lemma adjust_core_ok pre i l : seq 0 C = pre ++ i :: l -> adjust_core x (cmask x) P i (state2 l) = Ok (state2 (i :: l)).
Proof.
  intros E. assert (Hi : i < C).
  { assert (H : In i (seq 0 C)) by (rewrite E; apply in_or_app; right; now left). apply in_seq in H. lia. }
  assert (Ni : ~ In i l).
  { pose proof (seq_NoDup C 0) as ND. rewrite E in ND. apply NoDup_remove_2 in ND. intros H. apply ND. apply in_or_app. now right. }
  unfold adjust_core, state2. cbn [ob_cores ob_clusters ob_packages]. rewrite given_untouched by assumption. cbn [bind].
  destruct (nth_error cores i) as [s|] eqn:Es; [|apply nth_error_None in Es; unfold C in Hi; lia].
  destruct (core_first i s Es) as (Hf & r & Er & Ec & _). destruct (P_nth _ Hf) as (r' & gb & Er' & _ & Ep). rewrite Er in Er'. injection Er' as <-.
  assert (S1 : c_processor_start (core1 i) = hd 0 s) by (unfold core1; rewrite (nth_error_nth cores i [] Es); reflexivity).
  rewrite S1. unfold rd. rewrite Ep. cbn [bind].
  cbn [second_pass fst snd wp_apic wp_package]. unfold shr32. pose proof FD as FD'. unfold fields_defined, package_offset in FD'.
  replace (xi_core_offset x <? 32)%N with true by (symmetry; apply N.ltb_lt; lia). cbn [bind].
  pose proof (row_owner _ _ Er) as Ow. rewrite Ec in Ow.
  assert (Q : Core (c_processor_start (core1 i)) (c_processor_count (core1 i)) (N.to_nat (N.land (cmask x) (N.shiftr (row_apic x r) (xi_core_offset x))))
    (Some 0) (Some (r_package r)) (xi_vendor x) (xi_uarch x) (xi_cpuid x) = core2 i).
  { unfold core2, core1, first_apic. rewrite (nth_error_nth cores i [] Es), Er, Ow. reflexivity. }
  rewrite S1 in Q. rewrite Q.
  rewrite given_wr by exact Hi. cbn [bind]. rewrite (taken_modify cluster_takes_core cluster1 (fun _ => 0) K l i K_pos). cbn [bind].
  rewrite <- Ow. rewrite taken_modify; [reflexivity|]. apply owner_bound. exact Hi.
Qed.

Definition cluster2 (j : nat) : cluster := if j =? 0 then Cluster 0 n 0 C 0 None 0 0 0 else cluster0.
Definition package2 (j : nat) : package :=
  let s := nth j packs [] in let c := nth j (blocks 0 m) [] in Package (hd 0 s) (length s) (hd 0 c) (length c) 0 0.

Lemma C_pos : 0 < C.
Proof.
  unfold C. destruct cores as [|c l] eqn:E; [|cbn; lia]. exfalso. pose proof cores_all as A. rewrite E in A. cbn in A. destruct n; [lia|discriminate].
Qed.

Lemma second_loop : for_down (adjust_core x (cmask x) P) C (state1 (seq 0 n)) = Ok (Objects (map core2 (seq 0 C)) (map cluster2 (seq 0 K)) (map package2 (seq 0 K))).
Proof.
  rewrite for_down_each. transitivity (Ok (state2 (seq 0 C))).
  - rewrite <- (each_rev (adjust_core x (cmask x) P) state2 (seq 0 C) adjust_core_ok). f_equal. rewrite state1_is. unfold state2, given. now rewrite !taken_nil.
  - f_equal. unfold state2. f_equal.
    + apply given_all. intros i Hi. apply in_seq. lia.
    + unfold taken. apply map_ext. intros j. rewrite filter_zero. unfold cluster2, cluster1. destruct (j =? 0); [|reflexivity]. rewrite cluster_cores_fold.
      rewrite seq_length. cbn. rewrite Nat.add_0_r. pose proof C_pos. destruct C; [lia|reflexivity].
    + replace (owner_of m) with (owner_of (blocks 0 m)) by (unfold owner_of; now rewrite blocks_owners).
      unfold K. rewrite <- (blocks_length m 0). rewrite (taken_sets _ _ (blocks 0 m) C blocks_all). apply map_ext. intros j. rewrite package_cores_fold. cbn.
      unfold package2. now rewrite Nat.add_0_r.
Qed.

(** ** The loop over packages *)

Definition cluster3 (j : nat) : cluster :=
  if j =? 0 then Cluster 0 n 0 C 0 (Some 0) (xi_vendor x) (xi_uarch x) (xi_cpuid x) else Cluster 0 0 0 0 0 (Some j) (xi_vendor x) (xi_uarch x) (xi_cpuid x).
Definition package3 (j : nat) : package :=
  let s := nth j packs [] in let c := nth j (blocks 0 m) [] in Package (hd 0 s) (length s) (hd 0 c) (length c) j 1.
Definition set_cluster (i : nat) (p : package) : package := Package (pk_processor_start p) (pk_processor_count p) (pk_core_start p) (pk_core_count p) i 1.
Definition state3 (l : list nat) : objects :=
  Objects (map core2 (seq 0 C)) (given cluster3 cluster2 K l) (taken set_cluster package2 (fun i => i) K l).

Lemma adjust_package_ok pre i l : rev (seq 0 K) = pre ++ i :: l -> adjust_package i (state3 l) = Ok (state3 (i :: l)).
Proof.
  intros E. assert (Hi : i < K).
  { assert (H : In i (rev (seq 0 K))) by (rewrite E; apply in_or_app; right; now left). apply in_rev in H. apply in_seq in H. lia. }
  assert (Ni : ~ In i l).
  { pose proof (NoDup_rev (seq_NoDup K 0)) as ND. rewrite E in ND. apply NoDup_remove_2 in ND. intros H. apply ND. apply in_or_app. now right. }
  unfold adjust_package, state3. cbn [ob_cores ob_clusters ob_packages]. rewrite given_untouched by assumption. cbn [bind].
  assert (Z : cl_core_start (cluster2 i) = 0) by (unfold cluster2; now destruct (i =? 0)). rewrite Z. unfold rd.
  rewrite nth_map_seq by apply C_pos. cbn [bind].
  assert (Q : Cluster (cl_processor_start (cluster2 i)) (cl_processor_count (cluster2 i)) 0 (cl_core_count (cluster2 i))
    (cl_cluster_id (cluster2 i)) (Some i) (c_vendor (core2 0)) (c_uarch (core2 0)) (c_cpuid (core2 0)) = cluster3 i).
  { unfold cluster2, cluster3, core2. destruct (Nat.eqb_spec i 0) as [->|]; reflexivity. }
  rewrite Q, given_wr by exact Hi. cbn [bind].
  pose proof (taken_modify set_cluster package2 (fun i => i) K l i Hi) as M. unfold set_cluster in M at 2. rewrite M. reflexivity.
Qed.

Definition final_objects : objects := Objects (map core2 (seq 0 C)) (map cluster3 (seq 0 K)) (map package3 (seq 0 K)).

Lemma third_loop : for_each adjust_package 0 K (Objects (map core2 (seq 0 C)) (map cluster2 (seq 0 K)) (map package2 (seq 0 K))) = Ok final_objects.
Proof.
  rewrite for_each_each. rewrite <- (rev_involutive (seq 0 K)). transitivity (Ok (state3 (rev (seq 0 K)))).
  - rewrite <- (each_rev adjust_package state3 (rev (seq 0 K)) adjust_package_ok). f_equal. unfold state3, given. now rewrite !taken_nil, rev_involutive.
  - f_equal. unfold state3, final_objects. f_equal.
    + apply given_all. intros i Hi. apply in_rev. rewrite rev_involutive. apply in_seq. lia.
    + unfold taken. apply map_ext_in. intros j Hj.
      replace (filter (fun i => i =? j) (rev (seq 0 K))) with [j]; [reflexivity|].
      pose proof (NoDup_rev (seq_NoDup K 0)) as ND. apply in_rev in Hj. clear - Hj ND. revert Hj ND. rewrite ?rev_involutive.
      induction (rev (seq 0 K)) as [|a l IH]; intros Hj ND; [destruct Hj|]. apply NoDup_cons_iff in ND. destruct ND as (Na & ND). cbn [filter].
      destruct (Nat.eqb_spec a j) as [->|E].
      * f_equal. clear - Na. symmetry. induction l as [|b l IH]; [reflexivity|]. cbn [filter]. destruct (Nat.eqb_spec b j) as [->|]; [exfalso; apply Na; now left|].
        apply IH. intros H. apply Na. now right.
      * destruct Hj as [->|Hj]; [congruence|auto].
Qed.

(** ** What the tables say *)

Definition final_processors : list processor := map published_processor P.

Lemma final_nth i p : nth_error final_processors i = Some p ->
  i < n /\ exists r gb, nth_error R i = Some r /\ nth_error ids i = Some gb /\ p = published_processor (second_pass x (r, gb)).
Proof.
  intros H. unfold final_processors in H. rewrite nth_error_map in H. destruct (nth_error P i) as [w|] eqn:E; [|discriminate].
  assert (Hi : i < n) by (rewrite <- P_length; apply nth_error_Some; congruence). split; [exact Hi|].
  destruct (P_nth i Hi) as (r & gb & Er & Eg & Ep). exists r, gb. rewrite E in Ep. injection Ep as ->. cbn in H. injection H as <-. auto.
Qed.

Lemma map_P {A} (f : row -> A) (g : wproc -> A) : (forall e, g (second_pass x e) = f (fst e)) -> map g P = map f R.
Proof.
  intros H. unfold P. rewrite map_map. rewrite (map_ext _ (fun e => f (fst e)) H). rewrite <- (map_map fst f). f_equal.
  pose proof R_length as L. rewrite <- Lids in L. clear - L. revert L. generalize ids. induction R as [|a l IH]; intros [|b k] L; cbn in *; try discriminate; [reflexivity|].
  f_equal. apply IH. lia.
Qed.

Lemma processors_cores : map p_core final_processors = map Some (owners 0 cores).
Proof.
  unfold final_processors. rewrite map_map. rewrite (map_P (fun r => Some (r_core r))) by reflexivity. rewrite <- (map_map r_core Some). f_equal.
  pose proof (rows_cores m 0 0) as E. apply (f_equal (map fst)) in E. rewrite !map_map in E. unfold core_tag in E. cbn [fst] in E. rewrite tagged_fst in E.
  rewrite owners_map in E by (intros; apply counted_length). exact E.
Qed.

Lemma processors_packages : map p_package final_processors = map Some (owners 0 packs).
Proof.
  unfold final_processors. rewrite map_map. rewrite (map_P (fun r => Some (r_package r))) by reflexivity. rewrite <- (map_map r_package Some). f_equal.
  apply rows_packages.
Qed.

Lemma core_spans : map core_processors (map core2 (seq 0 C)) = map span cores.
Proof. rewrite map_map. unfold core_processors, core2. cbn. apply (map_nth_seq span []). Qed.
Lemma package_spans : map package_processors (map package3 (seq 0 K)) = map span packs.
Proof. rewrite map_map. unfold package_processors, package3. cbn. rewrite <- packs_length. apply (map_nth_seq span []). Qed.
Lemma package_core_spans : map package_cores (map package3 (seq 0 K)) = map span (blocks 0 m).
Proof. rewrite map_map. unfold package_cores, package3. cbn. unfold K. rewrite <- (blocks_length m 0). apply (map_nth_seq span []). Qed.

Lemma spans_range sets k : concat sets = seq 0 k -> Forall (fun s => s <> []) sets -> map range (map span sets) = sets.
Proof.
  intros A F. rewrite map_map. rewrite <- (map_id sets) at 2. apply map_ext_in. intros s H. unfold range, span. cbn [fst snd]. symmetry.
  apply (set_seq sets k s A H). rewrite Forall_forall in F. now apply F.
Qed.

Lemma cores_packages : map c_package (map core2 (seq 0 C)) = map Some (owners 0 (blocks 0 m)).
Proof.
  rewrite map_map. unfold core2. cbn [c_package]. rewrite <- (map_map (owner_of m) Some). f_equal. rewrite blocks_owners. unfold owner_of.
  pose proof (map_nth_seq (fun i => i) 0 (owners 0 m)) as E. rewrite map_id, owners_length in E. exact E.
Qed.

(** A processor, its core and the row. *)
Lemma path i p j c : nth_error final_processors i = Some p -> p_core p = Some j -> nth_error (map core2 (seq 0 C)) j = Some c ->
  exists r gb s, nth_error R i = Some r /\ p = published_processor (second_pass x (r, gb)) /\ r_core r = j /\ nth_error cores j = Some s /\ c = core2 j /\
    c_processor_start c = hd 0 s /\ c_processor_count c = length s /\ i = hd 0 s + r_smt r /\ r_smt r < length s /\ owner_of m j = r_package r.
Proof.
  intros Hp Hj Hc. apply final_nth in Hp. destruct Hp as (Hi & r & gb & Er & _ & ->). cbn in Hj. injection Hj as Hj.
  apply table_some in Hc. destruct Hc as (HC & ->). destruct (row_in_core m n i r (or_all _ _ Or) Er) as (s & Hs & Hq). fold cores in Hs. rewrite Hj in Hs.
  exists r, gb, s. split; [exact Er|]. split; [reflexivity|]. split; [exact Hj|]. split; [exact Hs|]. split; [reflexivity|].
  unfold core2. rewrite (nth_error_nth cores j [] Hs). cbn [c_processor_start c_processor_count]. split; [reflexivity|]. split; [reflexivity|].
  pose proof cores_nonempty as F. rewrite Forall_forall in F. pose proof (nth_error_In _ _ Hs) as Hin.
  pose proof (set_seq cores n s cores_all Hin (F s Hin)) as Q.
  assert (Lq : r_smt r < length s) by (apply nth_error_Some; congruence). rewrite Q in Hq.
  rewrite (nth_error_nth' _ 0) in Hq by now rewrite seq_length. rewrite seq_nth in Hq by exact Lq. injection Hq as Hq.
  split; [lia|]. split; [exact Lq|]. rewrite <- Hj. now apply (row_owner i).
Qed.
End OBJECTS.
