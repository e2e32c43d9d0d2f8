(** Lemmas about the ranges that cpu-info prints. *)
From Verif Require Import Base Text TopologySpec LinuxTextSpec ToolsModel ReportSpec ReportProofs CpuInfoModel CpuInfoSpec CpuInfoProofs.
Open Scope nat_scope.

Lemma tiles_bound rs : forall f t, tiles f rs t -> f <= t /\ Forall (fun r => 0 < snd r /\ fst r + snd r <= t) rs /\ f + length rs <= t.
Proof.
  induction rs as [|[s c] rs IH]; intros f t H; cbn [tiles length] in *; [subst; split; [lia|split; [constructor|lia]]|].
  destruct H as (-> & P & T). destruct (IH _ _ T) as (A & B & C). split; [lia|]. split; [|lia]. constructor; [cbn; lia|exact B].
Qed.
Lemma points_to_bound owner rs : points_to owner rs -> Forall (fun r => 0 < snd r /\ fst r + snd r <= length owner) rs /\ length rs <= length owner.
Proof.
  intros (o & -> & T & _). rewrite map_length. destruct (tiles_bound _ _ _ T) as (_ & B & C). split; [exact B|lia].
Qed.
Lemma nth_from {A B} (f : N -> A -> B) l : forall k j, nth_error (from f k l) j = option_map (f (k + N.of_nat j)%N) (nth_error l j).
Proof.
  induction l as [|x l IH]; intros k [|j]; cbn [from nth_error option_map]; try reflexivity.
  - rewrite N.add_0_r. reflexivity.
  - rewrite IH. replace (k + 1 + N.of_nat j)%N with (k + N.of_nat (S j))%N by lia. reflexivity.
Qed.

(** [line] has the range of the group in its component [part]. *)
Lemma ranges_of_groups {A L} (line : N -> A -> L) (part : L -> range) (group : A -> nat * nat) (gs : list A) owner :
  (forall i x, part (line i x) = range_of i (fst (group x)) (snd (group x))) ->
  points_to owner (map group gs) -> ranges_right owner (map part (numbered line gs)).
Proof.
  intros P (o & -> & T & G). destruct (tiles_bound _ _ _ T) as (_ & B & _). rewrite Forall_forall in B.
  intros i j. rewrite numbered_from. rewrite !nth_error_map, nth_from, N.add_0_l.
  assert (E : option_map Some (nth_error o i) = Some (Some j) <-> nth_error o i = Some j).
  { destruct (nth_error o i); cbn; split; intros H; try discriminate; injection H as ->; reflexivity. }
  rewrite E, G. rewrite nth_error_map. split.
  - intros (s & c & H & R). destruct (nth_error gs j) as [x|] eqn:EX; [|discriminate]. cbn in *. injection H as H.
    exists (part (line (N.of_nat j) x)). split; [reflexivity|]. rewrite P, H. cbn. split; [reflexivity|]. lia.
  - intros (r & H & _ & R). destruct (nth_error gs j) as [x|] eqn:EX; [|discriminate]. cbn in *. injection H as <-. rewrite P in R. cbn in R.
    exists (fst (group x)), (snd (group x)). split; [now destruct (group x)|].
    destruct (B (group x)) as (B1 & B2); [apply in_map; now apply nth_error_In in EX|]. lia.
Qed.

Definition small_kinds (cores : list core) (clusters : list cluster) (processors : list processor) : Prop :=
  Forall (fun c => c_vendor c < two32 /\ c_uarch c < two32)%N cores /\ Forall (fun c => cl_vendor c < two32 /\ cl_uarch c < two32)%N clusters /\
  Forall (fun p => p_linux_id p < two31 /\ p_apic_id p < two32)%N processors.

Lemma consistent_printable names uarchs ps cs ls ks : consistent ps cs ls ks -> (N.of_nat (length ps) < two32)%N ->
  Forall (fun name => ~ In 10%N name) names /\ (N.of_nat (length names) <= two32)%N ->
  Forall (fun u => (N.of_nat (snd u) < two32)%N /\ (exists id, In (id, fst u) uarch_constants) /\ ~ without_name uarch_constants unnamed_uarchs (fst u)) uarchs ->
  small_kinds cs ls ps -> printable names uarchs cs ls ps.
Proof.
  intros C B NL U (K1 & K2 & K3).
  destruct (points_to_bound _ _ (processors_in_cores _ _ _ _ C)) as (A1 & L1). destruct (points_to_bound _ _ (processors_in_clusters _ _ _ _ C)) as (A2 & L2).
  destruct (points_to_bound _ _ (cores_in_clusters _ _ _ _ C)) as (A3 & L3). rewrite !map_length in *.
  rewrite Forall_map in A1, A2, A3.
  assert (LC : length cs <= length ps) by exact L1. assert (LL : length ls <= length ps) by exact L2.
  constructor; [exact NL|exact U| | |].
  - split; [|lia]. rewrite Forall_forall in *. intros c I. destruct (A1 c I) as (X & Y). destruct (K1 c I). cbn in *. unfold told. repeat split; auto; lia.
  - split; [|lia]. rewrite Forall_forall in *. intros c I. destruct (A2 c I) as (X & Y). destruct (A3 c I) as (X' & Y'). destruct (K2 c I). cbn in *.
    unfold told. repeat split; auto; lia.
  - split; [exact K3|lia].
Qed.

Lemma kinds_from {A L} (line : N -> A -> L * (N * N)) (kind : A -> N * N) l : (forall i x, snd (line i x) = kind x) -> map snd (numbered line l) = map kind l.
Proof.
  intros H. rewrite numbered_from. generalize 0%N. induction l as [|x l IH]; intros i; [reflexivity|]. cbn [from map]. rewrite H, IH. reflexivity.
Qed.

Lemma consistent_report g names uarchs ps cs ls ks : consistent ps cs ls ks -> (N.of_nat (length ps) < two32)%N ->
  Forall (fun name => ~ In 10%N name) names /\ (N.of_nat (length names) <= two32)%N /\ names <> [] ->
  Forall (fun u => (N.of_nat (snd u) < two32)%N /\ (exists id, In (id, fst u) uarch_constants) /\ ~ without_name uarch_constants unnamed_uarchs (fst u)) uarchs ->
  small_kinds cs ls ps ->
  exists s r, cpu_info g (View names uarchs cs ls ps) = Ok s /\ read_cpu_info (on_android g) (on_linux g) (on_x86 g) s = Some r /\
    ranges_right (map p_core ps) (map fst (rp_cores r)) /\
    ranges_right (map p_cluster ps) (map (fun l => fst (fst l)) (rp_clusters r)) /\
    ranges_right (map c_cluster cs) (map (fun l => snd (fst l)) (rp_clusters r)) /\
    map snd (rp_cores r) = map (fun c => (c_vendor c, c_uarch c)) cs /\ map snd (rp_clusters r) = map (fun c => (cl_vendor c, cl_uarch c)) ls.
Proof.
  intros C B (N1 & N2 & N3) U K. pose proof (consistent_printable names uarchs ps cs ls ks C B (conj N1 N2) U K) as P.
  destruct (report_read g (View names uarchs cs ls ps) P) as (s & E & R); [now intros _|].
  eexists. eexists. split; [exact E|]. split; [exact R|]. cbn [rp_cores rp_clusters v_cores v_clusters].
  split; [|split; [|split; [|split]]].
  - apply (ranges_of_groups core_line fst core_processors); [reflexivity|]. apply C.
  - apply (ranges_of_groups cluster_line (fun l => fst (fst l)) cluster_processors); [reflexivity|]. apply C.
  - apply (ranges_of_groups cluster_line (fun l => snd (fst l)) cluster_cores); [reflexivity|]. apply C.
  - apply (kinds_from core_line); reflexivity.
  - apply (kinds_from cluster_line); reflexivity.
Qed.
