(** Windows for ARM: packages, cores, and connecting them. *)
From Verif Require Import Base BaseProofs Loops TopologySpec ArmWindowsModel ArmWindowsSpec ArmWindowsLoops ArmWindowsCaches.
From Verif Require X86WindowsSpec X86WindowsModel X86WindowsProofs ArmLinuxModel.
Import X86WindowsSpec(group_start, mask_processors, mask_valid, says, numbered).
Import X86WindowsModel(winfo, wi_expected, wi_groups, before_groups, total, mask_bits, each, core_takes, cluster_takes, package_takes).
Import X86WindowsProofs(each_app, each_map, each_ext, each_flat_map, tagged, tagged_snd, index_of, mask_list, info_list, total_sum).
Import ArmLinuxModel(arm_uarch, ArmUarch, arm_uarch0, au_uarch, au_midr, au_processors, au_cores).
Ltac Zify.zify_post_hook ::= idtac.
Open Scope nat_scope.

Lemma fold_same {W A} (f : W -> A -> A) (g : A -> A) : (forall x, g (g x) = g x) -> forall ws x, ws <> [] -> (forall w y, In w ws -> f w y = g y) ->
  fold_left (fun x w => f w x) ws x = g x.
Proof.
  intros I. induction ws as [|w ws IH]; intros x Ne H; [congruence|]. cbn [fold_left]. rewrite H by now left. destruct ws as [|v ws]; [reflexivity|].
  rewrite IH; [apply I|discriminate|]. intros. apply H. now right.
Qed.

Lemma NoDup_split {A} : forall (l l' : list A), NoDup (l ++ l') -> NoDup l /\ NoDup l' /\ forall x, In x l -> In x l' -> False.
Proof.
  induction l as [|a l IH]; intros l' N; cbn [app] in N; [repeat split; [constructor|exact N|intros ? []]|].
  apply NoDup_cons_iff in N. destruct N as (N1 & N). destruct (IH l' N) as (A1 & A2 & A3). split; [|split].
  - constructor; [|exact A1]. intros X. apply N1, in_app_iff. now left.
  - exact A2.
  - intros x [<-|X] Y; [|now apply (A3 x)]. apply N1, in_app_iff. now right.
Qed.

Lemma parts n sets (f : nat -> nat) : partition n sets -> (forall i, i < n -> exists s, nth_error sets (f i) = Some s /\ In i s) ->
  forall j s, nth_error sets j = Some s -> (forall i, In i s <-> i < n /\ (f i =? j) = true) /\ NoDup s /\ s <> [].
Proof.
  intros (P & F) H j s Hj. assert (ND : NoDup (concat sets)) by (apply (Permutation_NoDup (Permutation_sym P)), seq_NoDup).
  assert (U : forall (l : list (list nat)), NoDup (concat l) -> forall a b s t i, nth_error l a = Some s -> nth_error l b = Some t -> In i s -> In i t -> a = b).
  { clear. induction l as [|x l IH]; intros N a b s t i Ha Hb Is It; [destruct a; discriminate|]. cbn [concat] in N.
    assert (D : forall k u, nth_error l k = Some u -> In i x -> In i u -> False).
    { intros k u Hk Ix Iu. apply (proj2 (proj2 (NoDup_split _ _ N)) i Ix). apply in_concat. exists u. split; [now apply nth_error_In in Hk|exact Iu]. }
    destruct a as [|a], b as [|b]; cbn in Ha, Hb; try reflexivity.
    - injection Ha as ->. destruct (D b t Hb Is It).
    - injection Hb as ->. destruct (D a s Ha It Is).
    - f_equal. apply (IH) with s t i; auto. apply (NoDup_split _ _ N). }
  split; [|split].
  - intros i. split.
    + intros I. assert (L : i < n).
      { assert (X : In i (seq 0 n)) by (apply (Permutation_in _ P), in_concat; exists s; split; [now apply nth_error_In in Hj|exact I]). apply in_seq in X. lia. }
      split; [exact L|]. destruct (H i L) as (t & Ht & It). apply Nat.eqb_eq. now apply (U sets ND _ _ t s i).
    + intros (L & E). apply Nat.eqb_eq in E. subst j. destruct (H i L) as (t & Ht & It). congruence.
  - clear - Hj ND. revert j Hj. induction sets as [|x l IH]; intros j Hj; [destruct j; discriminate|]. cbn [concat] in ND. destruct j as [|j]; cbn in Hj.
    + injection Hj as <-. apply (NoDup_split _ _ ND).
    + apply (IH) with j; auto. apply (NoDup_split _ _ ND).
  - rewrite Forall_forall in F. apply F. now apply nth_error_In in Hj.
Qed.

Section PASSES.
Context (sizes : list nat).
Let before := before_groups sizes 0.
Let n := list_sum sizes.

Lemma says_length infos sets : says sizes infos sets -> length (filter wi_expected infos) = length sets.
Proof. intros (_ & <-). now rewrite map_length. Qed.
Lemma partition_some sets : 0 < n -> partition n sets -> (length sets =? 0) = false.
Proof.
  intros H (P & _). apply Nat.eqb_neq. destruct sets; [|discriminate]. apply Permutation_length in P. rewrite seq_length in P. cbn in P. lia.
Qed.

(** ** Packages *)

Lemma packages_pass infos packages : 0 < n -> says sizes infos packages -> partition n packages ->
  exists ps, read_relation true (Some infos) wi_expected (fun id info => parse_processor_info before n (store_package id) (wi_groups info)) (repeat wproc0 n) =
      Ok (Some (length packages, ps)) /\
    length ps = n /\ (forall i p k, nth_error ps i = Some p -> cache_pointer p k = None) /\
    forall i p, nth_error ps i = Some p -> (exists q, nth_error packages (wp_package p) = Some q /\ In i q) /\
      wp_group p < length sizes /\ wp_number p < nth (wp_group p) sizes 0 /\ i = group_start sizes (wp_group p) + wp_number p.
Proof.
  intros H0 S P. destruct (says_lists sizes infos packages S) as (F & _). destruct (writes_unique sizes infos packages n S (proj1 P)) as (W1 & W2 & W3).
  unfold read_relation. cbn [negb]. unfold before. rewrite (parse_infos_flat sizes (fun id i g b => store_package id i g b)) by exact F.
  set (ws := tagged 0 _) in *. unfold store_package.
  destruct (each_modify (fun w => index_of sizes (snd w)) (fun w => set_package (fst w) (fst (snd w)) (snd (snd w))) ws (repeat wproc0 n)) as (ps & E & L & V).
  { rewrite repeat_length. exact W1. }
  exists ps. cbv beta in E. rewrite E. unfold obind. cbn [bind fst plus]. rewrite (says_length _ _ S), (partition_some _ H0 P). split; [reflexivity|].
  rewrite repeat_length in L. split; [exact L|].
  assert (G : forall i p, nth_error ps i = Some p -> exists w s, p = set_package (fst w) (fst (snd w)) (snd (snd w)) wproc0 /\ nth_error packages (fst w) = Some s /\ In i s /\
    fst (snd w) < length sizes /\ snd (snd w) < nth (fst (snd w)) sizes 0 /\ i = group_start sizes (fst (snd w)) + snd (snd w)).
  { intros i p Hp. pose proof (nth_error_some_lt _ _ _ _ Hp) as Li. rewrite L in Li. destruct (W3 i Li) as (w & s & Fw & R).
    exists w, s. split; [|exact R]. rewrite (V i wproc0 (nth_error_repeat _ _ _ _ Li)), Fw in Hp. cbn [fold_left] in Hp. congruence. }
  split.
  - intros i p k Hp. destruct (G i p Hp) as (w & s & -> & _). destruct k; reflexivity.
  - intros i p Hp. destruct (G i p Hp) as (w & s & -> & Hs & Is & R). cbn [wp_package wp_group wp_number set_package]. split; [now exists s|exact R].
Qed.

(** ** Cores *)

Lemma count_cores infos cores : 0 < n -> says sizes infos cores -> partition n cores ->
  read_relation true (Some infos) wi_expected (fun id info => parse_processor_info before n (fun _ _ _ s => Ok s) (wi_groups info)) tt = Ok (Some (length cores, tt)).
Proof.
  intros H0 S P. destruct (says_lists sizes infos cores S) as (F & _). unfold read_relation. cbn [negb]. unfold before.
  rewrite (parse_infos_flat sizes (fun _ _ _ _ s => Ok s)) by exact F.
  assert (E : forall {W} (l : list W), each (fun _ s => Ok s) l tt = Ok tt) by (induction l as [|w l IH]; [reflexivity|exact IH]).
  rewrite E. unfold obind. cbn [bind fst plus]. now rewrite (says_length _ _ S), (partition_some _ H0 P).
Qed.

Definition core_filled (chip : chip_info) (id : nat) (c : core) : core :=
  Core (c_processor_start c) (c_processor_count c) id (c_cluster c) (c_package c) (c_vendor c) (ci_uarch chip) (c_cpuid c).

Lemma cores_pass chip infos cores ps : 0 < n -> says sizes infos cores -> partition n cores -> length ps = n ->
  exists s, read_relation true (Some infos) wi_expected (fun id info => parse_processor_info before n (store_core chip id) (wi_groups info))
      (CoresState ps (repeat core0 (length cores)) (repeat 0%N (length cores))) = Ok (Some (length cores, s)) /\
    length (cs_processors s) = n /\
    (forall i p, nth_error (cs_processors s) i = Some p -> exists q j s, nth_error ps i = Some q /\ nth_error cores j = Some s /\ In i s /\ p = set_core j q) /\
    cs_cores s = map (fun j => Core 0 0 j None None 0 (ci_uarch chip) 0) (seq 0 (length cores)) /\
    cs_frequencies s = repeat (ci_frequency chip) (length cores).
Proof.
  intros H0 S P L0. destruct (says_lists sizes infos cores S) as (F & EM & _). destruct (writes_unique sizes infos cores n S (proj1 P)) as (W1 & W2 & W3).
  unfold read_relation. cbn [negb]. unfold before. rewrite (parse_infos_flat sizes (fun id i g b => store_core chip id i g b)) by exact F.
  assert (WJ : forall j, j < length cores -> exists w, In w (tagged 0 (map info_list (filter wi_expected infos))) /\ fst w = j).
  { intros j Hj. apply nth_error_lt in Hj. destruct Hj as (s & Hs). destruct P as (_ & NE). rewrite Forall_forall in NE.
    assert (s <> []) by (apply NE; now apply nth_error_In in Hs). rewrite <- EM in Hs. rewrite nth_error_map in Hs.
    destruct (nth_error (map info_list (filter wi_expected infos)) j) as [l|] eqn:El; [|discriminate]. injection Hs as <-. destruct l as [|gb l]; [exfalso; auto|].
    exists (j, gb). split; [|reflexivity]. apply tagged_in. exists j, (gb :: l). split; [reflexivity|]. split; [exact El|now left]. }
  set (ws := tagged 0 _) in *.
  destruct (each_modify (fun w => index_of sizes (snd w)) (fun w => set_core (fst w)) ws ps) as (ps' & EP & LP & VP); [rewrite L0; exact W1|].
  destruct (each_modify fst (fun w => core_filled chip (fst w)) ws (repeat core0 (length cores))) as (cs & EC & LC & VC); [rewrite repeat_length; exact W2|].
  destruct (each_modify fst (fun w _ => ci_frequency chip) ws (repeat 0%N (length cores))) as (fs & EF & LF & VF); [rewrite repeat_length; exact W2|].
  assert (E3 : forall ws a b c a' b' c', each (fun w l => modify l (index_of sizes (snd w)) (set_core (fst w))) ws a = Ok a' ->
    each (fun w l => modify l (fst w) (core_filled chip (fst w))) ws b = Ok b' -> each (fun w l => modify l (fst w) (fun _ => ci_frequency chip)) ws c = Ok c' ->
    each (fun e => store_core chip (fst e) (index_of sizes (snd e)) (fst (snd e)) (snd (snd e))) ws (CoresState a b c) = Ok (CoresState a' b' c')).
  { clear. induction ws as [|w ws IH]; intros a b c a' b' c' Ha Hb Hc; cbn [each] in *; [congruence|]. unfold store_core at 1. cbn [cs_processors cs_cores cs_frequencies].
    destruct (modify a _ _) as [a1| |]; cbn [bind] in Ha |- *; try discriminate. fold (core_filled chip (fst w)).
    destruct (modify b _ _) as [b1| |]; cbn [bind] in Hb |- *; try discriminate.
    rewrite wr_modify. destruct (modify c _ _) as [c1| |]; cbn [bind] in Hc |- *; try discriminate. now apply IH. }
  rewrite (E3 _ _ _ _ _ _ _ EP EC EF). eexists. unfold obind. cbn [bind fst plus]. rewrite (says_length _ _ S), (partition_some _ H0 P). split; [reflexivity|].
  cbn [cs_processors cs_cores cs_frequencies]. rewrite repeat_length in LC, LF. split; [congruence|].
  assert (NJ : forall j, j < length cores -> filter (fun w => fst w =? j) ws <> []).
  { intros j Hj. destruct (WJ j Hj) as (w & Hw & Ej). intros X. assert (I : In w (filter (fun w => fst w =? j) ws)) by (apply filter_In; split; [exact Hw|now apply Nat.eqb_eq]).
    rewrite X in I. destruct I. }
  split; [|split].
  - intros i p Hp. pose proof (nth_error_some_lt _ _ _ _ Hp) as Li. rewrite LP in Li. pose proof Li as Li'. rewrite L0 in Li'. destruct (W3 i Li') as (w & s & Fw & Hs & Is & _).
    apply nth_error_lt in Li. destruct Li as (q & Hq). exists q, (fst w), s. split; [exact Hq|]. split; [exact Hs|]. split; [exact Is|].
    rewrite (VP i q Hq), Fw in Hp. cbn [fold_left] in Hp. congruence.
  - apply nth_error_ext. intros j. destruct (Nat.lt_ge_cases j (length cores)) as [Lj|Lj].
    + rewrite (VC j core0 (nth_error_repeat _ _ _ _ Lj)), (fold_same _ (core_filled chip j)).
      * rewrite nth_error_map, (nth_error_nth' _ 0) by (now rewrite seq_length). rewrite seq_nth by exact Lj. reflexivity.
      * reflexivity.
      * now apply NJ.
      * intros w y Hw. apply filter_In in Hw. destruct Hw as (_ & Hw). apply Nat.eqb_eq in Hw. now rewrite Hw.
    + rewrite !(proj2 (nth_error_None _ _)); [reflexivity|rewrite map_length, seq_length; lia|lia].
  - apply nth_error_ext. intros j. destruct (Nat.lt_ge_cases j (length cores)) as [Lj|Lj].
    + rewrite (VF j 0%N (nth_error_repeat _ _ _ _ Lj)), (fold_same _ (fun _ => ci_frequency chip)); [now rewrite nth_error_repeat|reflexivity|now apply NJ|reflexivity].
    + rewrite !(proj2 (nth_error_None _ _)); [reflexivity|rewrite repeat_length; lia|lia].
Qed.
End PASSES.

(** ** Connecting processors *)

Lemma down_each {T} (body : nat -> T -> res (option T)) : forall n s, down_opt body n s = each_opt body (rev (seq 0 n)) s.
Proof.
  induction n as [|n IH]; intros s; [reflexivity|]. rewrite rev_seq_S. cbn [down_opt each_opt]. unfold obind.
  destruct (body n s) as [[s'|]| |]; cbn [bind]; try reflexivity. apply IH.
Qed.
Lemma modify_length {A} (l : list A) i f l' : modify l i f = Ok l' -> length l' = length l.
Proof. unfold modify. destruct (nth_error l i); [|discriminate]. intros [= <-]. apply upd_length. Qed.

Definition cluster_at (ps : list wproc) (i : nat) : nat := wp_cluster (nth i ps wproc0).
Definition package_at (ps : list wproc) (i : nat) : nat := wp_package (nth i ps wproc0).

Lemma connect_each name s cores ps : converted name = Some s -> forall ws o cs cls pks names,
  (forall w, In w ws -> exists p, nth_error ps w = Some p /\ wp_core p = Some (wp_cluster p) /\ wp_cluster p < cores /\ wp_package p < length (ob_packages o)) ->
  each (fun w l => modify l (cluster_at ps w) (core_takes w)) ws (ob_cores o) = Ok cs ->
  each (fun w l => modify l (cluster_at ps w) (cluster_takes w)) ws (ob_clusters o) = Ok cls ->
  each (fun w l => modify l (package_at ps w) (package_takes w)) ws (ob_packages o) = Ok pks ->
  each (fun w l => modify l (package_at ps w) (fun _ => s)) ws (ob_names o) = Ok names ->
  each_opt (connect_processor name cores ps) ws o = Ok (Some (Objects cs cls pks names (ob_frequencies o))).
Proof.
  intros Hn. induction ws as [|w ws IH]; intros o cs cls pks names H E1 E2 E3 E4; cbn [each each_opt] in *; [destruct o; cbn in *; congruence|].
  destruct (H w (or_introl eq_refl)) as (p & Hp & C1 & C2 & C3). unfold cluster_at, package_at in E1, E2, E3, E4. rewrite (nth_error_nth _ _ _ Hp) in E1, E2, E3, E4.
  unfold connect_processor at 1. unfold rd. rewrite Hp. cbn [bind]. destruct (Nat.leb_spec (length (ob_packages o)) (wp_package p)); [lia|].
  destruct (Nat.leb_spec cores (wp_cluster p)); [lia|]. rewrite Hn, wr_modify.
  destruct (modify (ob_names o) _ _) as [n1| |]; cbn [bind] in E4 |- *; try discriminate.
  destruct (modify (ob_packages o) _ _) as [k1| |] eqn:Q; cbn [bind] in E3 |- *; try discriminate.
  destruct (modify (ob_clusters o) _ _) as [l1| |]; cbn [bind] in E2 |- *; try discriminate. rewrite C1.
  destruct (modify (ob_cores o) _ _) as [c1| |]; cbn [bind] in E1 |- *; try discriminate. unfold obind. cbn [bind].
  apply (IH (Objects c1 l1 k1 n1 (ob_frequencies o))); try assumption. cbn [ob_packages]. rewrite (modify_length _ _ _ _ Q). intros v Hv. apply H. now right.
Qed.

(** ** Connecting cores *)

Definition core_done (vendor : N) (packages : nat -> nat) (w : nat) (c : core) : core :=
  Core (c_processor_start c) (c_processor_count c) (c_core_id c) (Some w) (Some (packages w)) vendor (c_uarch c) (c_cpuid c).
Definition cluster_done (vendor uarch : N) (packages : nat -> nat) (w : nat) (l : cluster) : cluster :=
  Cluster (cl_processor_start l) (cl_processor_count l) w (S (cl_core_count l)) (cl_cluster_id l) (Some (packages w)) vendor uarch (cl_cpuid l).
Definition package_done (w : nat) (k : package) : package :=
  Package (pk_processor_start k) (pk_processor_count k) w (S (pk_core_count k)) w (S (pk_core_count k)).

Lemma connect_cores_each vendor uarch packages ps : forall ws o cs cls pks, NoDup ws ->
  (forall w, In w ws -> exists c p, nth_error (ob_cores o) w = Some c /\ nth_error ps (c_processor_start c) = Some p /\ wp_cluster p = w /\
     wp_package p = packages w /\ c_uarch c = uarch) ->
  each (fun w l => modify l w (core_done vendor packages w)) ws (ob_cores o) = Ok cs ->
  each (fun w l => modify l w (cluster_done vendor uarch packages w)) ws (ob_clusters o) = Ok cls ->
  each (fun w l => modify l (packages w) (package_done w)) ws (ob_packages o) = Ok pks ->
  each_opt (connect_core vendor ps) ws o = Ok (Some (Objects cs cls pks (ob_names o) (ob_frequencies o))).
Proof.
  induction ws as [|w ws IH]; intros o cs cls pks N H E1 E2 E3; cbn [each each_opt] in *; [destruct o; cbn in *; congruence|].
  destruct (H w (or_introl eq_refl)) as (c & p & Hc & Hp & C1 & C2 & C3). apply NoDup_cons_iff in N. destruct N as (N1 & N).
  unfold connect_core at 1. unfold rd. rewrite Hc. cbn [bind]. rewrite Hp. cbn [bind]. rewrite C1, C2, C3.
  rewrite (modify_ok _ _ _ _ _ Hc) in E1. cbn [bind] in E1. 
  assert (EQ : core_done vendor packages w c = Core (c_processor_start c) (c_processor_count c) (c_core_id c) (Some w) (Some (packages w)) vendor uarch (c_cpuid c))
    by (unfold core_done; now rewrite C3). rewrite EQ in E1.
  rewrite wr_ok by (now apply nth_error_some_lt in Hc). cbn [bind].
  change (modify (ob_clusters o) w (fun l => Cluster (cl_processor_start l) (cl_processor_count l) w (S (cl_core_count l)) (cl_cluster_id l) (Some (packages w)) vendor uarch (cl_cpuid l)))
    with (modify (ob_clusters o) w (cluster_done vendor uarch packages w)).
  destruct (modify (ob_clusters o) _ _) as [l1| |]; cbn [bind] in E2 |- *; try discriminate.
  change (modify (ob_packages o) (packages w) (fun k => Package (pk_processor_start k) (pk_processor_count k) w (S (pk_core_count k)) w (S (pk_core_count k))))
    with (modify (ob_packages o) (packages w) (package_done w)).
  destruct (modify (ob_packages o) _ _) as [k1| |]; cbn [bind] in E3 |- *; try discriminate. unfold obind. cbn [bind].
  apply (IH (Objects _ l1 k1 (ob_names o) (ob_frequencies o))); cbn [ob_cores ob_clusters ob_packages]; try assumption.
  intros v Hv. destruct (H v (or_intror Hv)) as (c' & p' & Hc' & R). exists c', p'. split; [|exact R]. rewrite nth_error_upd_neq; [exact Hc'|]. intros ->. contradiction.
Qed.
