(** What initialisation on Apple processors publishes. *)
From Verif Require Import Base BaseProofs Loops Text Fill TopologySpec ApiModel ApiProofs X86CountsModel X86CountsSpec X86CountsProofs X86CountsFinal.
From Verif Require Import ArmMachModel ArmMachSpec ArmMachProofs.
From Verif Require X86LinuxModel ArmLinuxModel.
Import X86LinuxModel(cstate, CState, cs_caches, cs_pointers, compute_max_cache_size, cache_size_at).
Import ArmLinuxModel(arm_uarch, ArmUarch, arm_uarch0, au_uarch, au_midr, au_processors, au_cores).
Open Scope nat_scope.
Ltac Zify.zify_post_hook ::= idtac.

(** ** Caches *)
Definition way (associativity line : N) : N := u32 (associativity * line).
Definition geometry_of (size associativity line : N) : geometry := Geometry size associativity (size / way associativity line) 1 line 0.
Definition private_state (size line : N) (threads : nat) : cstate :=
  if (size =? 0)%N then no_level threads
  else CState (map (fun c => Cache (geometry_of size 4 line) (c * 1) 1) (seq 0 threads)) (map Some (seq 0 threads)) None 0.
Definition shared_state (size associativity line : N) (cores threads : nat) : cstate :=
  if (size =? 0)%N then no_level threads
  else CState [Cache (geometry_of size associativity line) 0 cores] (map (fun _ => Some 0) (seq 0 threads)) None 0.

(** A cache that is there has a line size that is not zero. *)
Definition divisible (size associativity line : N) : Prop := size <> 0%N -> way associativity line <> 0%N.

Lemma geometry_ok size associativity line : way associativity line <> 0%N -> cache_geometry size associativity line = Ok (geometry_of size associativity line).
Proof. intros H. unfold cache_geometry. fold (way associativity line). destruct (N.eqb_spec (way associativity line) 0); [contradiction|reflexivity]. Qed.
Lemma geometry_undefined size associativity line : way associativity line = 0%N -> cache_geometry size associativity line = UB.
Proof. intros H. unfold cache_geometry. fold (way associativity line). now rewrite H. Qed.

Lemma build_private_ok size line threads : size <> 0%N -> way 4 line <> 0%N -> build_private size line threads = Ok (private_state size line threads).
Proof.
  intros S W. unfold build_private, private_state. destruct (N.eqb_spec size 0); [contradiction|].
  rewrite (fill_all _ (fun c => Cache (geometry_of size 4 line) (c * 1) 1)). 2: { intros i _. rewrite geometry_ok by exact W. reflexivity. }
  cbn [bind]. rewrite (fill_all _ Some); [reflexivity|]. intros i Hi. rewrite divide_pos by lia. cbn [bind]. rewrite Nat.div_1_r. apply address_le. lia.
Qed.
Lemma build_private_undefined size line threads : 0 < threads -> way 4 line = 0%N -> build_private size line threads = UB.
Proof.
  intros T W. unfold build_private. rewrite (fill_undefined _ _ _ 0); [reflexivity|exact T| |lia|apply repeat_length]. now rewrite geometry_undefined.
Qed.
Lemma build_shared_ok size associativity line cores threads : size <> 0%N -> way associativity line <> 0%N ->
  build_shared size associativity line cores threads = Ok (shared_state size associativity line cores threads).
Proof.
  intros S W. unfold build_shared, shared_state. destruct (N.eqb_spec size 0); [contradiction|].
  rewrite (fill_all _ (fun c => Cache (geometry_of size associativity line) (c * cores) cores)). 2: { intros i _. rewrite geometry_ok by exact W. reflexivity. }
  cbn [bind]. rewrite (fill_all _ (fun _ => Some 0)); [reflexivity|]. reflexivity.
Qed.
Lemma build_shared_undefined size associativity line cores threads : way associativity line = 0%N -> build_shared size associativity line cores threads = UB.
Proof.
  intros W. unfold build_shared. rewrite (fill_undefined _ _ _ 0); [reflexivity|lia| |lia|apply repeat_length]. now rewrite geometry_undefined.
Qed.

(** ** Memory *)
Lemma mach_cleanup_all l : mach_cleanup [] l = [].
Proof. induction l as [|[] l IH]; cbn; auto. Qed.
Lemma mach_cleanup_kept l : mach_cleanup mach_resets l = l.
Proof. induction l as [|b l IH]; [reflexivity|]. transitivity (b :: mach_cleanup mach_resets l); [now destruct b|now rewrite IH]. Qed.

Lemma with_block_inv calloc_ok b i live k o : with_block calloc_ok b i live k = Ok o ->
  mo_published o = None /\ mo_live o = [] \/ calloc_ok b = true /\ k (live ++ [b]) = Ok o.
Proof.
  unfold with_block. destruct (calloc_ok b); [now right|]. intros E. injection E as <-. left. split; [reflexivity|apply mach_cleanup_all].
Qed.
Definition level_blocks (b : mblock) (size : N) : list mblock := if (size =? 0)%N then [] else [b].
Lemma with_level_inv calloc_ok b size threads live build k o : with_level calloc_ok b size threads live build k = Ok o ->
  mo_published o = None /\ mo_live o = [] \/
  exists c, (if (size =? 0)%N then Ok (no_level threads) else build) = Ok c /\ k c (live ++ level_blocks b size) = Ok o.
Proof.
  unfold with_level, level_blocks. destruct (size =? 0)%N; [intros E; right; exists (no_level threads); now rewrite app_nil_r|].
  intros E. apply with_block_inv in E. destruct E as [E|(_ & E)]; [now left|]. destruct build as [c| |]; try discriminate. right. now exists c.
Qed.

(** ** The tables in closed form *)
Definition mach_tables (family : N) (P C T b : nat) (u v line l1i l1d l2 l3 max : N) : tables :=
  let i1 := private_state l1i line T in let d1 := private_state l1d line T in
  let s2 := shared_state l2 8 line C T in let s3 := shared_state l3 16 line C T in
  let l1_count := if negb (l1i =? 0)%N || negb (l1d =? 0)%N then T else 0 in
  Tables (processors_final P C T b) (cores_final family P C T b) (clusters_after P C T b u v C) (packages_final P C T b)
    (cs_caches i1) (cs_caches d1) (cs_caches s2) (cs_caches s3) []
    (cs_pointers i1) (cs_pointers d1) (cs_pointers s2) (cs_pointers s3) (repeat None T)
    T C (number_of_clusters C b) P l1_count l1_count (if (l2 =? 0)%N then 0 else 1) (if (l3 =? 0)%N then 0 else 1) 0
    max 0 0 0 0 0 [] [].
Definition mach_blocks (l1i l1d l2 l3 : N) : list mblock :=
  (((([M_processors; M_cores; M_packages; M_clusters; M_uarchs] ++ level_blocks M_l1i l1i) ++ level_blocks M_l1d l1d) ++
    level_blocks M_l2 l2) ++ level_blocks M_l3 l3).
Definition mach_max (line l1d l2 l3 : N) (C T : nat) : res N :=
  compute_max_cache_size (private_state l1d line T) (shared_state l2 8 line C T) (shared_state l3 16 line C T) (no_level T).

Lemma mach_max_ok line l1d l2 l3 C T : 0 < T -> mach_max line l1d l2 l3 C T = Ok (first_nonzero [l3; l2; l1d]).
Proof.
  intros H. unfold mach_max, compute_max_cache_size, first_nonzero. cbn [find no_level cs_pointers].
  assert (R0 : rd (repeat (@None nat) T) 0 = Ok None) by (destruct T; [lia|reflexivity]). rewrite R0. cbn [bind].
  unfold shared_state, private_state, rd, cache_size_at.
  destruct (N.eqb_spec l3 0) as [->|Z3]; cbn [negb no_level cs_pointers cs_caches].
  2: { rewrite nth_error_table. destruct (Nat.ltb_spec 0 T); [|lia]. reflexivity. }
  fold (rd (repeat (@None nat) T) 0). rewrite R0. cbn [bind].
  destruct (N.eqb_spec l2 0) as [->|Z2]; cbn [negb no_level cs_pointers cs_caches].
  2: { rewrite nth_error_table. destruct (Nat.ltb_spec 0 T); [|lia]. reflexivity. }
  fold (rd (repeat (@None nat) T) 0). rewrite R0. cbn [bind].
  destruct (N.eqb_spec l1d 0) as [->|Z1]; cbn [negb no_level cs_pointers cs_caches].
  - fold (rd (repeat (@None nat) T) 0). rewrite R0. reflexivity.
  - destruct T as [|T]; [lia|]. reflexivity.
Qed.

Section Init.
Variables (calloc_ok : mblock -> bool) (a : apple_answers).
Let t := mach_detect_topology (aa_topology a).
Let T := mt_threads t.
Let C := mt_cores t.
Let P := mt_packages t.
Let tpc := T / C.
Let cpp := C / P.
Let tpp := T / P.
Let family := sys_info (aa_family a).
Let line := sys_info (aa_line a).
Let l1i := sys_info (aa_l1i a).
Let l1d := sys_info (aa_l1d a).
Let l2 := sys_info (aa_l2 a).
Let l3 := sys_info (aa_l3 a).

(** [b] cores of one kind, the others of another one. *)
Definition split_at (family : N) (cores b : nat) (u v : N) : Prop :=
  0 < b <= cores /\ (b < cores -> u <> v) /\ forall i, i < cores -> decode_uarch family i cores = if i <? b then u else v.

(** The numbers for which the tables can be built. *)
Definition buildable : Prop :=
  0 < cpp /\ 0 < tpc /\ (forall i, i < C -> i / cpp <= P) /\ (forall i, i < T -> i / tpc < C) /\ (forall i, i < T -> i / tpp <= P).

Definition mach_published (b : nat) (u v : N) (name : list N) : mach_outcome :=
  MachOutcome (Some (AppleTables (mach_tables family P C T b u v line l1i l1d l2 l3 (first_nonzero [l3; l2; l1d]))
                                 (uarchs_after C b u v C) name)) true (mach_blocks l1i l1d l2 l3).

Lemma arm_mach_cases o : arm_mach_init calloc_ok a = Ok o ->
  mo_published o = None /\ mo_live o = [] \/
  exists b u v name, split_at family C b u v /\ 0 < cpp /\ 0 < tpc /\ (forall i, i < C -> i / cpp <= P) /\ (forall i, i < T -> i / tpc < C) /\
    package_name a = Ok name /\
    divisible l1i 4 line /\ divisible l1d 4 line /\ divisible l2 8 line /\ divisible l3 16 line /\
    o = mach_published b u v name.
Proof.
  intros E. destruct (mach_numbers (aa_topology a)) as (PP & CP & TP). cbv zeta in *. fold t in PP, CP, TP. fold P C T in PP, CP, TP.
  unfold arm_mach_init in E. cbv zeta in E. fold t in E. fold P C T in E.
  apply with_block_inv in E. destruct E as [E|(_ & E)]; [now left|]. apply with_block_inv in E. destruct E as [E|(_ & E)]; [now left|].
  apply with_block_inv in E. destruct E as [E|(_ & E)]; [now left|]. rewrite divide_pos in E by exact CP. rewrite !divide_pos in E by exact PP.
  cbn [bind] in E. fold tpc tpp cpp in E. rewrite build_packages_ok in E by exact PP. cbn [bind] in E.
  destruct (package_name a) as [name| |] eqn:EN; try discriminate. cbn [bind] in E. fold family in E.
  destruct (build_cores _ _ _ _ _) as [cs| |] eqn:EC; try discriminate. cbn [bind] in E.
  apply build_cores_inv in EC; [|exact CP]. destruct EC as (CPP & A & ->).
  destruct (decode_split family C CP) as (b & u & v & BB & UV & D). rewrite (count_clusters_ok family P C T PP CP TP b u v BB UV D) in E. cbn [bind] in E.
  destruct (build_processors _ _ _ _ _) as [ps| |] eqn:EP; try discriminate. cbn [bind] in E.
  apply build_processors_inv in EP; [|exact TP]. destruct EP as (TPC & TPP & ->).
  apply with_block_inv in E. destruct E as [E|(_ & E)]; [now left|]. apply with_block_inv in E. destruct E as [E|(_ & E)]; [now left|].
  unfold tpc in E. rewrite (kinds_ok family P C T PP CP TP b u v BB UV D CPP) in E. cbn [bind kinds_after k_index k_uarchs k_clusters k_cores] in E. rewrite (cores_final_after family P C T PP CP TP b u v BB UV D) in E.
  destruct (link_processors _ _ _ _) as [ps| |] eqn:EL; try discriminate. cbn [bind] in E.
  pose proof (link_processors_inv family P C T PP CP TP b u v BB UV D _ TPC EL) as R. rewrite (link_processors_ok family P C T PP CP TP b u v BB UV D TPC R) in EL. injection EL as <-.
  unfold cpp, tpp in E. rewrite (link_packages_ok family P C T PP CP TP b u v BB UV D) in E. cbn [bind] in E. fold line l1i l1d l2 l3 in E.
  apply with_level_inv in E. destruct E as [E|(c1 & E1 & E)]; [now left|].
  apply with_level_inv in E. destruct E as [E|(c2 & E2 & E)]; [now left|].
  apply with_level_inv in E. destruct E as [E|(c3 & E3 & E)]; [now left|].
  apply with_level_inv in E. destruct E as [E|(c4 & E4 & E)]; [now left|]. right. exists b, u, v, name.
  assert (Q : forall size c, (if (size =? 0)%N then Ok (no_level T) else build_private size line T) = Ok c ->
            divisible size 4 line /\ c = private_state size line T).
  { intros size c H. unfold divisible. destruct (N.eqb_spec size 0) as [Z|Z].
    - injection H as <-. split; [congruence|]. unfold private_state. now rewrite Z.
    - destruct (N.eq_dec (way 4 line) 0) as [W|W]; [now rewrite build_private_undefined in H|]. rewrite build_private_ok in H by assumption. injection H as <-. now split. }
  assert (S : forall size assoc c, (if (size =? 0)%N then Ok (no_level T) else build_shared size assoc line C T) = Ok c ->
            divisible size assoc line /\ c = shared_state size assoc line C T).
  { intros size assoc c H. unfold divisible. destruct (N.eqb_spec size 0) as [Z|Z].
    - injection H as <-. split; [congruence|]. unfold shared_state. now rewrite Z.
    - destruct (N.eq_dec (way assoc line) 0) as [W|W]; [now rewrite build_shared_undefined in H|]. rewrite build_shared_ok in H by assumption. injection H as <-. now split. }
  apply Q in E1, E2. apply S in E3, E4. destruct E1 as (D1 & ->), E2 as (D2 & ->), E3 as (D3 & ->), E4 as (D4 & ->).
  fold (mach_max line l1d l2 l3 C T) in E. rewrite mach_max_ok in E by exact TP. cbn [bind] in E. injection E as <-.
  split; [now repeat split|]. split; [exact CPP|]. split; [exact TPC|]. split; [exact A|]. split; [exact R|]. split; [reflexivity|].
  split; [exact D1|]. split; [exact D2|]. split; [exact D3|]. split; [exact D4|].
  rewrite mach_cleanup_kept. reflexivity.
Qed.

Lemma arm_mach_success name : (forall b, calloc_ok b = true) -> buildable -> package_name a = Ok name ->
  divisible l1i 4 line -> divisible l1d 4 line -> divisible l2 8 line -> divisible l3 16 line ->
  exists b u v, split_at family C b u v /\ arm_mach_init calloc_ok a = Ok (mach_published b u v name).
Proof.
  intros M (CPP & TPC & A & R & B) EN D1 D2 D3 D4. destruct (mach_numbers (aa_topology a)) as (PP & CP & TP). cbv zeta in *. fold t in PP, CP, TP. fold P C T in PP, CP, TP.
  destruct (decode_split family C CP) as (b & u & v & BB & UV & D). exists b, u, v. split; [now repeat split|].
  assert (TPP : 0 < tpp).
  { unfold tpp. apply Nat.div_str_pos. split; [exact PP|]. apply Nat.le_trans with C.
    - destruct (Nat.le_gt_cases P C) as [L|L]; [exact L|]. unfold cpp in CPP. rewrite Nat.div_small in CPP by exact L. lia.
    - destruct (Nat.le_gt_cases C T) as [L|L]; [exact L|]. unfold tpc in TPC. rewrite Nat.div_small in TPC by exact L. lia. }
  unfold arm_mach_init. cbv zeta. fold t. fold P C T. unfold with_block at 1 2 3. rewrite !M.
  rewrite (divide_pos T C) by exact CP. rewrite !divide_pos by exact PP. cbn [bind]. rewrite build_packages_ok by exact PP. cbn [bind]. rewrite EN. cbn [bind].
  fold family. rewrite build_cores_ok by assumption. cbn [bind]. rewrite (count_clusters_ok family P C T PP CP TP b u v BB UV D). cbn [bind].
  rewrite build_processors_ok; [|assumption|assumption|intros i Hi; apply Nat.lt_le_incl; now apply R|assumption]. cbn [bind].
  unfold with_block at 1 2. rewrite !M. rewrite (kinds_ok family P C T PP CP TP b u v BB UV D CPP). cbn [bind kinds_after k_index k_uarchs k_clusters k_cores]. rewrite (cores_final_after family P C T PP CP TP b u v BB UV D).
  rewrite (link_processors_ok family P C T PP CP TP b u v BB UV D TPC R). cbn [bind]. rewrite (link_packages_ok family P C T PP CP TP b u v BB UV D). cbn [bind]. fold line l1i l1d l2 l3.
  assert (Q : forall bl size build live k c, (size = 0%N -> c = no_level T) -> (size <> 0%N -> build = Ok c) ->
            with_level calloc_ok bl size T live build k = k c (live ++ level_blocks bl size)).
  { intros bl size build live k c H0 H1. unfold with_level, with_block, level_blocks. rewrite M. destruct (N.eqb_spec size 0) as [Z|Z].
    - rewrite app_nil_r, H0 by exact Z. reflexivity.
    - rewrite H1 by exact Z. reflexivity. }
  rewrite (Q _ _ _ _ _ (private_state l1i line T)); [|unfold private_state; intros ->; reflexivity|intros Z; apply build_private_ok; auto].
  rewrite (Q _ _ _ _ _ (private_state l1d line T)); [|unfold private_state; intros ->; reflexivity|intros Z; apply build_private_ok; auto].
  rewrite (Q _ _ _ _ _ (shared_state l2 8 line C T)); [|unfold shared_state; intros ->; reflexivity|intros Z; apply build_shared_ok; auto].
  rewrite (Q _ _ _ _ _ (shared_state l3 16 line C T)); [|unfold shared_state; intros ->; reflexivity|intros Z; apply build_shared_ok; auto].
  fold (mach_max line l1d l2 l3 C T). rewrite mach_max_ok by exact TP. cbn [bind]. unfold mach_published, mach_blocks. rewrite mach_cleanup_kept. reflexivity.
Qed.
End Init.
