(** macOS, FreeBSD and Windows publish the tables written out. *)
From Coq Require Import NArith List Lia Bool Arith.
From Verif Require Import Base BaseProofs TopologySpec Fill X86CpuinfoSpec X86LinuxModel X86LinuxSpec X86OfflineSpec X86CountsSpec SameMachineSpec SameMachineProofs SameMachineLinux.
From Verif Require X86LinuxProps X86CountsModel X86CountsProps X86WindowsModel X86WindowsSpec X86WindowsProps.
Import ListNotations.
Open Scope nat_scope.

(** A number made of three fields. *)
Lemma three_fields a tl cl : (a = a / 2 ^ (tl + cl) * 2 ^ (tl + cl) + field a tl cl * 2 ^ tl + field a 0 tl)%N.
Proof.
  unfold field. change (2 ^ 0)%N with 1%N. rewrite N.div_1_r, N.pow_add_r, <- N.div_div by (apply N.pow_nonzero; discriminate).
  pose proof (N.div_mod a (2 ^ tl) ltac:(apply N.pow_nonzero; discriminate)) as H1.
  pose proof (N.div_mod (a / 2 ^ tl) (2 ^ cl) ltac:(apply N.pow_nonzero; discriminate)) as H2.
  rewrite H1 at 1. rewrite H2 at 1. generalize (a / 2 ^ tl / 2 ^ cl)%N, ((a / 2 ^ tl) mod 2 ^ cl)%N, (a mod 2 ^ tl)%N, (2 ^ tl)%N, (2 ^ cl)%N.
  clear. intros. lia.
Qed.

Section APIC.
Variables (P cpp tpc : nat) (x : xinfo) (t : tables).
Hypothesis HP : 0 < P.
Hypothesis Hc : 0 < cpp.
Hypothesis Ht : 0 < tpc.
Hypothesis AF : adjacent_fields x.
Hypothesis W : written P cpp tpc x t.

Lemma written_at i p : nth_error (t_processors t) i = Some p ->
  i < P * cpp * tpc /\ p_smt_id p = i mod tpc /\ p_core p = Some (i / tpc) /\ p_package p = Some (i / (cpp * tpc)) /\
  exists c, nth_error (t_cores t) (i / tpc) = Some c /\ c_core_id c = i / tpc mod cpp.
Proof.
  intros H. assert (X : nth_error (map place (t_processors t)) i = Some (place p)) by now rewrite nth_error_map, H.
  rewrite (wr_processors _ _ _ _ _ W) in X. apply table_some in X. destruct X as (Hi & X). injection X as X1 X2 _ X3.
  split; [exact Hi|]. split; [exact X1|]. split; [exact X2|]. split; [exact X3|].
  assert (Q : i / tpc < P * cpp) by (apply Nat.div_lt_upper_bound; lia). eexists. rewrite (wr_cores _ _ _ _ _ W). split; [apply table_some; now split|reflexivity].
Qed.

Lemma fields_apic :
  (forall i p j c, nth_error (t_processors t) i = Some p -> p_core p = Some j -> nth_error (t_cores t) j = Some c ->
    field (p_apic_id p) (xi_thread_offset x) (xi_thread_length x) = N.of_nat (p_smt_id p) /\
    field (p_apic_id p) (xi_core_offset x) (xi_core_length x) = N.of_nat (c_core_id c) /\
    exists k, p_package p = Some k /\ (p_apic_id p / 2 ^ package_offset x)%N = N.of_nat k) ->
  forall i p, nth_error (t_processors t) i = Some p -> p_apic_id p = apic cpp tpc x i.
Proof.
  intros F i p H. destruct (written_at i p H) as (Hi & E1 & E2 & E3 & c & Ec & E4). destruct (F i p _ c H E2 Ec) as (F1 & F2 & k & Ek & F3).
  rewrite E3 in Ek. injection Ek as <-. destruct AF as (O1 & O2 & _).
  assert (PO : package_offset x = (xi_thread_length x + xi_core_length x)%N) by (unfold package_offset; rewrite O1, O2; lia).
  rewrite O1, E1 in F1. rewrite O2, E4 in F2. rewrite PO in F3.
  rewrite (three_fields (p_apic_id p) (xi_thread_length x) (xi_core_length x)), F1, F2, F3. reflexivity.
Qed.

Lemma apic_table : (forall i p, nth_error (t_processors t) i = Some p -> p_apic_id p = apic cpp tpc x i) -> apic_ids_written x P cpp tpc t.
Proof.
  intros F. apply (table_eq _ (fun i => apic_of x (i / (cpp * tpc)) (i / tpc mod cpp) (i mod tpc))).
  - rewrite map_length. pose proof (wr_processors _ _ _ _ _ W) as E. apply (f_equal (@length _)) in E. now rewrite !map_length, seq_length in E.
  - intros i a Ha. rewrite nth_error_map in Ha. destruct (nth_error (t_processors t) i) as [p|] eqn:E; [|discriminate]. cbn in Ha. injection Ha as <-.
    apply (F i p E).
Qed.
End APIC.

Lemma apic_described_written P cpp tpc x t : 0 < P -> 0 < cpp -> 0 < tpc -> adjacent_fields x -> written P cpp tpc x t ->
  N.of_nat cpp = (2 ^ xi_core_length x)%N -> apic_described cpp x t -> apic_ids_written x P cpp tpc t.
Proof.
  intros HP Hc Ht AF W C [_ D]. apply apic_table; auto. apply (fields_apic P); auto.
  intros i p j c A B E. destruct (D i p j c A B E) as (D1 & D2 & D3). split; [exact D1|]. split; [now apply D3|exact D2].
Qed.

(** ** macOS and FreeBSD *)

Lemma suffice P cpp tpc x : fields_hold x cpp tpc -> (N.of_nat P <= 2 ^ (32 - (xi_thread_length x + xi_core_length x)))%N -> fields_suffice P cpp tpc x.
Proof.
  intros ((O1 & O2 & O3) & T & C) K. unfold fields_suffice, package_offset. rewrite O1, O2.
  replace (N.max (0 + xi_thread_length x) (xi_thread_length x + xi_core_length x)) with (xi_thread_length x + xi_core_length x)%N by lia.
  split; [left; lia|]. auto.
Qed.

Lemma mach_written calloc_ok x a P cpp tpc : 0 < P -> 0 < cpp -> 0 < tpc -> fields_hold x cpp tpc ->
  mach_says (X86CountsModel.ma_physicalcpu_max a) (X86CountsModel.ma_logicalcpu_max a) (X86CountsModel.ma_packages a) P (P * cpp) (P * cpp * tpc) ->
  usual_reports x cpp tpc (config_says (X86CountsModel.ma_cacheconfig a)) -> In (config_says (X86CountsModel.ma_cacheconfig a) 4) [0; P * cpp * tpc] ->
  (N.of_nat (P * cpp * tpc) < two32)%N -> (xi_thread_length x + xi_core_length x < 32)%N -> (forall b, calloc_ok b = true) ->
  exists o t, X86CountsModel.x86_mach_init calloc_ok x a = Ok o /\ X86CountsModel.o_published o = Some t /\ written P cpp tpc x t /\
    (g_size (xc_geometry (xi_l4 x)) = 0%N -> written_caches P cpp tpc x t) /\
    (N.of_nat cpp = (2 ^ xi_core_length x)%N -> (N.of_nat P <= 2 ^ (32 - (xi_thread_length x + xi_core_length x)))%N -> apic_ids_written x P cpp tpc t).
Proof.
  intros HP Hc Ht FH MS UR U4 B FD CO.
  destruct (X86CountsProps.x86_mach_describes_machine calloc_ok x a P cpp tpc HP Hc Ht MS) as (o & t & E & Ho & D & CD & AD); auto.
  { intros l Ll NZ. destruct UR as (U1 & U2 & U3).
    assert (K : forall r, r <> 0 -> In r [0; tpc] -> Nat.divide r (P * cpp * tpc)).
    { intros r R [<-|[<-|[]]]; [contradiction|]. now exists (P * cpp). }
    assert (K' : forall r, r <> 0 -> In r [0; cpp * tpc] -> Nat.divide r (P * cpp * tpc)).
    { intros r R [<-|[<-|[]]]; [contradiction|]. exists P. lia. }
    assert (l = 1 \/ l = 2 \/ l = 3 \/ l = 4) as [E|[E|[E|E]]] by lia; subst l.
    - now apply K.
    - destruct (_ =? 0)%N in U2; [now apply K'|now apply K].
    - now apply K'.
    - destruct U4 as [U4|[U4|[]]]; [congruence|]. rewrite <- U4. now exists 1; rewrite Nat.mul_1_l. }
  { unfold fields_defined, package_offset. destruct FH as ((-> & -> & _) & _). lia. }
  exists o, t. split; [exact E|]. split; [exact Ho|]. pose proof (describes_written P cpp tpc x t HP Hc Ht D) as W. split; [exact W|]. split.
  - intros Z. now apply (counted_written P cpp tpc (config_says (X86CountsModel.ma_cacheconfig a))).
  - intros C K. apply apic_described_written; auto; [apply FH|]. apply AD. now apply suffice.
Qed.

Lemma freebsd_written calloc_ok x a P cpp tpc spec : 0 < P -> 0 < cpp -> 0 < tpc -> fields_hold x cpp tpc ->
  X86CountsModel.fa_spec a = Some spec -> package_groups spec P ->
  X86CountsModel.fa_cores a = Some (Z.of_nat (P * cpp)) -> X86CountsModel.fa_threads_per_core a = Some (Z.of_nat tpc) ->
  (N.of_nat (P * cpp * tpc) < two32)%N -> (xi_thread_length x + xi_core_length x < 32)%N -> (forall b, calloc_ok b = true) ->
  exists o t, X86CountsModel.x86_freebsd_init calloc_ok x a = Ok o /\ X86CountsModel.o_published o = Some t /\ written P cpp tpc x t /\
    (g_size (xc_geometry (xi_l4 x)) = 0%N -> written_caches P cpp tpc x t) /\
    (N.of_nat cpp = (2 ^ xi_core_length x)%N -> (N.of_nat P <= 2 ^ (32 - (xi_thread_length x + xi_core_length x)))%N -> apic_ids_written x P cpp tpc t).
Proof.
  intros HP Hc Ht FH FS PG FC FT B FD CO.
  destruct (X86CountsProps.x86_freebsd_describes_machine calloc_ok x a P cpp tpc spec HP Hc Ht FS PG FC FT B) as (o & t & E & Ho & D & CD & AD); auto.
  { unfold fields_defined, package_offset. destruct FH as ((-> & -> & _) & _). lia. }
  exists o, t. split; [exact E|]. split; [exact Ho|]. pose proof (describes_written P cpp tpc x t HP Hc Ht D) as W. split; [exact W|]. split.
  - intros Z. apply (counted_written P cpp tpc (fun _ => 0)); auto. repeat split; now left.
  - intros C K. apply apic_described_written; auto; [apply FH|]. apply AD. now apply suffice.
Qed.

(** ** Windows with one package *)

Lemma windows_written heap_ok x a sizes cpp tpc : 0 < cpp -> 0 < tpc -> fields_hold x cpp tpc -> X86WindowsSpec.caches_defined x ->
  X86WindowsSpec.windows_says a sizes [map (fun c => seq (c * tpc) tpc) (seq 0 cpp)] ->
  (xi_thread_length x + xi_core_length x < 32)%N -> (forall b, heap_ok b = true) ->
  exists o t, X86WindowsModel.x86_windows_init heap_ok x a = Ok o /\ X86WindowsModel.o_published o = Some t /\
    written 1 cpp tpc x (X86WindowsModel.wt_tables t) /\ apic_ids_written x 1 cpp tpc (X86WindowsModel.wt_tables t) /\
    (usual_sharing x -> written_caches 1 cpp tpc x (X86WindowsModel.wt_tables t)).
Proof.
  intros Hc Ht FH CD WS FD HO. set (m := [map (fun c => seq (c * tpc) tpc) (seq 0 cpp)]) in *.
  destruct (FH) as ((O1 & O2 & O3) & FT & FC).
  assert (PO : package_offset x = (xi_thread_length x + xi_core_length x)%N) by (unfold package_offset; rewrite O1, O2; lia).
  assert (FD' : fields_defined x) by (unfold fields_defined; now rewrite PO).
  destruct (X86WindowsProps.x86_windows_describes heap_ok x a sizes m WS FD' CD) as (o & E & D & NN).
  specialize (NN HO). destruct (X86WindowsModel.o_published o) as [t|] eqn:Ho; [|now destruct NN]. clear NN.
  exists o, t. split; [exact E|]. split; [exact Ho|]. destruct (D t eq_refl) as (DD & _ & AD). clear D.
  assert (FF : X86WindowsSpec.fields_fit x m).
  { constructor; unfold m; cbn [concat].
    - rewrite O1, O2. lia.
    - rewrite app_nil_r. apply Forall_forall. intros c Hcc. apply in_map_iff in Hcc. destruct Hcc as (q & <- & _). now rewrite seq_length.
    - constructor; [|constructor]. now rewrite map_length, seq_length.
    - cbn [length]. rewrite PO. change (N.of_nat 1) with 1%N. pose proof (N.pow_nonzero 2 (32 - (xi_thread_length x + xi_core_length x)) ltac:(lia)). lia. }
  specialize (AD FF).
  pose proof (proj2 (X86WindowsProps.x86_windows_consistent_iff heap_ok x a sizes m o t WS FD' CD E Ho) eq_refl) as C.
  set (u := X86WindowsModel.wt_tables t) in *.
  destruct DD as [D1 D2 D3 D4 D5 D6 D7 D8 (D9 & D9') (D10 & D10' & D10'') (D11 & D12 & D13 & D14)].
  assert (Ln : list_sum sizes = cpp * tpc).
  { pose proof (X86WindowsSpec.or_all _ _ (X86WindowsSpec.ws_ordered _ _ _ WS)) as X. apply (f_equal (@length _)) in X. rewrite seq_length in X. rewrite <- X.
    unfold m. cbn [concat]. rewrite app_nil_r. clear. induction cpp as [|k IH]; [reflexivity|].
    rewrite seq_S, map_app, concat_app, app_length, IH. cbn [map concat]. rewrite app_nil_r, seq_length. lia. }
  assert (LK : length (t_packages u) = 1) by (apply (f_equal (@length _)) in D3; now rewrite map_length in D3).
  assert (Wc : Forall (fun r => snd r = tpc) (map core_processors (t_cores u))).
  { apply Forall_forall. intros r Hr. apply in_map_iff in Hr. destruct Hr as (c & <- & Hcc).
    assert (X : In (X86WindowsSpec.range (core_processors c)) (X86WindowsSpec.machine_cores m)) by (rewrite <- D2; apply (in_map (fun c => X86WindowsSpec.range (core_processors c))); exact Hcc).
    unfold m, X86WindowsSpec.machine_cores in X. cbn [concat] in X. rewrite app_nil_r in X. apply in_map_iff in X. destruct X as (q & X & _).
    apply (f_equal (@length _)) in X. unfold X86WindowsSpec.range in X. now rewrite !seq_length in X. }
  destruct (by_widths tpc cpp (map p_core (t_processors u)) (map core_processors (t_cores u)) Ht) as (_ & PC); [now rewrite map_length, D1|exact D5|exact Wc|].
  assert (PR : forall i p, nth_error (t_processors u) i = Some p -> i < cpp * tpc /\ p_core p = Some (i / tpc) /\ p_cluster p = Some 0 /\ p_package p = Some 0).
  { intros i p Ei. assert (X : nth_error (map p_core (t_processors u)) i = Some (p_core p)) by now rewrite nth_error_map, Ei.
    rewrite PC in X. apply table_some in X. destruct X as (Hi & X). split; [exact Hi|]. split; [exact X|]. split.
    - destruct (points_at _ _ _ _ i p (processors_in_clusters _ _ _ _ C) Ei) as (j & l & El & Hl). rewrite El.
      assert (j < 1) by (change 1 with (length m); rewrite <- D4; apply nth_error_Some; congruence). f_equal. lia.
    - destruct (points_at _ _ _ _ i p D6 Ei) as (j & l & El & Hl). rewrite El.
      assert (j < 1) by (rewrite <- LK; apply nth_error_Some; congruence). f_equal. lia. }
  assert (I : ids_are_offsets (t_processors u) (t_cores u) (t_clusters u) (t_packages u)).
  { constructor.
    - intros i p j c A B K. apply (D8 i p j c A B K).
    - intros i c j k A B K. pose proof (X86WindowsSpec.ap_core_ids _ _ AD i c j k A B K) as X. split; [exact X|].
      destruct D7 as (owner & Eo & _ & G). assert (Y : nth_error (map c_package (t_cores u)) i = Some (c_package c)) by now rewrite nth_error_map, A.
      rewrite Eo, nth_error_map, B in Y. destruct (nth_error owner i) as [j'|] eqn:O; [|discriminate]. cbn in Y. injection Y as ->.
      destruct (proj1 (G i j) O) as (s & n & R & In). rewrite nth_error_map, K in R. cbn in R. injection R as <- <-. lia.
    - intros i l j k A B K.
      assert (Li : i < 1) by (change 1 with (length m); rewrite <- D4; apply nth_error_Some; congruence).
      assert (Lj : j < 1) by (rewrite <- LK; apply nth_error_Some; congruence).
      rewrite Forall_forall in D10''. rewrite (D10'' l (nth_error_In _ _ A)).
      assert (X : nth_error (map package_clusters (t_packages u)) j = Some (package_clusters k)) by now rewrite nth_error_map, K.
      rewrite D10 in X. apply table_some in X. destruct X as (_ & X). injection X as -> ->. lia. }
  assert (W : written 1 cpp tpc x u).
  { apply write; auto.
    - rewrite D1, Ln. lia.
    - eapply Forall_impl; [|exact D9]. intros c (-> & -> & ->). reflexivity.
    - eapply Forall_impl; [|exact D9']. intros c (-> & -> & ->). reflexivity.
    - intros i j p q A B. destruct (PR i p A) as (A1 & A2 & A3 & A4). destruct (PR j q B) as (B1 & B2 & B3 & B4).
      rewrite A2, A3, A4, B2, B3, B4, !(Nat.div_small _ (cpp * tpc)) by assumption. repeat split; congruence.
    - rewrite D11, D12, D13, D14, D1. reflexivity. }
  assert (AP : forall i p, nth_error (t_processors u) i = Some p -> p_apic_id p = apic cpp tpc x i).
  { apply (fields_apic 1); auto; [now repeat split|]. apply (X86WindowsSpec.ap_fields _ _ AD). }
  split; [exact W|]. split; [apply apic_table; auto|].
  intros US. apply apic_caches; auto; [rewrite D1, Ln; lia|apply (X86WindowsSpec.ap_caches _ _ AD)|apply (X86WindowsSpec.ap_max _ _ AD)].
Qed.

(** ** All systems *)

Lemma level_same g n w p c p' c' : level_written g n w p c -> level_written g n w p' c' -> c = c' /\ p = p'.
Proof. unfold level_written. destruct (_ =? 0)%N; intros (A & B) (A' & B'); split; congruence. Qed.

Lemma written_same P cpp tpc x t u : written P cpp tpc x t -> written_caches P cpp tpc x t -> written P cpp tpc x u -> written_caches P cpp tpc x u -> same_tables t u.
Proof.
  intros [A1 A2 A3 A4 A5] [B1 B2 B3 B4 (B5 & B5') B6] [A1' A2' A3' A4' A5'] [B1' B2' B3' B4' (C5 & C5') B6'].
  constructor; try congruence.
  - exact (level_same _ _ _ _ _ _ _ B1 B1').
  - exact (level_same _ _ _ _ _ _ _ B2 B2').
  - exact (level_same _ _ _ _ _ _ _ B3 B3').
  - exact (level_same _ _ _ _ _ _ _ B4 B4').
  - split; congruence.
Qed.

Lemma usual_bits x : usual_sharing x -> (xi_thread_length x + xi_core_length x < 32)%N ->
  forall c, In c [xi_l1i x; xi_l1d x; xi_l2 x; xi_l3 x; xi_l4 x] -> g_size (xc_geometry c) <> 0%N -> (xc_apic_bits c < 32)%N.
Proof.
  intros [U1 U2 U3 U4 U5 _] B c [<-|[<-|[<-|[<-|[<-|[]]]]]] H.
  - rewrite (U1 H). lia.
  - rewrite (U2 H). lia.
  - rewrite (U3 H). destruct (_ =? 0)%N; lia.
  - rewrite (U4 H). lia.
  - contradiction.
Qed.

Lemma linux_publishes sg default sorter calloc_ok x fs max po pr ms P cpp tpc :
  0 < P -> 0 < cpp -> 0 < tpc -> fields_hold x cpp tpc -> usual_sharing x -> (xi_thread_length x + xi_core_length x < 32)%N -> qsort_contract sorter ->
  files_say default fs max po pr ms -> linux_machine x P cpp tpc (usable max po pr ms) ms -> (forall b, calloc_ok b = true) ->
  exists o t, x86_linux_init sg default sorter calloc_ok x fs = Ok o /\ o_published o = Some t /\
    written P cpp tpc x t /\ apic_ids_written x P cpp tpc t /\ written_caches P cpp tpc x t.
Proof.
  intros HP Hc Ht FH US B Q FS LM CO. destruct (FH) as ((O1 & O2 & O3) & _).
  assert (BO : bits_ok x). { unfold bits_ok. rewrite O1, O2. repeat split; try lia. now apply usual_bits. }
  destruct (lm_each _ _ _ _ _ _ LM 0 0 0 HP Hc Ht) as (cpu & Uc & Ac).
  destruct (X86LinuxProps.x86_linux_never_out_of_bounds sg default sorter calloc_ok x fs max po pr ms cpu Q FS BO Uc) as (o & E & NN).
  { rewrite Ac. unfold apic_of. cbn. unfold u32max. lia. }
  specialize (NN CO). destruct (o_published o) as [t|] eqn:Ho; [|now destruct NN]. exists o, t. split; [exact E|]. split; [exact Ho|].
  destruct (linux_written sg default sorter calloc_ok x fs max po pr ms P cpp tpc o t HP Hc Ht FH) as (X & Y & Z); auto.
  rewrite usual_last by exact US. lia.
Qed.

Lemma systems_same sg default sorter x fs max po pr ms a b spec P cpp tpc :
  0 < P -> 0 < cpp -> 0 < tpc -> fields_hold x cpp tpc -> usual_sharing x -> (xi_thread_length x + xi_core_length x < 32)%N ->
  (N.of_nat (P * cpp * tpc) < two32)%N ->
  qsort_contract sorter -> files_say default fs max po pr ms -> linux_machine x P cpp tpc (usable max po pr ms) ms ->
  mach_says (X86CountsModel.ma_physicalcpu_max a) (X86CountsModel.ma_logicalcpu_max a) (X86CountsModel.ma_packages a) P (P * cpp) (P * cpp * tpc) ->
  usual_reports x cpp tpc (config_says (X86CountsModel.ma_cacheconfig a)) -> In (config_says (X86CountsModel.ma_cacheconfig a) 4) [0; P * cpp * tpc] ->
  X86CountsModel.fa_spec b = Some spec -> package_groups spec P ->
  X86CountsModel.fa_cores b = Some (Z.of_nat (P * cpp)) -> X86CountsModel.fa_threads_per_core b = Some (Z.of_nat tpc) ->
  exists l m f t u v,
    x86_linux_init sg default sorter (fun _ => true) x fs = Ok l /\ o_published l = Some t /\
    X86CountsModel.x86_mach_init (fun _ => true) x a = Ok m /\ X86CountsModel.o_published m = Some u /\
    X86CountsModel.x86_freebsd_init (fun _ => true) x b = Ok f /\ X86CountsModel.o_published f = Some v /\
    same_tables t u /\ same_tables t v /\
    (N.of_nat cpp = (2 ^ xi_core_length x)%N -> (N.of_nat P <= 2 ^ (32 - (xi_thread_length x + xi_core_length x)))%N ->
     map p_apic_id (t_processors t) = map p_apic_id (t_processors u) /\ map p_apic_id (t_processors t) = map p_apic_id (t_processors v)).
Proof.
  intros HP Hc Ht FH US B T32 Q FS LM MS UR U4 FSP PG FC FT.
  destruct (linux_publishes sg default sorter (fun _ => true) x fs max po pr ms P cpp tpc) as (l & t & E1 & O1 & W1 & A1 & C1); auto.
  destruct (mach_written (fun _ => true) x a P cpp tpc) as (m & u & E2 & O2 & W2 & C2 & A2); auto.
  destruct (freebsd_written (fun _ => true) x b P cpp tpc spec) as (f & v & E3 & O3 & W3 & C3 & A3); auto.
  exists l, m, f, t, u, v. repeat (split; [assumption|]).
  split; [apply (written_same P cpp tpc x); auto; apply C2, US|]. split; [apply (written_same P cpp tpc x); auto; apply C3, US|].
  intros K1 K2. unfold apic_ids_written in A1, A2, A3. now rewrite A1, A2, A3.
Qed.

Lemma windows_same sg default sorter x fs max po pr ms a sizes cpp tpc :
  0 < cpp -> 0 < tpc -> fields_hold x cpp tpc -> usual_sharing x -> (xi_thread_length x + xi_core_length x < 32)%N ->
  qsort_contract sorter -> files_say default fs max po pr ms -> linux_machine x 1 cpp tpc (usable max po pr ms) ms ->
  X86WindowsSpec.windows_says a sizes [map (fun c => seq (c * tpc) tpc) (seq 0 cpp)] ->
  exists l w t u,
    x86_linux_init sg default sorter (fun _ => true) x fs = Ok l /\ o_published l = Some t /\
    X86WindowsModel.x86_windows_init (fun _ => true) x a = Ok w /\ X86WindowsModel.o_published w = Some u /\
    same_tables t (X86WindowsModel.wt_tables u) /\ map p_apic_id (t_processors t) = map p_apic_id (t_processors (X86WindowsModel.wt_tables u)).
Proof.
  intros Hc Ht FH US B Q FS LM WS.
  destruct (linux_publishes sg default sorter (fun _ => true) x fs max po pr ms 1 cpp tpc) as (l & t & E1 & O1 & W1 & A1 & C1); auto.
  destruct (windows_written (fun _ => true) x a sizes cpp tpc) as (w & u & E2 & O2 & W2 & A2 & C2); auto.
  { intros c I NZ. now apply usual_bits with x. }
  exists l, w, t, u. repeat (split; [assumption|]).
  split; [apply (written_same 1 cpp tpc x); auto|]. unfold apic_ids_written in A1, A2. now rewrite A1, A2.
Qed.
