(** cache-info on x86 Linux. *)
From Verif Require Import Base Sorting Text LinuxTextModel TopologySpec X86CpuinfoModel X86CpuinfoSpec
  X86LinuxModel X86LinuxSpec X86FinalProofs ReportSpec CacheInfoModel CacheInfoSpec CacheInfoProofs.
Open Scope N_scope.

(** ** A description determines the cache *)
Lemma fits_same level k g h d : well_formed g -> well_formed h -> fits level k g d -> fits level k h d -> same_shape g h.
Proof.
  intros (E & P & _) (E' & P' & _) F F'.
  assert (S : g_size g = g_size h) by (rewrite <- (fits_size _ _ _ _ F); apply (fits_size _ _ _ _ F')).
  assert (T : g_sets g = g_sets h) by (rewrite <- (fits_sets _ _ _ _ F); apply (fits_sets _ _ _ _ F')).
  assert (Q : g_partitions g = g_partitions h) by (rewrite <- (fits_partitions _ _ _ _ F); apply (fits_partitions _ _ _ _ F')).
  assert (L : g_line_size g = g_line_size h) by (rewrite <- (fits_line _ _ _ _ F); apply (fits_line _ _ _ _ F')).
  split; [exact S|]. split; [|auto]. rewrite T, Q, L in E. rewrite S in E, P.
  apply (N.mul_cancel_r _ _ (g_sets h * g_partitions h * g_line_size h)); [|rewrite !N.mul_assoc; congruence].
  intros Z. replace (g_associativity h * g_sets h * g_partitions h * g_line_size h) with (g_associativity h * (g_sets h * g_partitions h * g_line_size h)) in E' by ring.
  rewrite Z in E'. lia.
Qed.

(** ** Ranges *)
Open Scope nat_scope.
Lemma tiles_bound : forall rs from to, tiles from rs to -> from + length rs <= to /\ Forall (fun r => snd r <= to) rs.
Proof.
  induction rs as [|[s c] rs IH]; intros from to T; cbn [tiles] in T.
  - subst to. split; [cbn; lia|constructor].
  - destruct T as (-> & P & T). apply IH in T. destruct T as (L & F). split; [cbn [length]; lia|]. constructor; [|exact F].
    cbn [snd]. lia.
Qed.
Open Scope N_scope.

Lemma level_good g bits ps pointers l n : level_reported g bits ps pointers l n -> sound g -> N.of_nat (length ps) < two32 ->
  good (n, l) /\ n = length l /\ Forall (fun c => ca_geometry c = g) l.
Proof.
  intros (En & Lp & Z & NZ) S B. destruct (N.eq_dec (g_size g) 0) as [E|E].
  - destruct (Z E) as (-> & _). subst n. split; [left; reflexivity|]. split; [reflexivity|constructor].
  - destruct (NZ E) as ((owner & Eo & T & Own) & F & _). destruct S as [S|(W & A1 & A2 & A3 & A4)]; [contradiction|].
    apply tiles_bound in T. destruct T as (T & Tf). rewrite map_length in T. rewrite Forall_map in Tf. cbn in T.
    assert (Lo : length owner = length ps) by (rewrite <- Lp, Eo, map_length; reflexivity).
    split; [|split; [exact En|exact F]]. destruct l as [|c l]; [left; exact En|].
    right. cbn [fst snd]. split; [subst n; lia|]. exists c, l. split; [reflexivity|].
    inversion F as [|? ? G Fl]; subst. inversion Tf as [|? ? Tc Tl]; subst. unfold cache_processors in Tc. cbn [snd] in Tc.
    split; [|exact W]. unfold narrow. destruct W as (_ & _ & W). repeat split; try assumption. lia.
Qed.

Lemma level_all level k n l g ds : level_told level k (n, l) ds -> n = length l -> Forall (fun c => ca_geometry c = g) l -> all_told level k l ds.
Proof.
  intros T En F. inversion T; subst; try (destruct l; [constructor|discriminate]).
  - inversion F as [|? ? G Fl]; subst. apply unified_not_told. constructor; [assumption|].
    eapply Forall_impl; [|exact Fl]. intros c' E. unfold left_out in *. now rewrite E.
  - inversion F as [|? ? G Fl]; subst. apply each_told; [discriminate|assumption|]. constructor; [assumption|].
    eapply Forall_impl; [|exact Fl]. intros c' E. cbn beta in E. now rewrite E.
Qed.

Lemma x86_report_all char_signed default sorter calloc_ok x files o t :
  qsort_contract sorter -> x86_linux_init char_signed default sorter calloc_ok x files = Ok o -> o_published o = Some t ->
  (forall c, In c [xi_l1i x; xi_l1d x; xi_l2 x; xi_l3 x; xi_l4 x] -> sound (xc_geometry c)) -> N.of_nat (length (t_processors t)) < two32 ->
  exists s d1i d1d d2 d3 d4, cache_info (of_tables t) = Ok s /\ read_report s = Some (last_level_size x, d1i ++ d1d ++ d2 ++ d3 ++ d4) /\
    all_told 1 Instruction (t_l1i t) d1i /\ all_told 1 Data (t_l1d t) d1d /\ all_told 2 Data (t_l2 t) d2 /\ all_told 3 Data (t_l3 t) d3 /\ all_told 4 Data (t_l4 t) d4.
Proof.
  intros Q I P S B. pose proof (published_caches _ _ _ _ _ _ _ _ Q I P) as (R1 & R2 & R3 & R4 & R5).
  pose proof (published_max_cache _ _ _ _ _ _ _ _ Q I P) as M.
  assert (Q1 := S (xi_l1i x) ltac:(cbn; tauto)). assert (Q2 := S (xi_l1d x) ltac:(cbn; tauto)). assert (Q3 := S (xi_l2 x) ltac:(cbn; tauto)). assert (Q4 := S (xi_l3 x) ltac:(cbn; tauto)). assert (Q5 := S (xi_l4 x) ltac:(cbn; tauto)).
  destruct (level_good _ _ _ _ _ _ R1 Q1 B) as (G1 & N1 & F1).
  destruct (level_good _ _ _ _ _ _ R2 Q2 B) as (G2 & N2 & F2).
  destruct (level_good _ _ _ _ _ _ R3 Q3 B) as (G3 & N3 & F3).
  destruct (level_good _ _ _ _ _ _ R4 Q4 B) as (G4 & N4 & F4).
  destruct (level_good _ _ _ _ _ _ R5 Q5 B) as (G5 & N5 & F5).
  assert (Bm : t_max_cache_size t < two32).
  { rewrite M. unfold last_level_size. destruct (last_level x) as [c|] eqn:E; [|reflexivity]. unfold last_level in E. apply find_some in E. destruct E as (E & _).
    destruct (S c) as [Z|((_ & _ & H) & _)]; [cbn in E |- *; tauto| |exact H]. now rewrite Z. }
  destruct (report_told (of_tables t) Bm G1 G2 G3 G4 G5) as (s & d1i & d1d & d2 & d3 & d4 & Ei & Er & T1 & T2 & T3 & T4 & T5).
  exists s, d1i, d1d, d2, d3, d4. split; [exact Ei|]. split; [rewrite <- M; exact Er|].
  split; [exact (level_all _ _ _ _ _ _ T1 N1 F1)|]. split; [exact (level_all _ _ _ _ _ _ T2 N2 F2)|]. split; [exact (level_all _ _ _ _ _ _ T3 N3 F3)|].
  split; [exact (level_all _ _ _ _ _ _ T4 N4 F4)|exact (level_all _ _ _ _ _ _ T5 N5 F5)].
Qed.
