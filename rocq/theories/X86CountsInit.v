(** Lemmas about initialisation on Mach and FreeBSD. *)
From Verif Require Import Base BaseProofs Loops Text Fill TopologySpec ApiModel ApiProofs Masks X86CountsModel X86CountsSpec X86CountsProofs.
From Verif Require X86LinuxModel.
Import X86LinuxModel(xinfo, xcache, xc_geometry, xi_vendor, xi_uarch, xi_cpuid, xi_thread_offset, xi_thread_length, xi_core_offset,
  xi_core_length, xi_l1i, xi_l1d, xi_l2, xi_l3, xi_l4, bit_mask, cstate, CState, cs_caches, cs_pointers, compute_max_cache_size, cache_size_at).
Open Scope nat_scope.
Ltac Zify.zify_post_hook ::= idtac.

Section Tables.
Variables (x : xinfo) (P cpp tpc : nat) (reported : nat -> nat).
Hypothesis PP : 0 < P.
Hypothesis CP : 0 < cpp.
Hypothesis TP : 0 < tpc.
Hypothesis WD : widths_divide P cpp tpc reported.
Let n := P * cpp * tpc.
Let w1 := l1_width reported tpc.
Let w2 := l2_width x reported cpp tpc.
Let w3 := l3_width reported cpp tpc.
Let w4 := l4_width reported P cpp tpc.

Lemma threads_pos : 0 < n. Proof. unfold n. nia. Qed.
Lemma tpc_divides : Nat.divide tpc n. Proof. exists (P * cpp). reflexivity. Qed.
Lemma package_divides : Nat.divide (cpp * tpc) n. Proof. exists P. unfold n. lia. Qed.

Lemma shared_divides l assumed : 1 <= l <= 4 -> 0 < assumed -> Nat.divide assumed n ->
  0 < shared_by (reported l) assumed /\ Nat.divide (shared_by (reported l) assumed) n.
Proof.
  intros L A D. unfold shared_by. destruct (Nat.eqb_spec (reported l) 0); [now split|]. split; [lia|]. now apply WD.
Qed.

Lemma w1_ok : 0 < w1 /\ Nat.divide w1 n.
Proof. apply shared_divides; [lia|exact TP|exact tpc_divides]. Qed.
Lemma w2_ok : 0 < w2 /\ Nat.divide w2 n.
Proof.
  apply shared_divides; [lia| |]; destruct (_ =? 0)%N; try nia; [exact package_divides|exact tpc_divides].
Qed.
Lemma w3_ok : 0 < w3 /\ Nat.divide w3 n.
Proof. apply shared_divides; [lia|nia|exact package_divides]. Qed.
Lemma w4_ok : 0 < w4 /\ Nat.divide w4 n.
Proof. apply shared_divides; [lia|exact threads_pos|apply Nat.divide_refl]. Qed.

Definition when_present (c : bool) (w : nat) : nat := if c then w else 0.
Definition widths_of : widths :=
  let p1 := present (xi_l1i x) || present (xi_l1d x) in
  let p2 := present (xi_l2 x) in let p3 := present (xi_l3 x) in let p4 := present (xi_l4 x) in
  Widths (when_present p1 w1) (when_present p1 (n / w1)) (when_present p2 w2) (when_present p2 (n / w2))
         (when_present p3 w3) (when_present p3 (n / w3)) (when_present p4 w4) (when_present p4 (n / w4)).

Lemma pair_when (c : bool) (a b : nat) : (if c then (a, b) else (0, 0)) = (when_present c a, when_present c b).
Proof. now destruct c. Qed.

Lemma mach_widths_ok t : mt_packages t = P -> mt_cores t = P * cpp -> mt_threads t = n -> (forall l, 1 <= l <= 4 -> mt_threads_per_cache t l = reported l) ->
  mach_widths x t = Ok widths_of.
Proof.
  intros EP EC ET ER. unfold mach_widths. rewrite EP, EC, ET, !ER by lia. cbv zeta.
  assert (D1 : divide n (P * cpp) = Ok tpc) by (unfold n; rewrite Nat.mul_comm; apply divide_mul; nia).
  assert (D2 : divide n P = Ok (cpp * tpc)) by (unfold n; rewrite <- Nat.mul_assoc, Nat.mul_comm; now apply divide_mul).
  rewrite D1, D2. rewrite (mach_width_ok _ n (reported 1) _ tpc eq_refl TP). cbn [bind].
  rewrite (mach_width_ok _ n (reported 2) _ (if (g_size (xc_geometry (xi_l3 x)) =? 0)%N then cpp * tpc else tpc)).
  2: { unfold present. now destruct (_ =? 0)%N. } 2: { destruct (_ =? 0)%N; nia. }
  cbn [bind]. rewrite (mach_width_ok _ n (reported 3) _ (cpp * tpc) eq_refl) by nia. cbn [bind].
  rewrite (mach_width_ok _ n (reported 4) _ n eq_refl threads_pos). cbn [bind]. rewrite !pair_when. reflexivity.
Qed.

Lemma freebsd_widths_ok : (forall l, reported l = 0) -> freebsd_widths x P (P * cpp) n = Ok (Some widths_of).
Proof.
  intros Z. unfold freebsd_widths.
  assert (D1 : divide n (P * cpp) = Ok tpc) by (unfold n; rewrite Nat.mul_comm; apply divide_mul; nia).
  assert (D2 : divide n P = Ok (cpp * tpc)) by (unfold n; rewrite <- Nat.mul_assoc, Nat.mul_comm; now apply divide_mul).
  assert (E1 : w1 = tpc) by (unfold w1, l1_width, shared_by; now rewrite Z).
  assert (E2 : w2 = if (g_size (xc_geometry (xi_l3 x)) =? 0)%N then cpp * tpc else tpc) by (unfold w2, l2_width, shared_by; now rewrite Z).
  assert (E3 : w3 = cpp * tpc) by (unfold w3, l3_width, shared_by; now rewrite Z).
  assert (E4 : w4 = n) by (unfold w4, l4_width, shared_by; now rewrite Z).
  pose proof threads_pos as TPos. rewrite D1, D2.
  rewrite freebsd_width_ok by exact TP. cbn [bind].
  replace (if present (xi_l3 x) then Ok tpc else Ok (cpp * tpc)) with (Ok (if (g_size (xc_geometry (xi_l3 x)) =? 0)%N then cpp * tpc else tpc)).
  2: { unfold present. now destruct (_ =? 0)%N. }
  rewrite freebsd_width_ok by (destruct (_ =? 0)%N; nia). cbn [bind]. rewrite freebsd_width_ok by nia. cbn [bind].
  rewrite freebsd_width_ok by exact TPos. cbn [bind]. rewrite !pair_when. unfold widths_of. rewrite E1, E2, E3, E4. reflexivity.
Qed.

Definition tables_of (o : objects) : tables :=
  let l1i := level_state (xi_l1i x) n w1 in let l1d := level_state (xi_l1d x) n w1 in let l2 := level_state (xi_l2 x) n w2 in
  let l3 := level_state (xi_l3 x) n w3 in let l4 := level_state (xi_l4 x) n w4 in
  Tables (ob_processors o) (ob_cores o) (ob_clusters o) (ob_packages o)
         (cs_caches l1i) (cs_caches l1d) (cs_caches l2) (cs_caches l3) (cs_caches l4)
         (cs_pointers l1i) (cs_pointers l1d) (cs_pointers l2) (cs_pointers l3) (cs_pointers l4)
         n (P * cpp) P P (w_l1_count widths_of) (w_l1_count widths_of) (w_l2_count widths_of) (w_l3_count widths_of) (w_l4_count widths_of)
         match find (fun n => negb (n =? 0)%N) (map (fun c => g_size (xc_geometry c)) [xi_l4 x; xi_l3 x; xi_l2 x; xi_l1d x]) with
         | Some n => n | None => 0%N end
         (xi_uarch x) (xi_cpuid x) n (P * cpp) 0 [] [].

Lemma outer_level c w : 0 < w -> Nat.divide w n ->
  (if 0 <? when_present (present c) (n / w) then build_level c n (when_present (present c) w) (when_present (present c) (n / w)) else Ok (no_level n)) =
  Ok (level_state c n w).
Proof.
  intros W D. unfold level_state, when_present. destruct (present c); [|reflexivity].
  assert (0 < n / w). { destruct D as (m & E). rewrite E, Nat.div_mul by lia. pose proof threads_pos. nia. }
  destruct (Nat.ltb_spec 0 (n / w)); [|lia]. now apply build_level_ok.
Qed.

Lemma build_tables_ok o : build_tables x P (P * cpp) n o widths_of = Ok (tables_of o).
Proof.
  destruct w1_ok as (A1 & B1), w2_ok as (A2 & B2), w3_ok as (A3 & B3), w4_ok as (A4 & B4). pose proof threads_pos as TPos.
  unfold build_tables. cbn [widths_of w_l1 w_l1_count w_l2 w_l2_count w_l3 w_l3_count w_l4 w_l4_count].
  assert (E1 : (if present (xi_l1i x) then build_level (xi_l1i x) n (when_present (present (xi_l1i x) || present (xi_l1d x)) w1)
                 (when_present (present (xi_l1i x) || present (xi_l1d x)) (n / w1)) else Ok (no_level n)) = Ok (level_state (xi_l1i x) n w1)).
  { unfold level_state. destruct (present (xi_l1i x)); [|reflexivity]. cbn [orb when_present]. now apply build_level_ok. }
  assert (E2 : (if present (xi_l1d x) then build_level (xi_l1d x) n (when_present (present (xi_l1i x) || present (xi_l1d x)) w1)
                 (when_present (present (xi_l1i x) || present (xi_l1d x)) (n / w1)) else Ok (no_level n)) = Ok (level_state (xi_l1d x) n w1)).
  { unfold level_state. destruct (present (xi_l1d x)); [|reflexivity]. rewrite Bool.orb_true_r. cbn [when_present]. now apply build_level_ok. }
  rewrite E1, E2. cbn [bind]. rewrite !outer_level by assumption. cbn [bind]. rewrite max_size by assumption. reflexivity.
Qed.

Lemma level_shared_when c w (q : bool) : 0 < w -> Nat.divide w n -> (present c = true -> q = true) ->
  level_shared (xc_geometry c) n w (cs_pointers (level_state c n w)) (cs_caches (level_state c n w)) (when_present q (n / w)).
Proof.
  intros W D Q. pose proof (level_state_shared c n w W D) as (A & B & C). split; [exact A|]. split; [exact B|].
  intros S. unfold when_present. rewrite Q; [now apply C|]. unfold present. apply Bool.negb_true_iff. now apply N.eqb_neq.
Qed.

Lemma tables_caches o : caches_described P cpp tpc reported x (tables_of o).
Proof.
  destruct w1_ok as (A1 & B1), w2_ok as (A2 & B2), w3_ok as (A3 & B3), w4_ok as (A4 & B4).
  split; [apply level_shared_when; auto| | | | |reflexivity]; try (apply level_shared_when; auto).
  - intros ->. reflexivity.
  - intros ->. apply Bool.orb_true_r.
Qed.

Lemma tables_describe : fields_defined x -> (N.of_nat n < two32)%N -> describes P cpp tpc x (tables_of (objects_of x P cpp tpc)).
Proof.
  intros FD N32. split; unfold tables_of, objects_of; cbn [t_processors t_cores t_clusters t_packages ob_processors ob_cores ob_clusters ob_packages
    t_processors_count t_cores_count t_clusters_count t_packages_count t_uarch t_uarch_cpuid t_uarch_processor_count t_uarch_core_count];
    rewrite ?map_length, ?seq_length; auto.
  - apply Forall_forall. intros c H. apply in_map_iff in H. destruct H as (k & <- & _). reflexivity.
  - apply Forall_forall. intros c H. apply in_map_iff in H. destruct H as (k & <- & _). reflexivity.
  - apply (objects_consistent x P cpp tpc); auto.
  - apply (objects_ids x P cpp tpc); auto.
  - apply Forall_forall. intros c H. apply in_map_iff in H. destruct H as (k & <- & _). reflexivity.
  - apply Forall_forall. intros c H. apply in_map_iff in H. destruct H as (k & <- & _). reflexivity.
Qed.
End Tables.

(** ** Memory *)
Lemma cleanup_all l : cleanup [] l = [].
Proof. unfold cleanup. induction l as [|b l IH]; [reflexivity|]. cbn [filter]. rewrite IH. now destruct b. Qed.
Lemma cleanup_kept l : cleanup reset_to_null l = l.
Proof. unfold cleanup. induction l as [|b l IH]; [reflexivity|]. cbn [filter]. rewrite IH. now destruct b. Qed.

Lemma allocate_spec calloc_ok : forall todo live,
  allocate calloc_ok todo live = (true, live ++ todo) /\ forallb calloc_ok todo = true \/
  exists got, allocate calloc_ok todo live = (false, live ++ got) /\ forallb calloc_ok todo = false.
Proof.
  induction todo as [|b todo IH]; intros live; cbn [allocate forallb].
  - left. now rewrite app_nil_r.
  - destruct (calloc_ok b); cbn [andb].
    + destruct (IH (live ++ [b])) as [(E & F)|(got & E & F)]; rewrite E, <- app_assoc; cbn [app]; [now left|right]. now exists (b :: got).
    + right. exists []. now rewrite app_nil_r.
Qed.

(** ** Counting packages *)
Lemma prefixb_spec : forall tag s, prefixb tag s = true <-> exists r, s = tag ++ r.
Proof.
  induction tag as [|c tag IH]; intros s; cbn [prefixb app].
  - split; [now exists s|reflexivity].
  - destruct s as [|d s]; [split; [discriminate|intros (r & E); discriminate]|]. rewrite Bool.andb_true_iff, IH, N.eqb_eq. split.
    + intros (-> & r & ->). now exists r.
    + intros (r & E). injection E as -> ->. split; [reflexivity|now exists r].
Qed.

Fixpoint positions (tag s : list N) : list nat :=
  match s with
  | [] => []
  | _ :: s' => (if prefixb tag s then [0] else []) ++ map S (positions tag s')
  end.

Lemma positions_occur tag : tag <> [] -> forall s i, In i (positions tag s) <-> occurs_at tag s i.
Proof.
  intros T. induction s as [|c s IH]; intros i; cbn [positions].
  - split; [easy|]. intros (r & E). rewrite skipn_nil in E. destruct tag; [congruence|discriminate].
  - rewrite in_app_iff, in_map_iff. unfold occurs_at. destruct i as [|i]; cbn [skipn].
    + rewrite <- prefixb_spec. destruct (prefixb tag (c :: s)); cbn [In]; split; auto; try easy.
      intros [[]|(k & E & _)]. discriminate.
    + destruct (IH i) as (A & B). split.
      * intros [H|(k & E & H)]; [destruct (prefixb tag (c :: s)); cbn in H; intuition discriminate|]. injection E as ->. now apply A.
      * intros H. right. exists i. split; [reflexivity|now apply B].
Qed.

Lemma positions_nodup tag : forall s, NoDup (positions tag s).
Proof.
  induction s as [|c s IH]; [constructor|]. cbn [positions].
  assert (NoDup (map S (positions tag s))) by (apply FinFun.Injective_map_NoDup; [intros a b E; now injection E|exact IH]).
  destruct (prefixb tag (c :: s)); cbn [app]; [|assumption]. constructor; [|assumption]. rewrite in_map_iff. intros (k & E & _). discriminate.
Qed.

Lemma count_tags_positions tag : tag <> [] -> forall s fuel k, length s < fuel ->
  count_tags fuel (strstr s tag) tag k = Ok (k + length (positions tag s)).
Proof.
  intros T. induction s as [|c s IH]; intros fuel k L; cbn [strstr positions].
  - destruct tag; [congruence|]. cbn [prefixb length]. destruct fuel; cbn [count_tags]; now rewrite Nat.add_0_r.
  - cbn [length] in L. rewrite app_length, map_length. destruct (prefixb tag (c :: s)).
    + destruct fuel as [|fuel]; [lia|]. cbn [count_tags length]. rewrite IH by lia. f_equal. lia.
    + cbn [length]. rewrite IH by lia. reflexivity.
Qed.

(** The number of packages: occurrences of the first tag, or else of the second. *)
Lemma count_packages_ok spec : exists n2 n1, occurrences level2_tag spec n2 /\ occurrences level1_tag spec n1 /\
  count_packages spec = Ok (if n2 =? 0 then n1 else n2).
Proof.
  assert (T2 : level2_tag <> []) by discriminate. assert (T1 : level1_tag <> []) by discriminate.
  exists (length (positions level2_tag spec)), (length (positions level1_tag spec)). split; [|split].
  - exists (positions level2_tag spec). split; [apply positions_nodup|]. split; [reflexivity|]. intros i. now apply positions_occur.
  - exists (positions level1_tag spec). split; [apply positions_nodup|]. split; [reflexivity|]. intros i. now apply positions_occur.
  - unfold count_packages. rewrite count_tags_positions by (auto; lia). cbn [bind plus].
    destruct (length (positions level2_tag spec)) as [|m] eqn:E; cbn [Nat.ltb Nat.leb Nat.eqb]; [|reflexivity].
    rewrite count_tags_positions by (auto; lia). reflexivity.
Qed.

Lemma occurrences_unique tag s n m : occurrences tag s n -> occurrences tag s m -> n = m.
Proof.
  intros (l & Dl & <- & Il) (k & Dk & <- & Ik). apply Nat.le_antisymm; apply NoDup_incl_length; auto; intros i H.
  - apply Ik. now apply Il.
  - apply Il. now apply Ik.
Qed.

(** ** The numbers *)
Lemma freebsd_detected a P cores tpc spec : fa_spec a = Some spec -> package_groups spec P -> 0 < P ->
  fa_cores a = Some (Z.of_nat cores) -> fa_threads_per_core a = Some (Z.of_nat tpc) -> P <= cores -> 0 < tpc ->
  (N.of_nat (cores * tpc) < two32)%N -> freebsd_detect_topology a = Ok (Some (P, cores, cores * tpc, tpc)).
Proof.
  intros ES G PP EC ET L TP B. unfold freebsd_detect_topology. rewrite ES.
  destruct (count_packages_ok spec) as (n2 & n1 & O2 & O1 & ->). cbn [bind].
  assert (E : (if n2 =? 0 then n1 else n2) = P).
  { destruct G as [(G & NZ)|(G2 & G1)].
    - rewrite (occurrences_unique _ _ _ _ O2 G). destruct (Nat.eqb_spec P 0); [contradiction|reflexivity].
    - rewrite (occurrences_unique _ _ _ _ O2 G2). cbn [Nat.eqb]. exact (occurrences_unique _ _ _ _ O1 G1). }
  rewrite E. destruct (Nat.eqb_spec P 0); [lia|]. rewrite EC, ET. unfold sysctl_int, checked.
  destruct (Z.leb_spec (Z.of_nat cores) 0); [lia|]. rewrite Nat2Z.id. destruct (Nat.eqb_spec cores 0); [lia|].
  destruct (Nat.ltb_spec cores P); [lia|]. destruct (Z.leb_spec (Z.of_nat tpc) 0); [lia|]. rewrite Nat2Z.id.
  destruct (Nat.eqb_spec tpc 0); [lia|]. 
  replace (N.of_nat tpc * N.of_nat cores)%N with (N.of_nat (cores * tpc)) by lia. rewrite u32_small by exact B. now rewrite Nat2N.id.
Qed.

Lemma nth_firstn {A} (d : A) : forall l k i, i < k -> match nth_error (firstn k l) i with Some n => n | None => d end = nth i l d.
Proof.
  induction l as [|a l IH]; intros k i H; destruct k; try lia; destruct i; cbn [firstn nth_error nth]; auto. apply IH. lia.
Qed.

Lemma mach_detected a P cores threads : mach_says (ma_physicalcpu_max a) (ma_logicalcpu_max a) (ma_packages a) P cores threads ->
  0 < P -> 0 < cores -> 0 < threads ->
  let t := mach_detect_topology a in
  mt_packages t = P /\ mt_cores t = cores /\ mt_threads t = threads /\
  forall l, 1 <= l <= 4 -> mt_threads_per_cache t l = config_says (ma_cacheconfig a) l.
Proof.
  intros (EC & ET & EP) PP CP TP. unfold mach_detect_topology. rewrite EC, ET, EP. unfold checked. cbv zeta. cbn [mt_packages mt_cores mt_threads mt_threads_per_cache].
  destruct (Z.leb_spec (Z.of_nat cores) 0); [lia|]. destruct (Z.leb_spec (Z.of_nat threads) 0); [lia|]. destruct (Z.leb_spec (Z.of_nat P) 0); [lia|].
  rewrite !Nat2Z.id. repeat split. intros l Hl. unfold config_says. destruct (ma_cacheconfig a) as [c|]; [|reflexivity].
  rewrite <- (nth_firstn 0%N c 8 l) by lia. destruct (nth_error (firstn 8 c) l); reflexivity.
Qed.

(** ** Success *)
Definition needed (x : xinfo) : list block :=
  objects_blocks ++ when (present (xi_l1i x)) B_l1i ++ when (present (xi_l1d x)) B_l1d ++
  when (present (xi_l2 x)) B_l2 ++ when (present (xi_l3 x)) B_l3 ++ when (present (xi_l4 x)) B_l4.

Lemma cache_blocks_needed x P cpp tpc reported : 0 < P -> 0 < cpp -> 0 < tpc -> widths_divide P cpp tpc reported ->
  objects_blocks ++ cache_blocks x (widths_of x P cpp tpc reported) = needed x.
Proof.
  intros PP CP TP WD. unfold needed, cache_blocks, widths_of. cbn [w_l2_count w_l3_count w_l4_count].
  assert (TPos : 0 < P * cpp * tpc) by (apply Nat.mul_pos_pos; [apply Nat.mul_pos_pos|]; assumption).
  assert (H : forall c w, 0 < w /\ Nat.divide w (P * cpp * tpc) -> (0 <? when_present (present c) (P * cpp * tpc / w)) = present c).
  { intros c w (W & m & E). unfold when_present. destruct (present c); [|reflexivity]. rewrite E, Nat.div_mul by lia.
    apply Nat.ltb_lt. rewrite E in TPos. nia. }
  rewrite (H (xi_l2 x)) by (apply w2_ok; auto). rewrite (H (xi_l3 x)) by (apply w3_ok; auto). rewrite (H (xi_l4 x)) by (apply w4_ok; auto).
  reflexivity.
Qed.

Lemma x86_freebsd_success calloc_ok x a P cpp tpc spec : 0 < P -> 0 < cpp -> 0 < tpc ->
  fa_spec a = Some spec -> package_groups spec P ->
  fa_cores a = Some (Z.of_nat (P * cpp)) -> fa_threads_per_core a = Some (Z.of_nat tpc) ->
  (N.of_nat (P * cpp * tpc) < two32)%N -> fields_defined x ->
  x86_freebsd_init calloc_ok x a =
  Ok (if forallb calloc_ok (needed x) then Outcome (Some (tables_of x P cpp tpc (fun _ => 0) (objects_of x P cpp tpc))) (needed x) else Outcome None []).
Proof.
  intros PP CP TP ES G EC ET B FD. unfold x86_freebsd_init.
  rewrite (freebsd_detected a P (P * cpp) tpc spec) by (auto; nia). cbn [bind].
  assert (WD : widths_divide P cpp tpc (fun _ => 0)) by (intros l _ H; congruence).
  rewrite <- (cache_blocks_needed x P cpp tpc (fun _ => 0)) by auto. rewrite forallb_app.
  destruct (allocate_spec calloc_ok objects_blocks []) as [(E & F)|(got & E & F)]; rewrite E, F; cbn [negb andb app]; [|now rewrite cleanup_all].
  rewrite build_objects_ok by auto. cbn [bind]. rewrite (freebsd_widths_ok x P cpp tpc (fun _ => 0)) by auto. cbn [bind].
  destruct (allocate_spec calloc_ok (cache_blocks x (widths_of x P cpp tpc (fun _ => 0))) objects_blocks) as [(E' & F')|(got & E' & F')];
    rewrite E', F'; cbn [negb]; [|now rewrite cleanup_all].
  rewrite build_tables_ok by auto. cbn [bind]. now rewrite cleanup_kept.
Qed.

Lemma x86_mach_success calloc_ok x a P cpp tpc : 0 < P -> 0 < cpp -> 0 < tpc ->
  mach_says (ma_physicalcpu_max a) (ma_logicalcpu_max a) (ma_packages a) P (P * cpp) (P * cpp * tpc) ->
  widths_divide P cpp tpc (config_says (ma_cacheconfig a)) ->
  (N.of_nat (P * cpp * tpc) < two32)%N -> fields_defined x ->
  exists left, x86_mach_init calloc_ok x a =
  Ok (if forallb calloc_ok (needed x) then Outcome (Some (tables_of x P cpp tpc (config_says (ma_cacheconfig a)) (objects_of x P cpp tpc))) (needed x)
      else Outcome None left) /\
  (forallb calloc_ok objects_blocks = false -> left = []).
Proof.
  intros PP CP TP S WD B FD. unfold x86_mach_init.
  assert (TPos : 0 < P * cpp * tpc) by (apply Nat.mul_pos_pos; [apply Nat.mul_pos_pos|]; assumption).
  destruct (mach_detected a P (P * cpp) (P * cpp * tpc) S PP ltac:(nia) TPos) as (E1 & E2 & E3 & E4).
  set (t := mach_detect_topology a) in *. cbv zeta.
  rewrite <- (cache_blocks_needed x P cpp tpc (config_says (ma_cacheconfig a))) by auto. rewrite forallb_app.
  destruct (allocate_spec calloc_ok objects_blocks []) as [(E & F)|(got & E & F)]; rewrite E, F; cbn [negb andb app].
  2: { exists []. now rewrite cleanup_all. }
  rewrite E1, E2, E3. assert (D1 : divide (P * cpp * tpc) (P * cpp) = Ok tpc) by (rewrite Nat.mul_comm; apply divide_mul; nia).
  rewrite D1. cbn [bind]. rewrite build_objects_ok by auto. cbn [bind].
  rewrite (mach_widths_ok x P cpp tpc (config_says (ma_cacheconfig a))) by auto. cbn [bind].
  destruct (allocate_spec calloc_ok (cache_blocks x (widths_of x P cpp tpc (config_says (ma_cacheconfig a)))) objects_blocks) as [(E' & F')|(got & E' & F')];
    rewrite E', F'; cbn [negb].
  - exists []. rewrite build_tables_ok by auto. cbn [bind]. now rewrite cleanup_kept.
  - exists (objects_blocks ++ got). split; [reflexivity|discriminate].
Qed.
