(** Lemmas about the model of Windows: APIC ids and caches. *)
From Verif Require Import Base BaseProofs Loops Fill Runs GroupArray TopologySpec X86WindowsModel X86CountsSpec X86CountsModel X86CountsProofs X86WindowsSpec
  X86WindowsProofs X86WindowsRows X86WindowsTables X86WindowsObjects.
From Verif Require X86LinuxModel X86CpuinfoModel X86LinuxSpec X86DetectProofs Masks X86LoopProofs X86InitProofs X86FinalProofs X86TablesProofs.
Import X86TablesProofs X86CpuinfoModel X86LinuxModel X86LinuxSpec Masks X86LoopProofs X86InitProofs.
Import X86CountsModel X86CountsSpec X86WindowsModel X86WindowsSpec.
Ltac Zify.zify_post_hook ::= idtac.
Open Scope nat_scope.

(** ** The value of an APIC id *)

Lemma lor_add a b k : (b < 2 ^ k)%N -> N.lor (a * 2 ^ k) b = (a * 2 ^ k + b)%N.
Proof.
  intros H. assert (Z : N.land (a * 2 ^ k) b = 0%N).
  { apply N.bits_inj. intros i. rewrite N.land_spec, N.bits_0. destruct (N.lt_ge_cases i k) as [L|L].
    - now rewrite N.mul_pow2_bits_low.
    - rewrite <- (N.mod_small b (2 ^ k) H) at 1. rewrite N.mod_pow2_bits_high by exact L. apply andb_false_r. }
  rewrite (N.add_nocarry_lxor _ _ Z). symmetry. apply N.lxor_lor. exact Z.
Qed.

Lemma pow_lt_two32 k : (k < 32)%N -> (2 ^ k < two32)%N.
Proof. intros H. change two32 with (2 ^ 32)%N. apply N.pow_lt_mono_r; [reflexivity|exact H]. Qed.

Lemma mul_pow_lt a l o : (a < 2 ^ l)%N -> (a * 2 ^ o < 2 ^ (o + l))%N.
Proof.
  intros H. rewrite N.pow_add_r, (N.mul_comm (2 ^ o)). apply N.mul_lt_mono_pos_r; [|exact H]. apply N.neq_0_lt_0. now apply N.pow_nonzero.
Qed.

Section APIC.
Context (x : xinfo) (FD : fields_defined x).

Definition fits (packages : nat) (r : row) : Prop :=
  (N.of_nat (r_smt r) < 2 ^ xi_thread_length x)%N /\ (N.of_nat (r_local r) < 2 ^ xi_core_length x)%N /\ r_package r < packages.

Lemma row_apic_of r : apic_of x (r_smt r) (r_local r) (r_package r) = Ok (row_apic x r).
Proof.
  unfold apic_of. pose proof FD as F. unfold fields_defined, package_offset in F.
  rewrite !bit_mask_ones by (clear - F; lia). cbn [bind]. unfold shl32.
  replace (xi_thread_offset x <? 32)%N with true by (symmetry; apply N.ltb_lt; clear - F; lia).
  replace (xi_core_offset x <? 32)%N with true by (symmetry; apply N.ltb_lt; clear - F; lia).
  cbn [bind]. fold (package_bits x). rewrite (package_bits_offset x FD).
  replace (package_offset x <? 32)%N with true by (symmetry; now apply N.ltb_lt). cbn [bind].
  unfold row_apic, pkg, tmask, cmask. rewrite (package_bits_offset x FD). f_equal. apply N.lor_comm.
Qed.

Lemma row_apic_u32 r : (row_apic x r < two32)%N.
Proof.
  assert (H : forall a b, (a < two32 -> b < two32 -> N.lor a b < two32)%N).
  { intros a b A B. destruct (N.eq_dec (N.lor a b) 0) as [->|Z]; [reflexivity|]. change two32 with (2 ^ 32)%N in *. apply N.log2_lt_pow2; [now apply N.neq_0_lt_0|].
    rewrite N.log2_lor. assert (L : forall c, (c < 2 ^ 32 -> N.log2 c < 32)%N).
    { intros c C. destruct (N.eq_dec c 0) as [->|NZ]; [reflexivity|]. apply N.log2_lt_pow2; [now apply N.neq_0_lt_0|exact C]. }
    apply N.max_lub_lt; now apply L. }
  unfold row_apic, pkg. repeat apply H; unfold u32; apply N.mod_lt; discriminate.
Qed.

Context (packages : nat) (Ord : (xi_thread_offset x + xi_thread_length x <= xi_core_offset x)%N)
  (FP : (N.of_nat packages <= 2 ^ (32 - package_offset x))%N).

Lemma row_apic_value r : fits packages r ->
  row_apic x r = (N.of_nat (r_package r) * 2 ^ package_offset x +
    (N.of_nat (r_local r) * 2 ^ xi_core_offset x + N.of_nat (r_smt r) * 2 ^ xi_thread_offset x))%N /\
  (N.of_nat (r_smt r) * 2 ^ xi_thread_offset x < 2 ^ xi_core_offset x)%N /\
  (N.of_nat (r_local r) * 2 ^ xi_core_offset x + N.of_nat (r_smt r) * 2 ^ xi_thread_offset x < 2 ^ package_offset x)%N.
Proof.
  intros (Fs & Fl & Fk). pose proof FD as F. unfold fields_defined, package_offset in F.
  assert (PO : package_offset x = (xi_core_offset x + xi_core_length x)%N) by (unfold package_offset; clear - Ord; lia).
  assert (T : (N.of_nat (r_smt r) * 2 ^ xi_thread_offset x < 2 ^ xi_core_offset x)%N).
  { eapply N.lt_le_trans; [apply mul_pow_lt, Fs|]. apply N.pow_le_mono_r; [discriminate|exact Ord]. }
  assert (Cc : (N.of_nat (r_local r) * 2 ^ xi_core_offset x + N.of_nat (r_smt r) * 2 ^ xi_thread_offset x < 2 ^ package_offset x)%N).
  { rewrite PO, N.pow_add_r. set (q := (2 ^ xi_core_offset x)%N) in *. set (l := (2 ^ xi_core_length x)%N) in *.
    set (t := (N.of_nat (r_smt r) * 2 ^ xi_thread_offset x)%N) in *. clearbody q l t. clear - T Fl. nia. }
  assert (P32 : (2 ^ package_offset x < two32)%N) by now apply pow_lt_two32.
  split; [|split; assumption].
  unfold row_apic, pkg, tmask, cmask. rewrite (package_bits_offset x FD). rewrite !N.land_ones, !N.mod_small by assumption. rewrite !N.shiftl_mul_pow2.
  rewrite (u32_small (N.of_nat (r_smt r) * 2 ^ xi_thread_offset x)).
  2:{ eapply N.lt_trans; [exact T|]. apply pow_lt_two32. clear - F. lia. }
  rewrite (u32_small (N.of_nat (r_local r) * 2 ^ xi_core_offset x)).
  2:{ eapply N.le_lt_trans; [|exact P32]. eapply N.le_trans; [|apply N.lt_le_incl, Cc]. apply N.le_add_r. }
  rewrite (N.lor_comm (N.of_nat (r_smt r) * _)), lor_add by exact T. rewrite u32_small.
  - rewrite lor_add by exact Cc. reflexivity.
  - eapply N.lt_le_trans; [apply mul_pow_lt with (l := (32 - package_offset x)%N)|].
    + eapply N.lt_le_trans; [|exact FP]. clear - Fk. lia.
    + change two32 with (2 ^ 32)%N. apply N.pow_le_mono_r; [discriminate|]. unfold fields_defined in FD. clear - FD. lia.
Qed.

Lemma next_apic r r' : fits packages r -> fits packages r' -> next r r' -> (row_apic x r < row_apic x r')%N.
Proof.
  intros Fr Fr' H. destruct (row_apic_value r Fr) as (-> & T & Cc). destruct (row_apic_value r' Fr') as (-> & _ & _).
  assert (Q : (0 < 2 ^ xi_thread_offset x)%N) by (apply N.neq_0_lt_0; now apply N.pow_nonzero).
  destruct H; cbn [r_smt r_local r_package] in *; rewrite ?Nat2N.inj_succ, ?N.mul_succ_l; cbn [N.of_nat];
    set (a := (2 ^ xi_thread_offset x)%N) in *; set (b := (2 ^ xi_core_offset x)%N) in *; set (c := (2 ^ package_offset x)%N) in *;
    clearbody a b c; clear - Q T Cc; rewrite ?N.mul_0_l; set (u := (N.of_nat s * a)%N) in *; set (v := (N.of_nat jl * b)%N) in *; set (w := (N.of_nat k * c)%N); lia.
Qed.

Lemma rows_increasing : forall R, Sorted next R -> Forall (fits packages) R -> StronglySorted N.lt (map (row_apic x) R).
Proof.
  intros R HS F. apply Sorted_StronglySorted; [intros a b c A B; eapply N.lt_trans; eauto|].
  revert F. induction HS as [|r R HS IH Hd]; intros F; cbn [map]; [constructor|]. apply Forall_cons_iff in F. destruct F as (Fr & F).
  constructor; [now apply IH|]. destruct R as [|r' R]; cbn [map]; constructor. apply HdRel_inv in Hd. apply Forall_inv in F. now apply next_apic.
Qed.

Lemma row_fields r : fits packages r ->
  field (row_apic x r) (xi_thread_offset x) (xi_thread_length x) = N.of_nat (r_smt r) /\
  field (row_apic x r) (xi_core_offset x) (xi_core_length x) = N.of_nat (r_local r) /\
  (row_apic x r / 2 ^ package_offset x)%N = N.of_nat (r_package r).
Proof.
  intros (Fs & Fl & Fk).
  destruct (apic_of_fields x (r_smt r) (r_local r) (r_package r) (row_apic x r) packages FD (or_introl Ord) FP Fk (row_apic_of r)) as (A & B & Cc).
  rewrite N.mod_small in A, B by assumption. auto.
Qed.
End APIC.

Lemma land_field a o l : N.land (N.ones l) (N.shiftr a o) = field a o l.
Proof. unfold field. rewrite N.land_comm, N.land_ones, N.shiftr_div_pow2. reflexivity. Qed.

(** ** Caches *)

Section LEVELS.
Context (V : list xproc) (AV : Forall (fun p => is_valid p = true) V) (V0 : 0 < length V) (Z0 : apic V 0 = 0%N).
Let n := length V.

Lemma starts_all m : starts V m.
Proof. apply first_key. rewrite Z0. reflexivity. Qed.

Lemma all_can_start x cm pm lm : can_start x V cm pm lm.
Proof. constructor; [exact V0| | | |]; intros; apply starts_all. Qed.

Lemma count_all mk : count_objects flag_valid mk V = cnt n (new_key (fun i => N.land (apic V i) mk)).
Proof.
  rewrite <- (app_nil_r V) at 1. apply (count_keys_valid V flag_valid mk []).
  - apply starts_all.
  - reflexivity.
  - intros i Hi. rewrite Forall_forall in AV. apply AV. now apply nth_In.
  - constructor.
Qed.

Lemma level_ok c : (g_size (xc_geometry c) <> 0%N -> (xc_apic_bits c < 32)%N) ->
  exists nc s, count_caches flag_valid c V = Ok nc /\ for_each (fun i s => cache_step c i i (apic V i) s) 0 n (initial_caches nc n) = Ok s /\
    level_inv V c n s /\ length (cs_caches s) = nc.
Proof.
  intros B. assert (I : exists nc, count_caches flag_valid c V = Ok nc /\ level_inv V c 0 (initial_caches nc n) /\
    forall s, level_inv V c n s -> length (cs_caches s) = nc).
  { unfold count_caches. destruct (N.eqb_spec (g_size (xc_geometry c)) 0) as [E|E].
    - exists 0. split; [reflexivity|]. split; [left; auto|]. intros s [(_ & ->)|(H & _)]; [reflexivity|congruence].
    - rewrite bit_mask_ones by auto. cbn [bind]. rewrite count_all. eexists. split; [reflexivity|]. split.
      + right. split; [exact E|]. exists (N.ones (xc_apic_bits c)). split; [now apply bit_mask_ones; auto|]. split; [apply starts_all|]. apply cinv_init.
      + intros s [(H & _)|(_ & m & Hm & _ & HI)]; [congruence|].
        rewrite bit_mask_ones in Hm by auto. injection Hm as <-. apply (ci_caches _ _ _ _ _ HI). }
  destruct I as (nc & E & I0 & L). exists nc.
  destruct (for_each_inv (fun i s => cache_step c i i (apic V i) s) (fun k s => level_inv V c k s) n 0 (initial_caches nc n)) as (s & Es & Is).
  - exact I0.
  - intros k s Hk HI. apply level_step; [exact (proj2 Hk) || (fold n; lia)|exact HI].
  - cbn [plus] in Is. exists s. auto.
Qed.

Context (SV : StronglySorted le_apic V) (UV : forall p, In p V -> (x_apic_id p < two32)%N).
Context (ps : list processor) (Lps : length ps = n) (Aps : forall i p, nth_error ps i = Some p -> p_apic_id p = apic V i).

Lemma same_group_all k m i j : low_cleared k m -> i < n -> j < n ->
  (grp (new_key (fun i => N.land (apic V i) m)) i = grp (new_key (fun i => N.land (apic V i) m)) j <-> agree_above k (apic V i) (apic V j)).
Proof.
  assert (U : forall i, i < n -> (apic V i < two32)%N) by (intros q H; apply UV; now apply nth_In).
  intros Hm Hi Hj. rewrite (same_run_iff (fun i => N.land (apic V i) m) n); auto.
  - unfold agree_above. apply low_cleared_eq; auto.
  - intros a b Hab Hbn. apply (low_cleared_mono k); auto. now apply (sorted_nth V SV).
Qed.

Lemma level_report c cs ptrs i k : level_inv V c n (CState cs ptrs i k) -> level_reported (xc_geometry c) (xc_apic_bits c) ps ptrs cs (length cs).
Proof.
  intros HL. split; [reflexivity|].
  destruct HL as [(E & HE)|(E & m & Hm & _ & HI)].
  - injection HE as -> -> -> ->. fold n. split; [now rewrite repeat_length|]. split; [|congruence].
    intros _. split; [reflexivity|]. apply Forall_forall. intros q Hq. now apply repeat_spec in Hq.
  - destruct HI as [Hc Hp _ _]. cbn [cs_caches cs_pointers] in Hc, Hp. fold n in Hc, Hp.
    apply (filled_one_map _ _ (@None nat) (fun _ i => Some (grp (newK V m) i))) in Hp.
    split; [now rewrite Hp, map_length, seq_length|]. split; [congruence|]. intros _. split; [|split].
    + exists (map (grp (newK V m)) (seq 0 n)). split; [rewrite Hp, map_map; reflexivity|].
      destruct (filled_field _ _ _ _ _ _ _ cache_processors Hc) as (L & F).
      apply (grouping_runs (newK V m) n).
      * reflexivity.
      * exact V0.
      * now rewrite map_length, seq_length.
      * exact L.
      * intros j Hj. now apply X86TablesProofs.nth_error_map_seq.
      * intros s Hs Es. now rewrite F.
    + apply Forall_forall. intros y Hy. apply In_nth_error in Hy. destruct Hy as (j & Hj).
      destruct (filled_all _ _ _ _ _ _ Hc j y Hj) as (s & _ & _ & _ & ->). reflexivity.
    + intros a b p q Ha Hbq. rewrite (Aps _ _ Ha), (Aps _ _ Hbq).
      assert (La : a < n) by (rewrite <- Lps; apply nth_error_Some; congruence). assert (Lb : b < n) by (rewrite <- Lps; apply nth_error_Some; congruence).
      rewrite Hp, !X86TablesProofs.nth_error_map_seq by assumption. apply bit_mask_ok in Hm. destruct Hm as (_ & ->).
      rewrite <- (same_group_all _ _ a b (not32_ones_cleared (xc_apic_bits c)) La Lb). unfold newK. split; [congruence|now intros ->].
Qed.
End LEVELS.
