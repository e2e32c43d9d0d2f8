(** Each matching function accepts exactly the texts with its signature. *)
From Verif Require Import Base BaseProofs Text LinuxTextSpec ArmClusterMidrModel ArmCpuinfoModel ArmChipsetModel ArmChipsetSpec ArmChipsetFitProofs
  ArmChipsetMatchProofs.
Open Scope N_scope.

Ltac literals := repeat match goal with
  | |- context [?a mod 256] => let v := eval vm_compute in (a mod 256) in change (a mod 256) with v
  | |- context [?a / 256] => let v := eval vm_compute in (a / 256) in change (a / 256) with v
  end.
Ltac run := unfold suffix_max, attempt, with_number, found, no_match; cbn -[N.lor N.add N.mul N.eqb N.leb u32 sub32 to_upper is_alphabetic is_whitespace is_numeric is_uppercase suffix_letters all_letters take take_all padded].
Ltac tails := repeat first [rewrite suffix_letters_take by (cbn [length]; lia) | rewrite all_letters_take by (cbn [length]; lia)].
Ltac words := tails; repeat first [rewrite masked_eqb by assumption; literals | rewrite word_eqb by assumption; literals];
  repeat change (N.lor 0 0) with 0; repeat change (0 =? 0) with true; rewrite ?N.lor_0_l, ?Bool.andb_true_r, ?Nat.sub_0_r.
Ltac atom b := match b with
  | ?x =? ?y => destruct (x =? y) eqn:?
  | ?x <=? ?y => destruct (x <=? y) eqn:?
  | is_alphabetic ?x => destruct (is_alphabetic x) eqn:?
  | is_whitespace ?x => destruct (is_whitespace x) eqn:?
  | is_numeric ?x => destruct (is_numeric x) eqn:?
  | is_uppercase ?x => destruct (is_uppercase x) eqn:?
  | negb ?b => atom b
  | ?a && _ => atom a
  | ?a || _ => atom a
  end.
Ltac step := first [
  match goal with |- context [if ?b then _ else _] => atom b end
| match goal with |- context [match take_all ?x ?n ?s with _ => _ end] => destruct (take_all x n s) eqn:? end
| match goal with |- context [match length ?s with _ => _ end] => destruct (length s) eqn:? end
| match goal with |- context [match ?n with _ => _ end] => is_var n; match type of n with nat => destruct n eqn:? end end].
Ltac finish := solve [intros c; split; intros H; repeat match goal with H : _ \/ _ |- _ => destruct H end; first [discriminate | contradiction | tauto | congruence | auto]].
(** Tests of one character that exclude each other. *)
Lemma letter_digit x c : x < 256 -> (N.lor 32 x =? c) = true -> (10 <=? sub32 x 48) = false -> (97 <=? c) = false.
Proof.
  intros B E D. apply N.eqb_eq in E. subst c.
  pose proof (by_byte (fun x => (10 <=? sub32 x 48) || negb (97 <=? N.lor 32 x)) x B) as H. specialize (H ltac:(vm_compute; reflexivity)). cbn beta in H.
  rewrite D in H. now apply Bool.negb_true_iff in H.
Qed.
Lemma white_digit x : x < 256 -> is_whitespace x = true -> (10 <=? sub32 x 48) = false -> False.
Proof.
  intros B E D. pose proof (by_byte (fun x => (10 <=? sub32 x 48) || negb (is_whitespace x)) x B) as H. specialize (H ltac:(vm_compute; reflexivity)). cbn beta in H.
  rewrite D, E in H. discriminate.
Qed.
Ltac clash := solve [match goal with
  | H : (?t =? ?a) = true, H' : (?t =? ?b) = true |- _ => exfalso; apply N.eqb_eq in H; apply N.eqb_eq in H'; rewrite H in H'; discriminate H'
  | H : (N.lor 32 ?x =? ?c) = true, D : (10 <=? sub32 ?x 48) = false |- _ => exfalso; pose proof (letter_digit x c ltac:(assumption) H D); discriminate
  | H : is_whitespace ?x = true, D : (10 <=? sub32 ?x 48) = false |- _ => exfalso; exact (white_digit x ltac:(assumption) H D)
  | H : (?x =? ?a) = true, D : context [?x] |- _ => exfalso; apply N.eqb_eq in H; subst x; vm_compute in D; discriminate
  end].
Ltac go := repeat (run; words; repeat match goal with |- context [N.lor ?x 32] => rewrite (N.lor_comm x 32) end; first [finish | clash | step]).

Ltac forms := repeat match goal with
  | |- context [pattern ?f] => let v := eval vm_compute in f in progress change (pattern f) with (pattern v)
  | |- context [keyword ?f] => let v := eval vm_compute in f in progress change (keyword f) with (keyword v)
  end.
Ltac by_pattern T := forms; eapply reads_as; [intros s c B; apply (pattern_any _ _ _ _ _ _ _ T); [reflexivity|exact B]|].

Lemma either_as (A B A' B' : reading) f : (forall s c, bytes s -> (A s c <-> A' s c)) -> (forall s c, bytes s -> (B s c <-> B' s c)) ->
  reads f (either A' B') -> reads f (either A B).
Proof. intros HA HB. apply reads_as. intros s c P. unfold either. specialize (HA s c P). specialize (HB s c P). tauto. Qed.
Ltac by_part T := intros s c B; first [apply (pattern_any _ _ _ _ _ _ _ T); [reflexivity|exact B] | apply (keyword_any _ _ _ _ _ _ _ _ T); [reflexivity|exact B]].
Ltac by_either T T' := forms; eapply either_as; [by_part T|by_part T'|]; unfold either.

Lemma sdm_reads : reads match_sdm sdm.
Proof.
  unfold sdm. by_pattern nothing_is. intros s B. unfold match_sdm. 
  destruct s as [|x0 [|x1 [|x2 [|x3 [|x4 [|x5 [|x6 s]]]]]]]; hyps B; go.
Qed.
Lemma sm_reads : reads match_sm sm.
Proof.
  unfold sm. by_pattern nothing_is. intros s B. unfold match_sm. 
  destruct s as [|x0 [|x1 [|x2 [|x3 [|x4 [|x5 [|x6 s]]]]]]]; hyps B; go.
Qed.
Lemma samsung_exynos_reads : reads match_samsung_exynos samsung_exynos.
Proof.
  unfold samsung_exynos. by_pattern nothing_is. intros s B. unfold match_samsung_exynos. 
  destruct s as [|x0 [|x1 [|x2 [|x3 [|x4 [|x5 [|x6 [|x7 [|x8 [|x9 [|x10 [|x11 [|x12 [|x13 [|x14 [|x15 [|x16 [|x17 [|x18 [|x19 s]]]]]]]]]]]]]]]]]]]]; hyps B; go.
Qed.
Lemma exynos_reads : reads match_exynos exynos.
Proof.
  unfold exynos. by_pattern nothing_is. intros s B. unfold match_exynos. 
  destruct s as [|x0 [|x1 [|x2 [|x3 [|x4 [|x5 [|x6 [|x7 [|x8 [|x9 [|x10 s]]]]]]]]]]]; hyps B; go.
Qed.
Lemma universal_reads : reads match_universal universal.
Proof.
  unfold universal. by_pattern nothing_is. intros s B. unfold match_universal. 
  destruct s as [|x0 [|x1 [|x2 [|x3 [|x4 [|x5 [|x6 [|x7 [|x8 [|x9 [|x10 [|x11 [|x12 [|x13 s]]]]]]]]]]]]]]; hyps B; go.
Qed.
Lemma bcm_reads : reads match_bcm bcm.
Proof.
  unfold bcm. by_pattern nothing_is. intros s B. unfold match_bcm. 
  destruct s as [|x0 [|x1 [|x2 [|x3 [|x4 [|x5 [|x6 [|x7 s]]]]]]]]; hyps B; go.
Qed.
Lemma omap_reads : reads match_omap omap.
Proof.
  unfold omap. by_pattern nothing_is. intros s B. unfold match_omap. 
  destruct s as [|x0 [|x1 [|x2 [|x3 [|x4 [|x5 [|x6 [|x7 [|x8 s]]]]]]]]]; hyps B; go.
Qed.
Lemma kirin_reads : reads match_kirin kirin.
Proof.
  unfold kirin. by_pattern nothing_is. intros s B. unfold match_kirin. 
  destruct s as [|x0 [|x1 [|x2 [|x3 [|x4 [|x5 [|x6 [|x7 [|x8 [|x9 s]]]]]]]]]]; hyps B; go.
Qed.
Lemma rk_reads : reads match_rk rk.
Proof.
  unfold rk. by_pattern one_letter_is. intros s B. unfold match_rk, letter. 
  destruct s as [|x0 [|x1 [|x2 [|x3 [|x4 [|x5 [|x6 [|x7 s]]]]]]]]; hyps B; go.
Qed.
Lemma lc_reads : reads match_lc lc.
Proof.
  unfold lc. by_pattern lost_letter_is. intros s B. unfold match_lc, letter. change (padded [0]) with (padded []).
  destruct s as [|x0 [|x1 [|x2 [|x3 [|x4 [|x5 [|x6 [|x7 s]]]]]]]]; hyps B; go.
Qed.
Lemma tcc_reads : reads match_tcc tcc.
Proof.
  unfold tcc. by_pattern letter_x_is. intros s B. unfold match_tcc, letter. 
  destruct s as [|x0 [|x1 [|x2 [|x3 [|x4 [|x5 [|x6 [|x7 s]]]]]]]]; hyps B; go.
Qed.
Lemma t_reads : reads match_t unisoc_t.
Proof.
  unfold unisoc_t. by_pattern nothing_is. intros s B. unfold match_t. 
  destruct s as [|x0 [|x1 [|x2 [|x3 [|x4 [|x5 [|x6 [|x7 [|x8 [|x9 [|x10 [|x11 [|x12 s]]]]]]]]]]]]]; hyps B; go.
Qed.
Lemma ums_reads : reads match_ums unisoc_ums.
Proof.
  unfold unisoc_ums. by_pattern nothing_is. intros s B. unfold match_ums. 
  destruct s as [|x0 [|x1 [|x2 [|x3 [|x4 [|x5 [|x6 [|x7 [|x8 [|x9 [|x10 [|x11 [|x12 [|x13 [|x14 s]]]]]]]]]]]]]]]; hyps B; go.
Qed.
Lemma msm_apq_reads : reads match_msm_apq (either msm apq).
Proof.
  unfold msm, apq. by_either (as_suffix_is 45 ltac:(lia)) (as_suffix_is 45 ltac:(lia)). intros s B. unfold match_msm_apq. 
  destruct s as [|x0 [|x1 [|x2 [|x3 [|x4 [|x5 [|x6 [|x7 [|x8 s]]]]]]]]]; hyps B; go.
Qed.
Lemma mt_reads : reads (match_mt true) mt.
Proof.
  unfold mt, mt_forms. by_pattern (all_suffix_is 47 ltac:(lia)). intros s B. unfold match_mt. 
  destruct s as [|x0 [|x1 [|x2 [|x3 [|x4 [|x5 [|x6 [|x7 s]]]]]]]]; hyps B; go.
Qed.
Lemma mt_start_reads : reads (match_mt false) mt_start.
Proof.
  unfold mt_start, mt_forms. by_pattern (as_suffix_is 47 ltac:(lia)). intros s B. unfold match_mt. 
  destruct s as [|x0 [|x1 [|x2 [|x3 [|x4 [|x5 [|x6 [|x7 s]]]]]]]]; hyps B; go.
Qed.
Lemma sc_reads : reads match_sc sc.
Proof.
  unfold sc. by_either eight_letters_is nothing_is. intros s B. unfold match_sc. 
  destruct s as [|x0 [|x1 [|x2 [|x3 [|x4 [|x5 [|x6 s]]]]]]]; hyps B; go.
Qed.
Lemma pxa_reads : reads match_pxa pxa.
Proof.
  unfold pxa. by_either nothing_is nothing_is. intros s B. unfold match_pxa. 
  destruct s as [|x0 [|x1 [|x2 [|x3 [|x4 [|x5 [|x6 [|x7 s]]]]]]]]; hyps B; go.
Qed.
