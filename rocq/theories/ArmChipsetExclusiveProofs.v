(** No text has two signatures, and no name means two chips. *)
From Verif Require Import Base BaseProofs Text LinuxTextSpec X86CpuinfoModel ArmClusterMidrModel ArmCpuinfoModel ArmChipsetModel ArmChipsetSpec ArmChipsetNameSpec
  ArmChipsetFitProofs ArmChipsetMatchProofs ArmChipsetReadProofs ArmChipsetOtherProofs ArmChipsetDeviceProofs ArmChipsetSourceProofs.
From Verif Require ArmMachSpec.
Import ArmMachSpec(numeral).
Open Scope N_scope.

(** ** Shapes *)

(** Which characters there may be, by position. *)
Definition shape := list (option (list N)).
Definition allowed (a : option (list N)) (x : N) : Prop := match a with None => True | Some l => In x l end.
Fixpoint matches (sh : shape) (s : list N) : Prop :=
  match sh with [] => True | a :: sh' => match s with [] => False | x :: s' => allowed a x /\ matches sh' s' end end.
Definition apart (a b : option (list N)) : bool :=
  match a, b with Some a, Some b => forallb (fun x => negb (existsb (N.eqb x) b)) a | _, _ => false end.
Fixpoint conflict (a b : shape) : bool := match a, b with x :: a', y :: b' => apart x y || conflict a' b' | _, _ => false end.
Lemma conflict_ok : forall a b s, conflict a b = true -> matches a s -> matches b s -> False.
Proof.
  induction a as [|x a IH]; intros [|y b] s C A B; try discriminate. destruct s as [|c s]; [contradiction|]. destruct A as [A A'], B as [B B'].
  cbn [conflict] in C. apply Bool.orb_true_iff in C. destruct C as [C|C]; [|exact (IH b s C A' B')]. destruct x as [x|], y as [y|]; try discriminate. cbn [apart allowed] in *.
  rewrite forallb_forall in C. specialize (C c A). apply Bool.negb_true_iff in C.
  assert (existsb (N.eqb c) y = true) by (apply existsb_exists; exists c; split; [exact B|apply N.eqb_refl]). congruence.
Qed.
Definition digit_characters : list N := [48; 49; 50; 51; 52; 53; 54; 55; 56; 57].
Definition shape_of (p : list piece) : shape :=
  flat_map (fun q => match q with Is c => [Some [c]] | Letter c => [Some [c; c - 32]] | Any => [None] | Number n => repeat (Some digit_characters) n end) p.
Lemma matches_app : forall a b s t, matches a s -> length a = length s -> matches b t -> matches (a ++ b) (s ++ t).
Proof.
  induction a as [|x a IH]; intros b s t A L B; destruct s as [|y s]; try discriminate; [exact B|]. destruct A as [A A']. injection L as L. cbn [app matches].
  split; [exact A|]. now apply IH.
Qed.
Lemma digit_listed d : is_digit d -> In d digit_characters.
Proof. unfold is_digit. intros H. assert (d = 48 \/ d = 49 \/ d = 50 \/ d = 51 \/ d = 52 \/ d = 53 \/ d = 54 \/ d = 55 \/ d = 56 \/ d = 57) by lia. cbn. intuition. Qed.
Lemma digits_match : forall ds n, length ds = n -> Forall is_digit ds -> matches (repeat (Some digit_characters) n) ds.
Proof. induction ds as [|d ds IH]; intros [|n] L F; try discriminate; [exact I|]. inversion F; subst. split; [now apply digit_listed|]. apply IH; [now injection L|assumption]. Qed.
Lemma fits_shape p s m rest : fits p s m rest -> matches (shape_of p) s.
Proof.
  induction 1 as [|c p s m rest F IH|c x p s m rest E F IH|x p s m rest F IH|n ds p s m rest (L & F & _) F' IH]; cbn [shape_of flat_map].
  - exact I.
  - split; [now left|exact IH].
  - split; [|exact IH]. destruct E as [->|E]; [now left|right; left; lia].
  - split; [exact I|exact IH].
  - apply matches_app; [now apply digits_match|rewrite repeat_length; congruence|exact IH].
Qed.

Definition shaped (R : reading) (shs : list shape) : Prop := forall s c, R s c -> exists sh, In sh shs /\ matches sh s.
Lemma pattern_shaped forms tail v se : shaped (pattern forms tail v se) (map shape_of forms).
Proof. intros s c (p & m & rest & suffix & I & F & _). exists (shape_of p). split; [now apply in_map|]. eapply fits_shape; eassumption. Qed.
Lemma keyword_shaped forms tail v se m : shaped (keyword forms tail v se m) (map shape_of forms).
Proof. intros s c (p & m' & rest & suffix & I & F & _). exists (shape_of p). split; [now apply in_map|]. eapply fits_shape; eassumption. Qed.
Lemma either_shaped A B a b : shaped A a -> shaped B b -> shaped (either A B) (a ++ b).
Proof. intros HA HB s c [H|H]; [destruct (HA s c H) as (sh & I & M)|destruct (HB s c H) as (sh & I & M)]; exists sh; (split; [apply in_or_app; auto|exact M]). Qed.
Lemma provided_shaped P A a : shaped A a -> shaped (provided P A) a.
Proof. intros HA s c [_ H]. now apply (HA s c). Qed.
Definition spelled (w : list N) : shape := map (fun c => Some [c]) w.
Lemma spelled_matches w rest : matches (spelled w) (w ++ rest).
Proof. induction w; [exact I|]. split; [now left|assumption]. Qed.
Lemma spelled_whole w : matches (spelled w) w.
Proof. pose proof (spelled_matches w []) as H. now rewrite app_nil_r in H. Qed.
Lemma word_shaped w v se m x : shaped (word w v se m x) [spelled (text w)].
Proof. intros s c [-> _]. exists (spelled (text w)). split; [now left|]. apply spelled_whole. Qed.
Lemma broadcom_shaped cores frequency : shaped (broadcom cores frequency) (map (fun w => spelled (text w)) ["rhea"; "java"; "hawaii"; "capri"]%string).
Proof.
  intros s c H. unfold broadcom, word in H.
  assert (K : exists w, In w ["rhea"; "java"; "hawaii"; "capri"]%string /\ s = text w).
  { decompose [and or] H; eexists; (split; [|eassumption]); cbn; tauto. }
  destruct K as (w & I & ->). exists (spelled (text w)). split; [now apply (in_map (fun w => spelled (text w)))|apply spelled_whole].
Qed.
Lemma wmt_shaped cores frequency : shaped (wmt cores frequency) [spelled (text "WMT")].
Proof. intros s c (m & H & _). revert H. apply word_shaped. Qed.
Lemma omap4_shaped cores frequency : shaped (omap4 cores frequency) [spelled (text "omap4")].
Proof. intros s c (_ & _ & H). revert H. apply word_shaped. Qed.
Lemma sunxi_shaped arm32 cores : shaped (sunxi arm32 cores) [shape_of sun1; shape_of sun2].
Proof. intros s c (p & m & rest & I & F & _). exists (shape_of p). split; [|eapply fits_shape; eassumption]. fold sun1 in I. fold sun2 in I. destruct I as [<-|[<-|[]]]; [now left|right; now left]. Qed.
Lemma huawei_shaped : shaped huawei (map (fun d => spelled (fst d)) huawei_devices).
Proof.
  intros s c (code & model & rest & I & -> & _). exists (spelled code). split; [|apply spelled_matches].
  apply in_map_iff. now exists (code, model).
Qed.

Definition disjoint (a b : list shape) : bool := forallb (fun x => forallb (conflict x) b) a.
Lemma disjoint_ok A B a b s c c' : shaped A a -> shaped B b -> disjoint a b = true -> A s c -> B s c' -> False.
Proof.
  intros HA HB D Ha Hb. destruct (HA s c Ha) as (x & I & M), (HB s c' Hb) as (y & J & M'). unfold disjoint in D. rewrite forallb_forall in D. specialize (D x I).
  rewrite forallb_forall in D. specialize (D y J). exact (conflict_ok _ _ _ D M M').
Qed.

(** ** Signatures *)

Definition functional (R : reading) : Prop := forall s c c', plain s -> R s c -> R s c' -> c = c'.
Lemma reads_functional f R : reads f R -> functional R.
Proof.
  intros H s c c' P Hc Hc'. specialize (H s (plain_bytes s P)). destruct (f s) as [r| |]; [|contradiction..]. apply H in Hc. apply H in Hc'. congruence.
Qed.
Definition signature (R : reading) (a : list shape) : Prop := functional R /\ shaped R a.
Fixpoint apart_all (l : list (list shape)) : bool := match l with [] => true | a :: r => forallb (disjoint a) r && apart_all r end.
Lemma any_functional : forall rs shs, Forall2 signature rs shs -> apart_all shs = true -> functional (any rs).
Proof.
  intros rs shs F. induction F as [|r a rs shs [Fr Sr] F IH]; intros A s c c' P H H'.
  - destruct H as (? & [] & _).
  - cbn [apart_all] in A. apply Bool.andb_true_iff in A. destruct A as [A A'].
    assert (D : forall r' c c', In r' rs -> r s c -> r' s c' -> False).
    { clear - F A Sr. intros r' c c' I Hr Hr'. rewrite forallb_forall in A. induction F as [|x b rs shs [_ Sx] F IH]; [contradiction|]. destruct I as [<-|I].
      - eapply disjoint_ok; [exact Sr|exact Sx|apply A; now left|eassumption..].
      - apply IH; [intros y J; apply A; now right|exact I]. }
    destruct H as (x & [<-|I] & H), H' as (y & [<-|I'] & H').
    + exact (Fr s c c' P H H').
    + destruct (D y c c' I' H H').
    + destruct (D x c' c I H' H).
    + apply (IH A' s c c' P); [now exists x|now exists y].
Qed.
Lemma unless_functional A B : functional A -> functional B -> functional (unless A B).
Proof. intros HA HB s c c' P [H|[N H]] [H'|[N' H']]; [exact (HA s c c' P H H')|destruct (N' c H)|destruct (N c' H')|exact (HB s c c' P H H')]. Qed.
Lemma unrecognized_functional : functional unrecognized.
Proof. intros s c c' _ -> ->. reflexivity. Qed.
Lemma plain_app p r : plain (p ++ r) -> plain r.
Proof. unfold plain. intros H. now apply Forall_app in H. Qed.
Lemma first_word_functional R : functional R -> functional (first_word R).
Proof.
  intros F s c c' P (before & rest & E & St & H & First) (before' & rest' & E' & St' & H' & First').
  assert (L : length before = length before'). { pose proof (First before' rest' c' E' St' H'). pose proof (First' before rest c E St H). lia. }
  assert (rest = rest') as <-.
  { rewrite E in E'. apply (f_equal (skipn (length before))) in E'. rewrite L in E' at 2. rewrite !skipn_app, !skipn_all, !Nat.sub_diag in E'. exact E'. }
  apply (F rest); [|assumption..]. rewrite E in P. now apply plain_app in P.
Qed.

Lemma msm_functional : functional msm. Proof. pose proof (reads_functional _ _ msm_apq_reads) as F. intros s c c' P H H'. apply (F s); [exact P|now left..]. Qed.
Lemma apq_functional : functional apq. Proof. pose proof (reads_functional _ _ msm_apq_reads) as F. intros s c c' P H H'. apply (F s); [exact P|now right..]. Qed.
Ltac sig := split; [first [exact msm_functional | exact apq_functional | eapply reads_functional; first [exact sdm_reads | exact sm_reads | exact mt_reads | exact mt_start_reads | exact kirin_reads
    | exact rk_reads | exact samsung_exynos_reads | exact exynos_reads | exact universal_reads | apply smdk_reads | exact sc_reads | exact t_reads | exact ums_reads
    | exact lc_reads | exact pxa_reads | apply sunxi_reads | exact bcm_reads | exact omap_reads | apply wmt_reads | exact tcc_reads | apply broadcom_reads | exact huawei_reads
    | apply omap4_reads | exact mp523x_reads]]
  | first [apply pattern_shaped | apply keyword_shaped | apply broadcom_shaped | apply wmt_shaped | apply omap4_shaped | apply sunxi_shaped | apply huawei_shaped | apply word_shaped
    | apply either_shaped; [first [apply pattern_shaped | apply keyword_shaped] | first [apply keyword_shaped | apply either_shaped; apply provided_shaped; apply keyword_shaped]]]].
Ltac sigs := repeat first [apply Forall2_nil | apply Forall2_cons; [sig|]].
Lemma word_signatures_functional : functional (any word_signatures).
Proof. eapply any_functional; [unfold word_signatures; sigs|vm_compute; reflexivity]. Qed.
Lemma hardware_signatures_functional arm32 cores frequency : functional (any (hardware_signatures arm32 cores frequency)).
Proof. unfold hardware_signatures. destruct arm32; cbn [if_arm32 app]; (eapply any_functional; [sigs|vm_compute; reflexivity]). Qed.
Lemma board_signatures_functional arm32 cores frequency : functional (any (board_signatures arm32 cores frequency)).
Proof. unfold board_signatures. destruct arm32; cbn [if_arm32 app]; (eapply any_functional; [sigs|vm_compute; reflexivity]). Qed.
Lemma platform_signatures_functional arm32 cores frequency : functional (any (platform_signatures arm32 cores frequency)).
Proof. unfold platform_signatures. destruct arm32; cbn [if_arm32 app]; (eapply any_functional; [sigs|vm_compute; reflexivity]). Qed.
Lemma chipname_signatures_functional arm32 : functional (any (chipname_signatures arm32)).
Proof. unfold chipname_signatures. destruct arm32; cbn [if_arm32 app]; (eapply any_functional; [sigs|vm_compute; reflexivity]). Qed.
