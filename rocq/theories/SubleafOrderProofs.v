(** Proofs about the order of subleaves. *)
From Verif Require Import Base TopologySpec X86LinuxModel X86DescriptorModel X86DecodeModel X86DecodeSpec X86DescriptorProofs X86DecodeProofs Leaf2Spec Leaf2Proofs SubleafOrderSpec.
From Coq Require Import List Lia. Import ListNotations.
Open Scope N_scope.

(** ** Steps that set a cache or leave it *)
Section Steps.
Context {A : Type} (step : cstate -> A -> cstate) (s : slot).
Definition constant (a : A) : Prop := forall cs cs', cs_cache (step cs a) s = cs_cache (step cs' a) s.
Definition quiet (a : A) : Prop := forall cs, cs_cache (step cs a) s = cs_cache cs s.

Lemma not_both a : constant a -> quiet a -> False.
Proof.
  intros C Q.
  set (one := CState (fun _ => XCache (Geometry 0 0 0 0 0 0) 0) (cs_tlb cstate0) (0, 0) 0).
  set (two := CState (fun _ => XCache (Geometry 0 0 0 0 0 0) 1) (cs_tlb cstate0) (0, 0) 0).
  pose proof (C one two) as E. rewrite !Q in E. discriminate E.
Qed.
Lemma fold_constant l : forall cs a, In a l -> constant a -> (forall a', In a' l -> a' = a \/ quiet a') ->
  forall cs0, cs_cache (fold_left step l cs) s = cs_cache (step cs0 a) s.
Proof.
  induction l as [|d l IH] using rev_ind; intros cs a I C U cs0; [destruct I|]. rewrite fold_left_app. cbn [fold_left].
  destruct (U d) as [-> |Q]; [apply in_or_app; right; now left|apply C|].
  rewrite Q. apply IH; auto.
  - apply in_app_or in I. destruct I as [I|[-> |[]]]; [exact I|]. destruct (not_both a C Q).
  - intros a' I'. apply U. apply in_or_app. now left.
Qed.
Lemma fold_quiet l : forall cs, (forall a, In a l -> quiet a) -> cs_cache (fold_left step l cs) s = cs_cache cs s.
Proof.
  induction l as [|d l IH]; intros cs U; [reflexivity|]. cbn [fold_left]. rewrite IH by (intros a I; apply U; now right). apply U. now left.
Qed.
Lemma some_constant l : (forall a, In a l -> constant a \/ quiet a) -> (exists a, In a l /\ constant a) \/ (forall a, In a l -> quiet a).
Proof.
  induction l as [|d l IH]; intros H; [right; intros a []|].
  destruct (H d) as [C|Q]; [now left|left; exists d; split; [now left|exact C]|].
  destruct IH as [(a & I & C)|IH]; [intros a I; apply H; now right|left; exists a; split; [now right|exact C]|].
  right. intros a [<-|I]; [exact Q|now apply IH].
Qed.
Lemma fold_same l l' cs : (forall a, In a l -> constant a \/ quiet a) -> (forall a a', In a l -> In a' l -> a = a' \/ quiet a \/ quiet a') ->
  (forall a, In a l' <-> In a l) -> cs_cache (fold_left step l' cs) s = cs_cache (fold_left step l cs) s.
Proof.
  intros K U E. destruct (some_constant l K) as [(a & I & C)|Q].
  - assert (V : forall a', In a' l -> a' = a \/ quiet a').
    { intros a' I'. destruct (U a a' I I') as [->|[Q|Q]]; [now left|destruct (not_both a C Q)|now right]. }
    rewrite (fold_constant l cs a I C V cs). apply fold_constant; [now apply E|exact C|]. intros a' I'. apply V. now apply E.
  - rewrite !fold_quiet; auto. intros a I. apply Q. now apply E.
Qed.
End Steps.

Lemma type_eq r : N.land (eax r) 0x1F = d_type r.
Proof. unfold d_type, field. change 0x1F with (N.ones 5). rewrite N.land_ones. cbn [N.pow]. now rewrite N.div_1_r. Qed.

(** ** Leaf 4 *)
Definition step4 (cs : cstate) (r : regs) : cstate := match decode_deterministic_cache_parameters r cs with Some (c, _) => c | None => cs end.
Definition cores4 (r : regs) : N := 1 + N.shiftr (eax r) 26.

Lemma decode4 r cs : d_type r <> 0 -> decode_deterministic_cache_parameters r cs = Some (step4 cs r, cores4 r).
Proof.
  intros T. unfold step4, decode_deterministic_cache_parameters, cores4. cbv zeta. rewrite type_eq, (proj2 (N.eqb_neq _ 0) T). reflexivity.
Qed.
Lemma loop4 m l : lists (cpuidex m 4) l -> forall fuel i cs p, (length l < i + fuel)%nat -> (i <= length l)%nat ->
  leaf4_loop m fuel (N.of_nat i) cs p = Ok (fold_left step4 (skipn i l) cs, fold_left (fun _ r => cores4 r) (skipn i l) p).
Proof.
  intros (B & Z & L). induction fuel as [|fuel IH]; intros i cs p F I; [lia|]. cbn [leaf4_loop].
  destruct (nth_error l i) as [r|] eqn:E.
  - destruct (L i r E) as (-> & T). rewrite decode4 by exact T.
    assert (I' : (i < length l)%nat) by (apply nth_error_Some; congruence).
    replace (u32 (N.of_nat i + 1)) with (N.of_nat (S i)) by (unfold u32; rewrite N.mod_small; lia).
    rewrite IH by lia. assert (S : skipn i l = r :: skipn (S i) l).
    { clear -E. revert i E. induction l as [|x l IH]; intros [|i] E; try discriminate; cbn in *; [congruence|now apply IH]. }
    now rewrite S.
  - apply nth_error_None in E. replace i with (length l) by lia. rewrite skipn_all. cbn [fold_left].
    unfold decode_deterministic_cache_parameters. rewrite type_eq, Z. reflexivity.
Qed.

Lemma class4 s r : constant step4 s r \/ quiet step4 s r.
Proof.
  unfold constant, quiet, step4, decode_deterministic_cache_parameters. cbv zeta.
  generalize (described_cache r). intros c.
  destruct (N.land (eax r) 31 =? 0); [right; reflexivity|].
  repeat match goal with |- context [if N.eqb ?x ?y then _ else _] => destruct (N.eqb x y) end;
    destruct s; (right; reflexivity) || (left; reflexivity).
Qed.
Lemma quiet4 s r : regs_ok r -> ~ describes 4 r s -> quiet step4 s r.
Proof.
  intros R D cs. unfold step4. destruct (leaf4_decodes r cs R) as [(_ & ->)|(_ & cs' & -> & (U & _))]; [reflexivity|].
  specialize (U s). tauto.
Qed.

Lemma describes_decidable levels r s : describes levels r s \/ ~ describes levels r s.
Proof.
  assert (D : forall x y : N, x = y \/ ~ x = y) by (intros x y; destruct (N.eq_dec x y); tauto).
  assert (E : 4 <= levels \/ ~ 4 <= levels) by lia.
  pose proof (D (d_type r) 1). pose proof (D (d_type r) 2). pose proof (D (d_type r) 3).
  pose proof (D (d_level r) 1). pose proof (D (d_level r) 2). pose proof (D (d_level r) 3). pose proof (D (d_level r) 4).
  clear D. destruct s; unfold describes; cbv zeta; tauto.
Qed.

Lemma apart levels l s (Q : regs -> Prop) : one_per_cache levels l -> (forall r, In r l -> ~ describes levels r s -> Q r) ->
  forall r r', In r l -> In r' l -> r = r' \/ Q r \/ Q r'.
Proof.
  intros U K r r' I I'. destruct (describes_decidable levels r s) as [D|D]; [|right; left; now apply K].
  destruct (describes_decidable levels r' s) as [D'|D']; [|right; right; now apply K]. left. now apply (U r r' s).
Qed.

Lemma cores4_eq r : regs_ok r -> cores4 r = d_package_cores r.
Proof.
  intros (E & _). unfold cores4, d_package_cores, field. rewrite N.shiftr_div_pow2, N.add_comm. f_equal. symmetry. apply N.mod_small.
  apply N.div_lt_upper_bound; [discriminate|]. exact E.
Qed.
Lemma last_cores l p : (forall r, In r l -> regs_ok r) -> same_cores l ->
  forall r, In r l -> fold_left (fun _ r => cores4 r) l p = cores4 r.
Proof.
  intros O S r I. destruct l as [|d l _] using rev_ind; [destruct I|]. rewrite fold_left_app. cbn [fold_left].
  rewrite !cores4_eq by (apply O; [exact I|apply in_or_app; right; now left] || (apply O; apply in_or_app; right; now left) || now apply O).
  apply S; [apply in_or_app; right; now left|exact I].
Qed.

Lemma leaf4_order m m' l l' fuel cs cs' : lists (cpuidex m 4) l -> lists (cpuidex m' 4) l' -> (length l < fuel)%nat -> (length l' < fuel)%nat ->
  (forall r, In r l' <-> In r l) -> (forall r, In r l -> regs_ok r) -> one_per_cache 4 l -> same_cores l -> like cs cs' ->
  res_like pair_like (leaf4_loop m fuel 0 cs 0) (leaf4_loop m' fuel 0 cs' 0).
Proof.
  intros L L' F F' E O U S K. change 0 with (N.of_nat 0) at 1 3.
  rewrite (loop4 m l L) by lia. rewrite (loop4 m' l' L') by lia. cbn [skipn]. split; cbn [fst snd].
  - intros s. transitivity (cs_cache (fold_left step4 l cs') s).
    + clear -K. revert cs cs' K. induction l as [|r l IH]; intros cs cs' K; [apply K|]. cbn [fold_left]. apply IH. unfold step4.
      pose proof (leaf4_like r cs cs' K) as H. destruct (decode_deterministic_cache_parameters r cs) as [(a, b)|], (decode_deterministic_cache_parameters r cs') as [(a', b')|];
        [apply H|destruct H|destruct H|exact K].
    + symmetry. apply fold_same; [intros r _; apply class4| |exact E].
      apply (apart 4 l s (quiet step4 s) U). intros r I. apply quiet4. now apply O.
  - destruct l as [|r l]; [destruct l' as [|r' l']; [reflexivity|]; exfalso; apply (E r'); now left|].
    rewrite (last_cores (r :: l) 0 O S r) by now left. symmetry. apply last_cores.
    + intros x I. apply O. now apply E.
    + intros x y I J. apply S; now apply E.
    + apply E. now left.
Qed.

(** ** Leaf 0x8000001D *)
Definition step1d (cs : cstate) (r : regs) : cstate := match decode_cache_properties r cs with Some c => c | None => cs end.
Lemma decode1d r cs : d_type r <> 0 -> decode_cache_properties r cs = Some (step1d cs r).
Proof. intros T. unfold step1d, decode_cache_properties. cbv zeta. rewrite type_eq, (proj2 (N.eqb_neq _ 0) T). reflexivity. Qed.
Lemma loop1d m l : lists (cpuidex m 0x8000001D) l -> forall fuel i cs, (length l < i + fuel)%nat -> (i <= length l)%nat ->
  leaf1d_loop m fuel (N.of_nat i) cs = Ok (fold_left step1d (skipn i l) cs).
Proof.
  intros (B & Z & L). induction fuel as [|fuel IH]; intros i cs F I; [lia|]. cbn [leaf1d_loop].
  destruct (nth_error l i) as [r|] eqn:E.
  - destruct (L i r E) as (-> & T). rewrite decode1d by exact T.
    assert (I' : (i < length l)%nat) by (apply nth_error_Some; congruence).
    replace (u32 (N.of_nat i + 1)) with (N.of_nat (S i)) by (unfold u32; rewrite N.mod_small; lia).
    rewrite IH by lia. assert (S : skipn i l = r :: skipn (S i) l).
    { clear -E. revert i E. induction l as [|x l IH]; intros [|i] E; try discriminate; cbn in *; [congruence|now apply IH]. }
    now rewrite S.
  - apply nth_error_None in E. replace i with (length l) by lia. rewrite skipn_all. cbn [fold_left].
    unfold decode_cache_properties. rewrite type_eq, Z. reflexivity.
Qed.
Lemma class1d s r : constant step1d s r \/ quiet step1d s r.
Proof.
  unfold constant, quiet, step1d, decode_cache_properties. cbv zeta. generalize (described_cache r). intros c.
  destruct (N.land (eax r) 31 =? 0); [right; reflexivity|].
  repeat match goal with |- context [if N.eqb ?x ?y then _ else _] => destruct (N.eqb x y) end;
    destruct s; (right; reflexivity) || (left; reflexivity).
Qed.
Lemma quiet1d s r : regs_ok r -> ~ describes 3 r s -> quiet step1d s r.
Proof.
  intros R D cs. unfold step1d. destruct (leaf1d_decodes r cs R) as [(_ & ->)|(_ & cs' & -> & (U & _))]; [reflexivity|].
  specialize (U s). tauto.
Qed.
Lemma leaf1d_order m m' l l' fuel cs cs' : lists (cpuidex m 0x8000001D) l -> lists (cpuidex m' 0x8000001D) l' -> (length l < fuel)%nat -> (length l' < fuel)%nat ->
  (forall r, In r l' <-> In r l) -> (forall r, In r l -> regs_ok r) -> one_per_cache 3 l -> like cs cs' ->
  res_like like (leaf1d_loop m fuel 0 cs) (leaf1d_loop m' fuel 0 cs').
Proof.
  intros L L' F F' E O U K. change 0 with (N.of_nat 0).
  rewrite (loop1d m l L) by lia. rewrite (loop1d m' l' L') by lia. cbn [skipn res_like].
  intros s. transitivity (cs_cache (fold_left step1d l cs') s).
  - clear -K. revert cs cs' K. induction l as [|r l IH]; intros cs cs' K; [apply K|]. cbn [fold_left]. apply IH. unfold step1d.
    pose proof (leaf1d_like r cs cs' K) as H. destruct (decode_cache_properties r cs), (decode_cache_properties r cs');
      [apply H|destruct H|destruct H|exact K].
  - symmetry. apply fold_same; [intros r _; apply class1d| |exact E].
    apply (apart 3 l s (quiet step1d s) U). intros r I. apply quiet1d. now apply O.
Qed.

(** ** The processor *)
Lemma processor_like b m m' fuel :
  (forall l, In l [0; 1; 0x80000000; 0x80000001; 0x80000008] -> cpuid m' l = cpuid m l) -> (forall i, cpuidex m' 0xB i = cpuidex m 0xB i) ->
  (forall i, cpuid2 m' i = cpuid2 m i) ->
  (forall cs cs', like cs cs' -> res_like pair_like (leaf4_loop m fuel 0 cs 0) (leaf4_loop m' fuel 0 cs' 0)) ->
  (forall cs cs', like cs cs' -> res_like like (leaf1d_loop m fuel 0 cs) (leaf1d_loop m' fuel 0 cs')) ->
  init_processor b m' fuel = init_processor b m fuel.
Proof.
  intros C B D L4 L1. unfold init_processor. cbv zeta.
  rewrite !(C 0), !(C 1), !(C 0x80000000), !(C 0x80000001) by (cbn; tauto).
  destruct (1 <=? eax (cpuid m 0)); [|reflexivity].
  match goal with |- bind ?x _ = bind ?y _ => assert (K : res_like pair_like y x) end.
  { unfold detect_cache. cbv zeta.
    match goal with |- res_like _ (bind ?x _) (bind ?y _) => assert (K : res_like pair_like x y) end.
    { destruct (2 <=? eax (cpuid m 0)); [|split; [intros s; reflexivity|reflexivity]].
      rewrite (D 0%nat).
      match goal with |- context [repeat_descriptors b m ?v ?i ?n 0 ?c] => assert (L : like (repeat_descriptors b m v i n 0 c) (repeat_descriptors b m' v i n 0 c)) end.
      { match goal with |- like (repeat_descriptors b m ?v ?i ?k 0 ?z) _ => assert (E : forall n j c, repeat_descriptors b m' v i n j c = repeat_descriptors b m v i n j c) end.
        { induction n as [|n IH]; intros j c; [reflexivity|]. cbn [repeat_descriptors]. now rewrite D, IH. }
        rewrite E. intros s. reflexivity. }
      destruct (negb _ && negb _ && _); [|split; [exact L|reflexivity]].
      pose proof (L4 _ _ L) as Q. unfold bind.
      destruct (leaf4_loop m _ _ _ _) as [(c, p)| |], (leaf4_loop m' _ _ _ _) as [(c', p')| |]; try destruct Q; try exact I.
      cbn [fst snd] in *. subst. split; [assumption|reflexivity]. }
    match goal with |- res_like _ (bind ?x _) (bind ?y _) => destruct x as [(c, p)| |], y as [(c', p')| |]; try destruct K; try exact I end.
    cbn [fst snd bind] in *. subst. destruct (negb _ && _); [|split; [assumption|reflexivity]].
    match goal with H : like c c' |- _ => pose proof (L1 _ _ H) as Q end. unfold bind.
    destruct (leaf1d_loop m _ _ _), (leaf1d_loop m' _ _ _); try destruct Q; try exact I. split; [exact Q|reflexivity]. }
  match goal with |- bind ?x _ = bind ?y _ => destruct x as [(c, p)| |], y as [(c', p')| |]; try destruct K; try reflexivity end.
  cbn [fst snd bind] in *. subst.
  assert (T : forall a e r t, detect_topology m' fuel a e r t = detect_topology m fuel a e r t).
  { intros a e r t. unfold detect_topology. cbv zeta. rewrite !(C 0x80000001), !(C 0x80000008) by (cbn; tauto).
    assert (W : forall fuel level shift t, leafB_loop m' fuel level shift t = leafB_loop m fuel level shift t).
    { clear -B. induction fuel as [|fuel IH]; intros level shift t; [reflexivity|]. cbn [leafB_loop]. rewrite B. cbv zeta. now rewrite IH. }
    now rewrite W. }
  rewrite T. match goal with H : like c' c |- _ => pose proof H as L end. unfold bind. destruct (detect_topology _ _ _ _ _ _); [|reflexivity|reflexivity].
  now rewrite !L.
Qed.

Lemma loop4_same m m' : (forall i, cpuidex m' 4 i = cpuidex m 4 i) -> forall fuel e cs cs' p, like cs cs' ->
  res_like pair_like (leaf4_loop m fuel e cs p) (leaf4_loop m' fuel e cs' p).
Proof.
  intros M. induction fuel as [|fuel IH]; intros e cs cs' p H; [exact I|]. cbn [leaf4_loop]. rewrite M.
  pose proof (leaf4_like (cpuidex m 4 e) cs cs' H) as L.
  destruct (decode_deterministic_cache_parameters _ cs) as [(c, q)|], (decode_deterministic_cache_parameters _ cs') as [(c', q')|]; try destruct L.
  - subst. now apply IH.
  - split; auto.
Qed.
Lemma loop1d_same m m' : (forall i, cpuidex m' 0x8000001D i = cpuidex m 0x8000001D i) -> forall fuel e cs cs', like cs cs' ->
  res_like like (leaf1d_loop m fuel e cs) (leaf1d_loop m' fuel e cs').
Proof.
  intros M. induction fuel as [|fuel IH]; intros e cs cs' H; [exact I|]. cbn [leaf1d_loop]. rewrite M.
  pose proof (leaf1d_like (cpuidex m 0x8000001D e) cs cs' H) as L.
  destruct (decode_cache_properties _ cs), (decode_cache_properties _ cs'); try destruct L.
  - now apply IH.
  - exact H.
Qed.

Lemma order_leaf4 b m answers l l' fuel : lists (cpuidex m 4) l -> lists answers l' -> (length l < fuel)%nat -> (length l' < fuel)%nat ->
  (forall r, In r l' <-> In r l) -> (forall r, In r l -> regs_ok r) -> one_per_cache 4 l -> same_cores l ->
  init_processor b (with_leaf m 4 answers) fuel = init_processor b m fuel.
Proof.
  intros L L' F F' E O U S. apply processor_like; try reflexivity.
  - intros x H. cbn [In] in H. repeat (destruct H as [<-|H]; [reflexivity|]). destruct H.
  - intros cs cs' K. now apply (leaf4_order _ _ l l').
  - intros cs cs' K. apply loop1d_same; [reflexivity|exact K].
Qed.
Lemma order_leaf1d b m answers l l' fuel : lists (cpuidex m 0x8000001D) l -> lists answers l' -> (length l < fuel)%nat -> (length l' < fuel)%nat ->
  (forall r, In r l' <-> In r l) -> (forall r, In r l -> regs_ok r) -> one_per_cache 3 l ->
  init_processor b (with_leaf m 0x8000001D answers) fuel = init_processor b m fuel.
Proof.
  intros L L' F F' E O U. apply processor_like; try reflexivity.
  - intros x H. cbn [In] in H. repeat (destruct H as [<-|H]; [reflexivity|]). destruct H.
  - intros cs cs' K. apply loop4_same; [reflexivity|exact K].
  - intros cs cs' K. now apply (leaf1d_order _ _ l l').
Qed.
