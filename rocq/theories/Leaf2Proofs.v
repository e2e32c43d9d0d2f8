(** Proofs about the order of leaf 2's descriptors. *)
From Verif Require Import Base TopologySpec X86LinuxModel X86DescriptorModel X86DecodeModel X86DecodeSpec X86DescriptorProofs X86DecodeProofs Leaf2Spec.
From Coq Require Import List Lia. Import ListNotations.
Open Scope N_scope.

(** ** Assignments to one cache *)
Definition sets (s : slot) (a : action) : bool := match a with SetCache s' _ => slot_beq s' s | _ => false end.
Lemma slot_beq_true a b : slot_beq a b = true <-> a = b.
Proof. destruct a, b; cbn; split; congruence. Qed.

Lemma act_sets s a cs cs' : sets s a = true -> cs_cache (act cs a) s = cs_cache (act cs' a) s.
Proof. destruct a; try discriminate. cbn [sets act set_cache cs_cache]. intros ->. reflexivity. Qed.
Lemma act_keeps s a cs : sets s a = false -> cs_cache (act cs a) s = cs_cache cs s.
Proof. destruct a; try reflexivity. cbn [sets act set_cache cs_cache]. intros ->. reflexivity. Qed.
Lemma act_agree s a cs cs' : cs_cache cs s = cs_cache cs' s -> cs_cache (act cs a) s = cs_cache (act cs' a) s.
Proof.
  intros H. destruct (sets s a) eqn:E; [now apply act_sets|]. now rewrite !act_keeps.
Qed.
Lemma acts_agree s l : forall cs cs', cs_cache cs s = cs_cache cs' s -> cs_cache (fold_left act l cs) s = cs_cache (fold_left act l cs') s.
Proof. induction l as [|a l IH]; intros cs cs' H; [exact H|]. cbn [fold_left]. apply IH. now apply act_agree. Qed.
Lemma acts_set s l : forall cs cs', existsb (sets s) l = true -> cs_cache (fold_left act l cs) s = cs_cache (fold_left act l cs') s.
Proof.
  induction l as [|a l IH]; intros cs cs' H; [discriminate|]. cbn [fold_left existsb] in *. destruct (sets s a) eqn:E.
  - apply acts_agree. now apply act_sets.
  - now apply IH.
Qed.
Lemma acts_keep s l : forall cs, existsb (sets s) l = false -> cs_cache (fold_left act l cs) s = cs_cache cs s.
Proof.
  induction l as [|a l IH]; intros cs H; [reflexivity|]. cbn [fold_left existsb] in *. apply Bool.orb_false_elim in H. destruct H as (A & H).
  rewrite IH by exact H. now apply act_keeps.
Qed.

(** ** Descriptors *)
Section Decode.
Variables (b : build) (vendor : N) (mi : model_info) (s : slot).
Let decode d cs := decode_cache_descriptor b vendor (mi_family mi) (mi_model mi) d cs.
Let step cs d := if negb (d =? 0) then decode d cs else cs.
Definition writes d := existsb (sets s) (descriptor_actions b vendor (mi_family mi) (mi_model mi) d).

Lemma writes_set d cs cs' : writes d = true -> cs_cache (decode d cs) s = cs_cache (decode d cs') s.
Proof. apply acts_set. Qed.
Lemma writes_keep d cs : writes d = false -> cs_cache (decode d cs) s = cs_cache cs s.
Proof. apply acts_keep. Qed.
Lemma step_zero cs : step cs 0 = cs. Proof. reflexivity. Qed.
Lemma step_other cs d : d <> 0 -> step cs d = decode d cs.
Proof. intros H. unfold step. now rewrite (proj2 (N.eqb_neq d 0) H). Qed.

(** The only descriptor for a cache decides. *)
Lemma fold_unique l : forall cs d0, d0 <> 0 -> In d0 l -> writes d0 = true -> (forall d, d <> 0 -> In d l -> writes d = true -> d = d0) ->
  forall cs0, cs_cache (fold_left step l cs) s = cs_cache (decode d0 cs0) s.
Proof.
  induction l as [|d l IH] using rev_ind; intros cs d0 Z I W U cs0; [destruct I|].
  rewrite fold_left_app. cbn [fold_left]. destruct (N.eq_dec d 0) as [-> |D].
  - rewrite step_zero. apply IH; auto.
    + apply in_app_or in I. destruct I as [I|[I|[]]]; [exact I|congruence].
    + intros d D I'. apply U; [exact D|apply in_or_app; now left].
  - rewrite step_other by exact D. destruct (writes d) eqn:E.
    + rewrite (U d D) by (try apply in_or_app; cbn; auto). now apply writes_set.
    + rewrite writes_keep by exact E. apply IH; auto.
      * apply in_app_or in I. destruct I as [I|[I|[]]]; [exact I|congruence].
      * intros d' D' I'. apply U; [exact D'|apply in_or_app; now left].
Qed.
Lemma fold_none l : forall cs, (forall d, d <> 0 -> In d l -> writes d = false) -> cs_cache (fold_left step l cs) s = cs_cache cs s.
Proof.
  induction l as [|d l IH] using rev_ind; intros cs U; [reflexivity|].
  rewrite fold_left_app. cbn [fold_left]. destruct (N.eq_dec d 0) as [-> |D].
  - rewrite step_zero. apply IH. intros d D I. apply U; [exact D|apply in_or_app; now left].
  - rewrite step_other by exact D. rewrite writes_keep by (apply U; [exact D|apply in_or_app; right; now left]).
    apply IH. intros d' D' I. apply U; [exact D'|apply in_or_app; now left].
Qed.
Lemma some_writer l : (exists d, d <> 0 /\ In d l /\ writes d = true) \/ (forall d, d <> 0 -> In d l -> writes d = false).
Proof.
  induction l as [|d l [(e & A & B & C)|IH]]; [right; intros ? ? []| |].
  - left. exists e. cbn. auto.
  - destruct (N.eq_dec d 0) as [-> |D].
    + right. intros e E [<-|I]; [congruence|now apply IH].
    + destruct (writes d) eqn:W; [left; exists d; cbn; auto|]. right. intros e E [<-|I]; [exact W|now apply IH].
Qed.

Definition all_bytes (m : cpu) (i n : nat) : list N := flat_map (fun j => tl (regs_bytes (cpuid2 m j))) (seq i n).
Lemma repeat_fold m : forall n i cs, repeat_descriptors b m vendor mi n i cs = fold_left step (all_bytes m i n) cs.
Proof.
  induction n as [|n IH]; intros i cs; [reflexivity|]. cbn [repeat_descriptors]. rewrite IH. unfold all_bytes. cbn [seq flat_map].
  rewrite fold_left_app. reflexivity.
Qed.
End Decode.

(** ** The bytes *)
Lemma byte_of w k : N.land (N.shiftr w (8 * k)) 0xFF = byte w k.
Proof. unfold byte. change 0xFF with (N.ones 8). now rewrite N.land_ones, N.shiftr_div_pow2. Qed.
Lemma byte_0 w : N.land w 0xFF = byte w 0.
Proof. rewrite <- byte_of. now rewrite N.shiftr_0_r. Qed.

Lemma tail_bytes r : tl (regs_bytes r) = map (byte (eax r)) [1; 2; 3] ++ map (byte (ebx r)) [0; 1; 2; 3] ++ map (byte (ecx r)) [0; 1; 2; 3] ++ map (byte (edx r)) [0; 1; 2; 3].
Proof. unfold regs_bytes, word_bytes. cbn [app tl map]. rewrite <- !byte_of. rewrite !N.shiftr_0_r. reflexivity. Qed.

Lemma names_in m d : names m d <-> d <> 0 /\ In d (all_bytes m 0 (N.to_nat (N.land (eax (cpuid2 m 0)) 0xFF))).
Proof.
  rewrite byte_0. fold (readings m). unfold names, all_bytes. rewrite in_flat_map.
  assert (K : forall k, k < 4 <-> In k [0; 1; 2; 3]) by (intros k; cbn; lia).
  assert (K' : forall k, 1 <= k < 4 <-> In k [1; 2; 3]) by (intros k; cbn; lia).
  split; intros (Z & i & I & H); (split; [exact Z|]); exists i.
  - split; [apply in_seq; lia|]. rewrite tail_bytes, !in_app_iff. destruct H as [(k & Hk & ->)|(w & k & W & Hk & ->)].
    + left. apply in_map. now apply K'.
    + apply K in Hk. right. cbn [In] in W. destruct W as [<-|[<-|[<-|[]]]]; [left|right; left|right; right]; apply in_map; exact Hk.
  - apply in_seq in I. split; [lia|]. rewrite tail_bytes, !in_app_iff in H.
    destruct H as [H|H].
    + left. apply in_map_iff in H. destruct H as (k & <- & Hk). exists k. now rewrite K'.
    + right. destruct H as [H|[H|H]]; apply in_map_iff in H; destruct H as (k & <- & Hk);
        [exists (ebx (cpuid2 m i))|exists (ecx (cpuid2 m i))|exists (edx (cpuid2 m i))]; exists k; rewrite K; cbn; auto.
Qed.

(** ** Order *)
Definition like (cs cs' : cstate) : Prop := forall s, cs_cache cs s = cs_cache cs' s.
Lemma like_set s c cs cs' : like cs cs' -> like (set_cache s c cs) (set_cache s c cs').
Proof. intros H s'. cbn. now destruct (slot_beq s s'). Qed.

Lemma leaf4_like r cs cs' : like cs cs' ->
  match decode_deterministic_cache_parameters r cs, decode_deterministic_cache_parameters r cs' with
  | None, None => True | Some (c, p), Some (c', p') => like c c' /\ p = p' | _, _ => False end.
Proof.
  intros H. unfold decode_deterministic_cache_parameters. cbv zeta.
  destruct (_ =? 0); [exact I|]. split; [|reflexivity].
  repeat match goal with |- context [if ?c then _ else _] => destruct c end; repeat apply like_set; exact H.
Qed.
Lemma leaf1d_like r cs cs' : like cs cs' ->
  match decode_cache_properties r cs, decode_cache_properties r cs' with None, None => True | Some c, Some c' => like c c' | _, _ => False end.
Proof.
  intros H. unfold decode_cache_properties. cbv zeta. destruct (_ =? 0); [exact I|].
  repeat match goal with |- context [if ?c then _ else _] => destruct c end; repeat apply like_set; exact H.
Qed.

Definition res_like {A} (R : A -> A -> Prop) (x y : res A) : Prop :=
  match x, y with Ok a, Ok a' => R a a' | UB, UB => True | Hang, Hang => True | _, _ => False end.
Definition pair_like (x y : cstate * N) : Prop := like (fst x) (fst y) /\ snd x = snd y.

Lemma leaf4_loop_like m m' : cpuidex m' = cpuidex m -> forall fuel e cs cs' p, like cs cs' ->
  res_like pair_like (leaf4_loop m fuel e cs p) (leaf4_loop m' fuel e cs' p).
Proof.
  intros M. induction fuel as [|fuel IH]; intros e cs cs' p H; [exact I|]. cbn [leaf4_loop]. rewrite M.
  pose proof (leaf4_like (cpuidex m 4 e) cs cs' H) as L.
  destruct (decode_deterministic_cache_parameters _ cs) as [(c, q)|], (decode_deterministic_cache_parameters _ cs') as [(c', q')|]; try destruct L.
  - subst. now apply IH.
  - split; auto.
Qed.
Lemma leaf1d_loop_like m m' : cpuidex m' = cpuidex m -> forall fuel e cs cs', like cs cs' ->
  res_like like (leaf1d_loop m fuel e cs) (leaf1d_loop m' fuel e cs').
Proof.
  intros M. induction fuel as [|fuel IH]; intros e cs cs' H; [exact I|]. cbn [leaf1d_loop]. rewrite M.
  pose proof (leaf1d_like (cpuidex m 0x8000001D e) cs cs' H) as L.
  destruct (decode_cache_properties _ cs), (decode_cache_properties _ cs'); try destruct L.
  - now apply IH.
  - exact H.
Qed.

Lemma leafB_like m m' : cpuidex m' = cpuidex m -> forall fuel level shift t, leafB_loop m' fuel level shift t = leafB_loop m fuel level shift t.
Proof. intros M. induction fuel as [|fuel IH]; intros level shift t; [reflexivity|]. cbn [leafB_loop]. rewrite M. cbv zeta. now rewrite IH. Qed.
Lemma topology_like m m' fuel a e l t : cpuidex m' = cpuidex m -> detect_topology m' fuel a e l t = detect_topology m fuel a e l t.
Proof. intros M. unfold detect_topology, cpuid. rewrite M. cbv zeta. now rewrite (leafB_like m m' M). Qed.

Definition vendor_in b m := decode_vendor b (ebx (cpuid m 0)) (ecx (cpuid m 0)) (edx (cpuid m 0)).
Definition model_in m := decode_model_info (eax (cpuid m 1)).

Lemma silent_writes b m d s : silent_about b m d s -> writes b (vendor_in b m) (model_in m) s d = false.
Proof.
  intros H. destruct (writes b (vendor_in b m) (model_in m) s d) eqn:W; [|reflexivity]. exfalso.
  set (one := CState (fun _ => XCache (Geometry 0 0 0 0 0 0) 0) (cs_tlb cstate0) (0, 0) 0).
  set (two := CState (fun _ => XCache (Geometry 0 0 0 0 0 0) 1) (cs_tlb cstate0) (0, 0) 0).
  pose proof (H one) as A. pose proof (H two) as B. pose proof (writes_set b (vendor_in b m) (model_in m) s d one two W) as C.
  unfold vendor_in, model_in in C. rewrite A, B in C. discriminate C.
Qed.

Lemma descriptors_like b m m' cs : cpuidex m' = cpuidex m -> (forall d, names m' d <-> names m d) ->
  (forall d d' s, names m d -> names m d' -> d <> d' -> silent_about b m d s \/ silent_about b m d' s) ->
  like (repeat_descriptors b m (vendor_in b m) (model_in m) (N.to_nat (N.land (eax (cpuid2 m 0)) 0xFF)) 0 cs)
       (repeat_descriptors b m' (vendor_in b m) (model_in m) (N.to_nat (N.land (eax (cpuid2 m' 0)) 0xFF)) 0 cs).
Proof.
  intros M S C s. rewrite !repeat_fold.
  set (l := all_bytes m 0 _). set (l' := all_bytes m' 0 _).
  assert (E : forall d, d <> 0 -> (In d l' <-> In d l)).
  { intros d D. pose proof (S d) as K. rewrite !names_in in K. fold l l' in K. tauto. }
  assert (U : forall d d', d <> 0 -> d' <> 0 -> In d l -> In d' l -> writes b (vendor_in b m) (model_in m) s d = true -> writes b (vendor_in b m) (model_in m) s d' = true -> d' = d).
  { intros d d' D D' I I' W W'. destruct (N.eq_dec d' d) as [|X]; [assumption|]. exfalso.
    assert (X' : d <> d') by congruence.
    destruct (C d d' s) as [K|K]; try apply names_in; fold l; auto; apply silent_writes in K; congruence. }
  destruct (some_writer b (vendor_in b m) (model_in m) s l) as [(d & D & I & W)|F].
  - rewrite (fold_unique b (vendor_in b m) (model_in m) s l cs d D I W) with (cs0 := cs) by (intros e Z J V; apply (U d e); auto).
    rewrite (fold_unique b (vendor_in b m) (model_in m) s l' cs d D) with (cs0 := cs); auto.
    + now apply E.
    + intros e Z J V. apply (U d e); auto. now apply E.
  - rewrite (fold_none b (vendor_in b m) (model_in m) s l cs F). symmetry. apply fold_none. intros d D I. apply F; [exact D|now apply E].
Qed.

Lemma order_of_descriptors b m answers fuel :
  (forall d, names (with_leaf2 m answers) d <-> names m d) ->
  (forall d d' s, names m d -> names m d' -> d <> d' -> silent_about b m d s \/ silent_about b m d' s) ->
  init_processor b (with_leaf2 m answers) fuel = init_processor b m fuel.
Proof.
  intros S C. set (m' := with_leaf2 m answers) in *. assert (M : cpuidex m' = cpuidex m) by reflexivity.
  unfold init_processor. cbv zeta. change (cpuid m') with (cpuid m). destruct (1 <=? eax (cpuid m 0)); [|reflexivity].
  fold (vendor_in b m) (model_in m).
  match goal with |- bind ?x _ = bind ?y _ => assert (K : res_like pair_like y x) end.
  { unfold detect_cache. cbv zeta.
    match goal with |- res_like _ (bind ?x _) (bind ?y _) => assert (K : res_like pair_like x y) end.
    { pose proof (descriptors_like b m m' cstate0 M S C) as L. destruct (2 <=? eax (cpuid m 0)); [|split; [intros s; reflexivity|reflexivity]].
      destruct (negb _ && negb _ && _); [|split; [exact L|reflexivity]].
      pose proof (leaf4_loop_like m m' M fuel 0 _ _ 0 L) as Q. unfold bind.
      destruct (leaf4_loop m _ _ _ _) as [(c, p)| |], (leaf4_loop m' _ _ _ _) as [(c', p')| |]; try destruct Q; try exact I.
      cbn [fst snd] in *. subst. split; [assumption|reflexivity]. }
    match goal with |- res_like _ (bind ?x _) (bind ?y _) => destruct x as [(c, p)| |], y as [(c', p')| |]; try destruct K; try exact I end.
    cbn [fst snd bind] in *. subst. destruct (negb _ && _); [|split; [assumption|reflexivity]].
    match goal with H : like c c' |- _ => pose proof (leaf1d_loop_like m m' M fuel 0 _ _ H) as Q end. unfold bind.
    destruct (leaf1d_loop m _ _ _), (leaf1d_loop m' _ _ _); try destruct Q; try exact I. split; [exact Q|reflexivity]. }
  match goal with |- bind ?x _ = bind ?y _ => destruct x as [(c, p)| |], y as [(c', p')| |]; try destruct K; try reflexivity end.
  cbn [fst snd bind] in *. subst. rewrite (topology_like m m') by exact M.
  match goal with H : like c' c |- _ => pose proof H as L end. unfold bind. destruct (detect_topology _ _ _ _ _ _); [|reflexivity|reflexivity].
  now rewrite !L.
Qed.

(** ** Old Intel processors: what leaf 2 names is what is found *)
Section Intel.
Variables (b : build) (mi : model_info).
Let family := mi_family mi.
Let model := mi_model mi.
Let wr s d := writes b vendor_intel mi s d.

Lemma kept_not_written s d : (forall cs, cs_cache (decode_cache_descriptor b vendor_intel family model d cs) s = cs_cache cs s) -> wr s d = false.
Proof.
  intros H. destruct (wr s d) eqn:W; [|reflexivity]. exfalso.
  set (one := CState (fun _ => XCache (Geometry 0 0 0 0 0 0) 0) (cs_tlb cstate0) (0, 0) 0).
  set (two := CState (fun _ => XCache (Geometry 0 0 0 0 0 0) 1) (cs_tlb cstate0) (0, 0) 0).
  pose proof (writes_set b vendor_intel mi s d one two W) as C. fold family model in C. rewrite !H in C. discriminate C.
Qed.

Lemma written_described s d : wr s d = true -> describes_cache family model d s \/ unsourced d.
Proof.
  intros W. destruct (N.le_gt_cases 0x39 d) as [A|A]; [destruct (N.le_gt_cases d 0x3E) as [B|B]; [right; split; assumption|]|];
    (assert (U : ~ unsourced d) by (unfold unsourced; lia);
     left; destruct (intel_cache family model d) as [(((s', kb), ways), line)|] eqn:E;
     [destruct (slot_beq s' s) eqn:S; [apply slot_beq_true in S; subst; exists kb, ways, line; exact E|];
      assert (S' : s <> s') by (intros <-; destruct s; discriminate S); exfalso;
      destruct (N.eq_dec d 0x82) as [-> |D1]; [vm_compute in E; injection E as <- _ _ _; destruct s; [discriminate W|discriminate W|congruence|discriminate W|discriminate W]|];
      destruct (N.eq_dec d 0xD2) as [-> |D2]; [vm_compute in E; injection E as <- _ _ _; destruct s; [discriminate W|discriminate W|discriminate W|congruence|discriminate W]|];
      rewrite (kept_not_written s d) in W; [discriminate W|intros cs; now apply (descriptor_documented b family model d s' kb ways line cs E D1 D2)]
     |exfalso; rewrite (kept_not_written s d) in W; [discriminate W|intros cs; now apply descriptor_undocumented]]).
Qed.

Lemma described_written s d kb ways line : intel_cache family model d = Some (s, kb, ways, line) -> d <> 0x82 -> d <> 0xD2 -> wr s d = true.
Proof.
  intros E D1 D2. destruct (wr s d) eqn:W; [reflexivity|]. exfalso.
  destruct (descriptor_documented b family model d s kb ways line cstate0 E D1 D2) as ((_ & _ & _ & _ & _ & Z & _) & _). apply Z.
  pose proof (writes_keep b vendor_intel mi s d cstate0 W) as K. fold family model in K. rewrite K. reflexivity.
Qed.
End Intel.

Lemma old_intel b m fuel : vendor_in b m = vendor_intel -> 2 <= eax (cpuid m 0) < 4 -> eax (cpuid m 0x80000000) < 0x8000001D ->
  let family := mi_family (model_in m) in let model := mi_model (model_in m) in
  exists x, init_processor b m fuel = Ok x /\ forall s,
    (forall d kilobytes ways line, names m d -> intel_cache family model d = Some (s, kilobytes, ways, line) -> d <> 0x82 -> d <> 0xD2 ->
       (forall d', names m d' -> describes_cache family model d' s \/ unsourced d' -> d' = d) ->
       documented_geometry kilobytes ways line (xc_geometry (found x s))) /\
    ((forall d, names m d -> ~ describes_cache family model d s /\ ~ unsourced d) -> found x s = xcache0).
Proof.
  cbv zeta. intros V L E. unfold init_processor. cbv zeta. fold (vendor_in b m) (model_in m). rewrite V.
  rewrite (proj2 (N.leb_le 1 (eax (cpuid m 0)))) by lia. unfold detect_cache. cbv zeta.
  rewrite (proj2 (N.leb_le 2 (eax (cpuid m 0)))) by lia. rewrite (proj2 (N.leb_gt 4 (eax (cpuid m 0)))) by lia. rewrite Bool.andb_false_r.
  set (cs := repeat_descriptors b m vendor_intel (model_in m) _ 0 cstate0). cbn [bind].
  set (ext := if 0x80000000 <=? eax (cpuid m 0x80000000) then eax (cpuid m 0x80000000) else 0).
  assert (X : (0x8000001D <=? ext) = false).
  { apply N.leb_gt. unfold ext. destruct (0x80000000 <=? _); [exact E|reflexivity]. }
  rewrite X, Bool.andb_false_r. cbn [bind].
  assert (T : exists t, detect_topology m fuel (eax (cpuid m 0)) ext (cpuid m 1) (Topology 0 0 0 0 0) = Ok t).
  { unfold detect_topology. rewrite (proj2 (N.leb_gt 0xB (eax (cpuid m 0)))) by lia. rewrite Bool.andb_false_r. eexists. reflexivity. }
  destruct T as (t & ->). cbn [bind]. eexists. split; [reflexivity|]. intros s.
  assert (F : found (XInfo vendor_intel (decode_uarch b vendor_intel (model_in m)) (eax (cpuid m 1)) (tp_thread_offset t) (tp_thread_length t) (tp_core_offset t) (tp_core_length t)
       (cs_cache cs L1I) (cs_cache cs L1D) (cs_cache cs L2) (cs_cache cs L3) (cs_cache cs L4)) s = cs_cache cs s) by (destruct s; reflexivity).
  rewrite F. unfold cs. rewrite repeat_fold. set (l := all_bytes m 0 _). split.
  - intros d kb ways line Nd Id D1 D2 U. apply names_in in Nd. destruct Nd as (Z & I). fold l in I.
    rewrite (fold_unique b vendor_intel (model_in m) s l cstate0 d Z I (described_written b (model_in m) s d kb ways line Id D1 D2)) with (cs0 := cstate0).
    + now apply descriptor_documented.
    + intros d' Z' I' W. apply U; [apply names_in; split; [exact Z'|exact I']|]. now apply written_described in W.
  - intros U. rewrite fold_none; [reflexivity|]. intros d Z I. destruct (writes b vendor_intel (model_in m) s d) eqn:W; [|reflexivity]. exfalso.
    apply written_described in W. destruct (U d) as (A & B); [apply names_in; split; [exact Z|exact I]|]. tauto.
Qed.

Lemma order_intel b m answers fuel : vendor_in b m = vendor_intel ->
  (forall d, names (with_leaf2 m answers) d <-> names m d) -> (forall d, names m d -> ~ unsourced d) ->
  (forall d d' s, names m d -> names m d' -> describes_cache (mi_family (model_in m)) (mi_model (model_in m)) d s ->
     describes_cache (mi_family (model_in m)) (mi_model (model_in m)) d' s -> d = d') ->
  init_processor b (with_leaf2 m answers) fuel = init_processor b m fuel.
Proof.
  intros V S U D. apply order_of_descriptors; [exact S|]. intros d d' s I I' X. unfold silent_about. fold (vendor_in b m) (model_in m). rewrite V.
  destruct (writes b vendor_intel (model_in m) s d) eqn:W; [|left; intros cs; now apply writes_keep].
  destruct (writes b vendor_intel (model_in m) s d') eqn:W'; [|right; intros cs; now apply writes_keep].
  exfalso. apply X. apply written_described in W, W'. destruct W as [W|W]; [|now apply U in W]. destruct W' as [W'|W']; [|now apply U in W']. now apply (D d d' s).
Qed.
