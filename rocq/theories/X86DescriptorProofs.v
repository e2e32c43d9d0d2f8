(** Proofs about the cache descriptors of CPUID leaf 2. *)
From Verif Require Import Base BaseProofs TopologySpec X86LinuxModel X86DescriptorModel X86DecodeModel X86DecodeSpec X86DecodeProofs.
Open Scope N_scope.

Definition obeys (d : N) (e : slot * N * N * N) : Prop :=
  let '(s, kilobytes, ways, line) := e in
  forall x32 android family model, exists c,
    descriptor_actions (Build x32 android) vendor_intel family model d = [SetCache s c] /\
    documented_geometry kilobytes ways line (xc_geometry c).

Ltac geometry_case :=
  cbn [xc_geometry descriptor_cache g_size g_associativity g_sets g_partitions g_line_size];
  split; [reflexivity|]; split; [discriminate|];
  first [exists 4; reflexivity|exists 5; reflexivity|exists 6; reflexivity].

Ltac obeys_case :=
  intros x32 android family model;
  first [destruct x32, android|idtac]; (eexists; split; [reflexivity|];
  split; [reflexivity|]; split; [reflexivity|]; split; [reflexivity|]; split; [reflexivity|]; geometry_case).

Lemma documented_obeyed : Forall (fun e => fst e = 0x82 \/ fst e = 0xD2 \/ obeys (fst e) (snd e)) intel_caches.
Proof.
  unfold intel_caches.
  repeat (constructor; [first [left; reflexivity|right; left; reflexivity|right; right; obeys_case]|]).
  constructor.
Qed.

Lemma descriptor_documented b family model d s kilobytes ways line cs :
  intel_cache family model d = Some (s, kilobytes, ways, line) -> d <> 0x82 -> d <> 0xD2 ->
  let cs' := decode_cache_descriptor b vendor_intel family model d cs in
  documented_geometry kilobytes ways line (xc_geometry (cs_cache cs' s)) /\
  forall s', s' <> s -> cs_cache cs' s' = cs_cache cs s'.
Proof.
  intros H N1 N2. destruct b as [x32 android].
  assert (HO : obeys d (s, kilobytes, ways, line) \/ exists c,
     descriptor_actions (Build x32 android) vendor_intel family model d = [SetCache s c] /\
     documented_geometry kilobytes ways line (xc_geometry c)).
  { unfold intel_cache in H. destruct (N.eqb_spec d 0x49) as [->|D].
    - right. unfold descriptor_actions. change (0x49 =? 0x49) with true. cbn iota.
      change (vendor_intel =? vendor_intel) with true. cbn [andb]. rewrite (andb_comm (model =? 6)).
      change 0x0F with 15. change 0x06 with 6.
      destruct ((family =? 15) && (model =? 6)); injection H as <- <- <- <-; (eexists; split; [reflexivity|]);
      (split; [reflexivity|]; split; [reflexivity|]; split; [reflexivity|]; split; [reflexivity|]; geometry_case).
    - left. destruct (find _ intel_caches) as [e|] eqn:E; [|discriminate]. injection H as E2.
      apply find_some in E. destruct E as (HI & HE). apply N.eqb_eq in HE. subst d.
      pose proof documented_obeyed as F. rewrite Forall_forall in F. destruct (F e HI) as [X|[X|X]]; [congruence|congruence|].
      now rewrite E2 in X. }
  assert (HC : exists c, descriptor_actions (Build x32 android) vendor_intel family model d = [SetCache s c] /\
     documented_geometry kilobytes ways line (xc_geometry c)).
  { destruct HO as [HO|HO]; [apply (HO x32 android family model)|exact HO]. }
  destruct HC as (c & EA & G). unfold decode_cache_descriptor. cbv zeta. rewrite EA. cbn [fold_left act].
  split; [now rewrite set_cache_same|]. intros s' D. destruct s, s'; (reflexivity || congruence).
Qed.

(** *** Every descriptor of the table *)

Definition no_caches (a : action) : bool := match a with SetCache _ _ => false | _ => true end.

Lemma no_caches_unchanged l : forallb no_caches l = true -> forall cs s, cs_cache (fold_left act l cs) s = cs_cache cs s.
Proof.
  induction l as [|a l IH]; cbn [forallb fold_left]; intros H cs s; [reflexivity|].
  apply andb_true_iff in H. destruct H as (H1 & H2). rewrite IH by exact H2. now destruct a.
Qed.

Definition undocumented_ok (e : N * list action) : bool :=
  forallb no_caches (snd e) || ((0x39 <=? fst e) && (fst e <=? 0x3E)) ||
  (if find (fun i => fst i =? fst e) intel_caches then true else false).

Lemma table_undocumented : forallb undocumented_ok descriptor_table = true.
Proof. vm_compute. reflexivity. Qed.

Lemma descriptor_undocumented b vendor family model d cs s :
  intel_cache family model d = None -> ~ unsourced d ->
  cs_cache (decode_cache_descriptor b vendor family model d cs) s = cs_cache cs s.
Proof.
  intros HN HU. unfold intel_cache in HN. unfold decode_cache_descriptor, descriptor_actions.
  destruct (N.eqb_spec d 0x49) as [->|D1]; [discriminate|].
  destruct (N.eqb_spec d 0x70) as [->|D2]; [match goal with |- context [if ?b then _ else _] => destruct b end; reflexivity|].
  destruct (N.eqb_spec d 0x80) as [->|D3]; [discriminate|].
  destruct (find (fun e => fst e =? d) descriptor_table) as [e|] eqn:E; [|reflexivity].
  apply find_some in E. destruct E as (HI & HE). apply N.eqb_eq in HE. subst d.
  pose proof table_undocumented as F. rewrite forallb_forall in F. specialize (F e HI). unfold undocumented_ok in F.
  rewrite !orb_true_iff in F. destruct F as [[F|F]|F].
  - now apply no_caches_unchanged.
  - exfalso. apply HU. unfold unsourced. lia.
  - destruct (find _ intel_caches); discriminate.
Qed.

(** *** Consistent geometry *)

Definition consistent_geometryb (g : geometry) : bool :=
  (g_size g =? g_associativity g * g_sets g * g_partitions g * g_line_size g) && negb (g_size g =? 0) &&
  (g_line_size g =? 2 ^ N.log2 (g_line_size g)).

Lemma consistent_geometryb_ok g : consistent_geometryb g = true -> consistent_geometry g.
Proof.
  unfold consistent_geometryb, consistent_geometry. rewrite !andb_true_iff, negb_true_iff, !N.eqb_eq, N.eqb_neq.
  intros ((A & B) & C). split; [exact A|]. split; [exact B|]. exists (N.log2 (g_line_size g)). exact C.
Qed.

(** The cache is consistent and private: no APIC id bit distinguishes its users. *)
Definition good_cache (c : xcache) : bool := consistent_geometryb (xc_geometry c) && (xc_apic_bits c =? 0).
Definition good_action (a : action) : bool := match a with SetCache _ c => good_cache c | _ => true end.

Lemma good_actions l : forallb good_action l = true -> forall cs s,
  cs_cache (fold_left act l cs) s = cs_cache cs s \/ good_cache (cs_cache (fold_left act l cs) s) = true.
Proof.
  induction l as [|a l IH]; cbn [forallb fold_left]; intros H cs s; [now left|].
  apply andb_true_iff in H. destruct H as (H1 & H2). destruct (IH H2 (act cs a) s) as [E|E]; [|now right].
  rewrite E. destruct a as [s' c| | |]; try (now left). cbn [act set_cache cs_cache]. destruct (slot_beq s' s); [now right|now left].
Qed.

Lemma table_good : forallb (fun e => (fst e =? 0xD2) || forallb good_action (snd e)) descriptor_table = true.
Proof. vm_compute. reflexivity. Qed.

Lemma descriptor_good b vendor family model d cs s : d <> 0xD2 ->
  cs_cache (decode_cache_descriptor b vendor family model d cs) s = cs_cache cs s \/
  good_cache (cs_cache (decode_cache_descriptor b vendor family model d cs) s) = true.
Proof.
  intros HD. apply good_actions. unfold descriptor_actions.
  destruct (N.eqb_spec d 0x49) as [->|D1]; [match goal with |- context [if ?b then _ else _] => destruct b end; reflexivity|].
  destruct (N.eqb_spec d 0x70) as [->|D2]; [match goal with |- context [if ?b then _ else _] => destruct b end; reflexivity|].
  destruct (N.eqb_spec d 0x80) as [->|D3]; [match goal with |- context [if ?b then _ else _] => destruct b end; reflexivity|].
  destruct (find (fun e => fst e =? d) descriptor_table) as [e|] eqn:E; [|reflexivity].
  apply find_some in E. destruct E as (HI & HE). apply N.eqb_eq in HE. subst d.
  pose proof table_good as F. rewrite forallb_forall in F. specialize (F e HI). cbn beta in F.
  apply orb_true_iff in F. destruct F as [F|F]; [|exact F]. apply N.eqb_eq in F. congruence.
Qed.

Lemma good_cache_spec c : good_cache c = true -> consistent_geometry (xc_geometry c) /\ xc_apic_bits c = 0.
Proof.
  unfold good_cache. rewrite andb_true_iff, N.eqb_eq. intros (A & B). split; [now apply consistent_geometryb_ok|exact B].
Qed.

Lemma descriptor_consistent b vendor family model d cs s : d <> 0xD2 ->
  let cs' := decode_cache_descriptor b vendor family model d cs in
  cs_cache cs' s = cs_cache cs s \/
  (consistent_geometry (xc_geometry (cs_cache cs' s)) /\ xc_apic_bits (cs_cache cs' s) = 0).
Proof.
  intros HD. cbv zeta. destruct (descriptor_good b vendor family model d cs s HD) as [E|E]; [now left|right].
  now apply good_cache_spec.
Qed.

(** *** All readings of leaf 2 *)

Lemma decode_descriptors_good b vendor mi r cs s : ~ In 0xD2 (regs_bytes r) ->
  cs_cache (decode_descriptors b vendor mi r cs) s = cs_cache cs s \/
  good_cache (cs_cache (decode_descriptors b vendor mi r cs) s) = true.
Proof.
  intros HN. unfold decode_descriptors. assert (HT : ~ In 0xD2 (tl (regs_bytes r))).
  { intros H. apply HN. destruct (regs_bytes r); [destruct H|now right]. }
  clear HN. revert HT cs. generalize (tl (regs_bytes r)). intros l. induction l as [|d l IH]; intros HT cs; cbn [fold_left]; [now left|].
  assert (HT' : ~ In 0xD2 l) by (intros H; apply HT; now right).
  destruct (d =? 0); cbn [negb]; [now apply IH|].
  assert (HD : d <> 0xD2) by (intros ->; apply HT; now left).
  destruct (IH HT' (decode_cache_descriptor b vendor (mi_family mi) (mi_model mi) d cs)) as [E|E]; [|now right].
  rewrite E. now apply descriptor_good.
Qed.

Lemma repeat_descriptors_good b m vendor mi : forall n i cs s,
  (forall j, (i <= j < i + n)%nat -> ~ In 0xD2 (regs_bytes (cpuid2 m j))) ->
  let cs' := repeat_descriptors b m vendor mi n i cs in
  cs_cache cs' s = cs_cache cs s \/
  (consistent_geometry (xc_geometry (cs_cache cs' s)) /\ xc_apic_bits (cs_cache cs' s) = 0).
Proof.
  intros n i cs s H. cbv zeta.
  assert (G : cs_cache (repeat_descriptors b m vendor mi n i cs) s = cs_cache cs s \/
    good_cache (cs_cache (repeat_descriptors b m vendor mi n i cs) s) = true).
  { revert i cs H. induction n as [|n IH]; intros i cs H; cbn [repeat_descriptors]; [now left|].
    destruct (IH (S i) (decode_descriptors b vendor mi (cpuid2 m i) cs)) as [E|E]; [intros j Hj; apply H; lia| |now right].
    rewrite E. apply decode_descriptors_good. apply H. lia. }
  destruct G as [E|E]; [now left|right; now apply good_cache_spec].
Qed.

(** Whatever the descriptors are, their caches have no sharing width. *)
Definition private_action (a : action) : bool := match a with SetCache _ c => xc_apic_bits c =? 0 | _ => true end.

Lemma private_actions l : forallb private_action l = true -> forall cs s,
  cs_cache (fold_left act l cs) s = cs_cache cs s \/ xc_apic_bits (cs_cache (fold_left act l cs) s) = 0.
Proof.
  induction l as [|a l IH]; cbn [forallb fold_left]; intros H cs s; [now left|].
  apply andb_true_iff in H. destruct H as (H1 & H2). destruct (IH H2 (act cs a) s) as [E|E]; [|now right].
  rewrite E. destruct a as [s' c| | |]; try (now left). cbn [act set_cache cs_cache]. destruct (slot_beq s' s); [|now left].
  right. now apply N.eqb_eq.
Qed.

Lemma table_private : forallb (fun e => forallb private_action (snd e)) descriptor_table = true.
Proof. vm_compute. reflexivity. Qed.

Lemma descriptor_private b vendor family model d cs s :
  cs_cache (decode_cache_descriptor b vendor family model d cs) s = cs_cache cs s \/
  xc_apic_bits (cs_cache (decode_cache_descriptor b vendor family model d cs) s) = 0.
Proof.
  apply private_actions. unfold descriptor_actions.
  destruct (N.eqb_spec d 0x49) as [->|D1]; [match goal with |- context [if ?b then _ else _] => destruct b end; reflexivity|].
  destruct (N.eqb_spec d 0x70) as [->|D2]; [match goal with |- context [if ?b then _ else _] => destruct b end; reflexivity|].
  destruct (N.eqb_spec d 0x80) as [->|D3]; [match goal with |- context [if ?b then _ else _] => destruct b end; reflexivity|].
  destruct (find (fun e => fst e =? d) descriptor_table) as [e|] eqn:E; [|reflexivity].
  apply find_some in E. destruct E as (HI & _).
  pose proof table_private as F. rewrite forallb_forall in F. exact (F e HI).
Qed.

Lemma repeat_descriptors_private b m vendor mi : forall n i cs s,
  xc_apic_bits (cs_cache cs s) = 0 -> xc_apic_bits (cs_cache (repeat_descriptors b m vendor mi n i cs) s) = 0.
Proof.
  induction n as [|n IH]; intros i cs s H; cbn [repeat_descriptors]; [exact H|]. apply IH.
  unfold decode_descriptors. generalize (tl (regs_bytes (cpuid2 m i))). intros l. revert cs H.
  induction l as [|d l IHl]; intros cs H; cbn [fold_left]; [exact H|]. apply IHl. destruct (d =? 0); cbn [negb]; [exact H|].
  destruct (descriptor_private b vendor (mi_family mi) (mi_model mi) d cs s) as [E|E]; [now rewrite E|exact E].
Qed.

(** ** The two wrong entries *)

Lemma descriptor_d2_wrong b family model cs :
  intel_cache family model 0xD2 = Some (L3, 2048, 4, 64) /\
  let g := xc_geometry (cs_cache (decode_cache_descriptor b vendor_intel family model 0xD2 cs) L3) in
  g_size g = 4124672 /\ g_size g <> 2048 * 1024 /\ ~ consistent_geometry g.
Proof.
  split; [reflexivity|]. cbv zeta. destruct b as [[|] [|]]; (split; [reflexivity|]; split; [discriminate|];
  intros (H & _); discriminate).
Qed.

Lemma descriptor_82_wrong b family model cs :
  intel_cache family model 0x82 = Some (L2, 256, 8, 32) /\
  g_associativity (xc_geometry (cs_cache (decode_cache_descriptor b vendor_intel family model 0x82 cs) L2)) = 4.
Proof. split; reflexivity. Qed.
