(** Proofs about when detection ends. *)
From Verif Require Import Base TopologySpec X86LinuxModel X86DescriptorModel X86DecodeModel X86DecodeSpec X86IsaSpec CpuidReplayProofs SubleafOrderProofs DetectionEndsSpec.
From Coq Require Import List Lia ZifyBool. Import ListNotations.
Open Scope N_scope.

(** ** Loops over subleaves *)
Section Loop.
Context {A R : Type} (step : N -> A -> A + R).
Fixpoint gloop (fuel : nat) (n : N) (a : A) : res R :=
  match fuel with O => Hang | S k => match step n a with inr r => Ok r | inl a' => gloop k (u32 (n + 1)) a' end end.

Lemma gloop_no_ub fuel : forall n a, gloop fuel n a <> UB.
Proof. induction fuel as [|f IH]; intros n a; cbn [gloop]; [discriminate|]. destruct (step n a); [apply IH|discriminate]. Qed.
Lemma gloop_more fuel : forall n a r, gloop fuel n a = Ok r -> forall fuel', (fuel <= fuel')%nat -> gloop fuel' n a = Ok r.
Proof.
  induction fuel as [|f IH]; intros n a r E fuel' L; [discriminate|]. destruct fuel' as [|f']; [lia|]. cbn [gloop] in *.
  destruct (step n a); [apply (IH _ _ _ E); lia|exact E].
Qed.
Context (stop : N -> bool) (stops : forall n a, if stop n then exists r, step n a = inr r else exists a', step n a = inl a').
Lemma gloop_found fuel : forall n a r, n < two32 -> gloop fuel n a = Ok r -> exists i, i < two32 /\ stop i = true.
Proof.
  induction fuel as [|f IH]; intros n a r L E; [discriminate|]. cbn [gloop] in E. pose proof (stops n a) as S. destruct (stop n) eqn:P; [eauto|].
  destruct S as (a' & S). rewrite S in E. apply (IH _ _ _) in E; [exact E|]. apply N.mod_lt. discriminate.
Qed.
Lemma gloop_ends k : k < two32 -> stop k = true -> forall fuel n a, n <= k -> (N.to_nat (k - n) < fuel)%nat -> exists r, gloop fuel n a = Ok r.
Proof.
  intros K P. induction fuel as [|f IH]; intros n a L F; [lia|]. cbn [gloop]. pose proof (stops n a) as S.
  destruct (stop n) eqn:Q; destruct S as (x & ->); [eauto|]. assert (n <> k) by congruence.
  assert (E : u32 (n + 1) = n + 1) by (apply N.mod_small; lia). rewrite E. apply IH; lia.
Qed.
Lemma gloop_iff a : (exists fuel r, gloop fuel 0 a = Ok r) <-> exists i, i < two32 /\ stop i = true.
Proof.
  split.
  - intros (f & r & E). now apply gloop_found in E.
  - intros (k & K & P). exists (S (N.to_nat k)). apply (gloop_ends k K P); lia.
Qed.
End Loop.

Lemma loop4_general m fuel : forall n cs p, leaf4_loop m fuel n cs p =
  gloop (fun n a => match decode_deterministic_cache_parameters (cpuidex m 4 n) (fst a) with None => inr a | Some x => inl x end) fuel n (cs, p).
Proof.
  induction fuel as [|f IH]; intros n cs p; [reflexivity|]. cbn [leaf4_loop gloop fst].
  destruct (decode_deterministic_cache_parameters _ _) as [(c, q)|]; [apply IH|reflexivity].
Qed.
Lemma stops4 m n (a : cstate * N) : if d_type (cpuidex m 4 n) =? 0
  then exists r : cstate * N, match decode_deterministic_cache_parameters (cpuidex m 4 n) (fst a) with None => inr a | Some x => inl x end = inr r
  else exists a' : cstate * N, match decode_deterministic_cache_parameters (cpuidex m 4 n) (fst a) with None => inr a | Some x => inl x end = inl a'.
Proof. unfold decode_deterministic_cache_parameters. cbv zeta. rewrite type_eq. destruct (_ =? 0); eauto. Qed.

Lemma loop1d_general m fuel : forall n cs, leaf1d_loop m fuel n cs =
  gloop (fun n a => match decode_cache_properties (cpuidex m 0x8000001D n) a with None => inr a | Some x => inl x end) fuel n cs.
Proof. induction fuel as [|f IH]; intros n cs; [reflexivity|]. cbn [leaf1d_loop gloop]. destruct (decode_cache_properties _ _); [apply IH|reflexivity]. Qed.
Lemma stops1d m n (a : cstate) : if d_type (cpuidex m 0x8000001D n) =? 0
  then exists r : cstate, match decode_cache_properties (cpuidex m 0x8000001D n) a with None => inr a | Some x => inl x end = inr r
  else exists a' : cstate, match decode_cache_properties (cpuidex m 0x8000001D n) a with None => inr a | Some x => inl x end = inl a'.
Proof. unfold decode_cache_properties. cbv zeta. rewrite type_eq. destruct (_ =? 0); eauto. Qed.

Definition stepB (m : cpu) (n : N) (a : N * topology) : N * topology + topology :=
  let r := cpuidex m 0xB n in let type := N.land (N.shiftr (ecx r) 8) 0xFF in let level_shift := N.land (eax r) 0x1F in
  let t := snd a in
  let t :=
    if type =? 1 then Topology (edx r) (fst a) level_shift (tp_core_offset t) (tp_core_length t)
    else if type =? 2 then Topology (edx r) (tp_thread_offset t) (tp_thread_length t) (fst a) level_shift
    else Topology (edx r) (tp_thread_offset t) (tp_thread_length t) (tp_core_offset t) (tp_core_length t) in
  if negb (type =? 0) then inl (u32 (fst a + level_shift), t) else inr t.
Lemma loopB_general m fuel : forall n shift t, leafB_loop m fuel n shift t = gloop (stepB m) fuel n (shift, t).
Proof.
  induction fuel as [|f IH]; intros n shift t; [reflexivity|]. cbn [leafB_loop gloop]. unfold stepB. cbv zeta. cbn [fst snd].
  destruct (negb (N.land (N.shiftr (ecx (cpuidex m 0xB n)) 8) 0xFF =? 0)); [apply IH|reflexivity].
Qed.
Lemma stopsB m n a : if level_kind (cpuidex m 0xB n) =? 0 then exists r, stepB m n a = inr r else exists a', stepB m n a = inl a'.
Proof. unfold stepB, level_kind. cbv zeta. rewrite level_type. destruct (_ mod 256 =? 0); cbn [negb]; eauto. Qed.

Lemma end_iff type leaf : has_end type leaf <-> exists i, i < two32 /\ (type (leaf i) =? 0) = true.
Proof. split; intros (i & L & E); exists i; (split; [exact L|now apply N.eqb_eq]). Qed.

(** ** A computation with fuel *)
Record fueled {R : Type} (f : nat -> res R) : Prop := {
  no_ub : forall n, f n <> UB;
  more : forall n r, f n = Ok r -> forall n', (n <= n')%nat -> f n' = Ok r
}.
Definition ends {R : Type} (f : nat -> res R) : Prop := exists n r, f n = Ok r.
Lemma fueled_ok {R} (r : R) : fueled (fun _ => Ok r).
Proof. split; [discriminate|auto]. Qed.
Lemma fueled_bind {R Q} (f : nat -> res R) (g : nat -> R -> res Q) : fueled f -> (forall r, fueled (fun n => g n r)) -> fueled (fun n => bind (f n) (g n)).
Proof.
  intros F G. split.
  - intros n. unfold bind. pose proof (no_ub _ F n). destruct (f n) as [r| |]; [apply (no_ub _ (G r))|congruence|congruence].
  - intros n r E n' L. unfold bind in *. destruct (f n) as [x| |] eqn:X; [|discriminate|discriminate].
    rewrite (more _ F n x X n' L). now apply (more _ (G x) n r E).
Qed.
Lemma ends_bind {R Q} (f : nat -> res R) (g : nat -> R -> res Q) (P : Prop) : fueled f -> (forall r, fueled (fun n => g n r)) ->
  (forall r, ends (fun n => g n r) <-> P) -> (ends (fun n => bind (f n) (g n)) <-> ends f /\ P).
Proof.
  intros F G E. split.
  - intros (n & r & B). unfold bind in B. destruct (f n) as [x| |] eqn:X; [|discriminate|discriminate].
    split; [now exists n, x|]. apply (E x). now exists n, r.
  - intros ((n & x & X) & p). apply (E x) in p. destruct p as (k & r & K). exists (Nat.max n k), r. unfold bind.
    rewrite (more _ F n x X) by lia. apply (more _ (G x) k r K). lia.
Qed.
Lemma ends_ok {R} (r : R) : ends (fun _ => Ok r) <-> True.
Proof. split; [auto|]. intros _. now exists O, r. Qed.
Lemma fueled_if {R} (c : bool) (f g : nat -> res R) : fueled f -> fueled g -> fueled (fun n => if c then f n else g n).
Proof. now destruct c. Qed.
Lemma fueled_gloop {A R} (step : N -> A -> A + R) n a : fueled (fun fuel => gloop step fuel n a).
Proof. split; [intros f; apply gloop_no_ub|]. intros f r E f' L. now apply (gloop_more step f). Qed.

Lemma fueled4 m cs p : fueled (fun fuel => leaf4_loop m fuel 0 cs p).
Proof. split; [intros n; rewrite loop4_general; apply gloop_no_ub|]. intros n r. rewrite loop4_general. intros E n' L. rewrite loop4_general. now apply (gloop_more _ n). Qed.
Lemma fueled1d m cs : fueled (fun fuel => leaf1d_loop m fuel 0 cs).
Proof. split; [intros n; rewrite loop1d_general; apply gloop_no_ub|]. intros n r. rewrite loop1d_general. intros E n' L. rewrite loop1d_general. now apply (gloop_more _ n). Qed.
Lemma fueledB m t : fueled (fun fuel => leafB_loop m fuel 0 0 t).
Proof. split; [intros n; rewrite loopB_general; apply gloop_no_ub|]. intros n r. rewrite loopB_general. intros E n' L. rewrite loopB_general. now apply (gloop_more _ n). Qed.
Lemma ends4 m cs p : ends (fun fuel => leaf4_loop m fuel 0 cs p) <-> has_end d_type (cpuidex m 4).
Proof.
  rewrite end_iff. rewrite <- (gloop_iff _ _ (stops4 m) (cs, p)). unfold ends.
  split; intros (n & r & E); exists n, r; rewrite loop4_general in *; exact E.
Qed.
Lemma ends1d m cs : ends (fun fuel => leaf1d_loop m fuel 0 cs) <-> has_end d_type (cpuidex m 0x8000001D).
Proof.
  rewrite end_iff. rewrite <- (gloop_iff _ _ (stops1d m) cs). unfold ends.
  split; intros (n & r & E); exists n, r; rewrite loop1d_general in *; exact E.
Qed.
Lemma endsB m t : ends (fun fuel => leafB_loop m fuel 0 0 t) <-> has_end level_kind (cpuidex m 0xB).
Proof.
  rewrite end_iff. rewrite <- (gloop_iff _ _ (stopsB m) (0, t)). unfold ends.
  split; intros (n & r & E); exists n, r; rewrite loopB_general in *; exact E.
Qed.

(** ** The detection *)
Lemma cache_fueled b m base ext amd v mi cs lg : fueled (fun fuel => detect_cache b m fuel base ext amd v mi cs lg).
Proof.
  unfold detect_cache. apply fueled_bind.
  - apply fueled_if; [|apply fueled_ok]. cbv zeta. apply fueled_if; [|apply fueled_ok]. apply fueled_bind; [apply fueled4|].
    intros (c, p). apply fueled_ok.
  - intros (c, p). apply fueled_if; [|apply fueled_ok]. apply fueled_bind; [apply fueled1d|]. intros c'. apply fueled_ok.
Qed.
Lemma cache_ends b m base ext amd v mi cs lg : ends (fun fuel => detect_cache b m fuel base ext amd v mi cs lg) <->
  ((2 <=? base) && (negb (v =? vendor_amd) && negb (v =? vendor_hygon) && (4 <=? base)) = true -> has_end d_type (cpuidex m 4)) /\
  (amd && (0x8000001D <=? ext) = true -> has_end d_type (cpuidex m 0x8000001D)).
Proof.
  unfold detect_cache.
  match goal with |- ends (fun fuel => bind (@?f fuel) (@?g fuel)) <-> _ /\ ?P => rewrite (ends_bind f g P) end; [apply and_iff_compat_r| | |].
  - cbv zeta. destruct (2 <=? base); [|rewrite ends_ok; intuition discriminate]. cbn [andb].
    destruct (negb _ && negb _ && _); [|rewrite ends_ok; intuition discriminate].
    match goal with |- ends (fun fuel => bind (@?f fuel) (@?g fuel)) <-> _ => rewrite (ends_bind f g True) end;
      [rewrite ends4; tauto|apply fueled4|intros (c, p); apply fueled_ok|intros (c, p); apply ends_ok].
  - apply fueled_if; [|apply fueled_ok]. cbv zeta. apply fueled_if; [|apply fueled_ok]. apply fueled_bind; [apply fueled4|].
    intros (c, p). apply fueled_ok.
  - intros (c, p). apply fueled_if; [|apply fueled_ok]. apply fueled_bind; [apply fueled1d|]. intros c'. apply fueled_ok.
  - intros (c, p). destruct (amd && _); [|rewrite ends_ok; intuition discriminate].
    match goal with |- ends (fun fuel => bind (@?f fuel) (@?g fuel)) <-> _ => rewrite (ends_bind f g True) end;
      [rewrite ends1d; tauto|apply fueled1d|intros c'; apply fueled_ok|intros c'; apply ends_ok].
Qed.
Lemma topology_fueled m base ext leaf1 t : fueled (fun fuel => detect_topology m fuel base ext leaf1 t).
Proof. unfold detect_topology. cbv zeta. apply fueled_if; [apply fueledB|apply fueled_ok]. Qed.
Lemma topology_ends m base ext leaf1 t : ends (fun fuel => detect_topology m fuel base ext leaf1 t) <->
  (negb (N.land (ecx leaf1) 0x00200000 =? 0) && (0xB <=? base) = true -> has_end level_kind (cpuidex m 0xB)).
Proof.
  unfold detect_topology. cbv zeta. destruct (negb (N.land (ecx leaf1) 0x00200000 =? 0) && _); [rewrite endsB; tauto|rewrite ends_ok; intuition discriminate].
Qed.

Lemma bit_set k x : negb (N.land x (2 ^ k) =? 0) = N.testbit x k.
Proof.
  destruct (N.testbit x k) eqn:T.
  - apply Bool.negb_true_iff, N.eqb_neq. intros Z. assert (N.testbit (N.land x (2 ^ k)) k = true) by (rewrite N.land_spec, T, N.pow2_bits_true; reflexivity).
    rewrite Z, N.bits_0 in *. discriminate.
  - apply Bool.negb_false_iff, N.eqb_eq. apply N.bits_inj. intros i. rewrite N.land_spec, N.bits_0.
    destruct (N.eq_dec i k) as [->|D]; [now rewrite T|]. rewrite N.pow2_bits_false by congruence. apply Bool.andb_false_r.
Qed.

Lemma processor_fueled b m : fueled (init_processor b m).
Proof.
  assert (F : fueled (fun fuel => init_processor b m fuel)); [|exact F].
  unfold init_processor. cbv zeta. apply fueled_if; [|apply fueled_ok]. apply fueled_bind; [apply cache_fueled|].
  intros (c, p). apply fueled_bind; [apply topology_fueled|]. intros t. apply fueled_ok.
Qed.
Lemma processor_ends b m : (exists fuel x, init_processor b m fuel = Ok x) <->
  (caches_in_leaf4 b m -> has_end d_type (cpuidex m 4)) /\ (caches_in_leaf1d m -> has_end d_type (cpuidex m 0x8000001D)) /\
  (levels_in_leafB m -> has_end level_kind (cpuidex m 0xB)).
Proof.
  change (exists fuel x, init_processor b m fuel = Ok x) with (ends (fun fuel => init_processor b m fuel)).
  unfold init_processor, caches_in_leaf4, caches_in_leaf1d, levels_in_leafB. cbv zeta. fold (vendor_of b m).
  destruct (1 <=? eax (cpuid m 0)) eqn:E1; [|rewrite ends_ok; intuition lia].
  match goal with |- ends (fun fuel => bind (@?f fuel) (@?g fuel)) <-> _ =>
    rewrite (ends_bind f g (negb (N.land (ecx (cpuid m 1)) 0x00200000 =? 0) && (0xB <=? eax (cpuid m 0)) = true -> has_end level_kind (cpuidex m 0xB))) end.
  - rewrite cache_ends. change 0x00200000 with (2 ^ 21). change 0x00400000 with (2 ^ 22). rewrite !bit_set, and_assoc.
    generalize (has_end d_type (cpuidex m 4)), (has_end d_type (cpuidex m 0x8000001D)), (has_end level_kind (cpuidex m 0xB)). intros P Q T.
    assert (I4 : (2 <=? eax (cpuid m 0)) && (negb (vendor_of b m =? vendor_amd) && negb (vendor_of b m =? vendor_hygon) && (4 <=? eax (cpuid m 0))) = true <->
      4 <= eax (cpuid m 0) /\ vendor_of b m <> vendor_amd /\ vendor_of b m <> vendor_hygon) by lia.
    rewrite I4.
    assert (I1 : N.testbit (ecx (if 0x80000001 <=? (if 0x80000000 <=? eax (cpuid m 0x80000000) then eax (cpuid m 0x80000000) else 0) then cpuid m 0x80000001 else regs0)) 22 &&
        (0x8000001D <=? (if 0x80000000 <=? eax (cpuid m 0x80000000) then eax (cpuid m 0x80000000) else 0)) = true <->
      1 <= eax (cpuid m 0) /\ 0x8000001D <= eax (cpuid m 0x80000000) /\ N.testbit (ecx (cpuid m 0x80000001)) 22 = true).
    { destruct (0x80000000 <=? eax (cpuid m 0x80000000)) eqn:X; [|cbn; lia].
      destruct (0x80000001 <=? eax (cpuid m 0x80000000)) eqn:Y; [|cbn; lia]. lia. }
    rewrite I1. assert (IB : N.testbit (ecx (cpuid m 1)) 21 && (0xB <=? eax (cpuid m 0)) = true <-> 0xB <= eax (cpuid m 0) /\ N.testbit (ecx (cpuid m 1)) 21 = true) by lia.
    rewrite IB. reflexivity.
  - apply cache_fueled.
  - intros (c, p). apply fueled_bind; [apply topology_fueled|]. intros t. apply fueled_ok.
  - intros (c, p).
    match goal with |- ends (fun fuel => bind (@?f fuel) (@?g fuel)) <-> _ => rewrite (ends_bind f g True) end;
      [rewrite topology_ends; tauto|apply topology_fueled|intros t; apply fueled_ok|intros t; apply ends_ok].
Qed.
Lemma processor_hangs b m : ~ (caches_in_leaf4 b m -> has_end d_type (cpuidex m 4)) -> forall fuel, init_processor b m fuel = Hang.
Proof.
  intros E fuel. destruct (init_processor b m fuel) as [x| |] eqn:X; [|exfalso; now apply (no_ub _ (processor_fueled b m) fuel)|reflexivity].
  exfalso. apply E. apply (processor_ends b m). now exists fuel, x.
Qed.
Lemma processor_more b m fuel x : init_processor b m fuel = Ok x -> forall fuel', (fuel <= fuel')%nat -> init_processor b m fuel' = Ok x.
Proof. intros E. now apply (more _ (processor_fueled b m)). Qed.
Lemma processor_defined b m fuel : init_processor b m fuel <> UB.
Proof. apply (no_ub _ (processor_fueled b m)). Qed.

(** ** A processor that answers all subleaves of leaf 4 alike *)
Definition same_answer_cpu : cpu :=
  Cpu (fun l i => if l =? 0 then Regs 4 0x756E6547 0x6C65746E 0x49656E69 else if l =? 1 then Regs 0x000506E3 0x00100800 0 0x3FEBFBFF
    else if l =? 4 then Regs 0x1C004121 0x01C0003F 63 0 else regs0) (fun _ => regs0) 0 0xFFFF.
Lemma same_answer_hangs : exists m, (forall l i, regs_ok (cpuidex m l i)) /\ forall b fuel, init_processor b m fuel = Hang.
Proof.
  exists same_answer_cpu. split.
  - intros l i. unfold same_answer_cpu. cbn [cpuidex]. repeat match goal with |- context [if ?c then _ else _] => destruct c end; repeat split; reflexivity.
  - intros b. apply processor_hangs. intros E. destruct E as (i & _ & T); [|discriminate T].
    split; [vm_compute; discriminate|]. destruct b as [x y]. destruct x, y; split; vm_compute; discriminate.
Qed.
