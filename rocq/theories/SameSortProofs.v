(** x86 Linux: the tables do not depend on the sort if the APIC ids are distinct. *)
From Coq Require Import NArith List Lia Bool Arith Sorting.Permutation Sorting.Sorted.
From Verif Require Import Base BaseProofs Sorting TopologySpec X86CpuinfoModel X86LinuxModel X86LinuxSpec X86DetectProofs X86InitProofs X86OfflineSpec.
Import ListNotations.
Open Scope nat_scope.

Lemma apic_sorted_unique : forall V V', Permutation V V' -> StronglySorted le_apic V -> StronglySorted le_apic V' ->
  (forall a b, In a V -> In b V -> x_apic_id a = x_apic_id b -> a = b) -> V = V'.
Proof.
  induction V as [|a V IH]; intros V' P S S' D.
  - now apply Permutation_nil in P.
  - destruct V' as [|b V']; [apply Permutation_sym, Permutation_nil in P; discriminate|].
    apply StronglySorted_inv in S. destruct S as (S & A). apply StronglySorted_inv in S'. destruct S' as (S' & B).
    rewrite Forall_forall in A, B. unfold le_apic in A, B.
    assert (E : a = b).
    { apply D; [now left|apply (Permutation_in b (Permutation_sym P)); now left|].
      assert (Ia : In a (b :: V')) by (apply (Permutation_in _ P); now left).
      assert (Ib : In b (a :: V)) by (apply (Permutation_in _ (Permutation_sym P)); now left).
      destruct Ia as [->|Ia]; [reflexivity|]. destruct Ib as [->|Ib]; [reflexivity|].
      specialize (A _ Ib). specialize (B _ Ia). lia. }
    subst b. f_equal. apply IH; auto; [now apply Permutation_cons_inv in P|]. intros x y Hx Hy. apply D; now right.
Qed.

Lemma count_keys_app mask key W : (forall p, In p W -> bitmask_all (x_flags p) mask = false) -> forall V last n,
  count_keys mask key (V ++ W) last n = count_keys mask key V last n.
Proof.
  intros H. induction V as [|p V IH]; intros last n; cbn [app count_keys].
  - induction W as [|q W IHW]; cbn [count_keys]; [reflexivity|]. rewrite H by now left. apply IHW. intros p Hp. apply H. now right.
  - destruct (bitmask_all _ _); [|apply IH]. cbv zeta. destruct (_ =? _)%N; apply IH.
Qed.
Lemma main_loop_skip x masks : forall W i s, Forall (fun p => is_valid p = false) W -> main_loop x masks i W s = Ok s.
Proof.
  induction W as [|p W IH]; intros i s H; cbn [main_loop]; [reflexivity|]. inversion H; subst. unfold main_step.
  unfold is_valid in *. rewrite H2. cbn [bind]. now apply IH.
Qed.
Lemma main_loop_app x masks W : Forall (fun p => is_valid p = false) W -> forall V i s, main_loop x masks i (V ++ W) s = main_loop x masks i V s.
Proof.
  intros H. induction V as [|p V IH]; intros i s; cbn [app main_loop]; [now apply main_loop_skip|].
  destruct (main_step x masks i p s); cbn [bind]; auto.
Qed.
Lemma count_caches_app mask c V W W' : (forall p, In p W -> bitmask_all (x_flags p) mask = false) ->
  (forall p, In p W' -> bitmask_all (x_flags p) mask = false) -> count_caches mask c (V ++ W) = count_caches mask c (V ++ W').
Proof.
  intros H H'. unfold count_caches, count_objects. destruct (_ =? _)%N; [reflexivity|]. destruct (bit_mask _); cbn [bind]; auto.
  now rewrite !count_keys_app.
Qed.

Lemma x86_any_sort sg default sorter sorter' calloc_ok x fs max po pr ms :
  files_say default fs max po pr ms -> distinct_apic_ids (usable max po pr ms) ms -> qsort_contract sorter -> qsort_contract sorter' ->
  x86_linux_init sg default sorter calloc_ok x fs = x86_linux_init sg default sorter' calloc_ok x fs.
Proof.
  intros FS D Q Q'. unfold x86_linux_init. destruct (negb _); [reflexivity|].
  destruct FS as [F1 F2 (F3 & F4) (F5 & F6) F7].
  destruct (detect_exact sg default fs max po pr ms F1 ltac:(lia) ltac:(lia) F3 F4 F5 F6 F7) as (procs & mask & E & _ & _ & EX).
  pose proof (proj1 (detect_shape sg default fs) procs mask E) as DE. rewrite E. cbn [bind]. cbv zeta.
  destruct (sorting procs mask sorter DE Q) as (V & W & [A1 A2 A3 A4 A5 A6 A7 A8]).
  destruct (sorting procs mask sorter' DE Q') as (V' & W' & [B1 B2 B3 B4 B5 B6 B7 B8]).
  assert (EV : V = V').
  { apply apic_sorted_unique; auto; [rewrite <- A5; exact B5|]. intros a b Ha Hb Hab.
    apply (Permutation_in _ (Permutation_sym A5)), filter_In in Ha. apply (Permutation_in _ (Permutation_sym A5)), filter_In in Hb.
    destruct Ha as (Ha & Va), Hb as (Hb & Vb). apply In_nth_error in Ha, Hb. destruct Ha as (i & Hi), Hb as (j & Hj).
    destruct (EX i a Hi) as (I1 & I2 & _), (EX j b Hj) as (J1 & J2 & _).
    assert (N.of_nat i = N.of_nat j) by (apply D; [now apply I2|now apply J2|congruence]).
    assert (i = j) by lia. subst. congruence. }
  subst V'. rewrite A1, B1 in *.
  assert (FW : forall p, In p W -> bitmask_all (x_flags p) mask = false).
  { intros p Hp. rewrite (det_valid _ _ DE).
    - rewrite Forall_forall in A3. now apply A3.
    - apply (Permutation_in _ (Permutation_sym A6)), in_or_app. now right. }
  assert (FW' : forall p, In p W' -> bitmask_all (x_flags p) mask = false).
  { intros p Hp. rewrite (det_valid _ _ DE).
    - rewrite Forall_forall in B3. now apply B3.
    - apply (Permutation_in _ (Permutation_sym B6)), in_or_app. now right. }
  assert (CC : forall c, count_caches mask c (V ++ W) = count_caches mask c (V ++ W')) by (intros c; now apply count_caches_app).
  assert (LL : length (V ++ W) = length (V ++ W')) by (rewrite <- (Permutation_length A6); now apply Permutation_length).
  assert (BT : build_tables x mask (V ++ W) (count_valid procs) = build_tables x mask (V ++ W') (count_valid procs)).
  { unfold build_tables. destruct (apic_masks x (llc_apic_bits x)) as [((cm, pm), lm)| |]; cbn [bind]; auto. cbv zeta.
    rewrite !CC. unfold count_objects. rewrite !count_keys_app by assumption. rewrite LL.
    do 5 (match goal with |- bind ?y _ = bind ?y _ => destruct y; cbn [bind]; auto end).
    now rewrite !main_loop_app by assumption. }
  destruct (negb _); [reflexivity|]. destruct (apic_masks _ _); cbn [bind]; auto. rewrite !CC, BT. reflexivity.
Qed.
