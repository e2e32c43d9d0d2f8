(** Lemmas about the model of Windows: masks, and the two loops over its answers. *)
From Verif Require Import Base BaseProofs Loops TopologySpec X86WindowsModel X86CountsSpec X86CountsModel X86CountsProofs X86WindowsSpec.
From Verif Require X86LinuxModel Masks.
Import X86WindowsModel.
Import X86LinuxModel(xinfo, xc_geometry, xi_vendor, xi_uarch, xi_cpuid, xi_thread_offset, xi_thread_length, xi_core_offset,
  xi_core_length, xi_l1i, xi_l1d, xi_l2, xi_l3, xi_l4, xc_apic_bits, bit_mask).
Ltac Zify.zify_post_hook ::= idtac.
Open Scope nat_scope.

(** ** Masks *)

Fixpoint bits_pos (p : positive) : list nat :=
  match p with xH => [0] | xO q => map S (bits_pos q) | xI q => 0 :: map S (bits_pos q) end.

Lemma low_double m : m <> 0%N -> low_index (N.double m) = S (low_index m).
Proof. destruct m; [congruence|reflexivity]. Qed.

Lemma clear_double m : m <> 0%N -> N.land (N.double m) (N.double m - 1) = N.double (N.land m (m - 1)).
Proof.
  intros H. replace (N.double m - 1)%N with (N.succ_double (m - 1)) by lia.
  apply N.bits_inj. intros i. rewrite N.land_spec. destruct (N.eq_dec i 0) as [->|Hi].
  - rewrite N.double_spec, N.testbit_even_0. rewrite N.double_spec, N.testbit_even_0. reflexivity.
  - replace i with (N.succ (N.pred i)) by lia. rewrite !N.double_spec, N.succ_double_spec, !N.testbit_even_succ, N.testbit_odd_succ, N.land_spec by lia.
    reflexivity.
Qed.

Lemma low_bits_double : forall fuel m, low_bits fuel (N.double m) = map S (low_bits fuel m).
Proof.
  induction fuel as [|fuel IH]; intros m; cbn [low_bits map]; [reflexivity|].
  destruct (N.eqb_spec m 0) as [->|H]; [reflexivity|]. replace (N.double m =? 0)%N with false by (symmetry; apply N.eqb_neq; lia).
  rewrite low_double, clear_double, IH by exact H. reflexivity.
Qed.

Lemma low_bits_pos : forall p fuel, Pos.size_nat p <= fuel -> low_bits fuel (Npos p) = bits_pos p.
Proof.
  induction p as [p IH|p IH|]; intros fuel H; cbn [Pos.size_nat] in H.
  - destruct fuel as [|fuel]; [lia|]. cbn [low_bits bits_pos]. change (Npos p~1 =? 0)%N with false. cbv iota. f_equal.
    replace (N.land (Npos p~1) (Npos p~1 - 1)) with (N.double (Npos p)); [rewrite low_bits_double, IH by lia; reflexivity|].
    change (Npos p~1 - 1)%N with (N.double (Npos p)). apply N.bits_inj. intros i. rewrite N.land_spec.
    change (Npos p~1) with (N.succ_double (Npos p)). destruct (N.eq_dec i 0) as [->|Hi].
    + rewrite N.double_spec, N.testbit_even_0. now rewrite andb_false_r.
    + replace i with (N.succ (N.pred i)) by lia. rewrite N.double_spec, N.succ_double_spec, N.testbit_even_succ, N.testbit_odd_succ by lia.
      now rewrite andb_diag.
  - change (Npos p~0) with (N.double (Npos p)). rewrite low_bits_double, IH by lia. reflexivity.
  - destruct fuel as [|fuel]; [lia|]. cbn [low_bits bits_pos]. change (1 =? 0)%N with false. cbv iota. f_equal.
    change (N.land 1 (1 - 1)) with 0%N. destruct fuel; reflexivity.
Qed.

Lemma filter_map {A B} (f : B -> bool) (g : A -> B) l : filter f (map g l) = map g (filter (fun a => f (g a)) l).
Proof. induction l as [|a l IH]; cbn; [reflexivity|]. destruct (f (g a)); cbn; now rewrite IH. Qed.

Lemma bits_pos_filter : forall p w, (forall b, N.testbit (Npos p) b = true -> (b < N.of_nat w)%N) ->
  bits_pos p = filter (fun b => N.testbit (Npos p) (N.of_nat b)) (seq 0 w).
Proof.
  assert (shift : forall (f g : nat -> bool) w, (forall b, f (S b) = g b) -> filter f (seq 1 w) = map S (filter g (seq 0 w))).
  { intros f g w E. rewrite <- seq_shift, filter_map. f_equal. apply filter_ext. exact E. }
  induction p as [p IH|p IH|]; intros w H.
  - destruct w as [|w]; [specialize (H 0%N eq_refl); lia|]. cbn [bits_pos seq filter]. change (N.testbit (Npos p~1) (N.of_nat 0)) with true. cbv iota.
    f_equal. rewrite (shift _ (fun b => N.testbit (Npos p) (N.of_nat b))).
    + f_equal. apply IH. intros b Hb. specialize (H (N.succ b)). rewrite <- N.testbit_odd_succ with (a := Npos p) in Hb by lia.
      specialize (H Hb). lia.
    + intros b. rewrite Nat2N.inj_succ. change (Npos p~1) with (2 * Npos p + 1)%N. apply N.testbit_odd_succ. lia.
  - destruct w as [|w].
    { exfalso. pose proof (N.bit_log2 (Npos p~0) ltac:(discriminate)) as L. specialize (H _ L). lia. }
    cbn [bits_pos seq filter]. change (N.testbit (Npos p~0) (N.of_nat 0)) with false. cbv iota.
    rewrite (shift _ (fun b => N.testbit (Npos p) (N.of_nat b))).
    + f_equal. apply IH. intros b Hb. specialize (H (N.succ b)). rewrite <- N.testbit_even_succ with (a := Npos p) in Hb by lia.
      specialize (H Hb). lia.
    + intros b. rewrite Nat2N.inj_succ. change (Npos p~0) with (2 * Npos p)%N. apply N.testbit_even_succ. lia.
  - destruct w as [|w]; [specialize (H 0%N eq_refl); lia|]. cbn [bits_pos seq filter]. change (N.testbit 1 (N.of_nat 0)) with true. cbv iota. f_equal.
    symmetry. rewrite (shift _ (fun _ => false)); [|intros [|b]; reflexivity].
    induction (seq 0 w); [reflexivity|assumption].
Qed.

Lemma mask_bits_filter mask w : (forall b, N.testbit mask b = true -> (b < N.of_nat w)%N) ->
  mask_bits mask = filter (fun b => N.testbit mask (N.of_nat b)) (seq 0 w).
Proof.
  intros H. unfold mask_bits. destruct mask as [|p].
  - cbn. symmetry. induction (seq 0 w); [reflexivity|assumption].
  - rewrite low_bits_pos by (cbn; lia). now apply bits_pos_filter.
Qed.

(** ** Groups *)

Lemma total_sum l : total l = list_sum l.
Proof.
  unfold total. assert (E : forall a, fold_left Nat.add l a = a + list_sum l).
  { induction l as [|b l IH]; intros a; cbn [fold_left]; [cbn; lia|]. rewrite IH. change (list_sum (b :: l)) with (b + list_sum l). lia. }
  apply E.
Qed.

Lemma before_nth : forall sizes c g, g < length sizes -> rd (before_groups sizes c) g = Ok (c + group_start sizes g).
Proof.
  induction sizes as [|n sizes IH]; intros c g H; [cbn in H; lia|]. destruct g as [|g]; cbn [before_groups].
  - unfold rd, group_start. cbn. f_equal. lia.
  - cbn [length] in H. change (rd (c :: before_groups sizes (c + n)) (S g)) with (rd (before_groups sizes (c + n)) g).
    rewrite IH by lia. f_equal. unfold group_start. cbn. fold (list_sum (firstn g sizes)). lia.
Qed.

(** ** Loops over lists *)

Lemma each_app {A T} (body : A -> T -> res T) : forall l r s, each body (l ++ r) s = do t <- each body l s; each body r t.
Proof. induction l as [|a l IH]; intros r s; cbn [app each bind]; [reflexivity|]. destruct (body a s); cbn [bind]; auto. Qed.

Lemma each_map {A B T} (body : B -> T -> res T) (f : A -> B) : forall l s, each body (map f l) s = each (fun a => body (f a)) l s.
Proof. induction l as [|a l IH]; intros s; cbn [map each]; [reflexivity|]. destruct (body (f a) s); cbn [bind]; auto. Qed.

Lemma each_ext {A T} (f g : A -> T -> res T) : forall l s, (forall a s, In a l -> f a s = g a s) -> each f l s = each g l s.
Proof.
  induction l as [|a l IH]; intros s H; cbn [each]; [reflexivity|]. rewrite H by now left.
  destruct (g a s); cbn [bind]; auto. apply IH. intros. apply H. now right.
Qed.

Lemma each_flat_map {A B T} (body : B -> T -> res T) (f : A -> list B) : forall l s,
  each body (flat_map f l) s = each (fun a => each body (f a)) l s.
Proof. induction l as [|a l IH]; intros s; cbn [flat_map each]; [reflexivity|]. rewrite each_app. destruct (each body (f a) s); cbn [bind]; auto. Qed.

(** Elements with the number of their list. *)
Fixpoint tagged {A} (k : nat) (l : list (list A)) : list (nat * A) :=
  match l with [] => [] | s :: r => map (pair k) s ++ tagged (S k) r end.
Fixpoint owners {A} (k : nat) (l : list (list A)) : list nat :=
  match l with [] => [] | s :: r => repeat k (length s) ++ owners (S k) r end.

Lemma tagged_snd {A} : forall (l : list (list A)) k, map snd (tagged k l) = concat l.
Proof. induction l as [|s l IH]; intros k; cbn [tagged concat]; [reflexivity|]. rewrite map_app, map_map, IH. cbn. now rewrite map_id. Qed.

Lemma tagged_fst {A} : forall (l : list (list A)) k, map fst (tagged k l) = owners k l.
Proof.
  induction l as [|s l IH]; intros k; cbn [tagged owners]; [reflexivity|]. rewrite map_app, map_map, IH. f_equal. cbn.
  clear. induction s as [|a s IH]; cbn; [reflexivity|]. now rewrite IH.
Qed.

Lemma owners_length {A} : forall (l : list (list A)) k, length (owners k l) = length (concat l).
Proof. intros l k. now rewrite <- tagged_fst, <- (tagged_snd l k), !map_length. Qed.

Lemma owners_map {A B} (f : list A -> list B) : (forall s, length (f s) = length s) -> forall (l : list (list A)) k, owners k (map f l) = owners k l.
Proof. intros H. induction l as [|s l IH]; intros k; cbn [map owners]; [reflexivity|]. now rewrite H, IH. Qed.

(** ** The processors of an answer *)

Section ANSWERS.
Context (sizes : list nat).
Let before := before_groups sizes 0.

Definition index_of (gb : nat * nat) : nat := group_start sizes (fst gb) + snd gb.
Definition mask_list (e : nat * N) : list (nat * nat) := map (pair (fst e)) (mask_bits (snd e)).
Definition info_list (i : winfo) : list (nat * nat) := flat_map mask_list (wi_groups i).

Lemma mask_list_index e : mask_valid sizes e -> map index_of (mask_list e) = mask_processors sizes e.
Proof.
  intros (_ & V). unfold mask_list, mask_processors. rewrite map_map. unfold index_of. cbn [fst snd]. f_equal. now apply mask_bits_filter.
Qed.

Lemma mask_list_in e gb : mask_valid sizes e -> In gb (mask_list e) -> fst gb < length sizes /\ snd gb < nth (fst gb) sizes 0.
Proof.
  intros (L & V) H. unfold mask_list in H. apply in_map_iff in H. destruct H as (b & <- & Hb). cbn [fst snd]. split; [exact L|].
  rewrite (mask_bits_filter _ _ V) in Hb. apply filter_In in Hb. destruct Hb as (Hb & _). apply in_seq in Hb. lia.
Qed.

Definition info_valid (i : winfo) : Prop := wi_expected i = true -> Forall (mask_valid sizes) (wi_groups i).

Lemma info_list_index i : Forall (mask_valid sizes) (wi_groups i) -> map index_of (info_list i) = flat_map (mask_processors sizes) (wi_groups i).
Proof.
  unfold info_list. induction 1 as [|e l H F IH]; cbn [flat_map]; [reflexivity|]. now rewrite map_app, IH, mask_list_index.
Qed.

(** Packages. *)
Definition package_flat (x : xinfo) (e : nat * (nat * nat)) (ps : list wproc) : res (list wproc) :=
  modify ps (index_of (snd e)) (fun p => WProc (wp_core p) (fst e) (fst (snd e)) (snd (snd e)) (u32 (N.shiftl (N.of_nat (fst e)) (package_bits x))) (wp_smt p)).

Lemma package_group_flat x k e ps : mask_valid sizes e ->
  package_group before k (u32 (N.shiftl (N.of_nat k) (package_bits x))) e ps = each (package_flat x) (map (pair k) (mask_list e)) ps.
Proof.
  intros (L & _). unfold package_group, before. rewrite before_nth by exact L. cbn [bind plus].
  unfold mask_list. rewrite map_map, each_map. reflexivity.
Qed.

Lemma package_loop x : (package_bits x < 32)%N -> forall infos k ps, Forall info_valid infos ->
  each (package_step x before) infos (k, ps) =
  do ps' <- each (package_flat x) (tagged k (map info_list (filter wi_expected infos))) ps;
  Ok (k + length (filter wi_expected infos), ps').
Proof.
  intros B. induction infos as [|i infos IH]; intros k ps V; cbn [each filter].
  - cbn. now rewrite Nat.add_0_r.
  - apply Forall_cons_iff in V. destruct V as (V1 & V). unfold package_step at 1. destruct (wi_expected i) eqn:E; cbn [negb].
    + specialize (V1 E). unfold shl32. replace (package_bits x <? 32)%N with true by (symmetry; now apply N.ltb_lt). cbn [bind].
      rewrite (each_ext _ (fun e => each (package_flat x) (map (pair k) (mask_list e)))).
      2:{ intros e s He. rewrite Forall_forall in V1. now apply package_group_flat, V1. }
      rewrite <- each_flat_map. cbn [map tagged]. rewrite each_app.
      replace (flat_map (fun a => map (pair k) (mask_list a)) (wi_groups i)) with (map (pair k) (info_list i)).
      2:{ unfold info_list. clear. induction (wi_groups i) as [|a l IH]; cbn; [reflexivity|]. now rewrite map_app, IH. }
      destruct (each (package_flat x) (map (pair k) (info_list i)) ps) as [ps1| |]; cbn [bind]; [|reflexivity|reflexivity].
      rewrite IH by exact V. cbn [length]. destruct (each _ _ ps1); cbn [bind]; [|reflexivity|reflexivity]. do 2 f_equal. lia.
    + cbn [bind]. now rewrite IH.
Qed.

(** Cores: the variables apart from smt_id. *)
Definition core_flat (x : xinfo) (tm cm : N) (e : nat * (nat * (nat * nat))) (s : core_state) : res core_state :=
  core_processor x tm cm (fst e) (group_start sizes (fst (snd (snd e)))) (snd (snd (snd e)))
    (CoreState (fst (snd e)) (st_start s) (st_current s) (st_processors s)).
Fixpoint counted {A} (s : nat) (l : list A) : list (nat * A) := match l with [] => [] | a :: r => (s, a) :: counted (S s) r end.

Lemma counted_app {A} : forall (l r : list A) s, counted s (l ++ r) = counted s l ++ counted (s + length l) r.
Proof.
  induction l as [|a l IH]; intros r s; cbn [app counted length]; [now rewrite Nat.add_0_r|]. rewrite IH. cbn [app]. do 3 f_equal. lia.
Qed.

Lemma core_processor_smt x tm cm j start b s t : core_processor x tm cm j start b s = Ok t -> st_smt t = S (st_smt s).
Proof.
  unfold core_processor. destruct (rd _ _); cbn [bind]; try discriminate.
  destruct (negb _); destruct (shl32 _ _); cbn [bind]; try discriminate; destruct (shl32 _ _); cbn [bind]; try discriminate;
    destruct (wr _ _ _); cbn [bind]; try discriminate; now intros [= <-].
Qed.

Lemma core_bits_flat x tm cm j : forall l s,
  each (fun gb => core_processor x tm cm j (group_start sizes (fst gb)) (snd gb)) l s =
  each (core_flat x tm cm) (map (pair j) (counted (st_smt s) l)) s.
Proof.
  induction l as [|a l IH]; intros s; cbn [each map counted]; [reflexivity|].
  assert (E : core_flat x tm cm (j, (st_smt s, a)) s = core_processor x tm cm j (group_start sizes (fst a)) (snd a) s) by (destruct s; reflexivity).
  rewrite E. destruct (core_processor x tm cm j (group_start sizes (fst a)) (snd a) s) as [t| |] eqn:C; cbn [bind]; [|reflexivity|reflexivity].
  apply core_processor_smt in C. rewrite IH, C. reflexivity.
Qed.

(** States that differ in smt_id only. *)
Definition same (s t : core_state) : Prop :=
  st_start s = st_start t /\ st_current s = st_current t /\ st_processors s = st_processors t.
Definition same_res (a b : res core_state) : Prop :=
  match a, b with Ok s, Ok t => same s t | UB, UB => True | Hang, Hang => True | _, _ => False end.

Lemma core_flat_same x tm cm e s t : same s t -> core_flat x tm cm e s = core_flat x tm cm e t.
Proof. intros (A & B & C). unfold core_flat. now rewrite A, B, C. Qed.

Lemma each_flat_same x tm cm : forall l s t, same s t -> same_res (each (core_flat x tm cm) l s) (each (core_flat x tm cm) l t).
Proof.
  induction l as [|e l IH]; intros s t H; cbn [each]; [exact H|]. rewrite (core_flat_same x tm cm e s t H).
  destruct (core_flat x tm cm e t) as [u| |]; cbn [bind]; [apply IH; now repeat split|exact I|exact I].
Qed.

Lemma core_loop x tm cm : (xi_core_offset x < 32)%N -> forall infos j s t, Forall info_valid infos ->
  each (core_flat x tm cm) (tagged j (map (fun i => counted 0 (info_list i)) (filter wi_expected infos))) s = Ok t ->
  exists u, each (core_step x tm cm before) infos (j, s) = Ok (j + length (filter wi_expected infos), u) /\ st_processors u = st_processors t.
Proof.
  intros B infos j s t V E. cut (exists u, each (core_step x tm cm before) infos (j, s) = Ok (j + length (filter wi_expected infos), u) /\ same u t).
  { intros (u & E' & (_ & _ & S')). eauto. }
  revert j s t V E. induction infos as [|i infos IH]; intros j s t V E; cbn [each filter] in *.
  - injection E as <-. exists s. rewrite Nat.add_0_r. split; [reflexivity|now repeat split].
  - apply Forall_cons_iff in V. destruct V as (V1 & V). unfold core_step at 1. destruct (wi_expected i) eqn:X; cbn [negb].
    + specialize (V1 X). cbn [map tagged] in E. rewrite each_app in E.
      unfold shl32. replace (xi_core_offset x <? 32)%N with true by (symmetry; now apply N.ltb_lt). cbn [bind].
      rewrite (each_ext _ (fun e => each (fun gb => core_processor x tm cm j (group_start sizes (fst gb)) (snd gb)) (mask_list e))).
      2:{ intros e u He. rewrite Forall_forall in V1. destruct (V1 e He) as (L & _). unfold core_group, before. rewrite before_nth by exact L.
          cbn [bind plus]. unfold mask_list. rewrite each_map. reflexivity. }
      rewrite <- each_flat_map. fold (info_list i). rewrite core_bits_flat. cbn [st_smt].
      pose proof (each_flat_same x tm cm (map (pair j) (counted 0 (info_list i))) s (CoreState 0 (st_start s) (st_current s) (st_processors s))) as SR.
      specialize (SR ltac:(now repeat split)).
      destruct (each (core_flat x tm cm) (map (pair j) (counted 0 (info_list i))) s) as [s1| |]; try discriminate. cbn [bind] in E.
      destruct (each (core_flat x tm cm) (map (pair j) (counted 0 (info_list i))) _) as [s2| |]; cbn in SR; try tauto. cbn [bind].
      pose proof (each_flat_same x tm cm (tagged (S j) (map (fun i => counted 0 (info_list i)) (filter wi_expected infos))) s1 s2 SR) as SR'.
      rewrite E in SR'. destruct (each (core_flat x tm cm) (tagged (S j) _) s2) as [t2| |] eqn:E2; cbn in SR'; try tauto.
      destruct (IH (S j) s2 t2 V E2) as (u & E3 & Su). exists u. cbn [length]. split; [rewrite E3; do 2 f_equal; lia|].
      destruct SR' as (A1 & A2 & A3), Su as (B1 & B2 & B3). repeat split; congruence.
    + cbn [bind]. now apply IH.
Qed.
End ANSWERS.
