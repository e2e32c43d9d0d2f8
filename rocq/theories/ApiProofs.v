From Verif Require Import Base BaseProofs TopologySpec ApiModel OnceModel.
Open Scope nat_scope.

Local Ltac case_if := match goal with |- context [if ?b then _ else _] => destruct b end.

(** ** Single getters *)

Lemma body_not_fatal c g gs cpu : run_prog gs cpu (getter_body c g) <> Fatal.
Proof.
  destruct c as [lx mu].
  assert (W : forall t, run_prog gs cpu (whole_table t) <> Fatal)
    by (intros t; cbn; destruct (gl_pointer gs t) as [[]|]; discriminate).
  assert (I : forall t i, run_prog gs cpu (indexed t i) <> Fatal).
  { intros t i. cbn. destruct (gl_count gs t <=? i)%N; [discriminate|]. cbn.
    destruct (gl_pointer gs t) as [[b n]|]; [case_if|]; discriminate. }
  assert (E : forall A (m : option (list A)) x k, (forall y, k y <> Fatal) -> run_prog gs cpu (map_element m x k) <> Fatal).
  { intros A m x k Hk. cbn. destruct m as [l|]; [|discriminate]. destruct (nth_error l _); [apply Hk|discriminate]. }
  assert (P : forall t y, match y with Some i => Pointer t i | None => Null end <> Fatal)
    by (intros t [i|]; discriminate).
  assert (U : forall a b, run_prog gs cpu (current_uarch (Config lx mu) a b) <> Fatal).
  { intros a b. unfold current_uarch. cbn [cf_multi_uarch cf_linux]. destruct mu; [|discriminate]. destruct lx; [|discriminate].
    cbn. destruct (gl_uarch_map gs) eqn:Um; [|discriminate]. destruct cpu as [n|]; cbn; [|discriminate].
    case_if; [discriminate|]. cbn [run_prog]. apply E. discriminate. }
  assert (CP : run_prog gs cpu (current_processor (Config lx mu)) <> Fatal).
  { unfold current_processor. cbn. destruct lx; [|discriminate]. destruct cpu as [n|]; cbn; [|discriminate].
    case_if; [discriminate|]. cbn [run_prog]. apply E. apply P. }
  assert (CC : run_prog gs cpu (current_core (Config lx mu)) <> Fatal).
  { unfold current_core. cbn. destruct lx; [|discriminate]. destruct cpu as [n|]; cbn; [|discriminate].
    case_if; [discriminate|]. cbn [run_prog]. apply E. apply P. }
  destruct g as [[| | | | |[]]|[| | | | |[]] i|[| | | | |[]]| | | | |d]; cbn [getter_body];
    try apply W; try apply I; try apply U; try apply CP; try apply CC; try (cbn; discriminate).
  - unfold uarchs_table. destruct mu; cbn [cf_multi_uarch]; [apply W|discriminate].
  - unfold uarchs_indexed. destruct mu; cbn [cf_multi_uarch]; [apply I|]. case_if; discriminate.
  - unfold uarchs_count. destruct mu; cbn [cf_multi_uarch]; discriminate.
Qed.

Lemma ask_fatal_iff c gs cpu g : ask c gs cpu g = Fatal <-> gl_initialized gs = false.
Proof.
  unfold ask, getter_prog, guarded. cbn [run_prog]. destruct (gl_initialized gs).
  - split; [intros H; now apply body_not_fatal in H|discriminate].
  - split; reflexivity.
Qed.

(** The counts agree with the arrays. *)
Definition counts_agree (c : config) (gs : globals) : Prop :=
  forall t, (t = Uarchs -> cf_multi_uarch c = true) ->
    gl_pointer gs t = Some (t, N.to_nat (gl_count gs t)) \/ (gl_pointer gs t = None /\ gl_count gs t = 0%N).

(** The same for one table. *)
Definition agrees (gs : globals) (t : table) : Prop :=
  gl_pointer gs t = Some (t, N.to_nat (gl_count gs t)) \/ (gl_pointer gs t = None /\ gl_count gs t = 0%N).

Lemma ask_count c gs cpu t : gl_initialized gs = true ->
  exists n, ask c gs cpu (Get_count t) = Number n.
Proof.
  intros H. unfold ask, getter_prog, guarded. cbn [run_prog]. rewrite H.
  destruct t as [| | | | |[]]; cbn; eauto. unfold uarchs_count. destruct (cf_multi_uarch c); cbn; eauto.
Qed.

Lemma run_indexed gs cpu t i :
  gl_pointer gs t = Some (t, N.to_nat (gl_count gs t)) \/ (gl_pointer gs t = None /\ gl_count gs t = 0%N) ->
  run_prog gs cpu (indexed t i) = if (i <? gl_count gs t)%N then Pointer t (N.to_nat i) else Null.
Proof.
  intros H. cbn. destruct (N.leb_spec (gl_count gs t) i), (N.ltb_spec i (gl_count gs t)); try lia; [reflexivity|].
  unfold address_of. cbn [run_prog]. destruct H as [->|(-> & H)]; [|lia].
  destruct (Nat.ltb_spec (N.to_nat i) (N.to_nat (gl_count gs t))); [reflexivity|lia].
Qed.

Lemma ask_element c gs cpu t i : gl_initialized gs = true -> counts_agree c gs ->
  exists n, ask c gs cpu (Get_count t) = Number n /\
    ask c gs cpu (Get_element t i) = if (i <? n)%N then Pointer t (N.to_nat i) else Null.
Proof.
  intros H HC. unfold ask, getter_prog, guarded. cbn [run_prog]. rewrite H.
  assert (G : (t = Uarchs -> cf_multi_uarch c = true) ->
    run_prog gs cpu (indexed t i) = if (i <? gl_count gs t)%N then Pointer t (N.to_nat i) else Null)
    by (intros Ht; apply run_indexed, HC, Ht).
  destruct t as [| | | | |[]]; cbn [getter_body]; try (eexists; split; [reflexivity|]; apply G; discriminate).
  unfold uarchs_count, uarchs_indexed. destruct (cf_multi_uarch c).
  - exists (gl_count gs Uarchs). split; [reflexivity|]. now apply G.
  - exists 1%N. split; [reflexivity|]. destruct (N.eqb_spec i 0), (N.ltb_spec i 1); cbn; try lia; subst; reflexivity.
Qed.

(** ** Stores *)

Lemma apply_stores_app g l l' : apply_stores g (l ++ l') = apply_stores (apply_stores g l) l'.
Proof. apply fold_left_app. Qed.

Lemma apply_initialized g s : gl_initialized (apply_store g s) = true <-> gl_initialized g = true \/ s = St_initialized.
Proof. destruct g, s; cbn; intuition congruence. Qed.

Lemma stores_initialized l : forall g,
  gl_initialized (apply_stores g l) = true <-> gl_initialized g = true \/ In St_initialized l.
Proof.
  induction l as [|s l IH]; intros g; cbn [apply_stores fold_left In]; [tauto|].
  change (fold_left apply_store l (apply_store g s)) with (apply_stores (apply_store g s) l).
  rewrite IH, apply_initialized. intuition auto.
Qed.

(** The commit step raises the flag last, if at all. *)
Definition flag_last (routine : list gstore) : Prop :=
  forall l1 l2, routine = l1 ++ St_initialized :: l2 -> l2 = [].
Definition publishes (routine : list gstore) : Prop := In St_initialized routine.
Definition final (routine : list gstore) : globals := apply_stores globals0 routine.

Lemma final_initialized routine : gl_initialized (final routine) = true <-> publishes routine.
Proof. unfold final. rewrite stores_initialized. cbn. unfold publishes. intuition discriminate. Qed.

Lemma prefix_final routine done rest : flag_last routine -> routine = done ++ rest ->
  gl_initialized (apply_stores globals0 done) = true -> rest = [] /\ apply_stores globals0 done = final routine.
Proof.
  intros HF E H. apply stores_initialized in H. destruct H as [H|H]; [discriminate|].
  apply in_split in H. destruct H as (l1 & l2 & ->). rewrite <- app_assoc in E. cbn in E.
  pose proof (HF _ _ E) as H. apply app_eq_nil in H. destruct H as (-> & ->). split; [reflexivity|].
  unfold final. now rewrite E.
Qed.

(** ** Threads *)

Section Once.
Variables (c : config) (routine : list gstore).
Hypothesis HF : flag_last routine.

Definition outside_init (t : thread) : Prop :=
  match t with Idle | Entering | Getting _ _ _ => True | Detecting _ | Leaving => False end.

(** What a thread inside a getter has seen so far. *)
Definition getter_ok (G : globals) (t : thread) : Prop :=
  match t with
  | Getting g cpu p => p = getter_prog c g \/ p = Return Fatal \/
      (gl_initialized G = true /\ run_prog (final routine) cpu p = ask c (final routine) cpu g)
  | _ => True
  end.

Definition once_ok (s : system) : Prop :=
  match sy_once s with
  | Fresh => sy_globals s = globals0 /\ forall j, outside_init (sy_thread s j)
  | Running => exists i done rest, routine = done ++ rest /\ sy_globals s = apply_stores globals0 done /\
      sy_thread s i = Detecting rest /\ forall j, j <> i -> outside_init (sy_thread s j)
  | Done => sy_globals s = final routine /\ forall j rest, sy_thread s j <> Detecting rest
  end.

Definition inv (s : system) : Prop :=
  once_ok s /\ forall j, getter_ok (sy_globals s) (sy_thread s j).

Lemma inv_initialized s : inv s -> gl_initialized (sy_globals s) = true -> sy_globals s = final routine.
Proof.
  intros (H & _) HI. unfold once_ok in H. destruct (sy_once s).
  - destruct H as (H & _). rewrite H in HI. discriminate.
  - destruct H as (i & done & rest & E & HG & _). rewrite HG in *. now apply (prefix_final routine done rest).
  - apply H.
Qed.

Lemma inv0 : inv system0.
Proof. split; [split; [reflexivity|]; intros j; exact I|]. intros j. exact I. Qed.

Lemma set_thread_same f i t : set_thread f i t i = t.
Proof. unfold set_thread. now rewrite Nat.eqb_refl. Qed.
Lemma set_thread_other f i t j : j <> i -> set_thread f i t j = f j.
Proof. intros H. unfold set_thread. destruct (Nat.eqb_spec j i); [contradiction|reflexivity]. Qed.

Lemma getter_ok_mono G G' t : (gl_initialized G = true -> gl_initialized G' = true) -> getter_ok G t -> getter_ok G' t.
Proof. destruct t; cbn; auto. intuition auto. Qed.

Lemma set_all (P : thread -> Prop) f i t : P t -> (forall j, P (f j)) -> forall j, P (set_thread f i t j).
Proof. intros H1 H2 j. unfold set_thread. destruct (j =? i); auto. Qed.

Lemma read_step_run G cpu p : run_prog G cpu (read_step G cpu p) = run_prog G cpu p.
Proof. destruct p; reflexivity. Qed.

(** Moving one thread between states outside initialization. *)
Lemma once_ok_outside G o f i t : outside_init (f i) -> outside_init t ->
  once_ok (System G o false f) -> forall b, once_ok (System G o b (set_thread f i t)).
Proof.
  intros Hi Ht H b. unfold once_ok in *. cbn [sy_once sy_globals sy_thread] in *. destruct o.
  - destruct H as (H1 & H2). split; [exact H1|]. now apply (set_all outside_init).
  - destruct H as (k & done & rest & E & HG & Hk & Ho). exists k, done, rest. repeat split; auto.
    + rewrite set_thread_other; [exact Hk|]. intros ->. rewrite Hk in Hi. exact Hi.
    + intros j Hj. destruct (Nat.eq_dec j i) as [->|Hn]; [now rewrite set_thread_same|rewrite set_thread_other by auto; auto].
  - destruct H as (H1 & H2). split; [exact H1|]. intros j rest. unfold set_thread. destruct (j =? i); [|apply H2].
    intros ->. exact Ht.
Qed.

Lemma inv_step s e s' : inv s -> step c routine s e s' -> inv s'.
Proof.
  intros (HO & HG) H. pose proof (inv_initialized s (conj HO HG)) as HI.
  destruct H as [G o f i Hi|G f i Hi|G f i Hi|G o f i s rest Hi|G o f i Hi|G o f i Hi|G o f i Hi|G o f i g cpu Hi
                |G o f i g cpu p Hi Hp|G o f i g cpu a Hi]; cbn [sy_globals sy_thread] in *.
  - split; [|now apply (set_all (getter_ok G))]. apply once_ok_outside; auto; [now rewrite Hi|exact I].
  - split; [|now apply (set_all (getter_ok G))]. destruct HO as (HO1 & HO). cbn in HO1. subst G.
    exists i, [], routine. cbn [sy_thread]. repeat split; [apply set_thread_same|].
    intros j Hj. cbn. rewrite set_thread_other by auto. apply HO.
  - split; [|now apply (set_all (getter_ok G))]. destruct HO as (H1 & H2). split; [exact H1|].
    intros j rest. cbn. unfold set_thread. destruct (j =? i); [discriminate|apply H2].
  - assert (Hr : o = Running).
    { destruct o; [destruct HO as (_ & HO); specialize (HO i); cbn in HO; rewrite Hi in HO; destruct HO|reflexivity|].
      destruct HO as (_ & HO). now apply HO in Hi. }
    subst o. destruct HO as (k & done & rest0 & E & E2 & E3 & E4). cbn in *.
    assert (k = i). { destruct (Nat.eq_dec k i); [auto|]. specialize (E4 i ltac:(auto)). rewrite Hi in E4. destruct E4. }
    subst k. rewrite Hi in E3. injection E3 as <-. split.
    + exists i, (done ++ [s]), rest. cbn. split; [now rewrite <- app_assoc|]. split; [now rewrite apply_stores_app, <- E2|].
      split; [apply set_thread_same|]. intros j Hj. rewrite set_thread_other by auto. auto.
    + intros j. apply (set_all (getter_ok (apply_store G s))); [exact I|]. intros k.
      apply (getter_ok_mono G); [|apply HG]. intros HT. apply apply_initialized. auto.
  - assert (Hr : o = Running).
    { destruct o; [destruct HO as (_ & HO); specialize (HO i); cbn in HO; rewrite Hi in HO; destruct HO|reflexivity|].
      destruct HO as (_ & HO). now apply HO in Hi. }
    subst o. destruct HO as (k & done & rest0 & E & E2 & E3 & E4). cbn in *.
    assert (k = i). { destruct (Nat.eq_dec k i); [auto|]. specialize (E4 i ltac:(auto)). rewrite Hi in E4. destruct E4. }
    subst k. rewrite Hi in E3. injection E3 as <-. rewrite app_nil_r in E. subst done.
    split; [|now apply (set_all (getter_ok G))]. split; [exact E2|]. cbn. intros j rest.
    destruct (Nat.eq_dec j i) as [->|Hn]; [now rewrite set_thread_same|].
    rewrite set_thread_other by auto. intros HD. specialize (E4 j Hn). rewrite HD in E4. exact E4.
  - assert (Hd : o = Done).
    { destruct o; [destruct HO as (_ & HO); specialize (HO i); cbn in HO; rewrite Hi in HO; destruct HO| |reflexivity].
      destruct HO as (k & done & rest0 & E & E2 & E3 & E4). cbn in *.
      destruct (Nat.eq_dec k i) as [->|Hn]; [congruence|]. specialize (E4 i ltac:(auto)). rewrite Hi in E4. destruct E4. }
    subst o. split; [|now apply (set_all (getter_ok G))]. destruct HO as (H1 & H2). split; [exact H1|].
    intros j rest. cbn. unfold set_thread. destruct (j =? i); [discriminate|apply H2].
  - split; assumption.
  - split; [|apply (set_all (getter_ok G)); [now left|exact HG]].
    apply once_ok_outside; auto; [now rewrite Hi|exact I].
  - split; [apply once_ok_outside; auto; [now rewrite Hi|exact I]|].
    apply (set_all (getter_ok G)); [|exact HG]. specialize (HG i). rewrite Hi in HG. cbn in HG |- *.
    destruct HG as [->|[->|(HT & HR)]].
    + unfold getter_prog, guarded. cbn [read_step]. destruct (gl_initialized G) eqn:HT; [|now right; left].
      right; right. split; [reflexivity|]. rewrite (HI eq_refl) in HT. unfold ask, getter_prog, guarded. cbn [run_prog].
      now rewrite HT.
    + right; left. reflexivity.
    + right; right. split; [exact HT|]. rewrite (HI HT), read_step_run. exact HR.
  - split; [|now apply (set_all (getter_ok G))]. apply once_ok_outside; auto; [now rewrite Hi|exact I].
Qed.

Lemma inv_run s l s' : inv s -> run c routine s l s' -> inv s'.
Proof. intros H R. induction R as [|s e s1 l s2 H1 H2 IH]; [exact H|]. apply IH. now apply (inv_step s e s1). Qed.

Lemma run_split s l1 e l2 s' : run c routine s (l1 ++ e :: l2) s' ->
  exists s1 s2, run c routine s l1 s1 /\ step c routine s1 e s2 /\ run c routine s2 l2 s'.
Proof.
  revert s. induction l1 as [|x l1 IH]; intros s H; inversion H; subst.
  - exists s, s'0. repeat split; auto. constructor.
  - destruct (IH _ H5) as (s1 & s2 & A & B & C). exists s1, s2. repeat split; auto. econstructor; eauto.
Qed.

(** ** Detection runs at most once *)

Definition is_start (e : event) : bool := match e with Detection_starts _ => true | _ => false end.
Definition is_end (e : event) : bool := match e with Detection_ends _ => true | _ => false end.
Definition starts (l : list event) : nat := length (filter is_start l).
Definition ends (l : list event) : nat := length (filter is_end l).
Definition once_started (o : once) : nat := match o with Fresh => 0 | _ => 1 end.
Definition once_ended (o : once) : nat := match o with Done => 1 | _ => 0 end.

Lemma run_counts s l s' : inv s -> run c routine s l s' ->
  once_started (sy_once s') = once_started (sy_once s) + starts l /\
  once_ended (sy_once s') = once_ended (sy_once s) + ends l.
Proof.
  intros HI H. induction H as [s|s e s1 l s2 H1 H2 IH]; [cbn; lia|].
  specialize (IH (inv_step _ _ _ HI H1)). destruct IH as (IH1 & IH2). unfold starts, ends in *.
  assert (K : once_started (sy_once s1) = once_started (sy_once s) + (if is_start e then 1 else 0) /\
              once_ended (sy_once s1) = once_ended (sy_once s) + (if is_end e then 1 else 0)).
  { destruct HI as (HO & _). destruct H1; cbn; try lia.
    destruct o; cbn; try lia.
    - destruct HO as (_ & HO). specialize (HO i). cbn in HO. rewrite H in HO. destruct HO.
    - destruct HO as (_ & HO). now apply HO in H. }
  cbn [filter]. destruct (is_start e), (is_end e); cbn [length]; lia.
Qed.

Lemma run_starts_once l s : run c routine system0 l s -> starts l <= 1 /\ ends l <= starts l.
Proof.
  intros H. destruct (run_counts _ _ _ inv0 H) as (A & B). cbn in A, B.
  destruct (sy_once s); cbn in A, B; lia.
Qed.

Lemma ends_in l : 1 <= ends l -> exists i, In (Detection_ends i) l.
Proof.
  unfold ends. induction l as [|e l IH]; cbn; [lia|]. destruct e; cbn; intros H; try (destruct (IH H) as (k & Hk); eauto).
  exists i. now left.
Qed.
Lemma starts_in l : 1 <= starts l -> exists i, In (Detection_starts i) l.
Proof.
  unfold starts. induction l as [|e l IH]; cbn; [lia|]. destruct e; cbn; intros H; try (destruct (IH H) as (k & Hk); eauto).
  exists i. now left.
Qed.

Lemma init_returns l1 i b l2 s : run c routine system0 (l1 ++ Init_returns i b :: l2) s ->
  (exists k, In (Detection_ends k) l1) /\ (b = true <-> publishes routine).
Proof.
  intros H. apply run_split in H. destruct H as (s1 & s2 & A & B & _).
  pose proof (inv_run _ _ _ inv0 A) as HI. inversion B; subst. destruct HI as (HO & HG).
  match goal with E : _ i = Leaving |- _ => rename E into H0 end.
  assert (o = Done).
  { destruct o; [destruct HO as (_ & HO); specialize (HO i); cbn in HO; rewrite H0 in HO; destruct HO| |reflexivity].
    destruct HO as (k & done & rest0 & E & E2 & E3 & E4). cbn in *.
    destruct (Nat.eq_dec k i) as [->|Hn]; [congruence|]. specialize (E4 i ltac:(auto)). rewrite H0 in E4. destruct E4. }
  subst o. split.
  - apply ends_in. destruct (run_counts _ _ _ inv0 A) as (_ & K). cbn in K. lia.
  - destruct HO as (HO & _). cbn in HO. subst G. apply final_initialized.
Qed.

(** ** Answers *)

Lemma getter_answers l1 i g a l2 s : run c routine system0 (l1 ++ Getter_ends i g a :: l2) s ->
  a = Fatal \/ (publishes routine /\ (exists k, In (Detection_starts k) l1) /\ exists cpu, a = ask c (final routine) cpu g).
Proof.
  intros H. apply run_split in H. destruct H as (s1 & s2 & A & B & _).
  pose proof (inv_run _ _ _ inv0 A) as HI. pose proof (inv_initialized _ HI) as HT.
  inversion B; subst. destruct HI as (HO & HG).
  match goal with E : _ i = Getting _ _ _ |- _ => rename E into H0 end. specialize (HG i). cbn in HG, HT. rewrite H0 in HG. cbn in HG.
  destruct HG as [E|[E|(E1 & E2)]]; [discriminate|injection E as E; now left|].
  right. split; [apply final_initialized; now rewrite <- (HT E1)|]. split; [|exists cpu; exact E2].
  apply starts_in. destruct (run_counts _ _ _ inv0 A) as (K & _). cbn in K.
  destruct o; cbn in K; try lia. destruct HO as (HO & _). cbn in HO. subst G. discriminate.
Qed.

(** Once the flag is up a newly called getter never aborts. *)
Definition fresh_getter (t : thread) : Prop :=
  match t with Getting g cpu p => run_prog (final routine) cpu p = ask c (final routine) cpu g | _ => True end.

Lemma fresh_step s e s' i : inv s -> gl_initialized (sy_globals s) = true -> fresh_getter (sy_thread s i) ->
  step c routine s e s' -> gl_initialized (sy_globals s') = true /\ fresh_getter (sy_thread s' i).
Proof.
  intros HI HT HF' H. pose proof (inv_initialized s HI HT) as HG.
  destruct H as [G o f k Hi|G f k Hi|G f k Hi|G o f k s rest Hi|G o f k Hi|G o f k Hi|G o f k Hi|G o f k g cpu Hi
                |G o f k g cpu p Hi Hp|G o f k g cpu a Hi]; cbn [sy_globals sy_thread] in *;
    try (split; [exact HT|]; unfold set_thread; destruct (i =? k); [exact I|exact HF']).
  - split; [apply apply_initialized; auto|]. unfold set_thread. destruct (i =? k); [exact I|exact HF'].
  - split; assumption.
  - split; [exact HT|]. unfold set_thread. destruct (i =? k); [reflexivity|exact HF'].
  - split; [exact HT|]. unfold set_thread. destruct (Nat.eqb_spec i k) as [->|]; [|exact HF'].
    rewrite Hi in HF'. cbn in *. rewrite <- HF', HG, read_step_run. reflexivity.
Qed.

Lemma fresh_run s l s' i : inv s -> gl_initialized (sy_globals s) = true -> fresh_getter (sy_thread s i) ->
  run c routine s l s' -> inv s' /\ gl_initialized (sy_globals s') = true /\ fresh_getter (sy_thread s' i).
Proof.
  intros HI HT HF' H. induction H as [s|s e s1 l s2 H1 H2 IH]; [auto|].
  destruct (fresh_step s e s1 i HI HT HF' H1) as (A & B). apply IH; auto. now apply (inv_step s e s1).
Qed.

Lemma initialized_run s l s' : inv s -> gl_initialized (sy_globals s) = true ->
  run c routine s l s' -> inv s' /\ gl_initialized (sy_globals s') = true.
Proof.
  intros HI HT H. induction H as [s|s e s1 l s2 H1 H2 IH]; [auto|].
  apply IH; [now apply (inv_step s e s1)|].
  destruct H1; cbn in *; auto. apply apply_initialized. auto.
Qed.

Lemma later_answers l1 i b l2 k g0 l3 g a l4 s :
  run c routine system0 (l1 ++ Init_returns i b :: l2 ++ Getter_called k g0 :: l3 ++ Getter_ends k g a :: l4) s ->
  (b = true -> exists cpu, a = ask c (final routine) cpu g /\ a <> Fatal) /\ (b = false -> a = Fatal).
Proof.
  intros H. pose proof (init_returns _ _ _ _ _ H) as (_ & HB). split.
  - intros ->. apply run_split in H. destruct H as (s1 & s2 & A & B & C).
    apply run_split in C. destruct C as (s3 & s4 & C & D & E).
    apply run_split in E. destruct E as (s5 & s6 & E & F & _).
    pose proof (inv_run _ _ _ inv0 A) as I1. pose proof (inv_step _ _ _ I1 B) as I2.
    assert (T2 : gl_initialized (sy_globals s2) = true) by (inversion B; subst; cbn; congruence).
    destruct (initialized_run _ _ _ I2 T2 C) as (I3 & T3).
    pose proof (inv_step _ _ _ I3 D) as I4.
    assert (K4 : gl_initialized (sy_globals s4) = true /\ fresh_getter (sy_thread s4 k)).
    { inversion D; subst. cbn in *. split; [exact T3|]. rewrite set_thread_same. reflexivity. }
    destruct (fresh_run _ _ _ k I4 (proj1 K4) (proj2 K4) E) as (I5 & T5 & K5).
    inversion F; subst. match goal with E : _ k = Getting _ _ _ |- _ => rename E into H0 end. cbn in K5. rewrite H0 in K5. cbn in K5. exists cpu. split; [exact K5|].
    rewrite K5. intros HA. apply ask_fatal_iff in HA. cbn in T5.
    pose proof (proj2 (final_initialized routine) (proj1 HB eq_refl)). congruence.
  - intros ->. replace (l1 ++ Init_returns i false :: l2 ++ Getter_called k g0 :: l3 ++ Getter_ends k g a :: l4)
      with ((l1 ++ Init_returns i false :: l2 ++ Getter_called k g0 :: l3) ++ Getter_ends k g a :: l4) in H
      by (rewrite <- !app_assoc; cbn; rewrite <- !app_assoc; reflexivity).
    apply getter_answers in H. destruct H as [->|(H & _)]; [reflexivity|].
    exfalso. apply HB in H. discriminate.
Qed.

End Once.

(** ** WebAssembly without threads *)

Fixpoint emscripten_calls (routine : list gstore) (n : nat) (state : bool * globals) : bool * globals * list bool :=
  match n with
  | O => (state, [])
  | S n' =>
      let '(state', b) := emscripten_initialize routine state in
      let '(state'', bs) := emscripten_calls routine n' state' in
      (state'', b :: bs)
  end.

Lemma emscripten_later routine n : forall G,
  emscripten_calls routine n (true, G) = (true, G, repeat (gl_initialized G) n).
Proof. induction n as [|n IH]; intros G; [reflexivity|]. cbn. now rewrite IH. Qed.

Lemma emscripten_once routine n : emscripten_calls routine (S n) (false, globals0) =
  (true, final routine, repeat (gl_initialized (final routine)) (S n)).
Proof. cbn [emscripten_calls emscripten_initialize]. rewrite emscripten_later. reflexivity. Qed.

Lemma step_init_returns_eq c routine G o f i b : f i = Leaving -> gl_initialized G = b ->
  step c routine (System G o false f) (Init_returns i b) (System G o false (set_thread f i Idle)).
Proof. intros H <-. now constructor. Qed.

(** ** Current microarchitecture without a map *)
Lemma uarch_without_map c gs cpu d : gl_initialized gs = true -> cf_multi_uarch c = true -> cf_linux c = true -> gl_uarch_map gs = None ->
  ask c gs cpu Get_current_uarch_index = Number 0 /\ ask c gs cpu (Get_current_uarch_index_with_default d) = Number 0.
Proof.
  intros H1 H2 H3 H4. destruct c as [l m]. cbn in H2, H3. subst. unfold ask, getter_prog, guarded. cbn. rewrite H1. cbn. rewrite H4. now split.
Qed.

Lemma uarch_other_systems c gs cpu d : gl_initialized gs = true -> cf_linux c = false ->
  ask c gs cpu Get_current_processor = Null /\ ask c gs cpu Get_current_core = Null /\
  ask c gs cpu Get_current_uarch_index = Number 0 /\
  ask c gs cpu (Get_current_uarch_index_with_default d) = Number (if cf_multi_uarch c then d else 0).
Proof.
  intros H1 H2. destruct c as [l m]. cbn in H2. subst. unfold ask, getter_prog, guarded. cbn. rewrite H1. cbn.
  split; [reflexivity|]. split; [reflexivity|]. destruct m; now split.
Qed.
