(** All writes are made by the thread that runs the routine, before it ends. *)
From Verif Require Import Base BaseProofs ApiModel OnceModel RaceModel RaceSpec.
Open Scope nat_scope.

Lemma set_same f i t : set_thread f i t i = t.
Proof. unfold set_thread. now rewrite Nat.eqb_refl. Qed.
Lemma set_other f i t j : j <> i -> set_thread f i t j = f j.
Proof. intros H. unfold set_thread. apply Nat.eqb_neq in H. now rewrite H. Qed.
Lemma set_case f i t j u : set_thread f i t j = u -> j = i /\ t = u \/ j <> i /\ f j = u.
Proof. unfold set_thread. destruct (Nat.eqb_spec j i); auto. Qed.

Lemma hb_forward user T x y : happens_before user T x y -> x < y.
Proof. induction 1; lia. Qed.

Section EXECUTION.
  Context (user : nat -> nat -> Prop) (c : config) (routine : list gstore) (T : trace) (states : nat -> system).
  Hypothesis (EX : execution c routine T states) (CAREFUL : initialized_before_use user T).
  Notation hb := (happens_before user T).

  Definition ended (q : nat) : Prop := exists k, T q = Some (k, Once_end).
  Definition is_write (x i : nat) : Prop := exists l, T x = Some (i, Write l).
  Definition detecting (s : system) (i : nat) : Prop := exists rest, sy_thread s i = Detecting rest.

  Record invariant (n : nat) : Prop := {
    iv_once : match sy_once (states n) with
      | Fresh => (forall x i, x < n -> ~ is_write x i) /\ (forall x, x < n -> ~ ended x) /\ (forall i, ~ detecting (states n) i)
      | Running => exists k, (forall x i, x < n -> is_write x i -> i = k) /\ (forall x, x < n -> ~ ended x) /\ (forall i, detecting (states n) i -> i = k)
      | Done => exists k q, q < n /\ T q = Some (k, Once_end) /\ (forall x i, x < n -> is_write x i -> i = k /\ x < q) /\ (forall x, x < n -> ended x -> x = q) /\
          (forall i, ~ detecting (states n) i)
      end;
    iv_leaving : forall i, sy_thread (states n) i = Leaving -> exists q r a, r < n /\ ended q /\ T r = Some (i, a) /\ (q = r \/ hb q r);
    iv_getting : forall i g cpu p, sy_thread (states n) i = Getting g cpu p -> exists y, y < n /\ T y = Some (i, Getter_call);
    iv_reads : forall r i a l, r < n -> T r = Some (i, a) -> access a = Some (l, false) -> exists q, ended q /\ hb q r
  }.

  (** What a step leaves as it is. *)
  Lemma same_step n j a : T n = Some (j, a) -> (forall l, a <> Write l) -> a <> Once_end ->
    (forall x i, x < S n -> is_write x i -> x < n) /\ (forall x, x < S n -> ended x -> x < n).
  Proof.
    intros E W D. split.
    - intros x i Hx (l & H). destruct (Nat.eq_dec x n) as [->|]; [|lia]. rewrite E in H. injection H as _ H. now apply W in H.
    - intros x Hx (k & H). destruct (Nat.eq_dec x n) as [->|]; [|lia]. rewrite E in H. injection H as _ H. now apply D in H.
  Qed.

  Lemma once_same n j a : T n = Some (j, a) -> (forall l, a <> Write l) -> a <> Once_end -> invariant n ->
    sy_once (states (S n)) = sy_once (states n) -> (forall i, detecting (states (S n)) i -> detecting (states n) i) ->
    match sy_once (states (S n)) with
      | Fresh => (forall x i, x < S n -> ~ is_write x i) /\ (forall x, x < S n -> ~ ended x) /\ (forall i, ~ detecting (states (S n)) i)
      | Running => exists k, (forall x i, x < S n -> is_write x i -> i = k) /\ (forall x, x < S n -> ~ ended x) /\ (forall i, detecting (states (S n)) i -> i = k)
      | Done => exists k q, q < S n /\ T q = Some (k, Once_end) /\ (forall x i, x < S n -> is_write x i -> i = k /\ x < q) /\ (forall x, x < S n -> ended x -> x = q) /\
          (forall i, ~ detecting (states (S n)) i)
      end.
  Proof.
    intros E W D [O _ _ _] -> DE. destruct (same_step n j a E W D) as (SW & SE). destruct (sy_once (states n)).
    - destruct O as (O1 & O2 & O3). split; [|split].
      + intros x i Hx Hw. apply (O1 x i); eauto.
      + intros x Hx He. apply (O2 x); eauto.
      + intros i Hi. apply (O3 i). auto.
    - destruct O as (k & O1 & O2 & O3). exists k. split; [|split].
      + intros x i Hx Hw. apply (O1 x i); eauto.
      + intros x Hx He. apply (O2 x); eauto.
      + intros i Hi. apply (O3 i). auto.
    - destruct O as (k & q & Q & Eq & O1 & O2 & O3). exists k, q. split; [lia|]. split; [exact Eq|]. split; [|split].
      + intros x i Hx Hw. apply (O1 x i); eauto.
      + intros x Hx He. apply (O2 x); eauto.
      + intros i Hi. apply (O3 i). auto.
  Qed.

  Lemma reads_same n : invariant n -> (forall j a l, T n = Some (j, a) -> access a = Some (l, false) -> exists q, ended q /\ hb q n) ->
    forall r i a l, r < S n -> T r = Some (i, a) -> access a = Some (l, false) -> exists q, ended q /\ hb q r.
  Proof. intros I H r i a l Hr E A. destruct (Nat.eq_dec r n) as [->|]; [eauto|]. apply (iv_reads n I r i a l); auto. lia. Qed.

  (** A use comes after the end of the routine. *)
  Lemma use_after n y j a : invariant n -> y <= n -> T y = Some (j, a) -> uses a -> exists q, ended q /\ hb q y.
  Proof.
    intros I Hy E U. destruct (CAREFUL y j a E U) as (x & i & Ex & H). pose proof (hb_forward _ _ _ _ H) as L.
    destruct (iv_reads n I x i Init_return L_flag) as (q & Q & Hq); [lia|exact Ex|reflexivity|]. exists q. split; [exact Q|]. now apply (hb_trans _ _ q x y).
  Qed.

  Lemma keep n : invariant n -> invariant (S n).
  Proof.
    intros I. destruct EX as (_ & ST). specialize (ST n). destruct (T n) as [ja|] eqn:E.
    2:{ destruct I as [O L G R].
        assert (NW : forall x i, x < S n -> is_write x i -> x < n) by (intros x i Hx (l & H); destruct (Nat.eq_dec x n) as [->|]; [congruence|lia]).
        assert (NE : forall x, x < S n -> ended x -> x < n) by (intros x Hx (k & H); destruct (Nat.eq_dec x n) as [->|]; [congruence|lia]).
        split; rewrite ?ST.
        - destruct (sy_once (states n)).
          + destruct O as (O1 & O2 & O3). split; [|split; [|exact O3]]; intros; intro X; [eapply O1; eauto|eapply O2; eauto].
          + destruct O as (k & O1 & O2 & O3). exists k. split; [|split; [|exact O3]]; [intros x i Hx X; eapply O1; eauto|intros x Hx X; eapply O2; eauto].
          + destruct O as (k & q & Q & Eq & O1 & O2 & O3). exists k, q. split; [lia|]. split; [exact Eq|]. split; [|split; [|exact O3]]; [intros x i Hx X; eapply O1; eauto|intros x Hx X; eapply O2; eauto].
        - intros i Hi. destruct (L i Hi) as (q & r & b & H1 & H2). exists q, r, b. split; [lia|exact H2].
        - intros i g cpu p Hi. destruct (G i g cpu p Hi) as (y & H1 & H2). exists y. split; [lia|exact H2].
        - intros r i b l Hr Er A. destruct (Nat.eq_dec r n) as [->|]; [congruence|]. apply (R r i b l); auto. lia. }
    assert (IL : forall s i, sy_thread s i = Leaving -> sy_thread s i = sy_thread (states n) i -> exists q r b, r < S n /\ ended q /\ T r = Some (i, b) /\ (q = r \/ hb q r)).
    { intros s i H1 H2. rewrite H1 in H2. destruct (iv_leaving n I i (eq_sym H2)) as (q & r & b & X & Y). exists q, r, b. split; [lia|exact Y]. }
    assert (IG : forall i g cpu p, sy_thread (states n) i = Getting g cpu p -> exists y, y < S n /\ T y = Some (i, Getter_call)).
    { intros i g cpu p Hi. destruct (iv_getting n I i g cpu p Hi) as (y & X & Y). exists y. split; [lia|exact Y]. }
    remember (states n) as s0 eqn:E0. remember (states (S n)) as s1 eqn:E1.
    destruct ST as [G o f i Hi|G f i Hi|G f i Hi|G o f i s rest Hi|G o f i Hi|G o f i Hi|G o f i Hi|G o f i g cpu Hi|G o f i g cpu p l Hi Hl|G o f i g cpu k Hi|G o f i g cpu b Hi|G o f i Hi].
    (* Call_init *)
    - split.
      + apply (once_same n i Call_init); auto; [discriminate..|now rewrite <- E0, <- E1|]. rewrite <- E0, <- E1. intros k (rest & D). cbn in D. apply set_case in D. destruct D as [(_ & D)|(_ & D)]; [discriminate D|]. now exists rest.
      + rewrite <- E1. intros k H. cbn in H. apply set_case in H. destruct H as [(_ & H)|(_ & H)]; [discriminate H|]. now apply (IL (System G o false f)).
      + rewrite <- E1. intros k g cpu p H. cbn in H. apply set_case in H. destruct H as [(_ & H)|(_ & H)]; [discriminate H|]. now apply (IG k g cpu p).
      + apply reads_same; [exact I|]. intros k a l Ek A. rewrite E in Ek. injection Ek as <- <-. discriminate A.
    (* Once_begin *)
    - split.
      + rewrite <- E1. cbn [sy_once]. pose proof (iv_once n I) as O. rewrite <- E0 in O. cbn [sy_once] in O. destruct O as (O1 & O2 & O3).
        destruct (same_step n i Once_begin E) as (SW & SE); [discriminate..|]. exists i. split; [|split].
        * intros x k Hx Hw. exfalso. apply (O1 x k); eauto.
        * intros x Hx He. apply (O2 x); eauto.
        * intros k (rest & D). cbn in D. apply set_case in D. destruct D as [(-> & _)|(_ & D)]; [reflexivity|]. exfalso. apply (O3 k). now exists rest.
      + rewrite <- E1. intros k H. cbn in H. apply set_case in H. destruct H as [(_ & H)|(_ & H)]; [discriminate H|]. now apply (IL (System G Fresh false f)).
      + rewrite <- E1. intros k g cpu p H. cbn in H. apply set_case in H. destruct H as [(_ & H)|(_ & H)]; [discriminate H|]. now apply (IG k g cpu p).
      + apply reads_same; [exact I|]. intros k a l Ek A. rewrite E in Ek. injection Ek as <- <-. discriminate A.
    (* Once_pass *)
    - pose proof (iv_once n I) as O. rewrite <- E0 in O. cbn [sy_once] in O. destruct O as (k & q & Q & Eq & O1 & O2 & O3). split.
      + apply (once_same n i Once_pass); auto; [discriminate..|now rewrite <- E0, <- E1|]. rewrite <- E0, <- E1. intros k' (rest & D). cbn in D. apply set_case in D. destruct D as [(_ & D)|(_ & D)]; [discriminate D|]. now exists rest.
      + rewrite <- E1. intros k' H. cbn in H. apply set_case in H. destruct H as [(-> & _)|(_ & H)]; [|now apply (IL (System G Done false f))].
        exists q, n, Once_pass. split; [lia|]. split; [now exists k|]. split; [exact E|]. right. now apply (hb_once _ _ q n k i).
      + rewrite <- E1. intros k' g cpu p H. cbn in H. apply set_case in H. destruct H as [(_ & H)|(_ & H)]; [discriminate H|]. now apply (IG k' g cpu p).
      + apply reads_same; [exact I|]. intros k' a l Ek A. rewrite E in Ek. injection Ek as <- <-. discriminate A.
    (* Write *)
    - assert (DI : detecting (System G o false f) i) by now exists (s :: rest).
      pose proof (iv_once n I) as O. rewrite <- E0 in O. cbn [sy_once] in O.
      destruct o; [exfalso; now apply (proj2 (proj2 O) i)| |destruct O as (k & q & _ & _ & _ & _ & O); exfalso; now apply (O i)].
      destruct O as (k & O1 & O2 & O3). pose proof (O3 i DI) as <-. split.
      + rewrite <- E1. cbn [sy_once]. exists i. split; [|split].
        * intros x k Hx Hw. destruct (Nat.eq_dec x n) as [->|]; [|apply (O1 x k); [lia|exact Hw]]. destruct Hw as (l & Hw). congruence.
        * intros x Hx He. destruct (Nat.eq_dec x n) as [->|]; [|apply (O2 x); [lia|exact He]]. destruct He as (k & He). congruence.
        * intros k (r & D). cbn in D. apply set_case in D. destruct D as [(-> & _)|(_ & D)]; [reflexivity|]. apply (O3 k). now exists r.
      + rewrite <- E1. intros k H. cbn in H. apply set_case in H. destruct H as [(_ & H)|(_ & H)]; [discriminate H|]. now apply (IL (System G Running false f)).
      + rewrite <- E1. intros k g cpu p H. cbn in H. apply set_case in H. destruct H as [(_ & H)|(_ & H)]; [discriminate H|]. now apply (IG k g cpu p).
      + apply reads_same; [exact I|]. intros k a l Ek A. rewrite E in Ek. injection Ek as <- <-. discriminate A.
    (* Once_end *)
    - assert (DI : detecting (System G o false f) i) by now exists [].
      pose proof (iv_once n I) as O. rewrite <- E0 in O. cbn [sy_once] in O.
      destruct o; [exfalso; now apply (proj2 (proj2 O) i)| |destruct O as (k & q & _ & _ & _ & _ & O); exfalso; now apply (O i)].
      destruct O as (k & O1 & O2 & O3). pose proof (O3 i DI) as <-. split.
      + rewrite <- E1. cbn [sy_once]. exists i, n. split; [lia|]. split; [exact E|]. split; [|split].
        * intros x k Hx Hw. destruct (Nat.eq_dec x n) as [->|]; [destruct Hw as (l & Hw); congruence|]. split; [apply (O1 x k); [lia|exact Hw]|lia].
        * intros x Hx He. destruct (Nat.eq_dec x n) as [->|]; [reflexivity|]. exfalso. apply (O2 x); [lia|exact He].
        * intros k (r & D). cbn in D. apply set_case in D. destruct D as [(_ & D)|(NE & D)]; [discriminate D|]. apply NE. apply (O3 k). now exists r.
      + rewrite <- E1. intros k H. cbn in H. apply set_case in H. destruct H as [(-> & _)|(_ & H)]; [|now apply (IL (System G Running false f))].
        exists n, n, Once_end. split; [lia|]. split; [now exists i|]. split; [exact E|now left].
      + rewrite <- E1. intros k g cpu p H. cbn in H. apply set_case in H. destruct H as [(_ & H)|(_ & H)]; [discriminate H|]. now apply (IG k g cpu p).
      + apply reads_same; [exact I|]. intros k a l Ek A. rewrite E in Ek. injection Ek as <- <-. discriminate A.
    (* Init_return *)
    - split.
      + apply (once_same n i Init_return); auto; [discriminate..|now rewrite <- E0, <- E1|]. rewrite <- E0, <- E1. intros k (rest & D). cbn in D. apply set_case in D. destruct D as [(_ & D)|(_ & D)]; [discriminate D|]. now exists rest.
      + rewrite <- E1. intros k H. cbn in H. apply set_case in H. destruct H as [(_ & H)|(_ & H)]; [discriminate H|]. now apply (IL (System G o false f)).
      + rewrite <- E1. intros k g cpu p H. cbn in H. apply set_case in H. destruct H as [(_ & H)|(_ & H)]; [discriminate H|]. now apply (IG k g cpu p).
      + apply reads_same; [exact I|]. intros k a l Ek A. rewrite E in Ek. injection Ek as <- <-. 
        destruct (iv_leaving n I i) as (q & r & b & R & Q & Er & H); [now rewrite <- E0|]. exists q. split; [exact Q|].
        assert (P : hb r n) by now apply (hb_thread _ _ r n i b Init_return). destruct H as [->|H]; [exact P|now apply (hb_trans _ _ q r n)].
    (* Deinit *)
    - split.
      + apply (once_same n i Deinit); auto; [discriminate..|now rewrite <- E0, <- E1|]. now rewrite <- E0, <- E1.
      + rewrite <- E1. intros k H. now apply (IL (System G o false f)).
      + rewrite <- E1. intros k g cpu p H. now apply (IG k g cpu p).
      + apply reads_same; [exact I|]. intros k a l Ek A. rewrite E in Ek. injection Ek as <- <-. discriminate A.
    (* Getter_call *)
    - split.
      + apply (once_same n i Getter_call); auto; [discriminate..|now rewrite <- E0, <- E1|]. rewrite <- E0, <- E1. intros k (rest & D). cbn in D. apply set_case in D. destruct D as [(_ & D)|(_ & D)]; [discriminate D|]. now exists rest.
      + rewrite <- E1. intros k H. cbn in H. apply set_case in H. destruct H as [(_ & H)|(_ & H)]; [discriminate H|]. now apply (IL (System G o false f)).
      + rewrite <- E1. intros k g' cpu' p H. cbn in H. apply set_case in H. destruct H as [(-> & H)|(_ & H)]; [exists n; auto|]. now apply (IG k g' cpu' p).
      + apply reads_same; [exact I|]. intros k a l Ek A. rewrite E in Ek. injection Ek as <- <-. discriminate A.
    (* Getter_read *)
    - destruct (IG i g cpu p Hi) as (y & Hy & Ey). assert (y < n) by (destruct (Nat.eq_dec y n) as [->|]; [congruence|lia]). split.
      + apply (once_same n i (Getter_read l)); auto; [discriminate..|now rewrite <- E0, <- E1|]. rewrite <- E0, <- E1. intros k (rest & D). cbn in D. apply set_case in D. destruct D as [(_ & D)|(_ & D)]; [discriminate D|]. now exists rest.
      + rewrite <- E1. intros k H'. cbn in H'. apply set_case in H'. destruct H' as [(_ & H')|(_ & H')]; [discriminate H'|]. now apply (IL (System G o false f)).
      + rewrite <- E1. intros k g' cpu' p' H'. cbn in H'. apply set_case in H'. destruct H' as [(-> & H')|(_ & H')]; [exists y; auto|]. now apply (IG k g' cpu' p').
      + apply reads_same; [exact I|]. intros k a l' Ek A. rewrite E in Ek. injection Ek as <- <-.
        destruct (use_after n y i Getter_call I) as (q & Q & Hq); [lia|exact Ey|now left|]. exists q. split; [exact Q|].
        apply (hb_trans _ _ q y n Hq). now apply (hb_thread _ _ y n i Getter_call (Getter_read l)).
    (* Getter_internal *)
    - destruct (IG i g cpu _ Hi) as (y & Hy & Ey). split.
      + apply (once_same n i Getter_internal); auto; [discriminate..|now rewrite <- E0, <- E1|]. rewrite <- E0, <- E1. intros k' (rest & D). cbn in D. apply set_case in D. destruct D as [(_ & D)|(_ & D)]; [discriminate D|]. now exists rest.
      + rewrite <- E1. intros k' H'. cbn in H'. apply set_case in H'. destruct H' as [(_ & H')|(_ & H')]; [discriminate H'|]. now apply (IL (System G o false f)).
      + rewrite <- E1. intros k' g' cpu' p' H'. cbn in H'. apply set_case in H'. destruct H' as [(-> & H')|(_ & H')]; [exists y; auto|]. now apply (IG k' g' cpu' p').
      + apply reads_same; [exact I|]. intros k' a l Ek A. rewrite E in Ek. injection Ek as <- <-. discriminate A.
    (* Getter_return *)
    - split.
      + apply (once_same n i Getter_return); auto; [discriminate..|now rewrite <- E0, <- E1|]. rewrite <- E0, <- E1. intros k (rest & D). cbn in D. apply set_case in D. destruct D as [(_ & D)|(_ & D)]; [discriminate D|]. now exists rest.
      + rewrite <- E1. intros k H. cbn in H. apply set_case in H. destruct H as [(_ & H)|(_ & H)]; [discriminate H|]. now apply (IL (System G o false f)).
      + rewrite <- E1. intros k g' cpu' p H. cbn in H. apply set_case in H. destruct H as [(_ & H)|(_ & H)]; [discriminate H|]. now apply (IG k g' cpu' p).
      + apply reads_same; [exact I|]. intros k a l Ek A. rewrite E in Ek. injection Ek as <- <-. discriminate A.
    (* Look *)
    - split.
      + apply (once_same n i Look); auto; [discriminate..|now rewrite <- E0, <- E1|]. now rewrite <- E0, <- E1.
      + rewrite <- E1. intros k H. now apply (IL (System G o false f)).
      + rewrite <- E1. intros k g cpu p H. now apply (IG k g cpu p).
      + apply reads_same; [exact I|]. intros k a l Ek A. rewrite E in Ek. injection Ek as <- <-.
        apply (use_after n n i Look I); [lia|exact E|now right].
  Qed.

  Lemma always n : invariant n.
  Proof.
    induction n as [|n IH]; [|now apply keep]. destruct EX as (S0 & _). split; rewrite ?S0; cbn [system0 sy_once sy_thread].
    - split; [intros; lia|]. split; [intros; lia|]. intros i (rest & H). discriminate H.
    - discriminate.
    - discriminate.
    - intros; lia.
  Qed.

  (** Every write happens before every read. *)
  Lemma writes_before_reads w r i j a b l v : T w = Some (i, a) -> access a = Some (l, true) -> T r = Some (j, b) -> access b = Some (v, false) -> hb w r.
  Proof.
    intros Ew Aw Er Ar. assert (W : is_write w i) by (destruct a; cbn in Aw; try discriminate Aw; eexists; exact Ew).
    destruct (iv_reads _ (always (S (Nat.max w r))) r j b v) as (q & (k & Q) & H); [lia|exact Er|exact Ar|].
    pose proof (hb_forward _ _ _ _ H) as L. pose proof (iv_once _ (always (S (Nat.max w r)))) as O. destruct (sy_once (states (S (Nat.max w r)))).
    - exfalso. apply (proj1 (proj2 O) q); [lia|now exists k].
    - destruct O as (k' & _ & O & _). exfalso. apply (O q); [lia|now exists k].
    - destruct O as (k' & q' & _ & Eq & O1 & O2 & _). assert (q = q') as <- by (apply O2; [lia|now exists k]).
      destruct (O1 w i) as (-> & L'); [lia|exact W|]. apply (hb_trans _ _ w q r); [|exact H]. now apply (hb_thread _ _ w q k' a Once_end).
  Qed.
  (** Every two writes are by one thread. *)
  Lemma writes_one_thread x y i j a b l v : T x = Some (i, a) -> access a = Some (l, true) -> T y = Some (j, b) -> access b = Some (v, true) -> i = j.
  Proof.
    intros Ex Ax Ey Ay. assert (X : is_write x i) by (destruct a; cbn in Ax; try discriminate Ax; eexists; exact Ex).
    assert (Y : is_write y j) by (destruct b; cbn in Ay; try discriminate Ay; eexists; exact Ey).
    pose proof (iv_once _ (always (S (Nat.max x y)))) as O. destruct (sy_once (states (S (Nat.max x y)))).
    - exfalso. apply (proj1 O x i); [lia|exact X].
    - destruct O as (k & O & _). rewrite (O x i), (O y j); auto; lia.
    - destruct O as (k & q & _ & _ & O & _). destruct (O x i) as (-> & _); [lia|exact X|]. destruct (O y j) as (-> & _); [lia|exact Y|]. reflexivity.
  Qed.

  Lemma careful_race_free : race_free user T.
  Proof.
    intros x y (i & j & a & b & l & w & v & Ex & Ey & NE & A & B & WV & N1 & N2). destruct w, v.
    - apply NE. now apply (writes_one_thread x y i j a b l l).
    - apply N1. now apply (writes_before_reads x y i j a b l l).
    - apply N2. now apply (writes_before_reads y x j i b a l l).
    - destruct WV; discriminate.
  Qed.
End EXECUTION.
