(** Lemmas about the model of Windows: what the downward loops leave in the tables. *)
From Verif Require Import Base BaseProofs Loops Fill TopologySpec X86WindowsModel X86CountsSpec X86CountsModel X86CountsProofs X86WindowsSpec X86WindowsProofs
  X86WindowsRows.
From Verif Require X86LinuxModel Masks.
Import X86WindowsModel.
Import X86LinuxModel(xinfo, xc_geometry, xi_vendor, xi_uarch, xi_cpuid, xi_thread_offset, xi_thread_length, xi_core_offset,
  xi_core_length, xi_l1i, xi_l1d, xi_l2, xi_l3, xi_l4, xc_apic_bits, bit_mask).
Ltac Zify.zify_post_hook ::= idtac.
Open Scope nat_scope.

Lemma nth_map_seq {A} (f : nat -> A) n i : i < n -> nth_error (map f (seq 0 n)) i = Some (f i).
Proof. intros H. rewrite nth_error_map, (nth_error_nth' _ 0) by now rewrite seq_length. now rewrite seq_nth. Qed.

Lemma app_inj_length {A} : forall (a c b d : list A), a ++ b = c ++ d -> length a = length c -> a = c /\ b = d.
Proof.
  induction a as [|x a IH]; intros [|y c] b d E L; cbn in *; try discriminate; [now split|].
  injection E as -> E. injection L as L. destruct (IH c b d E L) as (-> & ->). now split.
Qed.

Lemma nth_repeat_lt {A} (a d : A) : forall n i, i < n -> nth i (repeat a n) d = a.
Proof. induction n as [|n IH]; intros [|i] H; cbn; try lia; [reflexivity|]. apply IH. lia. Qed.

(** ** Loops that let each element be taken by its owner *)

Lemma for_each_each {T} (body : nat -> T -> res T) : forall n from s, for_each body from n s = each body (seq from n) s.
Proof. induction n as [|n IH]; intros from s; cbn [for_each seq each]; [reflexivity|]. destruct (body from s); cbn [bind]; auto. Qed.

Lemma rev_seq n : map (fun k => n - 1 - k) (seq 0 n) = rev (seq 0 n).
Proof.
  apply nth_error_ext. intros i. destruct (Nat.lt_ge_cases i n) as [H|H].
  - rewrite (nth_map_seq _ n i) by exact H. symmetry. rewrite (nth_error_nth' _ 0) by (rewrite rev_length, seq_length; exact H).
    rewrite rev_nth by (rewrite seq_length; exact H). rewrite seq_length, seq_nth by lia. f_equal. lia.
  - rewrite !(proj2 (nth_error_None _ _)); rewrite ?map_length, ?rev_length, ?seq_length; auto.
Qed.

Lemma for_down_each {T} (body : nat -> T -> res T) n s : for_down body n s = each body (rev (seq 0 n)) s.
Proof. unfold for_down. rewrite for_each_each, <- rev_seq, each_map. reflexivity. Qed.

Lemma each_rev {A T} (body : A -> T -> res T) (state : list A -> T) : forall l,
  (forall pre a l', l = pre ++ a :: l' -> body a (state l') = Ok (state (a :: l'))) -> each body (rev l) (state []) = Ok (state l).
Proof.
  induction l as [|a l IH]; intros H; [reflexivity|]. cbn [rev]. rewrite each_app, IH.
  - cbn [bind each]. rewrite (H [] a l eq_refl). reflexivity.
  - intros pre b l' ->. apply (H (a :: pre)). reflexivity.
Qed.

Definition taken {A} (take : nat -> A -> A) (z : nat -> A) (owner : nat -> nat) (M : nat) (l : list nat) : list A :=
  map (fun j => fold_right take (z j) (filter (fun i => owner i =? j) l)) (seq 0 M).

Lemma taken_nil {A} take (z : nat -> A) owner M : taken take z owner M [] = map z (seq 0 M).
Proof. reflexivity. Qed.

Lemma taken_nth {A} take (z : nat -> A) owner M l j : j < M -> nth_error (taken take z owner M l) j = Some (fold_right take (z j) (filter (fun i => owner i =? j) l)).
Proof. intros H. unfold taken. now rewrite (nth_map_seq _ M j). Qed.

Lemma taken_modify {A} (take : nat -> A -> A) z owner M l i : owner i < M ->
  modify (taken take z owner M l) (owner i) (take i) = Ok (taken take z owner M (i :: l)).
Proof.
  intros H. unfold modify. rewrite taken_nth by exact H. f_equal. apply nth_error_ext. intros j.
  destruct (Nat.lt_ge_cases j M) as [Hj|Hj].
  - rewrite (taken_nth _ _ _ _ (i :: l)) by exact Hj. cbn [filter]. destruct (Nat.eqb_spec (owner i) j) as [E|E].
    + subst j. rewrite nth_error_upd_eq; [reflexivity|]. unfold taken. now rewrite map_length, seq_length.
    + rewrite nth_error_upd_neq by congruence. now apply taken_nth.
  - rewrite !(proj2 (nth_error_None _ _)); rewrite ?upd_length; unfold taken; rewrite ?map_length, ?seq_length; auto.
Qed.

(** Writing an element of its own. *)
Definition given {A} (final z : nat -> A) (M : nat) (l : list nat) : list A := taken (fun i _ => final i) z (fun i => i) M l.

Lemma given_wr {A} (final z : nat -> A) M l i : i < M -> wr (given final z M l) i (final i) = Ok (given final z M (i :: l)).
Proof.
  intros H. unfold given. rewrite <- (taken_modify (fun i _ => final i) z (fun i => i) M l i H). unfold modify, wr.
  rewrite taken_nth by exact H. unfold taken. rewrite map_length, seq_length. destruct (Nat.ltb_spec i M); [reflexivity|lia].
Qed.

Lemma given_untouched {A} (final z : nat -> A) M l i : i < M -> ~ In i l -> rd (given final z M l) i = Ok (z i).
Proof.
  intros H N. unfold given, rd. rewrite taken_nth by exact H. f_equal.
  replace (filter (fun k => k =? i) l) with (@nil nat); [reflexivity|]. symmetry. clear - N. induction l as [|a l IH]; [reflexivity|]. cbn [filter].
  destruct (Nat.eqb_spec a i) as [->|E]; [exfalso; apply N; now left|]. apply IH. intros Hi. apply N. now right.
Qed.

Lemma given_all {A} (final z : nat -> A) M l : (forall i, i < M -> In i l) -> given final z M l = map final (seq 0 M).
Proof.
  intros H. unfold given, taken. apply map_ext_in. intros j Hj. apply in_seq in Hj. destruct Hj as (_ & Hj). specialize (H j Hj). clear - H.
  induction l as [|a l IH]; [destruct H|]. cbn [filter]. destruct (Nat.eqb_spec a j) as [->|E]; [reflexivity|].
  destruct H as [->|H]; [congruence|auto].
Qed.

(** ** Sets of consecutive elements *)

Definition owner_of {A} (sets : list (list A)) (i : nat) : nat := nth i (owners 0 sets) 0.

Lemma filter_tagged {A} : forall (sets : list (list A)) k j, filter (fun e => fst e =? j) (tagged k sets) =
  if j <? k then [] else map (pair j) (nth (j - k) sets []).
Proof.
  induction sets as [|s sets IH]; intros k j; cbn [tagged].
  - destruct (j <? k), (j - k); reflexivity.
  - rewrite filter_app, IH.
    assert (F : filter (fun e : nat * A => fst e =? j) (map (pair k) s) = if k =? j then map (pair k) s else []).
    { clear. induction s as [|a s IH]; cbn; [now destruct (k =? j)|]. destruct (k =? j); [now rewrite IH|exact IH]. }
    rewrite F. destruct (Nat.eqb_spec k j) as [->|E].
    + destruct (Nat.ltb_spec j (S j)); [|lia]. destruct (Nat.ltb_spec j j); [lia|]. rewrite Nat.sub_diag, app_nil_r. reflexivity.
    + cbn [app]. destruct (Nat.ltb_spec j (S k)), (Nat.ltb_spec j k); try lia; [reflexivity|]. replace (j - k) with (S (j - S k)) by lia. reflexivity.
Qed.

Lemma tagged_combine {A} (sets : list (list A)) k : tagged k sets = combine (owners k sets) (concat sets).
Proof. rewrite <- tagged_fst, <- (tagged_snd sets k). symmetry. apply combine_split'. Qed.

Lemma filter_owner sets n j : concat sets = seq 0 n -> filter (fun i => owner_of sets i =? j) (seq 0 n) = nth j sets [].
Proof.
  intros C. assert (E : filter (fun i => owner_of sets i =? j) (seq 0 n) = map snd (filter (fun e => fst e =? j) (tagged 0 sets))).
  { rewrite tagged_combine, C. unfold owner_of. assert (L : length (owners 0 sets) = n) by now rewrite owners_length, C, seq_length.
    revert L. generalize (owners 0 sets) as o. clear. intros o <-.
    assert (G : forall o p, filter (fun i => nth i (p ++ o) 0 =? j) (seq (length p) (length o)) = map snd (filter (fun e => fst e =? j) (combine o (seq (length p) (length o))))).
    { induction o0 as [|a o0 IH]; intros p; [reflexivity|]. cbn [length seq combine filter fst]. rewrite app_nth2, Nat.sub_diag by lia. cbn [nth].
      specialize (IH (p ++ [a])). rewrite app_length, Nat.add_1_r, <- app_assoc in IH. cbn [app] in IH. destruct (a =? j); cbn [map snd]; now rewrite IH. }
    exact (G o []). }
  rewrite E, filter_tagged. cbn [Nat.ltb]. destruct (j <? 0) eqn:Z; [apply Nat.ltb_lt in Z; lia|]. rewrite Nat.sub_0_r, map_map. cbn [snd]. apply map_id.
Qed.

Lemma taken_sets {A} (take : nat -> A -> A) z sets n : concat sets = seq 0 n ->
  taken take z (owner_of sets) (length sets) (seq 0 n) = map (fun j => fold_right take (z j) (nth j sets [])) (seq 0 (length sets)).
Proof. intros C. unfold taken. apply map_ext. intros j. now rewrite (filter_owner sets n j C). Qed.

Lemma owner_bound {A} (sets : list (list A)) i : i < length (concat sets) -> owner_of sets i < length sets.
Proof.
  intros H. unfold owner_of. assert (G : forall (sets : list (list A)) k i, i < length (concat sets) -> nth i (owners k sets) 0 < k + length sets).
  { clear. induction sets as [|s sets IH]; intros k i H; [cbn in H; lia|]. cbn [owners concat length] in *. rewrite app_length in H.
    destruct (Nat.lt_ge_cases i (length s)) as [L|L].
    - rewrite app_nth1 by now rewrite repeat_length. rewrite nth_repeat_lt by exact L. lia.
    - rewrite app_nth2; rewrite repeat_length; [|exact L]. specialize (IH (S k) (i - length s) ltac:(lia)). lia. }
  apply (G sets 0 i H).
Qed.

Lemma set_is_seq sets n j s : concat sets = seq 0 n -> nth_error sets j = Some s -> s = seq (length (concat (firstn j sets))) (length s).
Proof.
  intros C H. pose proof (firstn_skipn j sets) as E. assert (K : exists r, skipn j sets = s :: r).
  { clear C E. revert j H. induction sets as [|a sets IH]; intros [|j] H; cbn in *; try discriminate; [injection H as ->; eauto|auto]. }
  destruct K as (r & K). rewrite K in E. rewrite <- E in C. rewrite concat_app in C. cbn [concat] in C.
  assert (S1 : skipn (length (concat (firstn j sets))) (seq 0 n) = s ++ concat r) by (rewrite <- C, skipn_app, skipn_all, Nat.sub_diag; reflexivity).
  assert (LE : length (concat (firstn j sets)) + length s <= n).
  { rewrite <- (seq_length n 0), <- C, !app_length. lia. }
  replace n with (length (concat (firstn j sets)) + (n - length (concat (firstn j sets)))) in S1 by lia.
  rewrite seq_app, skipn_app, skipn_all2, seq_length, Nat.sub_diag in S1 by (rewrite seq_length; lia). cbn [skipn app plus] in S1.
  apply (f_equal (firstn (length s))) in S1. rewrite firstn_app, Nat.sub_diag, firstn_all, app_nil_r in S1. rewrite <- S1 at 1.
  set (q := length (concat (firstn j sets))) in *. replace (n - q) with (length s + (n - q - length s)) by lia.
  rewrite seq_app, firstn_app, seq_length, Nat.sub_diag, app_nil_r. apply firstn_all2. rewrite seq_length. lia.
Qed.

Lemma set_seq sets n s : concat sets = seq 0 n -> In s sets -> s <> [] -> s = seq (hd 0 s) (length s).
Proof.
  intros C H N. apply In_nth_error in H. destruct H as (j & H). pose proof (set_is_seq sets n j s C H) as E.
  destruct s as [|a s]; [congruence|]. cbn [hd]. cbn [length seq] in E. injection E as E1 E2. subst a. cbn [length seq]. now rewrite <- E2.
Qed.

Definition span (s : list nat) : nat * nat := (hd 0 s, length s).

Lemma tiles_sets : forall sets a n, concat sets = seq a n -> Forall (fun s => s <> []) sets -> tiles a (map span sets) (a + n).
Proof.
  induction sets as [|s sets IH]; intros a n C F.
  - cbn in C. destruct n; [|discriminate]. cbn. lia.
  - apply Forall_cons_iff in F. destruct F as (Fs & F). cbn [concat] in C. destruct s as [|b s]; [congruence|].
    assert (L : length (b :: s) <= n) by (rewrite <- (seq_length n a), <- C, app_length; lia).
    replace n with (length (b :: s) + (n - length (b :: s))) in C by lia. rewrite seq_app in C.
    assert (E : b :: s = seq a (length (b :: s)) /\ concat sets = seq (a + length (b :: s)) (n - length (b :: s))).
    { apply app_inj_length in C; [exact C|now rewrite seq_length]. }
    destruct E as (E1 & E2). cbn [map tiles span hd]. cbn [length seq] in E1. injection E1 as Eb _. subst b. split; [reflexivity|]. split; [cbn; lia|].
    replace (a + n) with (a + length (a :: s) + (n - length (a :: s))) by lia. now apply IH.
Qed.

Lemma nth_owners : forall (sets : list (list nat)) k a n i j, concat sets = seq a n -> Forall (fun s => s <> []) sets ->
  (nth_error (owners k sets) i = Some (k + j) <-> exists s c, nth_error (map span sets) j = Some (s, c) /\ s <= a + i < s + c).
Proof.
  induction sets as [|t sets IH]; intros k a n i j C F.
  - cbn [owners map]. split; [destruct i; discriminate|]. intros (s & c & H & _). destruct j; discriminate.
  - apply Forall_cons_iff in F. destruct F as (Fs & F). cbn [concat] in C.
    assert (L : length t <= n) by (rewrite <- (seq_length n a), <- C, app_length; lia).
    assert (C' := C). replace n with (length t + (n - length t)) in C' by lia. rewrite seq_app in C'.
    apply app_inj_length in C'; [|now rewrite seq_length]. destruct C' as (E1 & E2).
    assert (Hd : hd 0 t = a) by (destruct t; [congruence|]; cbn [length seq] in E1; injection E1 as -> _; reflexivity).
    cbn [owners map]. destruct (Nat.lt_ge_cases i (length t)) as [Hi|Hi].
    + rewrite nth_error_app1 by now rewrite repeat_length. rewrite nth_error_repeat by exact Hi. destruct j as [|j].
      * cbn [nth_error]. unfold span. rewrite Hd. split; [|intros _; f_equal; lia]. intros _. eexists _, _. split; [reflexivity|lia].
      * cbn [nth_error]. split; [intros H; injection H; lia|]. intros (s & c & H & B).
        exfalso. pose proof (tiles_sets sets (a + length t) (n - length t) E2 F) as T. pose proof (nth_error_In _ _ H) as Hin. clear - T Hin B Hi.
        revert T Hin. generalize (a + length t + (n - length t)) as to. assert (G : a + i < a + length t) by lia. revert G. generalize (a + length t) as from.
        induction (map span sets) as [|(s1, c1) l IHl]; intros from G to T Hin; [destruct Hin|]. cbn [tiles] in T. destruct T as (-> & C1 & T).
        destruct Hin as [E|Hin]; [injection E as -> ->; lia|]. apply (IHl (from + c1)) with (to := to); auto. lia.
    + rewrite nth_error_app2 by now rewrite repeat_length. rewrite repeat_length. destruct j as [|j].
      * cbn [nth_error]. split.
        -- intros H. exfalso. apply nth_error_In in H. rewrite <- tagged_fst in H. apply in_map_iff in H. destruct H as (e & He & Hin).
           assert (G : forall (l : list (list nat)) q, In e (tagged q l) -> q <= fst e).
           { clear. induction l as [|s l IH]; intros q H; [destruct H|]. cbn [tagged] in H. apply in_app_or in H. destruct H as [H|H].
             - apply in_map_iff in H. destruct H as (? & <- & _). cbn. lia.
             - apply IH in H. lia. }
           apply G in Hin. lia.
        -- intros (s & c & H & B). unfold span in H. rewrite Hd in H. injection H as <- <-. lia.
      * cbn [nth_error]. replace (k + S j) with (S k + j) by lia. rewrite (IH (S k) (a + length t) (n - length t) (i - length t) j E2 F).
        replace (a + length t + (i - length t)) with (a + i) by lia. reflexivity.
Qed.

Lemma points_sets sets n : concat sets = seq 0 n -> Forall (fun s => s <> []) sets -> points_to (map Some (owners 0 sets)) (map span sets).
Proof.
  intros C F. exists (owners 0 sets). split; [reflexivity|]. split.
  - rewrite owners_length, C, seq_length. apply (tiles_sets sets 0 n C F).
  - intros i j. apply (nth_owners sets 0 0 n i j C F).
Qed.

(** The cores of each package, by number. *)
Fixpoint blocks {A} (s : nat) (m : list (list A)) : list (list nat) :=
  match m with [] => [] | p :: m' => seq s (length p) :: blocks (s + length p) m' end.
Lemma blocks_concat {A} : forall (m : list (list A)) s, concat (blocks s m) = seq s (length (concat m)).
Proof. induction m as [|p m IH]; intros s; cbn [blocks concat]; [reflexivity|]. now rewrite IH, app_length, seq_app. Qed.
Lemma blocks_owners {A} : forall (m : list (list A)) s k, owners k (blocks s m) = owners k m.
Proof. induction m as [|p m IH]; intros s k; cbn [blocks owners]; [reflexivity|]. now rewrite IH, seq_length. Qed.
Lemma blocks_length {A} : forall (m : list (list A)) s, length (blocks s m) = length m.
Proof. induction m as [|p m IH]; intros s; cbn; [reflexivity|]. now rewrite IH. Qed.
Lemma blocks_nonempty {A} : forall (m : list (list A)) s, Forall (fun p => p <> []) m -> Forall (fun p => p <> []) (blocks s m).
Proof.
  induction m as [|p m IH]; intros s F; cbn [blocks]; constructor; apply Forall_cons_iff in F; destruct F as (Fp & F).
  - destruct p; [congruence|discriminate].
  - now apply IH.
Qed.
