(** Runs of equal keys: the arithmetic behind every grouping loop.
    Nothing here models code. *)
From Verif Require Import Base BaseProofs TopologySpec.

(** How many [i < k] satisfy [f]. *)
Fixpoint cnt (k : nat) (f : nat -> bool) : nat :=
  match k with
  | O => 0
  | S k' => cnt k' f + (if f k' then 1 else 0)
  end.

Lemma cnt_mono f k k' : k <= k' -> cnt k f <= cnt k' f.
Proof. induction 1 as [|k' _ IH]; cbn; lia. Qed.

Lemma cnt_S_true f k : f k = true -> cnt (S k) f = S (cnt k f).
Proof. intros H; cbn; rewrite H; lia. Qed.

Lemma cnt_S_false f k : f k = false -> cnt (S k) f = cnt k f.
Proof. intros H; cbn; rewrite H; lia. Qed.

Lemma cnt_flat f k k' : k <= k' -> (forall i, k <= i < k' -> f i = false) -> cnt k' f = cnt k f.
Proof.
  induction 1 as [|k' Hk IH]; intros H; [reflexivity|].
  cbn. rewrite H by lia. rewrite IH; [lia|]. intros; apply H; lia.
Qed.

Lemma cnt_ext f f' k : (forall i, i < k -> f i = f' i) -> cnt k f = cnt k f'.
Proof. induction k as [|k IH]; intros H; cbn; [reflexivity|]. rewrite H by lia. rewrite IH; auto. Qed.

Lemma cnt_all k : cnt k (fun _ => true) = k.
Proof. induction k; cbn; lia. Qed.

Lemma cnt_le k f : cnt k f <= k.
Proof. induction k; cbn; [lia|]. destruct (f k); lia. Qed.

(** Counting inside an interval. *)
Lemma cnt_interval f k s e : forall n, s <= e -> e <= n ->
  (forall i, i < n -> k i = (s <=? i) && (i <? e) && f i) -> cnt n k = cnt e f - cnt s f.
Proof.
  induction n as [|n IH]; intros Hse Hen Hk.
  - assert (s = 0) by lia. assert (e = 0) by lia. subst. reflexivity.
  - cbn [cnt]. destruct (Nat.eq_dec e (S n)) as [->|Hne].
    + clear IH. rewrite Hk by lia. cbn [cnt].
      assert (IH2 : forall m, m <= n -> cnt m k = cnt m f - cnt s f).
      { induction m as [|m IHm]; intros Hm; [cbn; lia|]. cbn [cnt]. rewrite IHm, Hk by lia.
        destruct (Nat.leb_spec s m); cbn [andb].
        - pose proof (cnt_mono f s m ltac:(lia)). replace (m <? S n) with true by lia. cbn [andb]. destruct (f m); lia.
        - pose proof (cnt_mono f (S m) s ltac:(lia)) as HH. cbn [cnt] in HH. destruct (f m); lia. }
      rewrite IH2 by lia.
      destruct (Nat.leb_spec s n); cbn [andb].
      * pose proof (cnt_mono f s n ltac:(lia)). replace (n <? S n) with true by lia. cbn [andb]. destruct (f n); lia.
      * pose proof (cnt_mono f (S n) s ltac:(lia)) as HH. cbn [cnt] in HH. destruct (f n); lia.
    + rewrite IH; [|lia|lia|intros; apply Hk; lia]. rewrite Hk by lia.
      replace (n <? e) with false by lia. rewrite andb_false_r. cbn [andb]. lia.
Qed.

Section STEP.
  (** [new i]: element [i] starts a new group. *)
  Variable new : nat -> bool.
  Hypothesis new0 : new 0 = true.

  (** The group of element [i]. *)
  Definition grp (i : nat) : nat := pred (cnt (S i) new).

  Lemma cnt_pos i : 0 < i -> 0 < cnt i new.
  Proof using new0. intros H. pose proof (cnt_mono new 1 i H) as HH. cbn in HH. rewrite new0 in HH. lia. Qed.

  Lemma cnt_grp i : cnt (S i) new = S (grp i).
  Proof using new0. unfold grp. pose proof (cnt_pos (S i)). lia. Qed.

  Lemma grp_leader s : new s = true -> grp s = cnt s new.
  Proof using. clear new0. intros H. unfold grp. rewrite cnt_S_true by exact H. reflexivity. Qed.

  Lemma grp_follow s : new (S s) = false -> grp (S s) = grp s.
  Proof using. clear new0. intros H. unfold grp. now rewrite cnt_S_false by exact H. Qed.

  (** Every group has a leader. *)
  Lemma leader_of n : forall j, j < cnt n new -> exists s, s < n /\ new s = true /\ cnt s new = j.
  Proof using. clear new0.
    induction n as [|n IH]; intros j Hj; [cbn in Hj; lia|].
    destruct (Nat.lt_ge_cases j (cnt n new)) as [H|H].
    - destruct (IH j H) as (s & H1 & H2). exists s. split; [lia|exact H2].
    - cbn in Hj. destruct (new n) eqn:E; [|lia]. exists n. repeat split; auto; lia.
  Qed.

  Lemma leader_inj s t : new s = true -> new t = true -> cnt s new = cnt t new -> s = t.
  Proof using. clear new0.
    intros Hs Ht H. destruct (Nat.lt_total s t) as [L|[L|L]]; auto.
    - pose proof (cnt_mono new (S s) t L) as HH. rewrite cnt_S_true in HH by auto. lia.
    - pose proof (cnt_mono new (S t) s L) as HH. rewrite cnt_S_true in HH by auto. lia.
  Qed.

  (** The end of the group led by [s] among the first [n] elements. *)
  Lemma group_end n : forall s, s < n -> exists e, s < e <= n /\ (e = n \/ new e = true) /\
    forall i, s < i < e -> new i = false.
  Proof using. clear new0.
    induction n as [|n IH]; intros s Hs; [lia|].
    destruct (Nat.eq_dec s n) as [->|Hne].
    - exists (S n). split; [lia|]. split; [now left|]. intros; lia.
    - destruct (IH s ltac:(lia)) as (e & H1 & H2 & H3).
      destruct (new e) eqn:E.
      + exists e. split; [lia|]. auto.
      + destruct H2 as [->|H2]; [|congruence].
        exists (S n). split; [lia|]. split; [now left|]. intros i Hi.
        destruct (Nat.eq_dec i n) as [->|]; [exact E|apply H3; lia].
  Qed.

  Lemma group_members n s e i :
    new s = true -> s < e <= n -> (e = n \/ new e = true) -> (forall i, s < i < e -> new i = false) ->
    i < n -> (grp i = cnt s new <-> s <= i < e).
  Proof using new0.
    intros Hs He Hend Hin Hi. pose proof (cnt_grp i) as G.
    destruct (Nat.lt_ge_cases i s) as [L|L].
    - pose proof (cnt_mono new (S i) s L). split; intros; [|lia]. lia.
    - destruct (Nat.lt_ge_cases i e) as [L2|L2].
      + split; [lia|]. intros _.
        rewrite (cnt_flat new (S s) (S i)) in G; [|lia|intros; apply Hin; lia].
        rewrite cnt_S_true in G by exact Hs. lia.
      + split; [|lia]. intros H. exfalso. destruct Hend as [->|Hend]; [lia|].
        pose proof (cnt_mono new (S e) (S i) ltac:(lia)) as M. rewrite cnt_S_true in M by exact Hend.
        pose proof (cnt_mono new (S s) e ltac:(lia)) as M2. rewrite cnt_S_true in M2 by exact Hs. lia.
  Qed.
End STEP.

(** Consecutive ranges from local conditions. *)
Lemma tiles_intro : forall rs from to,
  (rs = [] -> from = to) ->
  (forall s c, nth_error rs 0 = Some (s, c) -> s = from) ->
  (forall j s c, nth_error rs j = Some (s, c) -> 0 < c /\
     (forall s' c', nth_error rs (S j) = Some (s', c') -> s' = s + c) /\
     (S j = length rs -> s + c = to)) ->
  tiles from rs to.
Proof.
  induction rs as [|[s c] rs IH]; intros from to H1 H2 H3; cbn [tiles]; [auto|].
  assert (s = from) by (apply (H2 s c); reflexivity). subst from.
  destruct (H3 0 s c eq_refl) as (Hc & Hn & Hl).
  repeat split; auto. apply IH.
  - intros ->. apply Hl. reflexivity.
  - intros s' c' H. now apply (Hn s' c').
  - intros j s' c' H. destruct (H3 (S j) s' c' H) as (A & B & C). repeat split; auto.
    intros Hj. apply C. cbn. lia.
Qed.

(** Two nested levels: [new1] starts inner groups, [new2] outer groups, every
    outer start is an inner start.  The inner groups, seen as elements, are
    grouped by the outer groups. *)
Lemma grouping_nested new1 new2 n own rs :
  new1 0 = true -> new2 0 = true -> 0 < n ->
  (forall i, i < n -> new2 i = true -> new1 i = true) ->
  length own = cnt n new1 -> length rs = cnt n new2 ->
  (forall s, s < n -> new1 s = true -> nth_error own (cnt s new1) = Some (grp new2 s)) ->
  (forall s, s < n -> new2 s = true ->
     nth_error rs (cnt s new2) =
     Some (grp new1 s, cnt n (fun i => new1 i && (grp new2 i =? cnt s new2)))) ->
  grouping own rs.
Proof.
  intros N1 N2 Hn Hsub Lo Lr Ho Hr.
  assert (Hrange : forall s e, s < n -> new2 s = true -> s < e <= n -> (e = n \/ new2 e = true) ->
            (forall i, s < i < e -> new2 i = false) ->
            cnt n (fun i => new1 i && (grp new2 i =? cnt s new2)) = cnt e new1 - cnt s new1).
  { intros s e Hs Hls He Hend Hin. apply (cnt_interval new1 _ s e n); [lia|lia|].
    intros i Hi. rewrite andb_comm. f_equal.
    pose proof (group_members new2 N2 n s e i Hls He Hend Hin Hi) as M.
    destruct (Nat.eqb_spec (grp new2 i) (cnt s new2)) as [E|E].
    - apply M in E. lia.
    - symmetry. apply not_true_is_false. intros H. apply E, M. lia. }
  split.
  - rewrite Lo. apply tiles_intro.
    + intros ->. cbn in Lr. pose proof (cnt_pos new2 N2 n Hn). lia.
    + intros s c H. specialize (Hr 0 Hn N2). cbn [cnt] in Hr. rewrite H in Hr.
      injection Hr as -> _. now rewrite grp_leader.
    + intros j s c H.
      assert (Hj : j < cnt n new2) by (rewrite <- Lr; eapply nth_error_some_lt; eassumption).
      destruct (leader_of new2 n j Hj) as (t & Ht & Htl & Htj).
      destruct (group_end new2 n t Ht) as (e & He & Hend & Hin).
      pose proof (Hr t Ht Htl) as R. rewrite Htj, H in R. injection R as -> ->.
      pose proof (Hrange t e Ht Htl He Hend Hin) as Hc. rewrite Htj in Hc. rewrite Hc.
      assert (Hn1 : new1 t = true) by (apply Hsub; auto).
      rewrite (grp_leader new1 t Hn1).
      assert (Hlt : cnt t new1 < cnt e new1).
      { pose proof (cnt_mono new1 (S t) e ltac:(lia)) as M. rewrite cnt_S_true in M by exact Hn1. lia. }
      assert (Hce : cnt e new2 = S j).
      { rewrite (cnt_flat new2 (S t) e); [|lia|intros; apply Hin; lia].
        rewrite cnt_S_true by exact Htl. lia. }
      split; [lia|]. split.
      * intros s' c' H'. destruct Hend as [->|Hend].
        { exfalso. assert (S j < cnt n new2) by (rewrite <- Lr; eapply nth_error_some_lt; eassumption). lia. }
        assert (He' : e < n).
        { destruct (Nat.eq_dec e n) as [->|]; [|lia].
          assert (S j < cnt n new2) by (rewrite <- Lr; eapply nth_error_some_lt; eassumption). lia. }
        pose proof (Hr e He' Hend) as R. rewrite Hce, H' in R. injection R as -> _.
        rewrite grp_leader by (apply Hsub; auto). lia.
      * intros Hl. rewrite Lr in Hl. destruct Hend as [->|Hend]; [lia|].
        destruct (Nat.eq_dec e n) as [->|]; [lia|].
        pose proof (cnt_mono new2 (S e) n ltac:(lia)) as M. rewrite cnt_S_true in M by exact Hend. lia.
  - intros i j. split.
    + intros H.
      assert (Hi : i < cnt n new1) by (rewrite <- Lo; eapply nth_error_some_lt; eassumption).
      destruct (leader_of new1 n i Hi) as (t & Ht & Htl & Hti).
      pose proof (Ho t Ht Htl) as O. rewrite Hti, H in O. injection O as ->.
      assert (Hg : grp new2 t < cnt n new2).
      { pose proof (cnt_grp new2 N2 t). pose proof (cnt_mono new2 (S t) n ltac:(lia)). lia. }
      destruct (leader_of new2 n _ Hg) as (s & Hs & Hsl & Hsg).
      destruct (group_end new2 n s Hs) as (e & He & Hend & Hin).
      pose proof (Hr s Hs Hsl) as R. rewrite (Hrange s e Hs Hsl He Hend Hin) in R. rewrite Hsg in R.
      eexists _, _. split; [exact R|]. rewrite grp_leader by (apply Hsub; auto).
      pose proof (proj1 (group_members new2 N2 n s e t Hsl He Hend Hin Ht) (eq_sym Hsg)) as M.
      pose proof (cnt_mono new1 s t ltac:(lia)).
      pose proof (cnt_mono new1 (S t) e ltac:(lia)) as M2. rewrite cnt_S_true in M2 by exact Htl. lia.
    + intros (s0 & c0 & H & Hi).
      assert (Hj : j < cnt n new2) by (rewrite <- Lr; eapply nth_error_some_lt; eassumption).
      destruct (leader_of new2 n j Hj) as (s & Hs & Hsl & Hsj).
      destruct (group_end new2 n s Hs) as (e & He & Hend & Hin).
      pose proof (Hr s Hs Hsl) as R. rewrite (Hrange s e Hs Hsl He Hend Hin) in R. rewrite Hsj, H in R.
      injection R as -> ->. rewrite grp_leader in Hi by (apply Hsub; auto).
      pose proof (cnt_mono new1 s e ltac:(lia)).
      pose proof (cnt_mono new1 e n ltac:(lia)).
      destruct (leader_of new1 n i ltac:(lia)) as (t & Ht & Htl & Hti).
      rewrite <- Hti, (Ho t Ht Htl). f_equal. rewrite <- Hsj.
      apply (group_members new2 N2 n s e t Hsl He Hend Hin Ht).
      destruct (Nat.lt_ge_cases t s) as [L|L].
      { exfalso. pose proof (cnt_mono new1 (S t) s L) as M. rewrite cnt_S_true in M by exact Htl. lia. }
      destruct (Nat.lt_ge_cases t e) as [L2|L2]; [lia|].
      exfalso. pose proof (cnt_mono new1 e t L2). lia.
Qed.

(** One level: the elements themselves are grouped. *)
Lemma grouping_runs new n own rs :
  new 0 = true -> 0 < n -> length own = n -> length rs = cnt n new ->
  (forall i, i < n -> nth_error own i = Some (grp new i)) ->
  (forall s, s < n -> new s = true ->
     nth_error rs (cnt s new) = Some (s, cnt n (fun i => grp new i =? cnt s new))) ->
  grouping own rs.
Proof.
  intros N Hn Lo Lr Ho Hr.
  apply (grouping_nested (fun _ => true) new n); auto.
  - now rewrite cnt_all.
  - intros s Hs _. rewrite cnt_all. auto.
  - intros s Hs Hl. rewrite (Hr s Hs Hl). unfold grp at 2. rewrite cnt_all. reflexivity.
Qed.

(** Runs of a key. *)
Definition new_key (key : nat -> N) (i : nat) : bool :=
  match i with O => true | S i' => negb (key i =? key i')%N end.

(** When keys never decrease, being in the same run means having the same key. *)
Lemma same_run_iff key n i j :
  (forall a b, a <= b -> b < n -> (key a <= key b)%N) -> i < n -> j < n ->
  (grp (new_key key) i = grp (new_key key) j <-> key i = key j).
Proof.
  intros Hmono Hi Hj.
  assert (W : forall a b, a <= b -> b < n ->
            (grp (new_key key) a = grp (new_key key) b <-> key a = key b)).
  { intros a b Hab. induction Hab as [|b Hab IH]; intros Hb; [tauto|].
    specialize (IH ltac:(lia)).
    pose proof (cnt_grp (new_key key) eq_refl b) as G1.
    pose proof (cnt_grp (new_key key) eq_refl (S b)) as G2.
    pose proof (cnt_grp (new_key key) eq_refl a) as G0.
    cbn [cnt] in G1, G2. change (new_key key (S b)) with (negb (key (S b) =? key b)%N) in G2.
    pose proof (cnt_mono (new_key key) (S a) (S b) ltac:(lia)) as M. cbn [cnt] in M.
    destruct (N.eqb_spec (key (S b)) (key b)) as [E|E]; cbn [negb] in G2.
    - rewrite E, <- IH. assert (grp (new_key key) (S b) = grp (new_key key) b) by lia. lia.
    - split.
      + intros H. exfalso. cbn [cnt] in G0. lia.
      + intros H. exfalso. pose proof (Hmono b (S b) ltac:(lia) Hb). pose proof (Hmono a b Hab ltac:(lia)). lia. }
  destruct (Nat.le_ge_cases i j) as [H|H].
  - now apply W.
  - specialize (W j i H Hi). split; intros E; symmetry; apply W; auto.
Qed.
