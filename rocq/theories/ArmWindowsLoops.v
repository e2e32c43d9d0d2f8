(** Lemmas about the loops of Windows for ARM. *)
From Verif Require Import Base BaseProofs Loops TopologySpec ArmWindowsModel ArmWindowsSpec.
From Verif Require X86WindowsSpec X86WindowsModel X86WindowsProofs ArmLinuxModel.
Import X86WindowsSpec(group_start, mask_processors, mask_valid, says, numbered).
Import X86WindowsModel(winfo, wi_expected, wi_groups, before_groups, total, mask_bits, each).
Import X86WindowsProofs(each_app, each_map, each_ext, each_flat_map, tagged, tagged_snd, index_of, mask_list, info_list, mask_list_index,
  mask_list_in, info_list_index, before_nth, total_sum, mask_bits_filter).
Ltac Zify.zify_post_hook ::= idtac.
Open Scope nat_scope.

(** ** Arrays modified at several places *)

Lemma fold_filter {W A} (test : W -> bool) (f : W -> A -> A) : forall ws x,
  fold_left (fun x w => if test w then f w x else x) ws x = fold_left (fun x w => f w x) (filter test ws) x.
Proof. induction ws as [|w ws IH]; intros x; cbn [fold_left filter]; [reflexivity|]. destruct (test w); cbn [fold_left]; apply IH. Qed.

(** All writes that hit an element, in order. *)
Lemma each_modify {W A} (idx : W -> nat) (f : W -> A -> A) : forall ws l, Forall (fun w => idx w < length l) ws ->
  exists l', each (fun w l => modify l (idx w) (f w)) ws l = Ok l' /\ length l' = length l /\
    forall i x, nth_error l i = Some x -> nth_error l' i = Some (fold_left (fun x w => f w x) (filter (fun w => idx w =? i) ws) x).
Proof.
  induction ws as [|w ws IH]; intros l F; cbn [each].
  { exists l. repeat split; auto. }
  apply Forall_cons_iff in F. destruct F as (Hw & F). apply nth_error_lt in Hw. destruct Hw as (y & Hy). pose proof (nth_error_some_lt _ _ _ _ Hy) as Ly.
  rewrite (modify_ok _ _ _ _ _ Hy). cbn [bind]. destruct (IH (upd l (idx w) (f w y))) as (l' & E & L & P); [rewrite upd_length; exact F|].
  exists l'. split; [exact E|]. rewrite upd_length in L. split; [exact L|]. intros i x Hx. cbn [filter]. destruct (Nat.eqb_spec (idx w) i) as [<-|Ne].
  - cbn [fold_left]. apply P. rewrite nth_error_upd_eq by exact Ly. congruence.
  - apply P. now rewrite nth_error_upd_neq by exact Ne.
Qed.

Lemma wr_modify {A} (l : list A) i x : wr l i x = modify l i (fun _ => x).
Proof.
  unfold wr, modify. destruct (Nat.ltb_spec i (length l)) as [H|H].
  - apply nth_error_lt in H. destruct H as (y & ->). reflexivity.
  - apply nth_error_None in H. now rewrite H.
Qed.

Lemma filter_unique {W} (idx : W -> nat) : forall ws w, NoDup (map idx ws) -> In w ws -> filter (fun v => idx v =? idx w) ws = [w].
Proof.
  induction ws as [|v ws IH]; intros w N I; [destruct I|]. cbn [map] in N. apply NoDup_cons_iff in N. destruct N as (N1 & N). cbn [filter].
  destruct I as [->|I].
  - rewrite Nat.eqb_refl. f_equal.
    clear IH. induction ws as [|u ws IH]; [reflexivity|]. cbn [map] in N1, N. apply NoDup_cons_iff in N. destruct N as (_ & N). cbn [filter].
    destruct (Nat.eqb_spec (idx u) (idx w)) as [E|_]; [exfalso; apply N1; now left|]. apply IH; [|exact N]. intros X. apply N1. now right.
  - destruct (Nat.eqb_spec (idx v) (idx w)) as [E|_]; [exfalso; apply N1; rewrite E; now apply in_map|]. now apply IH.
Qed.

Lemma tagged_in {A} : forall (l : list (list A)) k0 k x, In (k, x) (tagged k0 l) <-> exists j s, k = k0 + j /\ nth_error l j = Some s /\ In x s.
Proof.
  induction l as [|s l IH]; intros k0 k x; cbn [tagged].
  { split; [intros []|]. intros (j & s & _ & H & _). destruct j; discriminate. }
  rewrite in_app_iff, IH. split.
  - intros [H|(j & s' & -> & Hj & Hx)].
    + apply in_map_iff in H. destruct H as (y & E & Hy). injection E as <- <-. exists 0, s. repeat split; auto; lia.
    + exists (S j), s'. repeat split; auto; lia.
  - intros (j & s' & -> & Hj & Hx). destruct j as [|j].
    + left. injection Hj as ->. apply in_map_iff. exists x. split; [f_equal; lia|exact Hx].
    + right. exists j, s'. repeat split; auto; lia.
Qed.

(** ** Answers about processors *)

Section ANSWERS.
Context (sizes : list nat).

Lemma group_end : forall (l : list nat) g, g < length l -> group_start l g + nth g l 0 <= list_sum l.
Proof.
  unfold group_start. induction l as [|n l IH]; intros g H; [cbn in H; lia|]. change (list_sum (n :: l)) with (n + list_sum l). destruct g as [|g].
  - cbn. lia.
  - cbn [firstn nth length] in *. change (list_sum (n :: firstn g l)) with (n + list_sum (firstn g l)). specialize (IH g ltac:(lia)). lia.
Qed.

Lemma index_in e gb : mask_valid sizes e -> In gb (mask_list e) -> index_of sizes gb < list_sum sizes.
Proof.
  intros V H. destruct (mask_list_in sizes e gb V H) as (A & B). pose proof (group_end sizes _ A). unfold index_of. lia.
Qed.

Lemma each_opt_ok {A T} (body : A -> T -> res (option T)) (body' : A -> T -> res T) : forall l s,
  (forall a s, In a l -> body a s = do s' <- body' a s; Ok (Some s')) -> each_opt body l s = do s' <- each body' l s; Ok (Some s').
Proof.
  induction l as [|a l IH]; intros s H; cbn [each_opt each]; [reflexivity|]. rewrite H by now left. unfold obind. destruct (body' a s); cbn [bind]; auto.
  apply IH. intros. apply H. now right.
Qed.

Lemma parse_processor_flat {T} (store : nat -> nat -> nat -> T -> res T) groups s : Forall (mask_valid sizes) groups ->
  parse_processor_info (before_groups sizes 0) (list_sum sizes) store groups s =
  do s' <- each (fun gb => store (index_of sizes gb) (fst gb) (snd gb)) (flat_map mask_list groups) s; Ok (Some s').
Proof.
  intros F. unfold parse_processor_info. rewrite (each_opt_ok _ (fun g => each (fun gb => store (index_of sizes gb) (fst gb) (snd gb)) (mask_list g))).
  - now rewrite <- each_flat_map.
  - intros g s0 Hg. rewrite Forall_forall in F. specialize (F g Hg). unfold mask_list. rewrite each_map.
    apply each_opt_ok. intros b s1 Hb. rewrite before_nth by apply F. cbn [bind fst snd plus].
    pose proof (index_in g (fst g, b) F) as L. unfold index_of in *. cbn [fst snd] in *.
    destruct (Nat.leb_spec (list_sum sizes) (group_start sizes (fst g) + b)) as [Q|Q]; [|reflexivity].
    exfalso. apply (Nat.lt_irrefl (list_sum sizes)). eapply Nat.le_lt_trans; [exact Q|]. apply L. apply in_map_iff. exists b. split; [reflexivity|exact Hb].
Qed.

Lemma parse_infos_flat {T} (store : nat -> nat -> nat -> nat -> T -> res T) : forall infos id s,
  Forall (fun i => wi_expected i = true -> Forall (mask_valid sizes) (wi_groups i)) infos ->
  parse_infos wi_expected (fun id info => parse_processor_info (before_groups sizes 0) (list_sum sizes) (store id) (wi_groups info)) infos id s =
  do s' <- each (fun e => store (fst e) (index_of sizes (snd e)) (fst (snd e)) (snd (snd e))) (tagged id (map info_list (filter wi_expected infos))) s;
  Ok (Some (id + length (filter wi_expected infos), s')).
Proof.
  induction infos as [|i infos IH]; intros id s F; cbn [parse_infos filter].
  { cbn. now rewrite Nat.add_0_r. }
  apply Forall_cons_iff in F. destruct F as (Fi & F). destruct (wi_expected i); cbn [negb].
  - rewrite parse_processor_flat by (apply Fi; reflexivity). cbn [map tagged length]. rewrite each_app, each_map. unfold obind, info_list at 1. cbn [fst snd].
    destruct (each _ (flat_map mask_list (wi_groups i)) s) as [s1| |]; cbn [bind]; try reflexivity. rewrite IH by exact F.
    destruct (each _ _ s1); cbn [bind]; try reflexivity. now rewrite Nat.add_succ_r.
  - now apply IH.
Qed.

(** The sets that are told, and the writes. *)
Lemma says_lists infos sets : says sizes infos sets ->
  Forall (fun i => wi_expected i = true -> Forall (mask_valid sizes) (wi_groups i)) infos /\
  map (map (index_of sizes)) (map info_list (filter wi_expected infos)) = sets /\
  Forall (Forall (fun gb => fst gb < length sizes /\ snd gb < nth (fst gb) sizes 0)) (map info_list (filter wi_expected infos)).
Proof.
  intros (V & E). assert (F : Forall (fun i => wi_expected i = true -> Forall (mask_valid sizes) (wi_groups i)) infos).
  { rewrite Forall_forall. intros i Hi Ht. rewrite Forall_forall. intros e He. now apply (V i e). }
  split; [exact F|]. rewrite Forall_forall in F. split.
  - rewrite <- E, map_map. apply map_ext_in. intros i Hi. apply filter_In in Hi. now apply info_list_index, F.
  - rewrite Forall_map, Forall_forall. intros i Hi. apply filter_In in Hi. rewrite Forall_forall. intros gb Hgb. unfold info_list in Hgb.
    apply in_flat_map in Hgb. destruct Hgb as (e & He & Hgb). specialize (F i (proj1 Hi) (proj2 Hi)). rewrite Forall_forall in F. now apply (mask_list_in sizes e gb (F e He)).
Qed.

Lemma tagged_index : forall (l : list (list (nat * nat))) k, map (fun w => index_of sizes (snd w)) (tagged k l) = concat (map (map (index_of sizes)) l).
Proof. intros l k. rewrite <- (map_map snd (index_of sizes)), tagged_snd, concat_map. reflexivity. Qed.

(** The writes of a list that says [sets]: one for each processor. *)
Lemma writes_unique infos sets n : says sizes infos sets -> Permutation (concat sets) (seq 0 n) ->
  let ws := tagged 0 (map info_list (filter wi_expected infos)) in
  Forall (fun w => index_of sizes (snd w) < n) ws /\ Forall (fun w => fst w < length sets) ws /\
  forall i, i < n -> exists w s, filter (fun w => index_of sizes (snd w) =? i) ws = [w] /\ nth_error sets (fst w) = Some s /\ In i s /\
    fst (snd w) < length sizes /\ snd (snd w) < nth (fst (snd w)) sizes 0 /\ i = group_start sizes (fst (snd w)) + snd (snd w).
Proof.
  intros H P ws. destruct (says_lists _ _ H) as (_ & E & B).
  assert (M : map (fun w => index_of sizes (snd w)) ws = concat sets) by (unfold ws; now rewrite tagged_index, E).
  assert (IN : forall w, In w ws -> exists s, nth_error sets (fst w) = Some s /\ In (index_of sizes (snd w)) s /\
    fst (snd w) < length sizes /\ snd (snd w) < nth (fst (snd w)) sizes 0).
  { intros (k & gb) Hw. unfold ws in Hw. apply tagged_in in Hw. destruct Hw as (j & s & -> & Hj & Hs). cbn [fst snd plus]. exists (map (index_of sizes) s).
    rewrite <- E. split; [now apply map_nth_error|]. split; [now apply in_map|]. rewrite Forall_forall in B. apply nth_error_In in Hj. specialize (B s Hj).
    rewrite Forall_forall in B. now apply B. }
  split; [|split].
  - rewrite Forall_forall. intros w Hw. assert (I : In (index_of sizes (snd w)) (concat sets)) by (rewrite <- M; apply (in_map (fun w => index_of sizes (snd w))); exact Hw).
    apply (Permutation_in _ P) in I. apply in_seq in I. lia.
  - rewrite Forall_forall. intros w Hw. destruct (IN w Hw) as (s & Hs & _). now apply nth_error_some_lt in Hs.
  - intros i Hi. assert (I : In i (concat sets)) by (apply (Permutation_in _ (Permutation_sym P)), in_seq; lia).
    rewrite <- M in I. apply in_map_iff in I. destruct I as (w & Ew & Hw). destruct (IN w Hw) as (s & Hs & Is & G1 & G2). exists w, s.
    rewrite Ew in Is. split; [|repeat split; auto].
    rewrite <- Ew. apply (filter_unique (fun w => index_of sizes (snd w))); [|exact Hw]. rewrite M. apply (Permutation_NoDup (Permutation_sym P)), seq_NoDup.
Qed.

End ANSWERS.

(** ** Starts and counts *)

Lemma rev_seq_S n : rev (seq 0 (S n)) = n :: rev (seq 0 n).
Proof. rewrite seq_S, rev_app_distr. reflexivity. Qed.

Lemma fold_takes {A} (start count : A -> nat) (f : nat -> A -> A) : (forall i x, start (f i x) = i) -> (forall i x, count (f i x) = S (count x)) ->
  forall l x, start (fold_left (fun x i => f i x) l x) = last l (start x) /\ count (fold_left (fun x i => f i x) l x) = count x + length l.
Proof.
  intros S1 S2. induction l as [|i l IH]; intros x; cbn [fold_left length]; [split; [reflexivity|lia]|].
  destruct (IH (f i x)) as (A1 & A2). rewrite A1, A2, S1, S2. split; [|lia]. clear. revert i. induction l as [|j l IH]; intros i; [reflexivity|].
  cbn [last]. destruct l; [reflexivity|]. apply IH.
Qed.
Lemma fold_kept {A B} (field : A -> B) (f : nat -> A -> A) : (forall i x, field (f i x) = field x) ->
  forall l x, field (fold_left (fun x i => f i x) l x) = field x.
Proof. intros K. induction l as [|i l IH]; intros x; cbn [fold_left]; [reflexivity|]. now rewrite IH, K. Qed.

Lemma last_rev {A} (l : list A) d : last (rev l) d = hd d l.
Proof. destruct l as [|a l]; [reflexivity|]. cbn [rev hd]. apply last_last. Qed.
Lemma filter_rev {A} (f : A -> bool) : forall l, filter f (rev l) = rev (filter f l).
Proof.
  induction l as [|a l IH]; [reflexivity|]. cbn [rev filter]. rewrite filter_app, IH. cbn [filter]. destruct (f a); cbn [rev]; [reflexivity|apply app_nil_r].
Qed.

(** Going down through the numbers below [n]: the last one that passes the test is the least. *)
Lemma down_least (f : nat -> bool) n (s : list nat) d : (forall i, In i s <-> i < n /\ f i = true) -> NoDup s -> s <> [] ->
  least (last (filter f (rev (seq 0 n))) d) s /\ length (filter f (rev (seq 0 n))) = length s.
Proof.
  intros H N Ne. rewrite filter_rev, last_rev, rev_length.
  assert (P : Permutation (filter f (seq 0 n)) s).
  { apply NoDup_Permutation; [apply NoDup_filter, seq_NoDup|exact N|]. intros i. rewrite H, filter_In, in_seq. split; intros; split; try tauto; lia. }
  split; [|now apply Permutation_length].
  assert (S : StronglySorted lt (filter f (seq 0 n))).
  { assert (G : forall len a, StronglySorted lt (filter f (seq a len))).
    { induction len as [|len IH]; intros a; cbn [seq filter]; [constructor|]. destruct (f a); [|apply IH]. constructor; [apply IH|].
      rewrite Forall_forall. intros x Hx. apply filter_In in Hx. destruct Hx as (Hx & _). apply in_seq in Hx. lia. }
    apply G. }
  destruct (filter f (seq 0 n)) as [|a l]; [apply Permutation_nil in P; contradiction|]. cbn [hd]. split.
  - apply (Permutation_in _ P). now left.
  - rewrite Forall_forall. intros x Hx. apply (Permutation_in _ (Permutation_sym P)) in Hx. apply StronglySorted_inv in S. destruct S as (_ & S).
    destruct Hx as [->|Hx]; [lia|]. rewrite Forall_forall in S. specialize (S x Hx). lia.
Qed.
