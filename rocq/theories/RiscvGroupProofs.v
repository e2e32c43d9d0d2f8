(** RISC-V Linux: the groups found from the kernel's lists. *)
From Verif Require Import Base BaseProofs LinuxTextModel LinuxTextSpec CpulistFileProofs TopologySpec X86LinuxSpec
  X86DetectProofs RiscvLinuxModel RiscvLinuxSpec.
Open Scope nat_scope.

(** ** Lists of numbers *)

Definition mem (q : nat) (l : list nat) : bool := existsb (Nat.eqb q) l.

Lemma mem_In q l : mem q l = true <-> In q l.
Proof.
  unfold mem. rewrite existsb_exists. split.
  - intros (x & Hx & E). apply Nat.eqb_eq in E. now subst.
  - intros H. exists q. split; [exact H|apply Nat.eqb_refl].
Qed.

Lemma mem_app q a b : mem q (a ++ b) = mem q a || mem q b.
Proof. apply existsb_app. Qed.

Lemma NoDup_app_r : forall l l' : list nat, NoDup (l ++ l') -> NoDup l'.
Proof. induction l as [|a l IH]; intros l' H; [exact H|]. apply IH. now inversion H. Qed.

Lemma sorted_eq : forall l l', StronglySorted lt l -> StronglySorted lt l' ->
  (forall x, In x l <-> In x l') -> l = l'.
Proof.
  induction l as [|a l IH]; intros [|b l'] S S' H.
  - reflexivity.
  - destruct (proj2 (H b)); now left.
  - destruct (proj1 (H a)); now left.
  - inversion_clear S as [|? ? S1 F]. inversion_clear S' as [|? ? S2 F']. rewrite Forall_forall in F, F'.
    assert (a = b).
    { destruct (proj1 (H a) (or_introl eq_refl)) as [E|E]; [auto|].
      destruct (proj2 (H b) (or_introl eq_refl)) as [E'|E']; [auto|].
      specialize (F _ E'). specialize (F' _ E). lia. }
    subst b. f_equal. apply IH; auto. intros x. split; intros Hx.
    + destruct (proj1 (H x) (or_intror Hx)) as [<-|]; [|auto]. specialize (F _ Hx). lia.
    + destruct (proj2 (H x) (or_intror Hx)) as [<-|]; [|auto]. specialize (F' _ Hx). lia.
Qed.

Lemma sorted_filter {A} (R : A -> A -> Prop) f : forall l, StronglySorted R l -> StronglySorted R (filter f l).
Proof.
  induction l as [|a l IH]; intros S; cbn; [constructor|]. inversion_clear S as [|? ? S1 F].
  destruct (f a); [|auto]. constructor; [auto|]. rewrite Forall_forall in *. intros x Hx.
  apply filter_In in Hx. now apply F.
Qed.

Lemma sorted_app : forall l l', StronglySorted lt l -> StronglySorted lt l' ->
  (forall x y, In x l -> In y l' -> x < y) -> StronglySorted lt (l ++ l').
Proof.
  induction l as [|a l IH]; intros l' S S' H; [exact S'|]. inversion_clear S as [|? ? S1 F]. cbn.
  constructor.
  - apply IH; auto. intros x y Hx. apply H. now right.
  - rewrite Forall_app. split; [exact F|]. rewrite Forall_forall. intros y. apply H. now left.
Qed.

Lemma sorted_seq : forall n s, StronglySorted lt (seq s n).
Proof.
  induction n as [|n IH]; intros s; cbn; constructor; [auto|].
  rewrite Forall_forall. intros x Hx. apply in_seq in Hx. lia.
Qed.

Lemma sorted_NoDup : forall l, StronglySorted lt l -> NoDup l.
Proof.
  induction l as [|a l IH]; intros S; constructor; inversion_clear S as [|? ? S1 F]; [|auto].
  rewrite Forall_forall in F. intros Hi. specialize (F _ Hi). lia.
Qed.

Lemma sorted_length l n : StronglySorted lt l -> Forall (fun x => x < n) l -> length l <= n.
Proof.
  intros S F. rewrite <- (seq_length n 0). apply NoDup_incl_length; [now apply sorted_NoDup|].
  intros x Hx. rewrite Forall_forall in F. specialize (F _ Hx). apply in_seq. lia.
Qed.

(** The numbers in the ranges of a CPU list. *)
Definition expand (rs : list (N * N)) : list nat :=
  flat_map (fun r => seq (N.to_nat (fst r)) (N.to_nat (snd r + 1) - N.to_nat (fst r))) rs.

Lemma expand_In rs x : In x (expand rs) <-> listed rs (N.of_nat x).
Proof.
  unfold expand, listed. rewrite in_flat_map. split.
  - intros ((f & l) & Hi & Hx). cbn [fst snd] in Hx. apply in_seq in Hx. exists f, l. split; [exact Hi|lia].
  - intros (f & l & Hi & Hx). exists (f, l). split; [exact Hi|]. cbn [fst snd]. apply in_seq. lia.
Qed.

Lemma expand_sorted rs : ascending rs -> StronglySorted lt (expand rs).
Proof.
  unfold ascending. induction rs as [|(f & l) rs IH]; intros S; [constructor|]. inversion_clear S as [|? ? S1 F].
  cbn [expand flat_map]. apply sorted_app; [apply sorted_seq|now apply IH|].
  intros x y Hx Hy. cbn [fst snd] in Hx. apply in_seq in Hx. apply expand_In in Hy. destruct Hy as (f' & l' & Hi & Hy).
  rewrite Forall_forall in F. specialize (F _ Hi). cbn in F. lia.
Qed.

(** ** Flags *)

Lemma has_valid f : has_flags f rflag_valid = N.testbit f 12.
Proof.
  unfold has_flags. change rflag_valid with (2 ^ 12)%N. apply eq_iff_eq_true. rewrite N.eqb_eq. split.
  - intros H. assert (E : N.testbit (N.land f (2 ^ 12)) 12 = true) by (rewrite H; apply N.pow2_bits_true).
    rewrite N.land_spec in E. now apply andb_prop in E.
  - intros H. apply N.bits_inj. intros b. rewrite N.land_spec. destruct (N.eq_dec b 12) as [->|Hb].
    + now rewrite H, N.pow2_bits_true.
    + rewrite N.pow2_bits_false by congruence. apply andb_false_r.
Qed.

Definition level_bit (v : rlevel) : N := match v with RCore => 9 | RCluster => 14 | RPackage => 10 end.

Lemma has_level f v : has_flags f (level_flag v) = N.testbit f (level_bit v).
Proof.
  unfold has_flags. assert (E0 : level_flag v = (2 ^ level_bit v)%N) by (destruct v; reflexivity). rewrite E0.
  apply eq_iff_eq_true. rewrite N.eqb_eq. split.
  - intros H. assert (E : N.testbit (N.land f (2 ^ level_bit v)) (level_bit v) = true) by (rewrite H; apply N.pow2_bits_true).
    rewrite N.land_spec in E. now apply andb_prop in E.
  - intros H. apply N.bits_inj. intros b. rewrite N.land_spec. destruct (N.eq_dec b (level_bit v)) as [->|Hb].
    + now rewrite H, N.pow2_bits_true.
    + rewrite N.pow2_bits_false by congruence. apply andb_false_r.
Qed.

Lemma level_flag_bits v w : N.testbit (level_flag v) (level_bit w) = true <-> v = w.
Proof. destruct v, w; cbn; split; congruence. Qed.

(** ** Records *)

Definition set_leader (v : rlevel) (h : N) (p : rproc) : rproc := with_group v (with_leader h (group_of v p)) p.

Lemma group_with v w g p : group_of w (with_group v g p) = match v, w with
  | RCore, RCore | RCluster, RCluster | RPackage, RPackage => g | _, _ => group_of w p end.
Proof. now destruct v, w. Qed.
Lemma group_with_same v g p : group_of v (with_group v g p) = g.
Proof. now destruct v. Qed.
Lemma group_with_other v w g p : v <> w -> group_of w (with_group v g p) = group_of w p.
Proof. destruct v, w; intros H; cbn; congruence. Qed.
Lemma with_with v g g' p : with_group v g (with_group v g' p) = with_group v g p.
Proof. now destruct v. Qed.
Lemma with_group_flags v g p : r_flags (with_group v g p) = r_flags p.
Proof. now destruct v. Qed.
Lemma set_leader_set v h h' p : set_leader v h (set_leader v h' p) = set_leader v h p.
Proof. unfold set_leader. now rewrite group_with_same, with_with. Qed.
Lemma set_leader_valid v h p : r_valid (set_leader v h p) = r_valid p.
Proof. unfold r_valid, set_leader. now rewrite with_group_flags. Qed.

(** ** One range *)

(** What the cores and clusters counters add up. *)
Definition adds (v : rlevel) (L : rlevel -> nat -> bool) (cpus : list nat) : N * N :=
  (match v with RPackage => N.of_nat (length (filter (L RCluster) cpus)) | _ => 0 end,
   match v with RCore => 0 | _ => N.of_nat (length (filter (L RCore) cpus)) end)%N.

Lemma adds_cons v L c cpus : adds v L (c :: cpus) =
  (match v with RPackage => if L RCluster c then 1 else 0 | _ => 0 end + fst (adds v L cpus),
   match v with RCore => 0 | _ => if L RCore c then 1 else 0 end + snd (adds v L cpus))%N.
Proof.
  unfold adds. destruct v; cbn [filter fst snd]; f_equal;
    try destruct (L RCluster c); try destruct (L RCore c); cbn [length]; lia.
Qed.

Lemma adds_app v L a b : adds v L (a ++ b) = (fst (adds v L a) + fst (adds v L b), snd (adds v L a) + snd (adds v L b))%N.
Proof.
  induction a as [|c a IH]; [cbn [app]; destruct v; cbn; now rewrite <- ?surjective_pairing|].
  cbn [app]. rewrite !adds_cons, IH. cbn [fst snd]. f_equal; lia.
Qed.

Lemma adds_le v L cpus : (fst (adds v L cpus) <= N.of_nat (length cpus))%N /\ (snd (adds v L cpus) <= N.of_nat (length cpus))%N.
Proof.
  induction cpus as [|c cpus IH]; [destruct v; cbn; lia|].
  rewrite adds_cons. cbn [fst snd length]. destruct v; try destruct (L RCluster c); try destruct (L RCore c); lia.
Qed.

(** The leader tests the parser makes agree with [L]. *)
Definition leaders_are (v : rlevel) (L : rlevel -> nat -> bool) (procs : list rproc) : Prop :=
  forall c p, nth_error procs c = Some p -> r_valid p = true ->
    (v <> RCore -> is_leader RCore c p = L RCore c) /\ (v = RPackage -> is_leader RCluster c p = L RCluster c).

Lemma scan_one_spec v L c p s : (v <> RCore -> is_leader RCore c p = L RCore c) ->
  (v = RPackage -> is_leader RCluster c p = L RCluster c) ->
  scan_one v c p s = RScan (if (sc_start s =? u32max)%N then N.of_nat c else sc_start s) (sc_processors s + 1)
    (sc_clusters s + fst (adds v L [c])) (sc_cores s + snd (adds v L [c])).
Proof.
  intros H1 H2. unfold scan_one, adds. destruct v; cbn [filter fst snd length].
  - reflexivity.
  - rewrite H1 by discriminate. now destruct (L RCore c).
  - rewrite H1, H2 by (discriminate || reflexivity). now destruct (L RCluster c), (L RCore c).
Qed.

Lemma scan_range_spec v L : forall cpus s procs,
  NoDup cpus -> leaders_are v L procs ->
  Forall (fun c => (N.of_nat c < u32max)%N /\ exists p, nth_error procs c = Some p /\ r_valid p = true) cpus ->
  let h := if (sc_start s =? u32max)%N then match cpus with [] => u32max | c :: _ => N.of_nat c end else sc_start s in
  exists procs', scan_range v cpus s procs =
      Ok (RScan h (sc_processors s + N.of_nat (length cpus)) (sc_clusters s + fst (adds v L cpus))
                (sc_cores s + snd (adds v L cpus)), procs') /\
    forall q, nth_error procs' q = option_map (fun p => if mem q cpus then set_leader v h p else p) (nth_error procs q).
Proof.
  induction cpus as [|c cpus IH]; intros s procs ND HL HF h.
  - exists procs. cbn [scan_range length]. split.
    + f_equal. f_equal. unfold h. rewrite !N.add_0_r.
      assert (E : adds v L [] = (0, 0)%N) by (now destruct v). rewrite E. cbn [fst snd]. rewrite !N.add_0_r.
      destruct (N.eqb_spec (sc_start s) u32max) as [E1|_]; destruct s; cbn in *; [now rewrite <- E1|reflexivity].
    + intros q. now destruct (nth_error procs q).
  - apply NoDup_cons_iff in ND. destruct ND as (Hni & ND1). apply Forall_cons_iff in HF.
    destruct HF as ((Hc & p & Hp & Hv) & HF1). cbn [scan_range]. unfold rd. rewrite Hp. cbn [bind]. rewrite Hv. cbn [negb].
    destruct (HL c p Hp Hv) as (HL1 & HL2).
    rewrite (scan_one_spec v L c p s HL1 HL2). cbn [sc_start].
    fold (set_leader v (if (sc_start s =? u32max)%N then N.of_nat c else sc_start s) p).
    assert (Eh : (if (sc_start s =? u32max)%N then N.of_nat c else sc_start s) = h) by reflexivity. rewrite Eh.
    rewrite wr_ok by (eapply nth_error_some_lt; exact Hp). cbn [bind].
    assert (Hh : (h =? u32max)%N = false).
    { unfold h. destruct (N.eqb_spec (sc_start s) u32max) as [E|E]; apply N.eqb_neq; [|exact E]; cbn; lia. }
    destruct (IH (RScan h (sc_processors s + 1) (sc_clusters s + fst (adds v L [c])) (sc_cores s + snd (adds v L [c])))
                 (upd procs c (set_leader v h p)) ND1) as (procs' & E & Hq).
    + intros q x Hx Hvx. destruct (Nat.eq_dec c q) as [->|Hne].
      * rewrite nth_error_upd_eq in Hx by (eapply nth_error_some_lt; exact Hp). injection Hx as <-.
        split; intros Hv2; [rewrite <- HL1 by exact Hv2|rewrite <- HL2 by exact Hv2];
          unfold is_leader, set_leader; rewrite group_with_other; congruence.
      * rewrite nth_error_upd_neq in Hx by exact Hne. now apply HL.
    + rewrite Forall_forall in *. intros x Hx. destruct (HF1 x Hx) as (Hx1 & px & Hpx & Hvx). split; [exact Hx1|].
      exists px. split; [|exact Hvx]. rewrite nth_error_upd_neq; [exact Hpx|]. intros ->. now apply Hni.
    + cbn [sc_start sc_processors sc_clusters sc_cores] in E, Hq. rewrite Hh in E, Hq. exists procs'. split.
      * rewrite E. f_equal. f_equal. rewrite (adds_cons v L c cpus), (adds_cons v L c []). cbn [length fst snd].
        assert (E0 : adds v L [] = (0, 0)%N) by (now destruct v). rewrite E0. cbn [fst snd]. f_equal; lia.
      * intros q. rewrite Hq. change (mem q (c :: cpus)) with ((q =? c) || mem q cpus).
        destruct (Nat.eqb_spec q c) as [->|Hne]; [|now rewrite nth_error_upd_neq by congruence].
        rewrite nth_error_upd_eq by (eapply nth_error_some_lt; exact Hp). rewrite Hp. cbn [orb option_map].
        destruct (mem c cpus) eqn:Em; [now rewrite set_leader_set|reflexivity].
Qed.

(** ** All ranges of one processor's list *)

Definition entry_after (v : rlevel) (L : rlevel -> nat -> bool) (i : nat) (done : list nat) (q : nat) (p : rproc) : rproc :=
  match done with
  | [] => p
  | h :: _ =>
      if q =? i
      then with_rflags (N.lor (r_flags p) (level_flag v))
             (with_group v (RGroup (N.of_nat h) (N.of_nat h) (N.of_nat (length done)) (fst (adds v L done)) (snd (adds v L done))) p)
      else if mem q done then set_leader v (N.of_nat h) p else p
  end.
Definition after (v : rlevel) (L : rlevel -> nat -> bool) (i : nat) (done : list nat) (procs0 procs : list rproc) : Prop :=
  forall q, nth_error procs q = option_map (entry_after v L i done q) (nth_error procs0 q).

(** The entry before its own list is read. *)
Definition fresh (v : rlevel) (p : rproc) : Prop :=
  N.testbit (r_flags p) (level_bit v) = false /\
  rg_processors (group_of v p) = 0%N /\ rg_clusters (group_of v p) = 0%N /\ rg_cores (group_of v p) = 0%N.

Lemma entry_after_other v w L i done q p : v <> w -> group_of w (entry_after v L i done q p) = group_of w p.
Proof.
  intros H. unfold entry_after. destruct done; [reflexivity|]. destruct (q =? i); [|destruct (mem q _); [|reflexivity]].
  - destruct v, w; cbn; congruence.
  - unfold set_leader. now rewrite group_with_other.
Qed.

Lemma entry_after_valid v L i done q p : r_valid (entry_after v L i done q p) = r_valid p.
Proof.
  unfold entry_after. destruct done; [reflexivity|]. destruct (q =? i); [|destruct (mem q _); [apply set_leader_valid|reflexivity]].
  unfold r_valid. rewrite !has_valid. cbn [with_rflags r_flags]. rewrite N.lor_spec. destruct v; cbn; apply orb_false_r.
Qed.

Lemma after_leaders v L i done procs0 procs : after v L i done procs0 procs -> leaders_are v L procs0 -> leaders_are v L procs.
Proof.
  intros H HL c p Hp Hv0. rewrite H in Hp. destruct (nth_error procs0 c) as [p0|] eqn:E; [|discriminate]. injection Hp as <-.
  rewrite entry_after_valid in Hv0. destruct (HL c p0 E Hv0) as (H1 & H2). unfold is_leader in *.
  split; intros Hv; rewrite entry_after_other; subst; auto; discriminate.
Qed.

Lemma with_rflags_group v f p : group_of v (with_rflags f p) = group_of v p.
Proof. now destruct v. Qed.
Lemma with_rflags_twice f f' p : with_rflags f (with_rflags f' p) = with_rflags f p.
Proof. reflexivity. Qed.
Lemma with_group_rflags v g f p : with_group v g (with_rflags f p) = with_rflags f (with_group v g p).
Proof. now destruct v. Qed.

Lemma parser_step v L i done procs0 procs f l p0 :
  after v L i done procs0 procs -> leaders_are v L procs0 -> nth_error procs0 i = Some p0 -> fresh v p0 ->
  (f <= l)%N ->
  let new := seq (N.to_nat f) (N.to_nat (l + 1) - N.to_nat f) in
  NoDup (done ++ new) -> (N.of_nat (length (done ++ new)) < two32)%N -> Forall (fun c => (N.of_nat c < u32max)%N) (done ++ new) ->
  Forall (fun c => exists p, nth_error procs0 c = Some p /\ r_valid p = true) new ->
  exists procs', cpus_parser v i (Ok procs) f (l + 1) = (true, Ok procs') /\ after v L i (done ++ new) procs0 procs'.
Proof.
  intros HA HL Hi (Hf1 & Hf2 & Hf3 & Hf4) Hfl new HND Hlen HU HV.
  set (pi := entry_after v L i done i p0).
  assert (Hpi : nth_error procs i = Some pi) by (now rewrite HA, Hi).
  unfold cpus_parser. cbn [bind]. unfold rd at 1. rewrite Hpi. cbn [bind]. fold new.
  set (start := if has_flags (r_flags pi) (level_flag v) then rg_leader (group_of v pi) else u32max).
  assert (Hnew : new <> []).
  { unfold new. replace (N.to_nat (l + 1) - N.to_nat f) with (S (N.to_nat l - N.to_nat f)) by lia. discriminate. }
  set (h := hd 0 (done ++ new)).
  assert (Hstart : start = match done with [] => u32max | d :: _ => N.of_nat d end).
  { unfold start. rewrite has_level. unfold pi, entry_after. destruct done as [|d done']; [now rewrite Hf1|].
    rewrite Nat.eqb_refl. cbn [with_rflags r_flags]. rewrite N.lor_spec.
    assert (E : N.testbit (level_flag v) (level_bit v) = true) by (now apply level_flag_bits). rewrite E, orb_true_r.
    now rewrite with_rflags_group, group_with_same. }
  destruct (scan_range_spec v L new (RScan start 0 0 0) procs) as (procs1 & E1 & H1).
  { exact (NoDup_app_r done new HND). }
  { now apply (after_leaders v L i done procs0). }
  { rewrite Forall_app in HU. destruct HU as (_ & HU). rewrite Forall_forall in *. intros c Hc. split; [now apply HU|].
    destruct (HV c Hc) as (p & Hp & Hvp). exists (entry_after v L i done c p). split; [now rewrite HA, Hp|].
    now rewrite entry_after_valid. }
  cbn [sc_start sc_processors sc_clusters sc_cores] in E1, H1.
  set (hs := if (start =? u32max)%N then match new with [] => u32max | c :: _ => N.of_nat c end else start) in E1, H1.
  assert (Hhs : hs = N.of_nat h).
  { unfold hs, h. rewrite Hstart. destruct done as [|d done'].
    - rewrite N.eqb_refl. destruct new; [congruence|reflexivity].
    - cbn [app] in HU. apply Forall_cons_iff in HU. destruct HU as (HU & _).
      destruct (N.eqb_spec (N.of_nat d) u32max); [lia|reflexivity]. }
  rewrite E1. cbn [bind]. set (q := if mem i new then set_leader v hs pi else pi).
  assert (Hq : nth_error procs1 i = Some q) by (now rewrite H1, Hpi).
  unfold rd. rewrite Hq. cbn [bind sc_start sc_processors sc_clusters sc_cores].
  assert (Hqf : r_flags q = r_flags pi) by (unfold q, set_leader; destruct (mem i new); [apply with_group_flags|reflexivity]).
  assert (Hlen1 : i < length procs1) by (eapply nth_error_some_lt; exact Hq).
  rewrite wr_ok by exact Hlen1. cbn [bind].
  set (g := group_of v q).
  set (c1 := if _ || _ then _ else g).
  assert (Hc1 : c1 = RGroup hs hs (rg_processors (group_of v pi)) (rg_clusters (group_of v pi)) (rg_cores (group_of v pi))).
  { assert (Hg : rg_processors g = rg_processors (group_of v pi) /\ rg_clusters g = rg_clusters (group_of v pi) /\
                 rg_cores g = rg_cores (group_of v pi) /\ rg_start g = rg_start (group_of v pi)).
    { unfold g, q. destruct (mem i new); [|auto]. unfold set_leader. rewrite group_with_same. repeat split. }
    destruct Hg as (G1 & G2 & G3 & G4). unfold c1. rewrite Hqf, has_level, G1, G2, G3.
    destruct done as [|d done'].
    - unfold pi at 1, entry_after at 1. rewrite Hf1. reflexivity.
    - unfold pi at 1, entry_after at 1. rewrite Nat.eqb_refl. cbn [with_rflags r_flags]. rewrite N.lor_spec.
      assert (E : N.testbit (level_flag v) (level_bit v) = true) by (now apply level_flag_bits). rewrite E, orb_true_r.
      cbn [negb orb]. rewrite G4.
      assert (G5 : rg_start (group_of v pi) = N.of_nat d /\ rg_leader (group_of v pi) = N.of_nat d).
      { unfold pi, entry_after. rewrite Nat.eqb_refl, with_rflags_group, group_with_same. split; reflexivity. }
      destruct G5 as (G5 & G6). rewrite G5, Hhs. unfold h. cbn [app hd]. rewrite N.ltb_irrefl.
      unfold g, q. destruct (mem i new).
      + unfold set_leader. rewrite group_with_same. unfold with_leader. rewrite G5, Hhs. reflexivity.
      + rewrite <- G5 at 2. rewrite <- G6. now destruct (group_of v pi). }
  rewrite Hc1. cbn [rg_leader rg_start rg_processors rg_clusters rg_cores].
  assert (Hcnt : rg_processors (group_of v pi) = N.of_nat (length done) /\ rg_clusters (group_of v pi) = fst (adds v L done) /\
                 rg_cores (group_of v pi) = snd (adds v L done)).
  { unfold pi, entry_after. destruct done as [|d done'].
    - rewrite Hf2, Hf3, Hf4. now destruct v.
    - rewrite Nat.eqb_refl, with_rflags_group, group_with_same. split; [|split]; reflexivity. }
  destruct Hcnt as (C1 & C2 & C3). rewrite C1, C2, C3.
  pose proof (adds_le v L (done ++ new)) as HB. pose proof (adds_app v L done new) as HAp. rewrite HAp in HB. cbn [fst snd] in HB.
  rewrite app_length in Hlen, HB.
  rewrite !N.add_0_l, !u32_small by lia.
  eexists. split.
  { f_equal. destruct v; [|reflexivity|reflexivity]. apply negb_true_iff, N.eqb_neq. destruct new; [congruence|]. cbn [length]. lia. }
  intros r. destruct (Nat.eq_dec r i) as [->|Hne].
  - rewrite nth_error_upd_eq by exact Hlen1. rewrite Hi. cbn [option_map]. f_equal.
    unfold entry_after. destruct (done ++ new) as [|d dn] eqn:Edn; [apply app_eq_nil in Edn; tauto|]. rewrite Nat.eqb_refl.
    rewrite HAp, Hqf, <- Edn. cbn [fst snd]. assert (Hd : hs = N.of_nat d) by (rewrite Hhs; unfold h; now try rewrite Edn).
    rewrite app_length, Nat2N.inj_add, Hd.
    assert (Hq0 : forall G, with_group v G q = with_group v G pi).
    { intros G. unfold q. destruct (mem i new); [|reflexivity]. unfold set_leader. apply with_with. }
    rewrite Hq0.
    assert (Hf : N.lor (r_flags pi) (level_flag v) = N.lor (r_flags p0) (level_flag v)).
    { unfold pi, entry_after. destruct done; [reflexivity|]. rewrite Nat.eqb_refl. cbn [with_rflags r_flags].
      rewrite <- N.lor_assoc. now rewrite N.lor_diag. }
    rewrite Hf. unfold pi, entry_after. destruct done; [reflexivity|]. rewrite Nat.eqb_refl.
    rewrite with_group_rflags, with_with, with_rflags_twice. reflexivity.
  - rewrite nth_error_upd_neq by congruence. rewrite H1, HA. destruct (nth_error procs0 r) as [p|]; [|reflexivity].
    cbn [option_map]. f_equal. unfold entry_after.
    apply Nat.eqb_neq in Hne. rewrite Hne.
    destruct (done ++ new) as [|d dn] eqn:Edn; [apply app_eq_nil in Edn; tauto|]. rewrite <- Edn, mem_app.
    assert (Hd : hs = N.of_nat d) by (rewrite Hhs; unfold h; now try rewrite Edn). rewrite Hd.
    destruct done as [|d0 done']; [now cbn [app mem existsb orb]|].
    cbn [app] in Edn. injection Edn as -> _.
    destruct (mem r (d :: done')), (mem r new); cbn [orb]; rewrite ?set_leader_set; reflexivity.
Qed.

Lemma ranges_step v L i max procs0 p0 : leaders_are v L procs0 -> nth_error procs0 i = Some p0 -> fresh v p0 ->
  (max < two32)%N -> forall rs done procs,
  after v L i done procs0 procs -> Forall (fun r => (fst r <= snd r)%N) rs ->
  NoDup (done ++ expand rs) -> Forall (fun c => (N.of_nat c < max)%N) (done ++ expand rs) ->
  Forall (fun c => exists p, nth_error procs0 c = Some p /\ r_valid p = true) (expand rs) ->
  exists procs', run_ranges (siblings_parser max (cpus_parser v i)) true (Ok procs) (map Some rs) = (true, Ok procs') /\
    after v L i (done ++ expand rs) procs0 procs'.
Proof.
  intros HL Hi Hf Hmax. induction rs as [|(f & l) rs IH]; intros done procs HA Hle HND HM HV.
  - exists procs. cbn [expand flat_map] in *. rewrite app_nil_r. now cbn.
  - cbn [map run_ranges]. cbn [expand flat_map fst snd] in *. fold (expand rs) in *.
    apply Forall_cons_iff in Hle. destruct Hle as (Hfl & Hle). cbn [fst snd] in Hfl.
    set (new := seq (N.to_nat f) (N.to_nat (l + 1) - N.to_nat f)) in *.
    rewrite app_assoc in HND, HM. apply Forall_app in HV. destruct HV as (HV1 & HV2).
    assert (Hl : (l < max)%N).
    { rewrite !Forall_app in HM. destruct HM as ((_ & HM) & _). rewrite Forall_forall in HM.
      specialize (HM (N.to_nat l)). rewrite N2Nat.id in HM. apply HM. unfold new. apply in_seq. lia. }
    unfold siblings_parser at 1. replace (max <? l + 1)%N with false by (symmetry; apply N.ltb_ge; lia).
    assert (HND1 : NoDup (done ++ new)).
    { clear -HND. revert HND. generalize (done ++ new). intros a. induction a as [|x a IHa]; intros H; [constructor|].
      inversion_clear H as [|? ? H1 H2]. constructor; [|now apply IHa]. intros Hx. apply H1. apply in_or_app. now left. }
    assert (HM1 : Forall (fun c => (N.of_nat c < max)%N) (done ++ new)) by (now apply Forall_app in HM).
    destruct (parser_step v L i done procs0 procs f l p0 HA HL Hi Hf Hfl HND1) as (procs' & E & HA').
    + fold new. apply N.le_lt_trans with max; [|exact Hmax].
      assert (length (done ++ new) <= N.to_nat max); [|lia]. rewrite <- (seq_length (N.to_nat max) 0).
      apply NoDup_incl_length; [exact HND1|]. intros x Hx. rewrite Forall_forall in HM1. specialize (HM1 x Hx). apply in_seq. lia.
    + rewrite Forall_forall in *. intros x Hx. specialize (HM1 x Hx). unfold two32, u32max in *. lia.
    + exact HV1.
    + rewrite E. cbn [andb]. destruct (IH (done ++ new) procs' HA' Hle HND HM HV2) as (procs2 & E2 & HA2).
      exists procs2. split; [exact E2|]. now rewrite app_assoc.
Qed.

(** ** One level *)

Lemma list_file_parse {S} (cb : S -> N -> N -> bool * S) sg f rs ctx : list_says f (Some rs) ->
  parse_cpulist cb sg (f_contents f) (f_reads f) ctx = Ok (run_ranges cb true ctx (map Some rs)) /\
  Forall (fun r => (fst r <= snd r)%N) rs.
Proof.
  intros H. inversion H as [f' contents rs' Hc Hw Hl E1 E2|]; subst. rewrite Hc. split; [now apply cpu_list_file_parse|].
  destruct Hl as (es & _ & _ & _ & HF). clear -HF. induction HF as [|e r es rs (Hce & _) _ IH]; constructor; [|exact IH].
  destruct Hce; [apply N.le_refl|assumption].
Qed.

Section LEVEL.
  Variables (sg : bool) (max : N) (files : nat -> rcpu_files) (cpus : list nat) (group : grouping_fn).
  Hypothesis Hmax : (max < two32)%N.
  Hypothesis Hsorted : StronglySorted lt cpus.
  Hypothesis Hbelow : Forall (fun c => (N.of_nat c < max)%N) cpus.
  Hypothesis Hfiles : forall v p, In p cpus -> exists ranges, list_says (level_file v (files p)) (Some ranges) /\
    ascending ranges /\ forall q, listed ranges (N.of_nat q) <-> In q (members cpus group v p).

  Definition lead0 (w : rlevel) (c : nat) : bool := hd 0 (members cpus group w c) =? c.
  Definition full (v : rlevel) (q : nat) : rgroup :=
    let m := members cpus group v q in
    RGroup (N.of_nat (hd 0 m)) (N.of_nat (hd 0 m)) (N.of_nat (length m)) (fst (adds v lead0 m)) (snd (adds v lead0 m)).

  Lemma members_In v p q : In q (members cpus group v p) <-> In q cpus /\ group v q = group v p.
  Proof. unfold members. now rewrite filter_In, Nat.eqb_eq. Qed.

  Lemma members_same v p q : group v p = group v q -> members cpus group v p = members cpus group v q.
  Proof. intros H. unfold members. now rewrite H. Qed.

  Definition marks (procs : list rproc) : Prop :=
    (forall c p, nth_error procs c = Some p -> (r_valid p = true <-> In c cpus)) /\
    (forall c, In c cpus -> exists p, nth_error procs c = Some p).

  Lemma detect_group_spec v i procs p0 : In i cpus -> marks procs -> leaders_are v lead0 procs ->
    nth_error procs i = Some p0 -> fresh v p0 ->
    exists procs', detect_group sg max v i (level_file v (files i)) procs = Ok (true, procs') /\
      after v lead0 i (members cpus group v i) procs procs'.
  Proof.
    intros Hi (Hm1 & Hm2) HL Hp Hf. destruct (Hfiles v i Hi) as (rs & Hs & Ha & Hin).
    assert (Ex : expand rs = members cpus group v i).
    { apply sorted_eq; [now apply expand_sorted|apply sorted_filter, Hsorted|]. intros x. now rewrite expand_In. }
    destruct (list_file_parse (siblings_parser max (cpus_parser v i)) sg _ rs (Ok procs) Hs) as (E & Hle).
    unfold detect_group, detect_siblings. rewrite E. cbn [bind].
    destruct (ranges_step v lead0 i max procs p0 HL Hp Hf Hmax rs [] procs) as (procs' & E' & HA').
    - intros q. now destruct (nth_error procs q).
    - exact Hle.
    - cbn [app]. rewrite Ex. apply sorted_NoDup, sorted_filter, Hsorted.
    - cbn [app]. rewrite Ex. rewrite Forall_forall in *. intros c Hc. apply members_In in Hc. now apply Hbelow.
    - rewrite Ex. rewrite Forall_forall. intros c Hc. apply members_In in Hc. destruct Hc as (Hc & _).
      destruct (Hm2 c Hc) as (p & Hpc). exists p. split; [exact Hpc|]. now apply (Hm1 c).
    - rewrite E'. cbn [bind]. exists procs'. split; [reflexivity|]. cbn [app] in HA'. now rewrite Ex in HA'.
  Qed.

  (** The table while level [v] is read, compared with the table before. *)
  Definition level_inv (v : rlevel) (k : nat) (procs0 procs : list rproc) : Prop :=
    length procs = length procs0 /\
    forall c p0, nth_error procs0 c = Some p0 -> exists p, nth_error procs c = Some p /\
      r_valid p = r_valid p0 /\ r_linux_id p = r_linux_id p0 /\ (r_uarch p0 = 0%N -> r_uarch p = 0%N) /\
      (forall w, v <> w -> group_of w p = group_of w p0 /\
                           N.testbit (r_flags p) (level_bit w) = N.testbit (r_flags p0) (level_bit w)) /\
      (r_valid p0 = true -> if c <? k then group_of v p = full v c else fresh v p).

  Lemma level_inv_marks v k procs0 procs : level_inv v k procs0 procs -> marks procs0 -> marks procs.
  Proof.
    intros (Hl & HI) (H1 & H2). split.
    - intros c p Hp. assert (Hx : exists p0, nth_error procs0 c = Some p0) by (apply nth_error_lt; apply nth_error_some_lt in Hp; lia).
      destruct Hx as (p0 & Hp0). destruct (HI c p0 Hp0) as (p' & Hp' & Hv & _). assert (p' = p) by congruence. subst p'.
      rewrite Hv. now apply H1.
    - intros c Hc. destruct (H2 c Hc) as (p0 & Hp0). destruct (HI c p0 Hp0) as (p & Hp & _). eauto.
  Qed.

  Lemma level_inv_leaders v k procs0 procs : level_inv v k procs0 procs -> leaders_are v lead0 procs0 -> leaders_are v lead0 procs.
  Proof.
    intros (Hl & HI) HL c p Hp Hv.
    assert (Hx : exists p0, nth_error procs0 c = Some p0) by (apply nth_error_lt; apply nth_error_some_lt in Hp; lia).
    destruct Hx as (p0 & Hp0). destruct (HI c p0 Hp0) as (p' & Hp' & Hv' & _ & _ & Hg & _). assert (p' = p) by congruence. subst p'.
    rewrite Hv' in Hv. destruct (HL c p0 Hp0 Hv) as (A & B). unfold is_leader in *.
    split; intros Hvv; [rewrite (proj1 (Hg RCore ltac:(congruence)))|rewrite (proj1 (Hg RCluster ltac:(congruence)))]; auto.
  Qed.

  Lemma full_lead v c k : group v c = group v k -> with_leader (N.of_nat (hd 0 (members cpus group v k))) (full v c) = full v c.
  Proof. intros H. unfold full, with_leader. cbn. now rewrite (members_same v c k H). Qed.

  Lemma after_level v k procs0 procs procs' : In k cpus -> marks procs0 -> level_inv v k procs0 procs ->
    after v lead0 k (members cpus group v k) procs procs' -> length procs' = length procs /\
    forall c p, nth_error procs c = Some p -> exists p', nth_error procs' c = Some p' /\
      r_valid p' = r_valid p /\ r_linux_id p' = r_linux_id p /\ r_uarch p' = r_uarch p /\
      (forall w, v <> w -> group_of w p' = group_of w p /\
                           N.testbit (r_flags p') (level_bit w) = N.testbit (r_flags p) (level_bit w)) /\
      (r_valid p = true -> if c <? S k then group_of v p' = full v c else fresh v p').
  Proof.
    intros Hk Hm0 HI HA. pose proof (level_inv_marks v k procs0 procs HI Hm0) as Hm. split.
    { assert (Hle : forall a b : list rproc, (forall q, nth_error a q = None <-> nth_error b q = None) -> length a = length b).
      { intros a b H. pose proof (proj1 (H (length a))) as H1. pose proof (proj2 (H (length b))) as H2.
        rewrite !nth_error_None in H1, H2. lia. }
      apply Hle. intros q. rewrite HA. destruct (nth_error procs q); cbn; split; congruence. }
    intros c p Hp. set (m := members cpus group v k) in *. exists (entry_after v lead0 k m c p).
    split; [now rewrite HA, Hp|]. split; [apply entry_after_valid|].
    assert (Hkm : In k m) by (now apply members_In).
    assert (Hmne : m <> []) by (intros E; rewrite E in Hkm; destruct Hkm).
    assert (Hcases : (c = k /\ entry_after v lead0 k m c p = with_rflags (N.lor (r_flags p) (level_flag v)) (with_group v (full v k) p)) \/
      (c <> k /\ In c m /\ entry_after v lead0 k m c p = set_leader v (N.of_nat (hd 0 m)) p) \/
      (c <> k /\ ~ In c m /\ entry_after v lead0 k m c p = p)).
    { unfold entry_after, full. fold m. destruct m as [|h m']; [congruence|]. destruct (Nat.eqb_spec c k) as [->|Hne]; [now left|right].
      destruct (mem c (h :: m')) eqn:Em; [left|right]; (split; [exact Hne|]).
      - split; [now apply mem_In|reflexivity].
      - split; [|reflexivity]. intros Hi. apply mem_In in Hi. congruence. }
    assert (Hg0 : r_valid p = true -> if c <? k then group_of v p = full v c else fresh v p).
    { intros Hv. destruct HI as (Hl & HI).
      assert (Hx : exists p0, nth_error procs0 c = Some p0) by (apply nth_error_lt; apply nth_error_some_lt in Hp; lia).
      destruct Hx as (p0 & Hp0). destruct (HI c p0 Hp0) as (p' & Hp' & Hv' & _ & _ & _ & Hg). assert (p' = p) by congruence. subst p'.
      rewrite Hv' in Hv. now apply Hg. }
    destruct Hcases as [(-> & ->)|[(Hne & Hin & ->)|(Hne & Hnin & ->)]].
    - cbn [with_rflags r_linux_id r_uarch r_flags]. split; [now destruct v|]. split; [now destruct v|]. split.
      + intros w Hw. split; [now rewrite with_rflags_group, group_with_other|]. rewrite N.lor_spec.
        destruct (N.testbit (level_flag v) (level_bit w)) eqn:E; [apply level_flag_bits in E; congruence|]. apply orb_false_r.
      + intros _. replace (k <? S k) with true by (symmetry; apply Nat.ltb_lt; lia).
        now rewrite with_rflags_group, group_with_same.
    - unfold set_leader. split; [now destruct v|]. split; [now destruct v|]. split.
      + intros w Hw. now rewrite group_with_other, with_group_flags.
      + intros Hv. specialize (Hg0 Hv). apply members_In in Hin. destruct Hin as (Hin & Hgr).
        destruct (Nat.ltb_spec c k) as [Hlt|Hge].
        * replace (c <? S k) with true by (symmetry; apply Nat.ltb_lt; lia). rewrite group_with_same, Hg0. now apply full_lead.
        * replace (c <? S k) with false by (symmetry; apply Nat.ltb_ge; lia). destruct Hg0 as (F1 & F2 & F3 & F4).
          unfold fresh. rewrite group_with_same, with_group_flags. now cbn.
    - split; [reflexivity|]. split; [reflexivity|]. split; [now split|].
      intros Hv. specialize (Hg0 Hv). destruct (Nat.ltb_spec c k) as [Hlt|Hge].
      + now replace (c <? S k) with true by (symmetry; apply Nat.ltb_lt; lia).
      + now replace (c <? S k) with false by (symmetry; apply Nat.ltb_ge; lia).
  Qed.

  Lemma fill_core_spec k procs p : nth_error procs k = Some p -> In k cpus ->
    (forall c, exists id, get_processor_id_file (f_contents (rc_core_id (files c))) (f_reads (rc_core_id (files c))) = Ok id) ->
    (forall c, exists khz, get_processor_frequency (f_contents (rc_frequency (files c))) (f_reads (rc_frequency (files c))) = Ok khz) ->
    exists p', fill_core k (files k) procs = Ok (upd procs k p') /\
      r_valid p' = r_valid p /\ r_linux_id p' = r_linux_id p /\ r_uarch p' = 0%N /\
      (forall w, group_of w p' = group_of w p /\ N.testbit (r_flags p') (level_bit w) = N.testbit (r_flags p) (level_bit w)).
  Proof.
    intros Hp Hk Hid Hfr. unfold fill_core. destruct (Hid k) as (id & ->). cbn [bind].
    assert (Hu : snd (hwprobe_decode (rc_hwprobe (files k))) = 0%N).
    { unfold hwprobe_decode. destruct (rc_hwprobe (files k)) as [[[a b] c]|]; reflexivity. }
    destruct (hwprobe_decode (rc_hwprobe (files k))) as (vendor & uarch). cbn [snd] in Hu. subst uarch.
    destruct (Hfr k) as (khz & ->). cbn [bind].
    rewrite (modify_ok _ _ _ _ _ Hp). eexists. split; [reflexivity|]. cbn [r_flags r_linux_id r_uarch].
    set (flags := match id with Some _ => N.lor (r_flags p) rflag_core_id | None => r_flags p end).
    assert (Hb : forall b, b <> 5%N -> b <> 13%N ->
      N.testbit (if (khz =? 0)%N then flags else N.lor flags rflag_cur_frequency) b = N.testbit (r_flags p) b).
    { intros b Hb Hb'. transitivity (N.testbit flags b).
      - destruct (khz =? 0)%N; [reflexivity|]. rewrite N.lor_spec. change rflag_cur_frequency with (2 ^ 13)%N.
        rewrite N.pow2_bits_false by congruence. apply orb_false_r.
      - unfold flags. destruct id; [|reflexivity]. rewrite N.lor_spec. change rflag_core_id with (2 ^ 5)%N.
        rewrite N.pow2_bits_false by congruence. apply orb_false_r. }
    split; [|split; [reflexivity|split; [reflexivity|]]].
    - unfold r_valid. rewrite !has_valid. cbn [r_flags]. apply Hb; discriminate.
    - intros w. split; [now destruct w|]. apply Hb; destruct w; discriminate.
  Qed.

  Lemma detect_level_spec v procs0 : marks procs0 -> leaders_are v lead0 procs0 ->
    (forall c, exists id, get_processor_id_file (f_contents (rc_core_id (files c))) (f_reads (rc_core_id (files c))) = Ok id) ->
    (forall c, exists khz, get_processor_frequency (f_contents (rc_frequency (files c))) (f_reads (rc_frequency (files c))) = Ok khz) ->
    forall n k procs, k + n = length procs0 -> level_inv v k procs0 procs ->
    exists procs', detect_level sg max files v (seq k n) procs = Ok (Some procs') /\ level_inv v (length procs0) procs0 procs'.
  Proof.
    intros Hm0 HL0 Hid Hfr. induction n as [|n IH]; intros k procs Hkn HI.
    - exists procs. cbn. split; [reflexivity|]. now replace (length procs0) with k by lia.
    - cbn [seq detect_level].
      assert (Hx : exists p, nth_error procs k = Some p) by (apply nth_error_lt; destruct HI; lia).
      destruct Hx as (p & Hp). unfold rd. rewrite Hp. cbn [bind].
      pose proof (level_inv_marks v k procs0 procs HI Hm0) as Hm.
      destruct (r_valid p) eqn:Hv; cbn [negb].
      + assert (Hk : In k cpus) by (now apply (proj1 Hm k p Hp)).
        assert (Hf : fresh v p).
        { destruct HI as (Hl & HI). assert (Hx : exists p0, nth_error procs0 k = Some p0) by (apply nth_error_lt; lia).
          destruct Hx as (p0 & Hp0). destruct (HI k p0 Hp0) as (p' & Hp' & Hv' & _ & _ & _ & Hg).
          assert (p' = p) by congruence. subst p'. rewrite Hv in Hv'. specialize (Hg (eq_sym Hv')).
          now rewrite Nat.ltb_irrefl in Hg. }
        destruct (detect_group_spec v k procs p Hk Hm (level_inv_leaders v k procs0 procs HI HL0) Hp Hf) as (procs1 & E1 & HA).
        rewrite E1. cbn [bind negb].
        destruct (after_level v k procs0 procs procs1 Hk Hm0 HI HA) as (Hl1 & HA1).
        destruct (HA1 k p Hp) as (p1 & Hp1 & Hv1 & _).
        assert (Hstep : exists procs2, match v with RCore => fill_core k (files k) procs1 | _ => Ok procs1 end = Ok procs2 /\
                                       level_inv v (S k) procs0 procs2).
        { assert (Hplain : level_inv v (S k) procs0 procs1).
          { destruct HI as (Hl & HI). split; [lia|]. intros c p0 Hp0. destruct (HI c p0 Hp0) as (pc & Hpc & Hvc & Hic & Huc & Hwc & _).
            destruct (HA1 c pc Hpc) as (pc' & Hpc' & Hvc' & Hic' & Huc' & Hwc' & Hgc').
            exists pc'. split; [exact Hpc'|]. split; [congruence|]. split; [congruence|]. split; [intros; rewrite Huc'; auto|]. split.
            - intros w Hw. destruct (Hwc w Hw) as (A & B), (Hwc' w Hw) as (A' & B'). split; congruence.
            - intros Hv0. apply Hgc'. congruence. }
          destruct v; try (exists procs1; split; [reflexivity|exact Hplain]).
          destruct (fill_core_spec k procs1 p1 Hp1 Hk Hid Hfr) as (p2 & E2 & Hv2 & Hi2 & Hu2 & Hw2).
          exists (upd procs1 k p2). split; [exact E2|]. destruct Hplain as (Hl2 & Hplain). split; [now rewrite upd_length|].
          intros c p0 Hp0. destruct (Hplain c p0 Hp0) as (pc & Hpc & Hvc & Hic & Huc & Hwc & Hgc).
          destruct (Nat.eq_dec k c) as [<-|Hne].
          - assert (pc = p1) by congruence. subst pc. exists p2. rewrite nth_error_upd_eq by (eapply nth_error_some_lt; exact Hp1).
            split; [reflexivity|]. split; [congruence|]. split; [congruence|]. split; [auto|]. split.
            + intros w Hw. destruct (Hw2 w) as (A & B), (Hwc w Hw) as (A' & B'). split; congruence.
            + intros Hv0. specialize (Hgc Hv0). destruct (k <? S k).
              * now rewrite (proj1 (Hw2 RCore)).
              * unfold fresh. rewrite (proj1 (Hw2 RCore)), (proj2 (Hw2 RCore)). exact Hgc.
          - exists pc. rewrite nth_error_upd_neq by exact Hne. tauto. }
        destruct Hstep as (procs2 & E2 & HI2). rewrite E2. cbn [bind]. apply IH; [lia|exact HI2].
      + apply IH; [lia|]. destruct HI as (Hl & HI). split; [exact Hl|]. intros c p0 Hp0.
        destruct (HI c p0 Hp0) as (pc & Hpc & Hvc & Hic & Huc & Hwc & Hgc). exists pc.
        split; [exact Hpc|]. split; [exact Hvc|]. split; [exact Hic|]. split; [exact Huc|]. split; [exact Hwc|].
        intros Hv0. specialize (Hgc Hv0). destruct (Nat.ltb_spec c k) as [Hlt|Hge].
        * now replace (c <? S k) with true by (symmetry; apply Nat.ltb_lt; lia).
        * assert (c <> k) by (intros ->; assert (pc = p) by congruence; subst pc; congruence).
          now replace (c <? S k) with false by (symmetry; apply Nat.ltb_ge; lia).
  Qed.

  (** ** The three levels *)

  Record ready (procs : list rproc) : Prop := {
    rd_marks : marks procs;
    rd_ids : forall c p, nth_error procs c = Some p -> r_valid p = true -> r_linux_id p = N.of_nat c;
    rd_uarch : forall c p, nth_error procs c = Some p -> r_uarch p = 0%N
  }.

  Lemma level_start v procs : ready procs -> (forall c p, nth_error procs c = Some p -> r_valid p = true -> fresh v p) ->
    level_inv v 0 procs procs.
  Proof. intros H Hf. split; [reflexivity|]. intros c p Hp. exists p. do 5 (split; [auto|]). intros Hv. now apply (Hf c). Qed.

  Lemma level_ready v n procs0 procs : ready procs0 -> level_inv v n procs0 procs -> ready procs.
  Proof.
    intros [H1 H2 H3] HI. split; [now apply (level_inv_marks v n procs0)|..]; intros c p Hp; destruct HI as (Hl & HI);
      (assert (Hx : exists p0, nth_error procs0 c = Some p0) by (apply nth_error_lt; apply nth_error_some_lt in Hp; lia);
       destruct Hx as (p0 & Hp0); destruct (HI c p0 Hp0) as (p' & Hp' & Hv' & Hi' & Hu' & _); assert (p' = p) by congruence; subst p').
    - rewrite Hv', Hi'. now apply H2.
    - apply Hu'. now apply (H3 c).
  Qed.

  Lemma level_back v n procs0 procs c p : level_inv v n procs0 procs -> nth_error procs c = Some p -> r_valid p = true ->
    exists p0, nth_error procs0 c = Some p0 /\ r_valid p0 = true /\
      (forall w, v <> w -> group_of w p = group_of w p0 /\ N.testbit (r_flags p) (level_bit w) = N.testbit (r_flags p0) (level_bit w)) /\
      (c < n -> group_of v p = full v c).
  Proof.
    intros (Hl & HI) Hp Hv.
    assert (Hx : exists p0, nth_error procs0 c = Some p0) by (apply nth_error_lt; apply nth_error_some_lt in Hp; lia).
    destruct Hx as (p0 & Hp0). destruct (HI c p0 Hp0) as (p' & Hp' & Hv' & Hi' & Hu' & Hw' & Hg'). assert (p' = p) by congruence. subst p'.
    exists p0. split; [exact Hp0|]. split; [congruence|]. split; [exact Hw'|]. intros Hc. rewrite Hv' in Hv. specialize (Hg' Hv).
    apply Nat.ltb_lt in Hc. now rewrite Hc in Hg'.
  Qed.

  Lemma fresh_back v w n procs0 procs : v <> w -> level_inv v n procs0 procs ->
    (forall c p, nth_error procs0 c = Some p -> r_valid p = true -> fresh w p) ->
    forall c p, nth_error procs c = Some p -> r_valid p = true -> fresh w p.
  Proof.
    intros Hne HI Hf c p Hp Hv. destruct (level_back v n procs0 procs c p HI Hp Hv) as (p0 & Hp0 & Hv0 & Hw & _).
    unfold fresh. destruct (Hw w Hne) as (-> & ->). now apply (Hf c p0).
  Qed.

  Lemma full_leads v c p : group_of v p = full v c -> is_leader v c p = lead0 v c.
  Proof using. clear Hmax Hsorted Hbelow Hfiles files max sg.
    intros H. unfold is_leader. rewrite H. unfold full, lead0. cbn [rg_leader].
    destruct (Nat.eqb_spec (hd 0 (members cpus group v c)) c) as [E|E]; [apply N.eqb_eq; lia|apply N.eqb_neq; lia].
  Qed.

  Lemma three_levels procs0 : ready procs0 -> length procs0 = N.to_nat max ->
    (forall v c p, nth_error procs0 c = Some p -> r_valid p = true -> fresh v p) ->
    (forall c, exists id, get_processor_id_file (f_contents (rc_core_id (files c))) (f_reads (rc_core_id (files c))) = Ok id) ->
    (forall c, exists khz, get_processor_frequency (f_contents (rc_frequency (files c))) (f_reads (rc_frequency (files c))) = Ok khz) ->
    exists procs1 procs2 procs3,
      detect_level sg max files RCore (seq 0 (N.to_nat max)) procs0 = Ok (Some procs1) /\
      detect_level sg max files RCluster (seq 0 (N.to_nat max)) procs1 = Ok (Some procs2) /\
      detect_level sg max files RPackage (seq 0 (N.to_nat max)) procs2 = Ok (Some procs3) /\
      ready procs3 /\ length procs3 = length procs0 /\
      forall v c p, nth_error procs3 c = Some p -> r_valid p = true -> group_of v p = full v c.
  Proof.
    intros HR Hlen Hf Hid Hfr. rewrite <- Hlen.
    destruct (detect_level_spec RCore procs0 (rd_marks _ HR)) with (n := length procs0) (k := 0) (procs := procs0) as (procs1 & E1 & I1).
    { intros c p Hp Hv. split; [congruence|discriminate]. } { exact Hid. } { exact Hfr. } { reflexivity. } { apply level_start; [exact HR|exact (Hf RCore)]. }
    pose proof (level_ready _ _ _ _ HR I1) as HR1. pose proof (proj1 I1) as L1.
    destruct (detect_level_spec RCluster procs1 (rd_marks _ HR1)) with (n := length procs1) (k := 0) (procs := procs1) as (procs2 & E2 & I2).
    { intros c p Hp Hv. split; [|discriminate]. intros _. apply full_leads.
      destruct (level_back _ _ _ _ c p I1 Hp Hv) as (p0 & Hp0 & _ & _ & Hfull). apply Hfull. now apply nth_error_some_lt in Hp0. }
    { exact Hid. } { exact Hfr. } { reflexivity. } { apply level_start; [exact HR1|]. exact (fresh_back RCore RCluster (length procs0) procs0 procs1 ltac:(discriminate) I1 (Hf RCluster)). }
    pose proof (level_ready _ _ _ _ HR1 I2) as HR2. pose proof (proj1 I2) as L2.
    assert (G2 : forall c p, nth_error procs2 c = Some p -> r_valid p = true -> group_of RCore p = full RCore c /\ group_of RCluster p = full RCluster c).
    { intros c p Hp Hv. destruct (level_back _ _ _ _ c p I2 Hp Hv) as (p1 & Hp1 & Hv1 & Hw1 & Hfull1).
      destruct (level_back _ _ _ _ c p1 I1 Hp1 Hv1) as (p0 & Hp0 & _ & _ & Hfull0).
      rewrite (proj1 (Hw1 RCore ltac:(discriminate))). split; [apply Hfull0|apply Hfull1].
      - now apply nth_error_some_lt in Hp0.
      - now apply nth_error_some_lt in Hp1. }
    destruct (detect_level_spec RPackage procs2 (rd_marks _ HR2)) with (n := length procs2) (k := 0) (procs := procs2) as (procs3 & E3 & I3).
    { intros c p Hp Hv. destruct (G2 c p Hp Hv) as (A & B). split; intros _; now apply full_leads. }
    { exact Hid. } { exact Hfr. } { reflexivity. }
    { apply level_start; [exact HR2|]. apply (fresh_back RCluster RPackage (length procs1) procs1); [discriminate|exact I2|].
      exact (fresh_back RCore RPackage (length procs0) procs0 procs1 ltac:(discriminate) I1 (Hf RPackage)). }
    pose proof (level_ready _ _ _ _ HR2 I3) as HR3. pose proof (proj1 I3) as L3.
    exists procs1, procs2, procs3. rewrite L1 in E2. rewrite L2, L1 in E3. split; [exact E1|]. split; [exact E2|]. split; [exact E3|].
    split; [exact HR3|]. split; [congruence|]. intros v c p Hp Hv.
    destruct (level_back _ _ _ _ c p I3 Hp Hv) as (p2 & Hp2 & Hv2 & Hw2 & Hfull2).
    destruct (G2 c p2 Hp2 Hv2) as (A & B). destruct v.
    - now rewrite (proj1 (Hw2 RCore ltac:(discriminate))).
    - now rewrite (proj1 (Hw2 RCluster ltac:(discriminate))).
    - apply Hfull2. now apply nth_error_some_lt in Hp2.
  Qed.
End LEVEL.
