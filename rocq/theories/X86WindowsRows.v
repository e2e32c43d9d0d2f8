(** Lemmas about the model of Windows: what the two loops over its answers leave in the array of
    processors. *)
From Verif Require Import Base BaseProofs Loops Fill TopologySpec X86WindowsModel X86CountsSpec X86CountsModel X86CountsProofs X86WindowsSpec X86WindowsProofs.
From Verif Require X86LinuxModel Masks.
Import X86WindowsModel.
Import X86LinuxModel(xinfo, xc_geometry, xi_vendor, xi_uarch, xi_cpuid, xi_thread_offset, xi_thread_length, xi_core_offset,
  xi_core_length, xi_l1i, xi_l1d, xi_l2, xi_l3, xi_l4, xc_apic_bits, bit_mask).
Ltac Zify.zify_post_hook ::= idtac.
Open Scope nat_scope.

(** ** The position of each processor: its package, its core, the number of the core in the
    package and its own number in the core *)

Record row := Row { r_package : nat; r_core : nat; r_local : nat; r_smt : nat }.
Fixpoint rows_core (k j jl smt : nat) (c : list nat) : list row :=
  match c with [] => [] | _ :: c' => Row k j jl smt :: rows_core k j jl (S smt) c' end.
Fixpoint rows_package (k j jl : nat) (p : list (list nat)) : list row :=
  match p with [] => [] | c :: p' => rows_core k j jl 0 c ++ rows_package k (S j) (S jl) p' end.
Fixpoint rows (k j : nat) (m : machine) : list row :=
  match m with [] => [] | p :: m' => rows_package k j 0 p ++ rows (S k) (j + length p) m' end.

Lemma rows_core_map {A} (f : row -> A) k j jl : forall c smt, map f (rows_core k j jl smt c) = map (fun s => f (Row k j jl s)) (seq smt (length c)).
Proof. induction c as [|a c IH]; intros smt; cbn [rows_core map length seq]; [reflexivity|]. now rewrite IH. Qed.

Lemma repeat_seq {A} (a : A) : forall n s, map (fun _ => a) (seq s n) = repeat a n.
Proof. induction n as [|n IH]; intros s; cbn; [reflexivity|]. now rewrite IH. Qed.

Lemma rows_package_packages k : forall p j jl, map r_package (rows_package k j jl p) = repeat k (length (concat p)).
Proof.
  induction p as [|c p IH]; intros j jl; cbn [rows_package concat]; [reflexivity|].
  rewrite map_app, IH, rows_core_map, app_length, repeat_app. cbn [r_package]. now rewrite repeat_seq.
Qed.

Lemma rows_packages : forall m k j, map r_package (rows k j m) = owners k (machine_packages m).
Proof.
  induction m as [|p m IH]; intros k j; cbn [rows machine_packages map owners]; [reflexivity|].
  rewrite map_app, rows_package_packages, IH. reflexivity.
Qed.

Definition core_tag {A} (e : nat * (nat * A)) : nat * nat := (fst e, fst (snd e)).

Lemma counted_fst {A} : forall (l : list A) s, map fst (counted s l) = seq s (length l).
Proof. induction l as [|a l IH]; intros s; cbn; [reflexivity|]. now rewrite IH. Qed.
Lemma counted_snd {A} : forall (l : list A) s, map snd (counted s l) = l.
Proof. induction l as [|a l IH]; intros s; cbn; [reflexivity|]. now rewrite IH. Qed.
Lemma counted_length {A} (l : list A) s : length (counted s l) = length l.
Proof. rewrite <- (counted_snd l s) at 2. now rewrite map_length. Qed.

Lemma tagged_app {A} : forall (l r : list (list A)) k, tagged k (l ++ r) = tagged k l ++ tagged (k + length l) r.
Proof.
  induction l as [|s l IH]; intros r k; cbn [app tagged length]; [now rewrite Nat.add_0_r|]. rewrite IH, app_assoc. do 2 f_equal. lia.
Qed.

Lemma rows_package_cores k : forall p j jl,
  map (fun r => (r_core r, r_smt r)) (rows_package k j jl p) = map core_tag (tagged j (map (counted 0) p)).
Proof.
  induction p as [|c p IH]; intros j jl; cbn [rows_package map tagged]; [reflexivity|].
  rewrite !map_app, IH, rows_core_map, map_map. f_equal. cbn [r_core r_smt]. unfold core_tag. cbn [fst snd].
  rewrite <- (counted_fst c 0), map_map. reflexivity.
Qed.

Lemma rows_cores : forall m k j, map (fun r => (r_core r, r_smt r)) (rows k j m) = map core_tag (tagged j (map (counted 0) (machine_cores m))).
Proof.
  induction m as [|p m IH]; intros k j; cbn [rows machine_cores concat]; [reflexivity|].
  rewrite map_app, map_app, tagged_app, map_app, rows_package_cores, IH, map_length. reflexivity.
Qed.

Lemma concat_packages (m : machine) : concat (machine_packages m) = concat (concat m).
Proof. unfold machine_packages. induction m as [|p m IH]; cbn; [reflexivity|]. now rewrite IH, concat_app. Qed.

Lemma rows_length m k j : length (rows k j m) = length (concat (concat m)).
Proof. rewrite <- (map_length r_package), rows_packages, owners_length. now rewrite concat_packages. Qed.

(** Consecutive processors. *)
Inductive next : row -> row -> Prop :=
| next_smt k j jl s : next (Row k j jl s) (Row k j jl (S s))
| next_core k j jl s : next (Row k j jl s) (Row k (S j) (S jl) 0)
| next_package k j jl s : next (Row k j jl s) (Row (S k) (S j) 0 0).

Lemma last_cons {A} (l : list A) a d : l <> [] -> last (a :: l) d = last l d.
Proof. destruct l; [congruence|reflexivity]. Qed.

Lemma sorted_app {A} (R : A -> A -> Prop) d : forall l r, Sorted R l -> Sorted R r -> (l <> [] -> r <> [] -> R (last l d) (hd d r)) -> Sorted R (l ++ r).
Proof.
  induction l as [|a l IH]; intros r Sl Sr H; [exact Sr|]. cbn [app]. apply Sorted_inv in Sl. destruct Sl as (Sl & Hd).
  constructor; [apply IH; auto|].
  - intros Nl Nr. specialize (H ltac:(discriminate) Nr). now rewrite last_cons in H by exact Nl.
  - destruct l as [|b l]; cbn [app].
    + destruct r as [|c r]; constructor. apply H; discriminate.
    + apply HdRel_inv in Hd. now constructor.
Qed.

Definition row0 : row := Row 0 0 0 0.

Lemma rows_core_nil k j jl s c : rows_core k j jl s c = [] -> c = [].
Proof. now destruct c. Qed.

Lemma rows_core_last k j jl : forall c s, c <> [] -> last (rows_core k j jl s c) row0 = Row k j jl (s + length c - 1).
Proof.
  induction c as [|a c IH]; intros s H; [congruence|]. destruct c as [|b c].
  - cbn. f_equal. lia.
  - cbn [rows_core]. rewrite last_cons by discriminate. change (Row k j jl (S s) :: rows_core k j jl (S (S s)) c) with (rows_core k j jl (S s) (b :: c)).
    rewrite IH by discriminate. cbn [length]. f_equal. lia.
Qed.

Lemma rows_core_sorted k j jl : forall c s, Sorted next (rows_core k j jl s c).
Proof.
  induction c as [|a c IH]; intros s; cbn [rows_core]; constructor; [apply IH|]. destruct c; cbn [rows_core]; constructor. constructor.
Qed.

Lemma rows_package_nil k j jl p : Forall (fun c => c <> []) p -> rows_package k j jl p = [] -> p = [].
Proof.
  intros F E. destruct p as [|c p]; [reflexivity|]. exfalso. cbn [rows_package] in E. apply app_eq_nil in E. destruct E as (E & _).
  apply rows_core_nil in E. apply Forall_inv in F. congruence.
Qed.

Lemma rows_package_hd k j jl p : Forall (fun c => c <> []) p -> p <> [] -> hd row0 (rows_package k j jl p) = Row k j jl 0.
Proof. intros F H. destruct p as [|c p]; [congruence|]. apply Forall_inv in F. destruct c; [congruence|reflexivity]. Qed.

Lemma last_app {A} (l r : list A) d : r <> [] -> last (l ++ r) d = last r d.
Proof.
  intros H. induction l as [|a l IH]; [reflexivity|]. cbn [app]. rewrite last_cons; [exact IH|].
  intros E. apply app_eq_nil in E. tauto.
Qed.

Lemma rows_package_last k : forall p j jl, Forall (fun c => c <> []) p -> p <> [] ->
  exists s, last (rows_package k j jl p) row0 = Row k (j + length p - 1) (jl + length p - 1) s.
Proof.
  induction p as [|c p IH]; intros j jl F H; [congruence|]. apply Forall_cons_iff in F. destruct F as (Fc & F). cbn [rows_package].
  destruct p as [|d p].
  - cbn [rows_package length]. rewrite app_nil_r, rows_core_last by exact Fc. eexists. f_equal; lia.
  - rewrite last_app by (intros E; apply rows_package_nil in E; [discriminate|exact F]).
    destruct (IH (S j) (S jl) F ltac:(discriminate)) as (s & ->). exists s. cbn [length]. f_equal; lia.
Qed.

Lemma rows_package_sorted k : forall p j jl, Forall (fun c => c <> []) p -> Sorted next (rows_package k j jl p).
Proof.
  induction p as [|c p IH]; intros j jl F; cbn [rows_package]; [constructor|]. apply Forall_cons_iff in F. destruct F as (Fc & F).
  apply (sorted_app next row0); [apply rows_core_sorted|now apply IH|]. intros _ N. rewrite rows_core_last by exact Fc.
  rewrite rows_package_hd; [constructor|exact F|]. intros ->. now apply N.
Qed.

Lemma rows_sorted : forall m k j, Forall (fun c => c <> []) (concat m) -> Forall (fun p => p <> []) m -> Sorted next (rows k j m).
Proof.
  induction m as [|p m IH]; intros k j Fc Fp; cbn [rows]; [constructor|]. cbn [concat] in Fc. apply Forall_app in Fc. destruct Fc as (Fc1 & Fc).
  apply Forall_cons_iff in Fp. destruct Fp as (Fp1 & Fp).
  apply (sorted_app next row0); [now apply rows_package_sorted|now apply IH|]. intros _ N.
  destruct (rows_package_last k p j 0 Fc1 Fp1) as (s & ->). destruct m as [|q m]; [now destruct N|].
  cbn [rows]. apply Forall_inv in Fp. cbn [concat] in Fc. apply Forall_app in Fc. destruct Fc as (Fc2 & _).
  assert (L : 0 < length p) by (destruct p; [congruence|cbn; lia]).
  assert (E : hd row0 (rows_package (S k) (j + length p) 0 q ++ rows (S (S k)) (j + length p + length q) m) = Row (S k) (j + length p) 0 0).
  { pose proof (rows_package_hd (S k) (j + length p) 0 q Fc2 Fp) as HH. destruct (rows_package (S k) (j + length p) 0 q) as [|r R] eqn:ER.
    - apply rows_package_nil in ER; [congruence|exact Fc2].
    - exact HH. }
  rewrite E. set (y := j + length p - 1). replace (j + length p) with (S y) by (unfold y; lia). constructor.
Qed.

Lemma rows_hd m : Forall (fun c => c <> []) (concat m) -> Forall (fun p => p <> []) m -> m <> [] -> hd row0 (rows 0 0 m) = Row 0 0 0 0.
Proof.
  intros Fc Fp N. destruct m as [|p m]; [congruence|]. cbn [rows]. cbn [concat] in Fc. apply Forall_app in Fc. destruct Fc as (Fc & _).
  apply Forall_inv in Fp. pose proof (rows_package_hd 0 0 0 p Fc Fp) as H. destruct (rows_package 0 0 0 p) eqn:E; [|exact H].
  apply rows_package_nil in E; [congruence|exact Fc].
Qed.

(** ** The loop over packages *)

Lemma modify_all {A B} (idx : B -> nat) (h : B -> A -> A) (z : A) : forall F pre, map idx F = seq (length pre) (length F) ->
  each (fun e a => modify a (idx e) (h e)) F (pre ++ repeat z (length F)) = Ok (pre ++ map (fun e => h e z) F).
Proof.
  induction F as [|e F IH]; intros pre H; cbn [length repeat map each]; [reflexivity|]. cbn [map length seq] in H. injection H as H1 H2.
  unfold modify. rewrite H1, nth_error_app2, Nat.sub_diag by lia. cbn [nth_error bind]. rewrite upd_app.
  specialize (IH (pre ++ [h e z])). rewrite app_length, Nat.add_1_r in IH. specialize (IH H2). rewrite <- !app_assoc in IH. exact IH.
Qed.

Section LOOPS.
Context (x : xinfo) (sizes : list nat) (m : machine) (n : nat).
Context (Or : ordered n m).
Context (pinfos cinfos : list winfo).
Context (SP : says sizes pinfos (machine_packages m)) (SC : says sizes cinfos (machine_cores m)).
Context (FD : fields_defined x).
Let R := rows 0 0 m.
Let before := before_groups sizes 0.

Lemma package_bits_offset : package_bits x = package_offset x.
Proof.
  unfold fields_defined, package_offset in *. unfold package_bits. rewrite !u32_small; [reflexivity| |]; unfold is_u32, two32; lia.
Qed.

Lemma says_valid infos sets : says sizes infos sets -> Forall (info_valid sizes) infos.
Proof. intros (V & _). apply Forall_forall. intros i Hi E. apply Forall_forall. intros e He. now apply (V i e). Qed.

Lemma says_lists infos sets : says sizes infos sets -> map (fun i => map (index_of sizes) (info_list i)) (filter wi_expected infos) = sets.
Proof.
  intros S. pose proof (says_valid infos sets S) as V. destruct S as (_ & <-). apply map_ext_in. intros i Hi. apply filter_In in Hi. destruct Hi as (Hi & E).
  rewrite Forall_forall in V. apply info_list_index. now apply (V i).
Qed.

Definition ids : list (nat * nat) := concat (map info_list (filter wi_expected pinfos)).

Lemma ids_index : map (index_of sizes) ids = seq 0 n.
Proof.
  unfold ids. rewrite concat_map, map_map, (says_lists _ _ SP), concat_packages. apply (or_all _ _ Or).
Qed.

Lemma ids_length : length ids = n.
Proof. rewrite <- (map_length (index_of sizes)), ids_index. apply seq_length. Qed.

Lemma rows_n : length R = n.
Proof. unfold R. rewrite rows_length, (or_all _ _ Or). apply seq_length. Qed.

Lemma lists_length infos sets : says sizes infos sets -> forall k, owners k (map info_list (filter wi_expected infos)) = owners k sets.
Proof.
  intros S k. rewrite <- (says_lists _ _ S). rewrite <- (map_map info_list (map (index_of sizes))).
  symmetry. apply owners_map. intros s. apply map_length.
Qed.

Definition pkg (k : nat) : N := u32 (N.shiftl (N.of_nat k) (package_bits x)).
Definition first_pass (e : row * (nat * nat)) : wproc :=
  WProc 0 (r_package (fst e)) (fst (snd e)) (snd (snd e)) (pkg (r_package (fst e))) 0.

Lemma combine_split' {A B} (l : list (A * B)) : combine (map fst l) (map snd l) = l.
Proof. induction l as [|(a, b) l IH]; cbn; [reflexivity|]. now rewrite IH. Qed.

Lemma combine_map_l {A B C} (f : A -> B) : forall (l : list A) (r : list C), combine (map f l) r = map (fun e => (f (fst e), snd e)) (combine l r).
Proof. induction l as [|a l IH]; intros r; cbn; [reflexivity|]. destruct r; cbn; [reflexivity|]. now rewrite IH. Qed.

Lemma package_loop_ok : each (package_step x before) pinfos (0, repeat wproc0 n) = Ok (length m, map first_pass (combine R ids)).
Proof.
  unfold before. rewrite (package_loop sizes x); [|rewrite package_bits_offset; exact FD|eapply says_valid; eauto].
  set (F := tagged 0 (map info_list (filter wi_expected pinfos))).
  assert (Fs : map snd F = ids) by apply tagged_snd.
  assert (Ff : map fst F = map r_package R) by (unfold F, R; rewrite tagged_fst, (lists_length _ _ SP), rows_packages; reflexivity).
  assert (Fl : length F = n) by (rewrite <- (map_length snd), Fs; apply ids_length).
  assert (E : length (filter wi_expected pinfos) = length m).
  { destruct SP as (_ & E). apply (f_equal (@length _)) in E. unfold machine_packages in E. now rewrite !map_length in E. }
  pose proof (modify_all (fun e => index_of sizes (snd e))
    (fun e p => WProc (wp_core p) (fst e) (fst (snd e)) (snd (snd e)) (u32 (N.shiftl (N.of_nat (fst e)) (package_bits x))) (wp_smt p)) wproc0 F []) as M.
  cbn [app length] in M. rewrite Fl in M. unfold package_flat. rewrite M.
  - cbn [bind]. rewrite E. do 2 f_equal. rewrite <- (combine_split' F), Ff, Fs, combine_map_l, map_map. reflexivity.
  - rewrite <- ids_index, <- Fs, map_map. reflexivity.
Qed.

(** ** The loop over cores *)

Definition tmask : N := N.ones (xi_thread_length x).
Definition cmask : N := N.ones (xi_core_length x).
Definition row_apic (r : row) : N :=
  N.lor (pkg (r_package r)) (N.lor (u32 (N.shiftl (N.land (N.of_nat (r_smt r)) tmask) (xi_thread_offset x)))
                                   (u32 (N.shiftl (N.land (N.of_nat (r_local r)) cmask) (xi_core_offset x)))).
Definition second_pass (e : row * (nat * nat)) : wproc :=
  WProc (r_core (fst e)) (r_package (fst e)) (fst (snd e)) (snd (snd e)) (row_apic (fst e)) (r_smt (fst e)).

Lemma pkg_next k : pkg (S k) <> pkg k.
Proof.
  unfold pkg, u32. rewrite package_bits_offset. unfold fields_defined in FD. rewrite !N.shiftl_mul_pow2.
  replace (N.of_nat (S k) * 2 ^ package_offset x)%N with (N.of_nat k * 2 ^ package_offset x + 2 ^ package_offset x)%N by lia.
  set (a := (N.of_nat k * 2 ^ package_offset x)%N). assert (P : (0 < 2 ^ package_offset x < two32)%N).
  { split; [apply N.neq_0_lt_0; now apply N.pow_nonzero|]. change two32 with (2 ^ 32)%N. apply N.pow_lt_mono_r; [lia|exact FD]. }
  clearbody a. set (d := (2 ^ package_offset x)%N) in *. clearbody d. intros E.
  assert (T : two32 <> 0%N) by discriminate. pose proof (N.div_mod a two32 T) as D1. pose proof (N.div_mod (a + d) two32 T) as D2.
  pose proof (N.mod_lt a two32 T). rewrite E in D2. set (q1 := (a / two32)%N) in *. set (q2 := ((a + d) / two32)%N) in *.
  assert ((two32 * q2 = two32 * q1 + d)%N) by lia. assert (q2 = q1 \/ q1 + 1 <= q2 \/ q2 + 1 <= q1)%N as [Q|[Q|Q]] by lia; [subst q2; rewrite Q in *; lia| |]; nia.
Qed.

(** The variables fit the next processor. *)
Definition enters (start : nat) (current : N) (r : row) : Prop :=
  (pkg (r_package r) = current -> start + r_local r = r_core r) /\ (pkg (r_package r) <> current -> r_local r = 0).

Lemma core_flat_step start current smt pre r gb rest gb' : enters start current r -> index_of sizes gb' = length pre ->
  exists start', core_flat sizes x tmask cmask (r_core r, (r_smt r, gb')) (CoreState smt start current (pre ++ first_pass (r, gb) :: rest)) =
    Ok (CoreState (S (r_smt r)) start' (pkg (r_package r)) (pre ++ second_pass (r, gb) :: rest)) /\ start' + r_local r = r_core r.
Proof.
  intros (E1 & E2) I. unfold core_flat, core_processor. cbn [fst snd st_processors st_start st_current st_smt].
  unfold index_of in I. rewrite I. unfold rd. rewrite nth_error_app2, Nat.sub_diag by lia. cbn [nth_error bind].
  cbn [first_pass fst snd wp_apic wp_package wp_group wp_number].
  unfold fields_defined, package_offset in FD.
  unfold shl32. replace (xi_thread_offset x <? 32)%N with true by (symmetry; apply N.ltb_lt; lia).
  replace (xi_core_offset x <? 32)%N with true by (symmetry; apply N.ltb_lt; lia).
  assert (W : forall y, wr (pre ++ first_pass (r, gb) :: rest) (length pre) y = Ok (pre ++ y :: rest)).
  { intros y. unfold wr. rewrite app_length. cbn [length]. destruct (Nat.ltb_spec (length pre) (length pre + S (length rest))); [|lia]. now rewrite upd_app. }
  destruct (N.eqb_spec (pkg (r_package r)) current) as [Q|Q]; cbn [negb bind].
  - specialize (E1 Q). exists start. unfold first_pass in W. cbn [fst snd] in W. rewrite W. cbn [bind]. split; [|exact E1].
    rewrite <- Q. do 3 f_equal. f_equal. unfold second_pass, row_apic. cbn [fst snd]. replace (r_core r - start) with (r_local r) by lia. reflexivity.
  - specialize (E2 Q). exists (r_core r). unfold first_pass in W. cbn [fst snd] in W. rewrite W. cbn [bind]. split; [|lia].
    do 3 f_equal. f_equal. unfold second_pass, row_apic. cbn [fst snd]. rewrite Nat.sub_diag, E2. reflexivity.
Qed.

Lemma core_flat_loop : forall (Rs : list row) (gbs : list (nat * nat)) F pre start current smt,
  Sorted next Rs -> (Rs <> [] -> enters start current (hd row0 Rs)) ->
  length gbs = length Rs -> map core_tag F = map (fun r => (r_core r, r_smt r)) Rs ->
  map (fun e => index_of sizes (snd (snd e))) F = seq (length pre) (length F) ->
  exists t, each (core_flat sizes x tmask cmask) F (CoreState smt start current (pre ++ map first_pass (combine Rs gbs))) = Ok t /\
    st_processors t = pre ++ map second_pass (combine Rs gbs).
Proof.
  induction Rs as [|r Rs IH]; intros gbs F pre start current smt S0 En L T I.
  - destruct F; [|discriminate]. destruct gbs; [|discriminate]. eexists. split; reflexivity.
  - destruct F as [|(j, (s, gb')) F]; [discriminate|]. destruct gbs as [|gb gbs]; [discriminate|].
    cbn [map] in T. unfold core_tag at 1 in T. cbn [fst snd] in T. injection T as T1 T2 T3. subst j s.
    cbn [map length seq] in I. injection I as I1 I2. cbn [combine map].
    destruct (core_flat_step start current smt pre r gb (map first_pass (combine Rs gbs)) gb') as (start' & E & Es); [now apply En|exact I1|].
    cbn [each]. rewrite E. cbn [bind]. apply Sorted_inv in S0. destruct S0 as (S1 & Hd).
    specialize (IH gbs F (pre ++ [second_pass (r, gb)]) start' (pkg (r_package r)) (S (r_smt r)) S1).
    rewrite app_length, Nat.add_1_r in IH. rewrite <- !app_assoc in IH. cbn [app] in IH. apply IH; auto.
    + intros N. destruct Rs as [|r' Rs]; [congruence|]. apply HdRel_inv in Hd. cbn [hd]. inversion Hd; subst; cbn [r_package r_local r_core r_smt] in *; split; cbn [r_package r_local r_core]; intros Q; try lia;
        first [exfalso; now apply Q|exfalso; now apply (pkg_next k)].
Qed.

Lemma tags_agree : forall l k, map core_tag (tagged k (map (fun i => counted 0 (info_list i)) l)) =
  map core_tag (tagged k (map (fun i => counted 0 (map (index_of sizes) (info_list i))) l)).
Proof.
  clear. induction l as [|i l IH]; intros k; cbn [map tagged]; [reflexivity|].
  rewrite !map_app, IH. f_equal. rewrite !map_map. unfold core_tag. cbn [fst snd]. generalize 0. induction (info_list i) as [|a s IHs]; intros q; cbn; [reflexivity|].
  now rewrite IHs.
Qed.

Lemma core_loop_ok (N0 : 0 < n) ps : ps = map first_pass (combine R ids) ->
  exists u, each (core_step x tmask cmask before) cinfos (0, CoreState 0 0 0 ps) = Ok (length (machine_cores m), u) /\
    st_processors u = map second_pass (combine R ids).
Proof.
  intros ->. set (F := tagged 0 (map (fun i => counted 0 (info_list i)) (filter wi_expected cinfos))).
  assert (FI : map (fun e => index_of sizes (snd (snd e))) F = seq 0 n).
  { rewrite <- (map_map snd (fun e => index_of sizes (snd e))). unfold F. rewrite tagged_snd, concat_map, map_map.
    rewrite <- (or_all _ _ Or). fold (machine_cores m). rewrite <- (says_lists _ _ SC). f_equal. apply map_ext. intros i.
    rewrite <- (map_map snd (index_of sizes)), counted_snd. reflexivity. }
  assert (Fl : length F = n) by (rewrite <- (map_length (fun e => index_of sizes (snd (snd e)))), FI; apply seq_length).
  destruct (core_flat_loop R ids F [] 0 0%N 0) as (t & E & P).
  - apply rows_sorted; [apply (or_cores _ _ Or)|apply (or_packages _ _ Or)].
  - intros NE. unfold R. rewrite rows_hd; [|apply (or_cores _ _ Or)|apply (or_packages _ _ Or)|].
    + split; cbn; intros; [lia|reflexivity].
    + intros ->. now apply NE.
  - now rewrite ids_length, rows_n.
  - unfold F, R. rewrite rows_cores. rewrite <- (says_lists _ _ SC).
    rewrite map_map. apply tags_agree.
  - cbn [length]. now rewrite FI, Fl.
  - cbn [app] in E, P. destruct (core_loop sizes x tmask cmask) with (infos := cinfos) (j := 0) (s := CoreState 0 0 0 (map first_pass (combine R ids))) (t := t)
      as (u & E' & Pu).
    + unfold fields_defined, package_offset in FD. lia.
    + eapply says_valid; eauto.
    + exact E.
    + exists u. rewrite Pu, P. split; [|reflexivity]. unfold before. rewrite E'. do 2 f_equal. cbn [plus].
      destruct SC as (_ & Q). apply (f_equal (@length _)) in Q. now rewrite map_length in Q.
Qed.
End LOOPS.
