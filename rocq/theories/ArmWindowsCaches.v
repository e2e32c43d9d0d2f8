(** Windows for ARM: the caches. *)
From Verif Require Import Base BaseProofs Loops TopologySpec ArmWindowsModel ArmWindowsSpec ArmWindowsLoops.
From Verif Require X86WindowsSpec X86WindowsModel X86WindowsProofs.
Import X86WindowsSpec(group_start, mask_processors, mask_valid).
Import X86WindowsModel(before_groups, mask_bits, each).
Import X86WindowsProofs(each_app, each_map, each_ext, each_flat_map, index_of, mask_list, mask_list_index, mask_list_in, before_nth).
Ltac Zify.zify_post_hook ::= idtac.
Open Scope nat_scope.

(** ** Kinds *)

Lemma kind_levelb info k : kind_of info = Some k <-> of_levelb k info = true.
Proof.
  unfold kind_of, of_levelb, type_instruction, type_data.
  destruct (N.eqb_spec (cc_level info) 1) as [E1|E1].
  { rewrite E1. destruct (N.eqb_spec (cc_type info) 1) as [T1|T1]; [rewrite T1; destruct k; cbn; split; congruence|].
    destruct (N.eqb_spec (cc_type info) 2) as [T2|T2]; destruct k; cbn; split; congruence. }
  destruct (N.eqb_spec (cc_level info) 2) as [E2|E2]; [rewrite E2; destruct k; cbn; split; congruence|].
  destruct (N.eqb_spec (cc_level info) 3) as [E3|E3]; destruct k; cbn; split; congruence.
Qed.
Lemma level_levelb info k : of_level info k <-> of_levelb k info = true.
Proof. destruct k; cbn [of_level of_levelb]; rewrite ?andb_true_iff, !N.eqb_eq; tauto. Qed.
Definition kind_eqb (a b : kind) : bool := match a, b with K1i, K1i | K1d, K1d | K2, K2 | K3, K3 => true | _, _ => false end.
Lemma kind_eqb_spec a b : reflect (a = b) (kind_eqb a b).
Proof. destruct a, b; constructor; congruence. Qed.
Lemma levelb_other info k k' : of_levelb k info = true -> of_levelb k' info = kind_eqb k k'.
Proof.
  intros H. destruct (kind_eqb_spec k k') as [<-|Ne]; [exact H|]. destruct (of_levelb k' info) eqn:E; [|reflexivity].
  apply kind_levelb in E, H. congruence.
Qed.
Lemma bump_other k k' n : of_kind (bump k n) k' = (if kind_eqb k k' then 1 else 0) + of_kind n k'.
Proof. destruct k, k'; reflexivity. Qed.

Lemma parse_filter {A T} (expected : A -> bool) (parse : nat -> A -> T -> res (option T)) : forall infos id s,
  parse_infos expected parse infos id s = parse_infos (fun _ => true) parse (filter expected infos) id s.
Proof.
  induction infos as [|i infos IH]; intros id s; cbn [parse_infos filter]; [reflexivity|]. destruct (expected i); cbn [negb parse_infos]; [|apply IH].
  unfold obind. destruct (parse id i s) as [[s'|]| |]; cbn [bind]; try reflexivity. apply IH.
Qed.

Lemma count_loop : forall infos id n, exists m, parse_infos (fun _ => true) count_cache infos id n = Ok (Some (id + length infos, m)) /\
  forall k, of_kind m k = of_kind n k + length (filter (of_levelb k) infos).
Proof.
  induction infos as [|i infos IH]; intros id n; cbn [parse_infos negb].
  { exists n. split; [cbn; now rewrite Nat.add_0_r|]. intros k. cbn. lia. }
  unfold count_cache at 1. unfold obind. cbn [bind]. destruct (IH (S id) (match kind_of i with Some k => bump k n | None => n end)) as (m & E & C).
  exists m. split; [rewrite E; cbn [length]; now rewrite Nat.add_succ_r|]. intros k. rewrite C. cbn [filter]. destruct (kind_of i) as [k0|] eqn:K.
  - apply kind_levelb in K. rewrite bump_other, (levelb_other _ _ _ K). destruct (kind_eqb k0 k); cbn [length]; lia.
  - destruct (of_levelb k i) eqn:L; [|reflexivity]. apply kind_levelb in L. congruence.
Qed.

(** ** One cache *)

Definition cache_list (info : cinfo) : list (nat * nat) := flat_map mask_list (cc_groups info).

Lemma cache_list_index sizes info : Forall (mask_valid sizes) (cc_groups info) -> map (index_of sizes) (cache_list info) = cache_set sizes info.
Proof. unfold cache_list, cache_set. induction 1 as [|e l H F IH]; cbn [flat_map]; [reflexivity|]. now rewrite map_app, IH, mask_list_index. Qed.

Lemma each_pair {W A B} (ia ib : W -> nat) (f : W -> A -> A) (g : W -> B -> B) : forall ws a b a' b',
  each (fun w l => modify l (ia w) (f w)) ws a = Ok a' -> each (fun w l => modify l (ib w) (g w)) ws b = Ok b' ->
  each (fun w r => do y <- modify (snd r) (ib w) (g w); do x <- modify (fst r) (ia w) (f w); Ok (x, y)) ws (a, b) = Ok (a', b').
Proof.
  induction ws as [|w ws IH]; intros a b a' b' Ha Hb; cbn [each] in *; [congruence|]. cbn [fst snd].
  destruct (modify a (ia w) (f w)) as [a1| |]; cbn [bind] in Ha; try discriminate. destruct (modify b (ib w) (g w)) as [b1| |]; cbn [bind] in Hb; try discriminate.
  cbn [bind]. now apply IH.
Qed.

Lemma takes_fold : forall l c, let d := fold_left (fun c i => cache_takes i c) l c in
  wc_geometry d = wc_geometry c /\ wc_count d = wc_count c + length l /\
  match wc_start d with
  | Some m => match wc_start c with None => least m l | Some m0 => least m (m0 :: l) end
  | None => wc_start c = None /\ l = []
  end.
Proof.
  induction l as [|i l IH]; intros c; cbn [fold_left length].
  { split; [reflexivity|]. split; [lia|]. destruct (wc_start c) as [m|]; [|auto]. split; [now left|]. repeat constructor. }
  destruct (IH (cache_takes i c)) as (A & B & C). cbv zeta. rewrite A, B. cbn [cache_takes wc_geometry wc_count wc_start] in *. split; [reflexivity|]. split; [lia|].
  destruct (wc_start (fold_left _ l (cache_takes i c))) as [m|]; [|exfalso; destruct C as (C & _); destruct (wc_start c) as [m0|]; cbn [lower_start] in C; [destruct (i <? m0)|]; discriminate C].
  destruct (wc_start c) as [m0|]; cbn [lower_start] in C; [|exact C].
  destruct (Nat.ltb_spec i m0) as [Q|Q]; destruct C as (C1 & C2); apply Forall_cons_iff in C2; destruct C2 as (C2 & C3); split.
  - destruct C1 as [C1|C1]; cbn; auto.
  - constructor; [lia|]. now constructor.
  - destruct C1 as [C1|C1]; cbn; auto.
  - constructor; [exact C2|]. constructor; [lia|exact C3].
Qed.

Lemma set_cache_twice k x p : set_cache k x (set_cache k x p) = set_cache k x p.
Proof. destruct k, p; reflexivity. Qed.
Lemma set_cache_fold {W} k x : forall (l : list W) p, fold_left (fun p _ => set_cache k x p) l p = match l with [] => p | _ => set_cache k x p end.
Proof.
  induction l as [|w l IH]; intros p; cbn [fold_left]; [reflexivity|]. rewrite IH. destruct l; [reflexivity|apply set_cache_twice].
Qed.

Lemma each_nested {T} sizes (store : nat -> T -> res T) groups s : Forall (mask_valid sizes) groups ->
  each (fun e r => each (fun b r => do start <- rd (before_groups sizes 0) (fst e); store (start + b) r) (mask_bits (snd e)) r) groups s =
  each (fun gb => store (index_of sizes gb)) (flat_map mask_list groups) s.
Proof.
  intros F. rewrite each_flat_map. apply each_ext. intros e r He. rewrite Forall_forall in F. specialize (F e He). unfold mask_list. rewrite each_map.
  apply each_ext. intros b r' _. rewrite before_nth by apply F. reflexivity.
Qed.

Section CACHES.
Context (sizes : list nat).
Let before := before_groups sizes 0.
Let n := list_sum sizes.

Lemma cache_index_in info gb : Forall (mask_valid sizes) (cc_groups info) -> In gb (cache_list info) -> index_of sizes gb < n.
Proof.
  intros F H. unfold cache_list in H. apply in_flat_map in H. destruct H as (e & He & H). rewrite Forall_forall in F. now apply (index_in sizes e gb (F e He)).
Qed.

Lemma store_cache_step numbers id info k s c : kind_of info = Some k -> length (ks_processors s) = n ->
  nth_error (ks_caches s) (base_of numbers k + of_kind (ks_counters s) k) = Some c ->
  cc_line info <> 0%N -> cc_associativity info <> 0%N -> Forall (mask_valid sizes) (cc_groups info) ->
  let index := base_of numbers k + of_kind (ks_counters s) k in
  exists ps caches, store_cache numbers before id info s = Ok (Some (CachesState ps caches (bump k (ks_counters s)))) /\
    length ps = n /\ length caches = length (ks_caches s) /\
    (forall i p, nth_error (ks_processors s) i = Some p ->
       nth_error ps i = Some (if existsb (Nat.eqb i) (cache_set sizes info) then set_cache k index p else p)) /\
    (forall x, x <> index -> nth_error caches x = nth_error (ks_caches s) x) /\
    exists d, nth_error caches index = Some d /\
      wc_geometry d = Geometry (cc_size info) (cc_associativity info) (cc_size info / cc_line info / cc_associativity info)%N 1 (cc_line info)
                        (if cc_type info =? 0 then 1 else g_flags (wc_geometry c))%N /\
      wc_count d = wc_count c + length (cache_set sizes info) /\
      (wc_start c = None -> match wc_start d with Some m => least m (cache_set sizes info) | None => cache_set sizes info = [] end).
Proof.
  intros K L Hc Hl Ha V index. fold index in Hc. pose proof (nth_error_some_lt _ _ _ _ Hc) as Li.
  set (g := Geometry (cc_size info) (cc_associativity info) (cc_size info / cc_line info / cc_associativity info)%N 1 (cc_line info)
              (if cc_type info =? 0 then 1 else g_flags (wc_geometry c))%N).
  set (caches1 := upd (ks_caches s) index (WCache g (wc_start c) (wc_count c))).
  assert (FP : Forall (fun gb => index_of sizes gb < length (ks_processors s)) (cache_list info)).
  { rewrite Forall_forall. intros gb Hgb. rewrite L. now apply (cache_index_in info). }
  assert (FC : Forall (fun _ : nat * nat => index < length caches1) (cache_list info)).
  { rewrite Forall_forall. intros gb _. unfold caches1. now rewrite upd_length. }
  destruct (each_modify (index_of sizes) (fun _ => set_cache k index) _ _ FP) as (ps & EP & LP & PP).
  destruct (each_modify (fun _ => index) (fun gb => cache_takes (index_of sizes gb)) _ _ FC) as (caches & EC & LC & PC).
  exists ps, caches. split.
  - unfold store_cache. rewrite K. fold index. unfold rd at 1. rewrite Hc. cbn [bind]. unfold geometry_of.
    apply N.eqb_neq in Hl, Ha. rewrite Hl, Ha. cbn [bind]. change type_unified with 0%N. change flag_unified with 1%N. fold g.
    rewrite wr_ok by exact Li. cbn [bind]. fold caches1.
    pose proof (each_nested sizes (fun x r => do caches <- modify (snd r) index (cache_takes x); do ps <- modify (fst r) x (set_cache k index); Ok (ps, caches))
      (cc_groups info) (ks_processors s, caches1) V) as E. cbv beta in E. unfold before. rewrite E.
    fold (cache_list info). rewrite (each_pair _ _ _ _ _ _ _ _ _ EP EC). reflexivity.
  - split; [congruence|]. split; [rewrite LC; apply upd_length|]. split; [|split].
    + intros i p Hp. rewrite (PP i p Hp), set_cache_fold. rewrite <- (cache_list_index sizes info V).
      destruct (existsb (Nat.eqb i) (map (index_of sizes) (cache_list info))) eqn:X.
      * apply existsb_exists in X. destruct X as (y & Hy & E). apply Nat.eqb_eq in E. subst y. apply in_map_iff in Hy. destruct Hy as (gb & E & Hgb).
        destruct (filter _ (cache_list info)) as [|w ws] eqn:Fi; [|reflexivity]. exfalso.
        assert (I : In gb (filter (fun w => index_of sizes w =? i) (cache_list info))) by (apply filter_In; split; [exact Hgb|now apply Nat.eqb_eq]).
        rewrite Fi in I. destruct I.
      * destruct (filter _ (cache_list info)) as [|w ws] eqn:Fi; [reflexivity|]. exfalso.
        assert (I : In w (filter (fun w => index_of sizes w =? i) (cache_list info))) by (rewrite Fi; now left). apply filter_In in I. destruct I as (I & E).
        apply Nat.eqb_eq in E. assert (existsb (Nat.eqb i) (map (index_of sizes) (cache_list info)) = true); [|congruence].
        apply existsb_exists. exists i. split; [|apply Nat.eqb_refl]. rewrite <- E. now apply in_map.
    + intros x Ne. destruct (nth_error (ks_caches s) x) as [y|] eqn:Hy.
      * assert (H1 : nth_error caches1 x = Some y) by (unfold caches1; rewrite nth_error_upd_neq by congruence; exact Hy).
        rewrite (PC x y H1). f_equal. destruct (filter _ (cache_list info)) as [|w ws] eqn:Fi; [reflexivity|]. exfalso.
        assert (I : In w (filter (fun _ => index =? x) (cache_list info))) by (rewrite Fi; now left). apply filter_In in I. destruct I as (_ & E). apply Nat.eqb_eq in E. congruence.
      * apply nth_error_None. apply nth_error_None in Hy. rewrite LC. unfold caches1. now rewrite upd_length.
    + assert (H1 : nth_error caches1 index = Some (WCache g (wc_start c) (wc_count c))) by (unfold caches1; now apply nth_error_upd_eq).
      pose proof (PC _ _ H1) as D. assert (Fi : filter (fun _ : nat * nat => index =? index) (cache_list info) = cache_list info).
      { rewrite Nat.eqb_refl. clear. induction (cache_list info) as [|a l IH]; [reflexivity|]. cbn. now rewrite IH. }
      rewrite Fi in D. assert (FM : forall l (x : wcache), fold_left (fun x w => cache_takes (index_of sizes w) x) l x =
        fold_left (fun x i => cache_takes i x) (map (index_of sizes) l) x).
      { clear. induction l as [|a l IH]; intros x; cbn; [reflexivity|apply IH]. }
      rewrite FM, (cache_list_index sizes info V) in D. eexists. split; [exact D|].
      destruct (takes_fold (cache_set sizes info) (WCache g (wc_start c) (wc_count c))) as (A & B & C). cbn [wc_geometry wc_count wc_start] in A, B, C.
      split; [exact A|]. split; [exact B|]. intros E. rewrite E in C |- *. destruct (wc_start (fold_left _ _ _)); [exact C|]. apply C.
Qed.

(** ** All caches *)

Definition pointer_ok (numbers : per_kind) (k : kind) (infos : list cinfo) (i : nat) (o : option nat) : Prop :=
  match o with
  | Some x => exists j info, x = base_of numbers k + j /\ nth_error (filter (of_levelb k) infos) j = Some info /\ In i (cache_set sizes info) /\
      forall j' info', j < j' -> nth_error (filter (of_levelb k) infos) j' = Some info' -> ~ In i (cache_set sizes info')
  | None => forall info, In info (filter (of_levelb k) infos) -> ~ In i (cache_set sizes info)
  end.

(** What has been done after the answers [infos]. *)
Record stored (numbers : per_kind) (ps0 : list wproc) (infos : list cinfo) (s : caches_state) : Prop := {
  so_length : length (ks_processors s) = n;
  so_counters : forall k, of_kind (ks_counters s) k = length (filter (of_levelb k) infos);
  so_caches : forall k j info, nth_error (filter (of_levelb k) infos) j = Some info ->
    exists c, nth_error (ks_caches s) (base_of numbers k + j) = Some c /\ cache_described sizes info c;
  so_rest : forall k j, length (filter (of_levelb k) infos) <= j -> j < of_kind numbers k ->
    nth_error (ks_caches s) (base_of numbers k + j) = Some (WCache geometry0 None 0);
  so_processors : forall i p0, nth_error ps0 i = Some p0 -> exists p, nth_error (ks_processors s) i = Some p /\
    wp_core p = wp_core p0 /\ wp_cluster p = wp_cluster p0 /\ wp_package p = wp_package p0 /\ wp_group p = wp_group p0 /\ wp_number p = wp_number p0 /\
    forall k, pointer_ok numbers k infos i (cache_pointer p k);
  so_all : length (ks_caches s) = k1i numbers + k1d numbers + k2 numbers + k3 numbers
}.

Lemma base_distinct numbers k j k' j' : j < of_kind numbers k -> j' < of_kind numbers k' -> base_of numbers k + j = base_of numbers k' + j' -> k = k' /\ j = j'.
Proof. destruct k, k'; cbn; intros; split; try congruence; lia. Qed.

Lemma cache_pointer_set k x p k' : cache_pointer (set_cache k x p) k' = if kind_eqb k k' then Some x else cache_pointer p k'.
Proof. destruct k, k'; reflexivity. Qed.

Lemma stored_step numbers ps0 infos info id s : stored numbers ps0 infos s -> (exists k, of_level info k) ->
  Forall (mask_valid sizes) (cc_groups info) -> cc_line info <> 0%N -> cc_associativity info <> 0%N ->
  (forall k, length (filter (of_levelb k) (infos ++ [info])) <= of_kind numbers k) ->
  length ps0 = n ->
  exists s', store_cache numbers before id info s = Ok (Some s') /\ stored numbers ps0 (infos ++ [info]) s'.
Proof.
  intros [S1 S2 S3 S4 S5 S6] (k & Hk) V Hl Ha Room L0. apply level_levelb in Hk. assert (K : kind_of info = Some k) by now apply kind_levelb.
  pose proof (Room k) as R. rewrite filter_app, app_length in R. cbn [filter] in R. rewrite Hk in R. cbn [length] in R.
  assert (Hc : nth_error (ks_caches s) (base_of numbers k + of_kind (ks_counters s) k) = Some (WCache geometry0 None 0)).
  { rewrite S2. apply S4; lia. }
  destruct (store_cache_step numbers id info k s _ K S1 Hc Hl Ha V) as (ps & caches & E & LP & LC & PP & PO & d & Hd & G & Cn & St).
  cbn [wc_geometry wc_count wc_start geometry0 g_flags] in G, Cn, St. rewrite S2 in *. eexists. split; [exact E|].
  assert (FA : forall k', filter (of_levelb k') (infos ++ [info]) = filter (of_levelb k') infos ++ if kind_eqb k k' then [info] else []).
  { intros k'. rewrite filter_app. cbn [filter]. now rewrite (levelb_other _ _ _ Hk). }
  split; cbn [ks_processors ks_caches ks_counters].
  - exact LP.
  - intros k'. rewrite bump_other, FA, app_length, S2. destruct (kind_eqb k k'); cbn [length]; lia.
  - intros k' j info' H. rewrite FA in H. destruct (Nat.lt_ge_cases j (length (filter (of_levelb k') infos))) as [Lj|Lj].
    + rewrite nth_error_app1 in H by exact Lj. destruct (S3 k' j info' H) as (c & Hc' & D). exists c. split; [|exact D]. rewrite PO; [exact Hc'|].
      intros Q. assert (B1 : j < of_kind numbers k').
      { specialize (Room k'). rewrite FA, app_length in Room. lia. }
      apply base_distinct in Q; [|exact B1|lia]. destruct Q as (-> & ->). lia.
    + rewrite nth_error_app2 in H by exact Lj. destruct (kind_eqb_spec k k') as [<-|Ne]; [|destruct (j - _); discriminate].
      destruct (j - length (filter (of_levelb k) infos)) as [|m] eqn:Q; [|destruct m; discriminate]. injection H as <-.
      replace j with (length (filter (of_levelb k) infos)) by lia. exists d. split; [exact Hd|].
      split; rewrite ?G; cbn; try reflexivity; [|exact Cn|now apply St]. apply N.div_div; assumption.
  - intros k' j L1 L2. rewrite FA, app_length in L1. rewrite PO; [apply S4; lia|]. intros Q. apply base_distinct in Q; [|exact L2|lia].
    destruct Q as (-> & ->). destruct (kind_eqb_spec k k) as [_|X]; [cbn [length] in L1; lia|congruence].
  - intros i p0 Hp0. destruct (S5 i p0 Hp0) as (p & Hp & A1 & A2 & A3 & A4 & A5 & A6). eexists. split; [apply (PP i p Hp)|].
    destruct (existsb (Nat.eqb i) (cache_set sizes info)) eqn:X.
    + apply existsb_exists in X. destruct X as (y & Iy & Ey). apply Nat.eqb_eq in Ey. subst y.
      assert (KE : forall A (f : wproc -> A), (forall k x q, f (set_cache k x q) = f q) -> forall x, f (set_cache k x p) = f p) by (intros; auto).
      rewrite (KE _ wp_core), (KE _ wp_cluster), (KE _ wp_package), (KE _ wp_group), (KE _ wp_number) by (intros [] ? ?; reflexivity).
      do 5 (split; [assumption|]). intros k'. rewrite cache_pointer_set. unfold pointer_ok. rewrite FA. destruct (kind_eqb_spec k k') as [<-|Ne].
      * exists (length (filter (of_levelb k) infos)), info. split; [reflexivity|]. split; [rewrite nth_error_app2, Nat.sub_diag by lia; reflexivity|].
        split; [exact Iy|]. intros j' info' Lj H. rewrite nth_error_app2 in H by lia. destruct (j' - _) as [|m] eqn:Q; [lia|]. destruct m; discriminate.
      * rewrite app_nil_r. apply A6.
    + do 5 (split; [assumption|]). assert (NI : ~ In i (cache_set sizes info)).
      { intros I. assert (existsb (Nat.eqb i) (cache_set sizes info) = true); [|congruence]. apply existsb_exists. exists i. split; [exact I|apply Nat.eqb_refl]. }
      intros k'. specialize (A6 k'). unfold pointer_ok in *. rewrite FA. destruct (kind_eqb_spec k k') as [<-|Ne]; [|now rewrite app_nil_r].
      destruct (cache_pointer p k) as [x|].
      * destruct A6 as (j & info1 & -> & H1 & I1 & U1). exists j, info1. split; [reflexivity|]. pose proof (nth_error_some_lt _ _ _ _ H1) as L1.
        split; [rewrite nth_error_app1 by exact L1; exact H1|]. split; [exact I1|]. intros j' info' Lj H.
        destruct (Nat.lt_ge_cases j' (length (filter (of_levelb k) infos))) as [Q|Q].
        -- rewrite nth_error_app1 in H by exact Q. now apply (U1 j').
        -- rewrite nth_error_app2 in H by exact Q. destruct (j' - _) as [|m]; [injection H as <-; exact NI|destruct m; discriminate].
      * intros info' I. apply in_app_iff in I. destruct I as [I|[<-|[]]]; [now apply A6|exact NI].
  - congruence.
Qed.

Lemma stored_loop numbers ps0 : length ps0 = n -> forall rest infos id s, stored numbers ps0 infos s ->
  Forall (fun i => exists k, of_level i k) rest -> Forall (fun i => Forall (mask_valid sizes) (cc_groups i)) rest ->
  Forall (fun i => cc_line i <> 0%N /\ cc_associativity i <> 0%N) rest ->
  (forall k, length (filter (of_levelb k) (infos ++ rest)) <= of_kind numbers k) ->
  exists s', parse_infos (fun _ => true) (store_cache numbers before) rest id s = Ok (Some (id + length rest, s')) /\ stored numbers ps0 (infos ++ rest) s'.
Proof.
  intros L0. induction rest as [|info rest IH]; intros infos id s St F1 F2 F3 R; cbn [parse_infos negb].
  { exists s. rewrite app_nil_r. split; [cbn; now rewrite Nat.add_0_r|exact St]. }
  apply Forall_cons_iff in F1, F2, F3. destruct F1 as (K & F1), F2 as (V & F2), F3 as ((Hl & Ha) & F3).
  destruct (stored_step numbers ps0 infos info id s St K V Hl Ha) as (s1 & E & S1); [|exact L0|].
  { intros k. specialize (R k). change (info :: rest) with ([info] ++ rest) in R. rewrite app_assoc, filter_app, app_length in R. lia. }
  rewrite E. unfold obind. cbn [bind]. destruct (IH (infos ++ [info]) (S id) s1 S1 F1 F2 F3) as (s2 & E2 & S2).
  { rewrite <- app_assoc. exact R. }
  exists s2. rewrite <- app_assoc in S2. split; [rewrite E2; cbn [length]; now rewrite Nat.add_succ_r|exact S2].
Qed.

Lemma all_kinds infos : Forall (fun i => exists k, of_level i k) infos ->
  length (filter (of_levelb K1i) infos) + length (filter (of_levelb K1d) infos) + length (filter (of_levelb K2) infos) + length (filter (of_levelb K3) infos) = length infos.
Proof.
  induction 1 as [|i l (k & K) F IH]; [reflexivity|]. apply level_levelb in K. cbn [filter length]. rewrite !(levelb_other _ _ _ K).
  destruct k; cbn [kind_eqb length]; lia.
Qed.

(** Both rounds. *)
Lemma caches_rounds a infos (h2 h3 : bool) ps : caches_say a sizes infos -> length ps = n ->
  (forall i p k, nth_error ps i = Some p -> cache_pointer p k = None) -> h2 = true ->
  exists numbers, read_relation h2 (aw_caches a) cc_expected count_cache (PerKind 0 0 0 0) = Ok (Some (length infos, numbers)) /\
    (forall k, of_kind numbers k = length (filter (of_levelb k) infos)) /\
    exists caches, reset_starts numbers (length infos) = Ok caches /\
    (h3 = true -> exists s, read_relation h3 (aw_caches2 a) cc_expected (store_cache numbers before) (CachesState ps caches (PerKind 0 0 0 0)) = Ok (Some (length infos, s)) /\
       stored numbers ps infos s).
Proof.
  intros [(all1 & E1 & F1) (all2 & E2 & F2) Ne K V Nz] L NP ->. unfold read_relation. rewrite E1, E2. cbn [negb].
  assert (NZ : (length infos =? 0) = false) by (apply Nat.eqb_neq; destruct infos; [congruence|discriminate]).
  destruct (count_loop infos 0 (PerKind 0 0 0 0)) as (numbers & EC & C). exists numbers. rewrite parse_filter, F1, EC. unfold obind. cbn [bind fst plus]. rewrite NZ.
  split; [reflexivity|]. assert (C' : forall k, of_kind numbers k = length (filter (of_levelb k) infos)) by (intros k; rewrite C; destruct k; reflexivity).
  split; [exact C'|]. pose proof (all_kinds infos K) as T. rewrite <- !C' in T. cbn [of_kind] in T. unfold reset_starts. rewrite T, Nat.leb_refl, Nat.sub_diag.
  rewrite app_nil_r. eexists. split; [reflexivity|]. intros ->. cbn [negb]. rewrite parse_filter, F2.
  destruct (stored_loop numbers ps L infos [] 0 (CachesState ps (repeat (WCache geometry0 None 0) (length infos)) (PerKind 0 0 0 0))) as (s & E & S); try assumption.
  - split; cbn [ks_processors ks_caches ks_counters app filter length]; try assumption.
    + intros []; reflexivity.
    + intros k j info H. destruct j; discriminate.
    + intros k j _ Lj. apply nth_error_repeat. rewrite <- T. destruct k; cbn in *; lia.
    + intros i p0 Hp. exists p0. do 6 (split; [auto|]). intros k. unfold pointer_ok. cbn [filter]. rewrite (NP _ _ k Hp). intros ? [].
    + rewrite repeat_length. lia.
  - intros k. cbn [app]. rewrite C'. lia.
  - exists s. rewrite E. cbn [bind fst plus app]. rewrite NZ. split; [reflexivity|exact S].
Qed.
End CACHES.
