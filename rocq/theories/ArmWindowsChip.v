(** Windows for ARM: the name, the registry, memory and getters. *)
From Verif Require Import Base BaseProofs Text TopologySpec ApiModel ApiProofs ArmIsaModel ArmUarchModel ArmWindowsModel ArmWindowsSpec ArmWindowsFinal.
From Verif Require X86WindowsModel ArmLinuxModel.
From Coq Require Import Lia.
Open Scope nat_scope.

(** ** UTF-8 *)

Ltac decide_n := repeat match goal with
  | |- context [(?a <? ?b)%N] => (rewrite (proj2 (N.ltb_lt a b)) by lia) || (rewrite (proj2 (N.ltb_ge a b)) by lia)
  | |- context [(?a <=? ?b)%N] => (rewrite (proj2 (N.leb_le a b)) by lia) || (rewrite (proj2 (N.leb_gt a b)) by lia)
  end.

Lemma cont_mod x : continues (0x80 + x mod 64) = true /\ ((0x80 + x mod 64) mod 64 = x mod 64)%N.
Proof.
  pose proof (N.mod_lt x 64 ltac:(discriminate)). unfold continues. split.
  - apply andb_true_iff. rewrite !N.leb_le. lia.
  - change 0x80%N with (2 * 64)%N. rewrite N.add_comm, N.mod_add by discriminate. now apply N.mod_small.
Qed.
Lemma split64 x : (x = x / 64 * 64 + x mod 64)%N.
Proof. pose proof (N.div_mod x 64 ltac:(discriminate)). lia. Qed.

Lemma mod_shift k m q : (q < m -> (k * m + q) mod m = q)%N.
Proof. intros H. rewrite N.add_comm, N.mod_add by lia. now apply N.mod_small. Qed.

Lemma decode_char c rest : (c < 0x200000)%N -> utf8_characters (utf8_char c ++ rest) = option_map (cons c) (utf8_characters rest).
Proof.
  intros H. unfold utf8_char. destruct (N.ltb_spec c 0x80) as [L|L].
  { cbn [app utf8_characters]. decide_n. reflexivity. }
  pose proof (split64 c) as S0.
  destruct (N.ltb_spec c 0x800) as [L2|L2].
  { assert (B : (c / 64 < 32)%N) by (apply N.div_lt_upper_bound; lia). assert (B1 : (2 <= c / 64)%N) by (apply N.div_le_lower_bound; lia).
    cbn [app utf8_characters]. destruct (cont_mod c) as (C1 & C2). set (q := (c / 64)%N) in *. decide_n. cbn [andb]. rewrite C1, C2. do 2 f_equal.
    pose proof (mod_shift 6 32 q B) as M. change (6 * 32)%N with 0xC0%N in M. rewrite M. lia. }
  pose proof (split64 (c / 64)) as S1. rewrite N.div_div in S1 by discriminate. change (64 * 64)%N with 4096%N in S1.
  destruct (N.ltb_spec c 0x10000) as [L3|L3].
  { assert (B : (c / 4096 < 16)%N) by (apply N.div_lt_upper_bound; lia).
    cbn [app utf8_characters]. destruct (cont_mod c) as (C1 & C2). destruct (cont_mod (c / 64)) as (D1 & D2). set (q := (c / 4096)%N) in *. decide_n. cbn [andb].
    rewrite C1, C2, D1, D2. cbn [andb]. do 2 f_equal.
    pose proof (mod_shift 14 16 q B) as M. change (14 * 16)%N with 0xE0%N in M. rewrite M. lia. }
  pose proof (split64 (c / 4096)) as S2. rewrite N.div_div in S2 by discriminate. change (4096 * 64)%N with 262144%N in S2.
  assert (B : (c / 262144 < 8)%N) by (apply N.div_lt_upper_bound; lia).
  cbn [app utf8_characters]. destruct (cont_mod c) as (C1 & C2). destruct (cont_mod (c / 64)) as (D1 & D2). destruct (cont_mod (c / 4096)) as (E1 & E2).
  set (q := (c / 262144)%N) in *. decide_n. cbn [andb].
  rewrite C1, C2, D1, D2, E1, E2. cbn [andb]. do 2 f_equal.
  pose proof (mod_shift 30 8 q B) as M. change (30 * 8)%N with 0xF0%N in M. rewrite M. lia.
Qed.

Lemma char_size c : length (utf8_char c) = if (c <=? 0x7F)%N then 1 else if (c <=? 0x7FF)%N then 2 else if (c <=? 0xFFFF)%N then 3 else 4.
Proof.
  unfold utf8_char. destruct (N.ltb_spec c 0x80), (N.leb_spec c 0x7F); try lia; [reflexivity|]. destruct (N.ltb_spec c 0x800), (N.leb_spec c 0x7FF); try lia; [reflexivity|].
  destruct (N.ltb_spec c 0x10000), (N.leb_spec c 0xFFFF); try lia; reflexivity.
Qed.

(** What is converted has the same characters. *)
Lemma utf8_same : forall k units, length units <= k -> Forall (fun c => c < 65536)%N units ->
  match utf16_characters units with
  | Some cs => exists s, utf8_of units = Some s /\ length s = utf8_size cs /\ utf8_characters s = Some cs
  | None => utf8_of units = None
  end.
Proof.
  induction k as [|k IH]; intros units L F.
  { destruct units; [|cbn in L; lia]. exists []. repeat split. }
  destruct units as [|u rest]; [exists []; repeat split|]. apply Forall_cons_iff in F. destruct F as (Hu & F). cbn [length] in L.
  assert (T1 : forall x, (x <=? 0xDBFF)%N = (x <? 0xDC00)%N) by (intros x; destruct (N.leb_spec x 0xDBFF), (N.ltb_spec x 0xDC00); lia).
  assert (T2 : forall x, (x <=? 0xDFFF)%N = (x <? 0xE000)%N) by (intros x; destruct (N.leb_spec x 0xDFFF), (N.ltb_spec x 0xE000); lia).
  assert (ADD : forall c cs s, length s = utf8_size cs -> utf8_characters s = Some cs -> (c < 0x200000)%N ->
    length (utf8_char c ++ s) = utf8_size (c :: cs) /\ utf8_characters (utf8_char c ++ s) = Some (c :: cs)).
  { intros c cs s E1 E2 E3. split; [|now rewrite decode_char, E2]. rewrite app_length, char_size, E1. reflexivity. }
  cbn [utf16_characters utf8_of]. rewrite T1, T2. destruct (0xD800 <=? u)%N eqn:Q1; [destruct (u <? 0xDC00)%N eqn:Q2|]; cbn [andb].
  - destruct rest as [|v rest']; [reflexivity|]. apply Forall_cons_iff in F. destruct F as (Hv & F). rewrite T2.
    destruct (0xDC00 <=? v)%N eqn:Q3; [destruct (v <? 0xE000)%N eqn:Q4|]; cbn [andb]; try reflexivity.
    cbn [length] in L. specialize (IH rest' ltac:(lia) F). apply N.leb_le in Q1, Q3. apply N.ltb_lt in Q2, Q4.
    assert (EU : (u mod 1024 = u - 0xD800)%N).
    { replace u with (u - 0xD800 + 54 * 1024)%N at 1 by lia. rewrite N.mod_add by discriminate. apply N.mod_small. lia. }
    assert (EV : (v mod 1024 = v - 0xDC00)%N).
    { replace v with (v - 0xDC00 + 55 * 1024)%N at 1 by lia. rewrite N.mod_add by discriminate. apply N.mod_small. lia. }
    rewrite EU, EV. destruct (utf16_characters rest') as [cs|]; cbn [option_map]; [|now rewrite IH]. destruct IH as (s & -> & E1 & E2). eexists. split; [reflexivity|].
    apply ADD; try assumption. lia.
  - apply N.ltb_ge in Q2. destruct (0xDC00 <=? u)%N eqn:Q3; [|apply N.leb_gt in Q3; lia]. destruct (u <? 0xE000)%N eqn:Q4; cbn [andb]; [reflexivity|].
    specialize (IH rest ltac:(lia) F). destruct (utf16_characters rest) as [cs|]; cbn [option_map]; [|now rewrite IH]. destruct IH as (s & -> & E1 & E2). eexists. split; [reflexivity|].
    apply ADD; try assumption. lia.
  - apply N.leb_gt in Q1. destruct (0xDC00 <=? u)%N eqn:Q3; [apply N.leb_le in Q3; lia|]. cbn [andb].
    specialize (IH rest ltac:(lia) F). destruct (utf16_characters rest) as [cs|]; cbn [option_map]; [|now rewrite IH]. destruct IH as (s & -> & E1 & E2). eexists. split; [reflexivity|].
    apply ADD; try assumption. lia.
Qed.

Lemma convertible units : Forall (fun c => c < 65536)%N units ->
  match utf16_characters units with
  | Some cs => if utf8_size cs <=? 47 then exists s, converted (Some units) = Some s /\ utf8_characters s = Some cs else converted (Some units) = None
  | None => converted (Some units) = None
  end.
Proof.
  intros F. pose proof (utf8_same (length units) units (le_n _) F) as H. unfold converted. change windows_name_max with 48. destruct (utf16_characters units) as [cs|]; [|now rewrite H].
  destruct H as (s & -> & E1 & E2). rewrite E1. cbn [Nat.leb]. change (S (utf8_size cs) <=? 48) with (utf8_size cs <=? 47). destruct (utf8_size cs <=? 47); [|reflexivity]. exists s. auto.
Qed.

Lemma ascii_converted : forall units, Forall (fun c => 0 < c < 128)%N units -> utf8_of units = Some units.
Proof.
  induction 1 as [|u l H F IH]; [reflexivity|]. cbn [utf8_of]. destruct (N.leb_spec 0xD800 u); [lia|]. destruct (N.leb_spec 0xDC00 u); [lia|]. cbn [andb]. rewrite IH.
  unfold utf8_char. destruct (N.ltb_spec u 0x80); [reflexivity|lia].
Qed.

(** ** The registry *)

Lemma wcsn_name rest : forall k name, Forall (fun c => c <> 0)%N name -> wcsn k (name ++ 0%N :: rest) = Ok (firstn k name).
Proof.
  induction k as [|k IH]; intros name F; [destruct name; reflexivity|]. destruct name as [|c name]; cbn [app wcsn firstn]; [reflexivity|].
  apply Forall_cons_iff in F. destruct F as (H & F). apply N.eqb_neq in H. rewrite H, IH by exact F. reflexivity.
Qed.

Lemma registry_read arm32 before heap_ok r name midr mhz : registry_says r name midr mhz -> (forall b, leaked b -> heap_ok b = true) ->
  let c := core_info_from_midr arm32 before midr in
  system_info_from_registry arm32 before heap_ok r =
    Ok (Some (ChipInfo (Some (firstn 47 name)) (fst c) (snd c) (mhz * 1000000)), [H_text; H_chip; H_name]).
Proof.
  intros [(size & Es & Hs) (rest & En) Fn (value & Em & -> & Hm) (Eh & Hh)] Ok0 c. unfold system_info_from_registry, read_registry. rewrite Es.
  apply N.eqb_neq in Hs. rewrite Hs, En, !Ok0 by (unfold leaked; tauto). cbn [negb]. rewrite Em, Eh. unfold read_number. rewrite !N.eqb_refl. unfold u32.
  apply N.eqb_neq in Hm, Hh. rewrite Hm, Hh. change (windows_name_max - 1) with 47.
  rewrite wcsn_name by (eapply Forall_impl; [|exact Fn]; cbv beta; intros; lia). cbn [bind app]. unfold c. destruct (core_info_from_midr arm32 before (value mod two32)). reflexivity.
Qed.

Lemma Forall_firstn {A} (P : A -> Prop) : forall k l, Forall P l -> Forall P (firstn k l).
Proof. induction k as [|k IH]; intros l F; [constructor|]. destruct F; cbn; constructor; auto. Qed.

Theorem windows_published_iff arm32 before heap_ok r a name midr mhz sizes cores packages infos :
  registry_says r name midr mhz -> arm_windows_says a sizes cores packages -> caches_say a sizes infos -> (forall b, heap_ok b = true) ->
  exists o, arm_windows_init arm32 before heap_ok r a = Ok o /\
    match utf16_characters (firstn 47 name) with
    | Some cs =>
        if utf8_size cs <=? 47 then
          exists t published, wo_published o = Some t /\ utf8_characters published = Some cs /\
            placed sizes cores packages t /\
            uniform (list_sum sizes) (length cores) (length packages) (fst (core_info_from_midr arm32 before midr)) (snd (core_info_from_midr arm32 before midr))
              (mhz * 1000000) published t /\
            (forall k, level_described sizes infos k t) /\ awt_max_cache_size t = last_level t
        else wo_published o = None
    | None => wo_published o = None
    end.
Proof.
  intros R A C H. pose proof (registry_read arm32 before heap_ok r name midr mhz R (fun b _ => H b)) as E. cbv zeta in E. unfold arm_windows_init. rewrite E. cbn [bind].
  assert (LK : Forall leaked [H_text; H_chip; H_name]) by (unfold leaked; repeat constructor; tauto).
  assert (W : Forall (fun c => c < 65536)%N (firstn 47 name)).
  { apply Forall_firstn. eapply Forall_impl; [|apply R]. cbv beta. intros; lia. }
  pose proof (convertible _ W) as CV. set (chip := ChipInfo _ _ _ _).
  destruct (utf16_characters (firstn 47 name)) as [cs|].
  - destruct (utf8_size cs <=? 47).
    + destruct CV as (s & Hs & Hd). destruct (arm_windows_published heap_ok chip a sizes cores packages infos _ s [H_text; H_chip; H_name] A C eq_refl Hs (fun b _ => H b) LK) as (t & Et & P).
      rewrite Et. eexists. split; [reflexivity|]. exists t, s. cbn [wo_published]. split; [reflexivity|]. split; [exact Hd|exact P].
    + rewrite (windows_unnamed heap_ok chip a sizes cores packages infos _ A C CV (fun b _ => H b) LK). eexists. split; reflexivity.
  - rewrite (windows_unnamed heap_ok chip a sizes cores packages infos _ A C CV (fun b _ => H b) LK). eexists. split; reflexivity.
Qed.

Theorem windows_ascii arm32 before heap_ok r a name midr mhz sizes cores packages infos :
  registry_says r name midr mhz -> Forall (fun c => c < 128)%N name -> arm_windows_says a sizes cores packages -> caches_say a sizes infos -> (forall b, heap_ok b = true) ->
  exists o t, arm_windows_init arm32 before heap_ok r a = Ok o /\ wo_published o = Some t /\
    placed sizes cores packages t /\
    uniform (list_sum sizes) (length cores) (length packages) (fst (core_info_from_midr arm32 before midr)) (snd (core_info_from_midr arm32 before midr))
      (mhz * 1000000) (firstn 47 name) t /\
    (forall k, level_described sizes infos k t) /\ awt_max_cache_size t = last_level t.
Proof.
  intros R AS A C H. pose proof (registry_read arm32 before heap_ok r name midr mhz R (fun b _ => H b)) as E. cbv zeta in E. unfold arm_windows_init. rewrite E. cbn [bind].
  assert (LK : Forall leaked [H_text; H_chip; H_name]) by (unfold leaked; repeat constructor; tauto).
  assert (W : utf8_of (firstn 47 name) = Some (firstn 47 name)).
  { apply ascii_converted, Forall_firstn. destruct R as [_ _ Fn _ _]. rewrite Forall_forall in *. intros c Hc. specialize (Fn c Hc). specialize (AS c Hc). cbv beta in *. lia. }
  assert (CV : converted (Some (firstn 47 name)) = Some (firstn 47 name)).
  { unfold converted. rewrite W. change windows_name_max with 48. destruct (Nat.leb_spec (S (length (firstn 47 name))) 48) as [_|Q]; [reflexivity|].
    pose proof (firstn_le_length 47 name). lia. }
  set (chip := ChipInfo _ _ _ _).
  destruct (arm_windows_published heap_ok chip a sizes cores packages infos _ _ [H_text; H_chip; H_name] A C eq_refl CV (fun b _ => H b) LK) as (t & Et & P).
  rewrite Et. eexists. exists t. split; [reflexivity|]. split; [reflexivity|exact P].
Qed.

(** The registry does not tell: nothing is known about the chip. *)
Theorem windows_unknown_chip arm32 before heap_ok r a sizes cores packages infos :
  ((forall size, rg_name_size r = Some size -> size = 0%N) \/ rg_name r = None \/ (forall value, rg_midr r = Some (8%N, value) -> (value mod two32 = 0)%N) \/ (forall value, rg_mhz r = Some (4%N, value) -> value = 0%N)) ->
  arm_windows_says a sizes cores packages -> caches_say a sizes infos -> (forall b, heap_ok b = true) ->
  exists o t, arm_windows_init arm32 before heap_ok r a = Ok o /\ wo_published o = Some t /\
    placed sizes cores packages t /\
    uniform (list_sum sizes) (length cores) (length packages) 0 0 0 (text "Unknown") t.
Proof.
  intros R A C H.
  assert (E : exists live, system_info_from_registry arm32 before heap_ok r = Ok (None, live) /\ Forall leaked live).
  { assert (LK : Forall leaked [H_text]) by (repeat constructor; unfold leaked; tauto).
    assert (NM : forall size v, (forall value, v = Some (size, value) -> u32 value = 0%N) -> u32 (read_number size v) = 0%N).
    { intros size v Q. unfold read_number. destruct v as [(k, value)|]; [|reflexivity]. destruct (N.eqb_spec k size) as [->|_]; [now apply Q|reflexivity]. }
    assert (NM4 : forall size v, (forall value, v = Some (size, value) -> value = 0%N) -> read_number size v = 0%N).
    { intros size v Q. unfold read_number. destruct v as [(k, value)|]; [|reflexivity]. destruct (N.eqb_spec k size) as [->|_]; [now apply Q|reflexivity]. }
    unfold system_info_from_registry, read_registry. destruct (rg_name_size r) as [size|] eqn:Es; [|exists []; now split]. destruct (N.eqb_spec size 0) as [_|Hs]; [exists []; now split|].
    rewrite H. cbn [negb]. destruct (rg_name r) as [text|] eqn:En; [|exists []; now split].
    destruct R as [R|[R|[R|R]]]; [specialize (R size eq_refl); congruence|discriminate| |].
    - rewrite (NM 8%N) by (intros value Q; now apply R). exists [H_text]. now split.
    - rewrite (NM4 4%N) by (intros value Q; now apply R). destruct (_ =? 0)%N; exists [H_text]; now split. }
  destruct E as (live & E & LK). unfold arm_windows_init. rewrite E. cbn [bind].
  destruct (arm_windows_published heap_ok chip_unknown a sizes cores packages infos _ (text "Unknown") live A C eq_refl eq_refl (fun b _ => H b) LK) as (t & Et & P1 & P2 & _).
  rewrite Et. eexists. exists t. split; [reflexivity|]. split; [reflexivity|]. split; [exact P1|exact P2].
Qed.

(** ** Memory *)

Lemma cleanup_none live : Forall (fun b => leaked b \/ In b windows_frees) live -> Forall leaked (windows_cleanup [] live).
Proof.
  intros F. unfold windows_cleanup. rewrite Forall_forall in *. intros b Hb. apply filter_In in Hb. destruct Hb as (I & T). cbn [existsb orb] in T.
  destruct (F b I) as [Q|Q]; [exact Q|]. exfalso. cbn in Q. destruct Q as [<-|[<-|[<-|[<-|[<-|[<-|[<-|[]]]]]]]]; discriminate T.
Qed.
Definition tidy (live0 : list hblock) (x : res windows_outcome) : Prop := forall o, x = Ok o ->
  match wo_published o with None => Forall leaked (wo_live o) | Some _ => wo_live o = live0 ++ kept_blocks end.

Lemma tidy_heap live0 heap_ok b live k : Forall (fun b => leaked b \/ In b windows_frees) live -> tidy live0 (k (live ++ [b])) -> tidy live0 (with_heap heap_ok b live k).
Proof. intros F T. unfold with_heap. destruct (heap_ok b); [exact T|]. intros o [= <-]. cbn [wo_published wo_live]. now apply cleanup_none. Qed.
Lemma tidy_otherwise live0 {A} live (x : res (option A)) k : Forall (fun b => leaked b \/ In b windows_frees) live -> (forall a, tidy live0 (k a)) -> tidy live0 (otherwise live x k).
Proof.
  intros F T o. unfold otherwise. destruct x as [[a|]| |]; cbn [bind]; try discriminate; [apply T|]. intros [= <-]. cbn [wo_published wo_live]. now apply cleanup_none.
Qed.
Lemma tidy_bind live0 {A} (x : res A) k : (forall a, tidy live0 (k a)) -> tidy live0 (bind x k).
Proof. intros T o. destruct x; cbn [bind]; try discriminate. apply T. Qed.

Lemma tidy_init live0 heap_ok chip a : Forall leaked live0 -> tidy live0 (init_by_logical_sys_info heap_ok chip a live0).
Proof.
  intros L. assert (F0 : Forall (fun b => leaked b \/ In b windows_frees) live0) by (eapply Forall_impl; [|exact L]; auto).
  assert (F1 : forall l, Forall (fun b => In b windows_frees) l -> Forall (fun b => leaked b \/ In b windows_frees) (live0 ++ l)).
  { intros l F. apply Forall_app. split; [exact F0|]. eapply Forall_impl; [|exact F]. auto. }
  unfold init_by_logical_sys_info. apply tidy_heap; [exact F0|]. cbv zeta.
  assert (G : forall l, Forall (fun b => leaked b \/ In b windows_frees) l -> forall b, In b windows_frees -> Forall (fun b => leaked b \/ In b windows_frees) (l ++ [b])).
  { intros l F b I. apply Forall_app. split; [exact F|]. constructor; [now right|constructor]. }
  assert (G1 := G _ F0 H_groups ltac:(cbn; tauto)). apply tidy_heap; [exact G1|]. assert (G2 := G _ G1 H_processors ltac:(cbn; tauto)).
  apply tidy_otherwise; [exact G2|]. intros (packages, ps). apply tidy_otherwise; [exact G2|]. intros (cores, u). apply tidy_otherwise; [exact G2|]. intros (all, numbers).
  apply tidy_heap; [exact G2|]. assert (G3 := G _ G2 H_packages ltac:(cbn; tauto)). apply tidy_heap; [exact G3|]. assert (G4 := G _ G3 H_clusters ltac:(cbn; tauto)).
  apply tidy_heap; [exact G4|]. assert (G5 := G _ G4 H_cores ltac:(cbn; tauto)). apply tidy_heap; [exact G5|]. assert (G6 := G _ G5 H_caches ltac:(cbn; tauto)).
  apply tidy_bind. intros caches. apply tidy_otherwise; [exact G6|]. intros (n, k). apply tidy_otherwise; [exact G6|]. intros (cores2, c).
  apply tidy_otherwise; [exact G6|]. intros o1. apply tidy_otherwise; [exact G6|]. intros o2. apply tidy_bind. intros table. apply tidy_heap; [exact G6|].
  apply tidy_bind. intros us. apply tidy_bind. intros max o [= <-]. cbn [wo_published wo_live]. unfold windows_cleanup. rewrite <- !app_assoc, filter_app. f_equal.
  clear - L. induction L as [|b l H F IH]; [reflexivity|]. destruct H as [->|[->| ->]]; exact (f_equal (cons _) IH).
Qed.

Theorem windows_memory arm32 before heap_ok r a o : arm_windows_init arm32 before heap_ok r a = Ok o ->
  exists kept, Forall leaked kept /\ wo_live o = kept ++ match wo_published o with None => [] | Some _ => kept_blocks end.
Proof.
  unfold arm_windows_init. destruct (system_info_from_registry arm32 before heap_ok r) as [(chip, live)| |] eqn:E; cbn [bind]; try discriminate.
  assert (L : Forall leaked live).
  { revert E. unfold system_info_from_registry, read_registry. assert (L1 : Forall leaked [H_text]) by (repeat constructor; unfold leaked; tauto).
    destruct (rg_name_size r) as [size|]; [|intros [= _ <-]; constructor]. destruct (size =? 0)%N; [intros [= _ <-]; constructor|].
    destruct (heap_ok H_text); cbn [negb]; [|intros [= _ <-]; constructor]. destruct (rg_name r) as [text|]; [|intros [= _ <-]; constructor].
    destruct (_ =? 0)%N; [intros [= _ <-]; exact L1|]. destruct (_ =? 0)%N; [intros [= _ <-]; exact L1|]. destruct (negb (heap_ok H_chip)); [intros [= _ <-]; exact L1|].
    destruct (wcsn _ text); cbn [bind]; try discriminate. destruct (core_info_from_midr _ _ _). intros [= _ <-]. unfold leaked.
    destruct (heap_ok H_name); repeat constructor; tauto. }
  intros Ho. pose proof (tidy_init live heap_ok _ a L o Ho) as T. destruct (wo_published o) as [t|]; [exists live; now split|]. exists (wo_live o). rewrite app_nil_r. now split.
Qed.

(** ** Getters *)

Lemma windows_pointers t : let g := final (arm_windows_commit t) in
  gl_initialized g = true /\ forall tb, gl_pointer g tb = Some (tb, N.to_nat (gl_count g tb)).
Proof. intros g. split; [reflexivity|]. intros [| | | | |[]]; unfold g; cbn; now rewrite ?Nat2N.id. Qed.

Lemma windows_counts t : forall tb, gl_count (final (arm_windows_commit t)) tb = N.of_nat match tb with
     | Processors => length (awt_processors t) | Cores => length (awt_cores t) | Clusters => length (awt_clusters t) | Packages => length (awt_packages t)
     | Uarchs => length (awt_uarchs t)
     | Caches L1i => length (awt_caches t K1i) | Caches L1d => length (awt_caches t K1d) | Caches L2 => length (awt_caches t K2) | Caches L3 => length (awt_caches t K3)
     | Caches L4 => 0 end.
Proof. intros [| | | | |[]]; reflexivity. Qed.

Lemma windows_final o t : wo_published o = Some t -> final (arm_windows_routine o) = final (arm_windows_commit t).
Proof. intros E. unfold arm_windows_routine. rewrite E. reflexivity. Qed.

Theorem windows_getters arm32 before heap_ok r a o t cpu tb i : arm_windows_init arm32 before heap_ok r a = Ok o -> wo_published o = Some t ->
  let n := N.of_nat match tb with
     | Processors => length (awt_processors t) | Cores => length (awt_cores t) | Clusters => length (awt_clusters t) | Packages => length (awt_packages t)
     | Uarchs => length (awt_uarchs t)
     | Caches L1i => length (awt_caches t K1i) | Caches L1d => length (awt_caches t K1d) | Caches L2 => length (awt_caches t K2) | Caches L3 => length (awt_caches t K3)
     | Caches L4 => 0 end in
  ask arm_windows (final (arm_windows_routine o)) cpu (Get_count tb) = Number n /\
  ask arm_windows (final (arm_windows_routine o)) cpu (Get_element tb i) = if (i <? n)%N then Pointer tb (N.to_nat i) else Null.
Proof.
  intros _ PT n. rewrite (windows_final o t PT). destruct (windows_pointers t) as (I & P). pose proof (windows_counts t tb) as C. fold n in C.
  specialize (P tb). rewrite C in P. set (g := final (arm_windows_commit t)) in *.
  assert (A : gl_pointer g tb = Some (tb, N.to_nat (gl_count g tb)) \/ (gl_pointer g tb = None /\ gl_count g tb = 0%N)) by (left; rewrite C; exact P).
  unfold ask, getter_prog, guarded. cbn [run_prog]. rewrite I. rewrite <- C.
  destruct tb as [| | | | |[]]; (split; [reflexivity|]); exact (run_indexed _ cpu _ i A).
Qed.

(** ** Instruction sets *)

Lemma windows_isa_extensions present g f : In (g, f) windows_extensions -> has_arm false (windows_isa present no_isa) g = present f.
Proof. intros I. cbn in I. repeat (destruct I as [I|I]; [injection I as <- <-; reflexivity|]). destruct I. Qed.
Lemma windows_isa_assumed present g : In g windows_assumed -> has_arm false (windows_isa present no_isa) g = present PF_dot.
Proof. intros I. cbn in I. repeat (destruct I as [<-|I]; [reflexivity|]). destruct I. Qed.
Lemma windows_isa_always present g : In g windows_always -> has_arm false (windows_isa present no_isa) g = true.
Proof. intros I. cbn in I. repeat (destruct I as [<-|I]; [reflexivity|]). destruct I. Qed.
Lemma windows_isa_never present g : ~ In g (map fst windows_extensions) -> ~ In g windows_assumed -> ~ In g windows_always ->
  has_arm false (windows_isa present no_isa) g = false.
Proof. intros A B C. destruct g; try reflexivity; exfalso; ((apply A; cbn; tauto) || (apply B; cbn; tauto) || (apply C; cbn; tauto)). Qed.
Lemma windows_isa_32 present : Forall (fun g => has_arm true (windows_isa present no_isa) g = false) windows_always.
Proof. repeat constructor. Qed.

(** ** Order *)
From Verif Require Import ArmWindowsOrder.
Lemma windows_consistent a sizes cores packages t : arm_windows_says a sizes cores packages -> placed sizes cores packages t ->
  concat cores = seq 0 (list_sum sizes) -> concat packages = seq 0 (list_sum sizes) ->
  consistent (awt_processors t) (awt_cores t) (awt_clusters t) (awt_packages t).
Proof. intros A P C K. apply (placed_consistent sizes cores packages t P); auto; apply A. Qed.

Lemma windows_midr arm32 before midr vendor uarch : decode_vendor_uarch arm32 midr false = (vendor, uarch) -> vendor <> 0%N -> uarch <> 0%N ->
  core_info_from_midr arm32 before midr = (vendor, uarch).
Proof. intros E V U. unfold core_info_from_midr. rewrite E. apply N.eqb_neq in V, U. now rewrite V, U. Qed.

Lemma windows_isa_all present :
  (forall g f, In (g, f) windows_extensions -> has_arm false (windows_isa present no_isa) g = present f) /\
  (forall g, In g windows_always -> has_arm false (windows_isa present no_isa) g = true) /\
  (forall g, ~ In g (map fst windows_extensions) -> ~ In g windows_assumed -> ~ In g windows_always -> has_arm false (windows_isa present no_isa) g = false).
Proof. split; [apply windows_isa_extensions|split; [apply windows_isa_always|apply windows_isa_never]]. Qed.

Lemma windows_unknown_midr before : core_info_from_midr false before 0x410FD811 = (v_arm, snd before) /\ core_info_from_midr false before 0x7A0F0001 = before.
Proof. destruct before. split; reflexivity. Qed.

Lemma windows_caches_published arm32 before heap_ok r a name midr mhz sizes cores packages infos :
  registry_says r name midr mhz -> arm_windows_says a sizes cores packages -> caches_say a sizes infos -> (forall b, heap_ok b = true) ->
  forall o t, arm_windows_init arm32 before heap_ok r a = Ok o -> wo_published o = Some t ->
  (forall k, level_described sizes infos k t) /\ awt_max_cache_size t = last_level t.
Proof.
  intros R A C H o t E P. destruct (windows_published_iff arm32 before heap_ok r a name midr mhz sizes cores packages infos R A C H) as (o' & E' & S).
  assert (o' = o) by congruence. subst o'. destruct (utf16_characters _) as [cs|]; [|congruence]. destruct (_ <=? _); [|congruence].
  destruct S as (t' & s & P' & _ & _ & _ & L & M). assert (t' = t) by congruence. subst t'. now split.
Qed.
