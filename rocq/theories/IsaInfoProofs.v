(** Lemmas about isa-info. *)
From Verif Require Import Base Text LinuxTextSpec ToolsModel ReportSpec ReportProofs IsaInfoModel IsaInfoSpec IsaInfoLists.
From Verif Require X86DescriptorModel X86IsaModel X86IsaSpec X86IsaProofs ArmIsaModel ArmIsaSpec ArmIsaProofs ArmIsa32Proofs ArmIsa32Proofs RiscvLinuxModel RiscvLinuxSpec
  RiscvApiProofs CpuInfoSpec CpuInfoProofs CpuInfoNamesProofs.
Import X86DescriptorModel(build, Build, b_x86_32, b_android).
Import CpuInfoSpec(same).
Import CpuInfoProofs(same_eq).
Import CpuInfoNamesProofs(same_refl).
Open Scope N_scope.

(** ** Reading a report *)
Definition fine_heading (h : list N) : bool := match h with [] => false | c :: _ => negb (c =? 9) end && forallb (fun c => negb (c =? 10)) h.
Definition fine_label (l : list N) : bool := forallb (fun c => negb (c =? 10) && negb (c =? 58)) l.
Definition fine {G} (c : contents G) : bool :=
  forallb (fun s => fine_heading (fst s) && forallb (fun i => fine_label (fst i)) (snd s)) c.
Definition answer_of {G} (has : G -> bool) (n : N) (i : item G) : answer := match i with Flag g => yes_or_no (has g) | Length => Size n end.
Definition value {G} (has : G -> bool) (n : N) (i : item G) : list N :=
  match i with Flag g => if has g then text "yes" else text "no" | Length => signed n end.
Definition said {G} (has : G -> bool) (n : N) (c : contents G) : list (list N * answer) :=
  map (fun i => (fst i, answer_of has n (snd i))) (flat_map snd c).

Lemma until_colon_read l r : fine_label l = true -> until_colon (l ++ 58 :: r) = Some (l, r).
Proof.
  induction l as [|c l IH]; intros H; [reflexivity|]. cbn [fine_label forallb] in H. apply Bool.andb_true_iff in H as [H1 H2].
  apply Bool.andb_true_iff in H1 as [_ H1]. cbn [app until_colon]. apply Bool.negb_true_iff in H1. rewrite H1. now rewrite IH.
Qed.
Lemma signed_small n : n < 0x80000000 -> signed n = number n.
Proof. intros H. unfold signed. now apply N.ltb_lt in H as ->. Qed.
Lemma number_word n w : (exists c r, w = c :: r /\ 57 < c) -> same (number n) w = false.
Proof.
  intros (c & r & -> & H). destruct (number_head n) as (d & r' & -> & D). unfold is_digit in D. cbn [same].
  destruct (N.eqb_spec d c); [lia|reflexivity].
Qed.
Lemma read_value {G} (has : G -> bool) n i : n < 0x80000000 -> read_answer (value has n i) = Some (answer_of has n i).
Proof.
  intros B. destruct i as [g|]; cbn [value answer_of].
  - destruct (has g); reflexivity.
  - rewrite signed_small by exact B. unfold read_answer.
    rewrite (number_word n (text "yes")) by (eexists _, _; split; [reflexivity|vm_compute; reflexivity]).
    rewrite (number_word n (text "no")) by (eexists _, _; split; [reflexivity|vm_compute; reflexivity]).
    pose proof (a_number_read n [] ltac:(unfold two32; lia) no_digit_nil) as E. rewrite app_nil_r in E. now rewrite E.
Qed.
Lemma value_line {G} (has : G -> bool) n (i : item G) : one_line (value has n i).
Proof.
  destruct i as [g|]; cbn [value].
  - destruct (has g); now apply text_plain.
  - unfold signed. destruct (n <? 0x80000000); [apply number_plain|]. apply Forall_app. split; [now apply text_plain|apply number_plain].
Qed.
Definition line {G} (has : G -> bool) (n : N) (i : list N * item G) : list N := fst i ++ text ": " ++ value has n (snd i).
Lemma read_line_ok {G} (has : G -> bool) n i : fine_label (fst i) = true -> n < 0x80000000 ->
  read_line (line has n i) = Some (fst i, answer_of has n (snd i)).
Proof.
  intros F B. unfold read_line, line. change (text ": " ++ value has n (snd i)) with (58 :: 32 :: value has n (snd i)).
  rewrite until_colon_read by exact F. now rewrite read_value by exact B.
Qed.
Lemma read_lines_ok {G} (has : G -> bool) n l : forallb (fun i => fine_label (fst i)) l = true -> n < 0x80000000 ->
  read_lines (map (line has n) l) = Some (map (fun i => (fst i, answer_of has n (snd i))) l).
Proof.
  intros F B. induction l as [|i l IH]; [reflexivity|]. cbn [forallb] in F. apply Bool.andb_true_iff in F as [F1 F2].
  cbn [map read_lines]. now rewrite read_line_ok, IH.
Qed.
Lemma fine_line {G} (has : G -> bool) n i : fine_label (fst i) = true -> one_line (line has n i).
Proof.
  intros F. unfold line. apply Forall_app. split.
  - apply Forall_forall. intros c I. unfold fine_label in F. rewrite forallb_forall in F. apply F in I. apply Bool.andb_true_iff in I as [I _].
    apply Bool.negb_true_iff, N.eqb_neq in I. exact I.
  - apply Forall_app. split; [now apply text_plain|apply value_line].
Qed.
Definition printed {G} (has : G -> bool) (n : N) (c : contents G) : list section := map (fun s => (fst s, map (line has n) (snd s))) c.
Lemma print_printed {G} (has : G -> bool) n (c : contents G) :
  print_contents has n c = flat_map (fun l => l ++ [10]) (flat_map print_section (printed has n c)).
Proof.
  unfold print_contents, printed. induction c as [|[h items] c IH]; [reflexivity|]. cbn [flat_map map fst snd]. rewrite IH, flat_map_app. f_equal.
  cbn [print_section flat_map fst snd]. rewrite <- app_assoc. f_equal. f_equal.
  rewrite map_map. clear IH. induction items as [|i items IH]; [reflexivity|]. cbn [flat_map map]. rewrite <- IH. f_equal.
  unfold print_item, line, tab, newline. cbn [app]. rewrite <- !app_assoc. reflexivity.
Qed.
Lemma read_contents {G} (has : G -> bool) n (c : contents G) : fine c = true -> n < 0x80000000 ->
  read_isa_info (print_contents has n c) = Some (said has n c).
Proof.
  intros F B. unfold read_isa_info. rewrite print_printed, sections_read.
  - replace (flat_map snd (printed has n c)) with (map (line has n) (flat_map snd c)).
    + apply read_lines_ok; [|exact B]. rewrite forallb_forall. intros i I. apply in_flat_map in I as (s & IS & I).
      unfold fine in F. rewrite forallb_forall in F. apply F in IS. apply Bool.andb_true_iff in IS as [_ IS]. rewrite forallb_forall in IS. now apply IS.
    + unfold printed. clear. induction c as [|[h items] c IH]; [reflexivity|]. cbn [flat_map map fst snd]. now rewrite map_app, IH.
  - apply Forall_forall. intros s I. apply in_map_iff in I as ((h & items) & <- & I). unfold fine in F. rewrite forallb_forall in F. apply F in I.
    cbn [fst snd] in *. apply Bool.andb_true_iff in I as [I1 I2]. unfold fine_heading in I1. apply Bool.andb_true_iff in I1 as [I0 I1]. split; [|split].
    + destruct h as [|c0 h]; [discriminate|]. exists c0, h. split; [reflexivity|]. apply Bool.negb_true_iff, N.eqb_neq in I0. exact I0.
    + apply Forall_forall. intros x Ix. rewrite forallb_forall in I1. apply I1 in Ix. apply Bool.negb_true_iff, N.eqb_neq in Ix. exact Ix.
    + apply Forall_forall. intros x Ix. apply in_map_iff in Ix as (i & <- & Ix). apply fine_line. rewrite forallb_forall in I2. now apply I2.
Qed.

(** ** Labels *)
Definition calls (names : list (list N)) (label : list N) : bool := existsb (fun n => same (spoken n) (spoken label)) names.
Lemma calls_called names label : calls names label = true <-> called names label.
Proof.
  unfold calls, called. rewrite existsb_exists. split; intros (n & I & E); exists n; split; try exact I.
  - now apply same_eq.
  - rewrite E. apply same_refl.
Qed.
Definition distinct (l : list (list N)) : bool :=
  (fix go l := match l with [] => true | x :: l' => negb (existsb (same x) l') && go l' end) l.
Lemma distinct_nodup l : distinct l = true -> NoDup l.
Proof.
  induction l as [|x l IH]; intros H; [constructor|]. cbn in H. apply Bool.andb_true_iff in H as [H1 H2]. constructor; [|now apply IH].
  intros I. apply Bool.negb_true_iff in H1. rewrite <- Bool.not_true_iff_false in H1. apply H1. apply existsb_exists. exists x. split; [exact I|apply same_refl].
Qed.
(** A table is right if its labels differ and call their getters. *)
Definition right {G} (names : G -> list (list N)) (c : contents G) : bool :=
  fine c && distinct (map fst (flat_map snd c)) &&
  forallb (fun i => match snd i with Flag g => calls (names g) (fst i) | Length => true end) (flat_map snd c).
Definition lengths {G} (n : N) (c : contents G) : list (list N * N) :=
  flat_map (fun i => match snd i with Length => [(fst i, n)] | Flag _ => [] end) (flat_map snd c).
Lemma tells_right {G} names (has : G -> bool) n (c : contents G) : right names c = true -> n < 0x80000000 ->
  read_isa_info (print_contents has n c) = Some (said has n c) /\ Tells names has (lengths n c) (said has n c).
Proof.
  unfold right. rewrite !Bool.andb_true_iff. intros [[F D] C] B. split; [now apply read_contents|]. rewrite forallb_forall in C. constructor.
  - unfold said. rewrite map_map. cbn [fst]. now apply distinct_nodup.
  - intros label a I. apply in_map_iff in I as ((l & i) & E & I). cbn [fst snd] in E. injection E as <- <-. destruct i as [g|].
    + left. exists g. split; [|reflexivity]. apply calls_called. apply (C _ I).
    + right. exists n. split; [|reflexivity]. apply in_flat_map. exists (l, Length). split; [exact I|left; reflexivity].
  - intros label m I. apply in_flat_map in I as ((l & i) & I & E). destruct i as [g|]; cbn [snd fst In] in E; [destruct E|]. destruct E as [E|[]].
    injection E as <- <-. apply in_map_iff. exists (l, Length). split; [reflexivity|exact I].
Qed.
Lemma in_told {G} names (has : G -> bool) n (c : contents G) g label : right names c = true -> In (label, Flag g) (flat_map snd c) ->
  told names has (said has n c) g.
Proof.
  unfold right. rewrite !Bool.andb_true_iff. intros [_ C] I. rewrite forallb_forall in C. exists label. split.
  - apply calls_called. apply (C _ I).
  - apply in_map_iff. exists (label, Flag g). split; [reflexivity|exact I].
Qed.
(** Names of different getters differ. *)
Definition apart {G} (names : G -> list (list N)) (gs : list G) : bool := distinct (map spoken (flat_map names gs)).
Lemma distinct_apart (l1 l2 : list (list N)) x : distinct (l1 ++ l2) = true -> In x l1 -> In x l2 -> False.
Proof.
  intros D. apply distinct_nodup in D. induction l1 as [|y l1 IH]; intros I1 I2; [destruct I1|]. cbn [app] in D. inversion_clear D as [|? ? N D'].
  destruct I1 as [->|I1]; [|now apply IH]. apply N. apply in_or_app. now right.
Qed.
Lemma distinct_tail (l1 l2 : list (list N)) : distinct (l1 ++ l2) = true -> distinct l2 = true.
Proof. induction l1 as [|y l1 IH]; [trivial|]. cbn. rewrite Bool.andb_true_iff. intros [_ H]. now apply IH. Qed.
Lemma apart_unique {G} (names : G -> list (list N)) gs : apart names gs = true ->
  forall g g' label, In g gs -> In g' gs -> called (names g) label -> called (names g') label -> g = g'.
Proof.
  unfold apart. intros D g g' label I I' (n & In1 & E) (n' & In2 & E').
  assert (IN : forall h l m, In h l -> In m (names h) -> In (spoken m) (map spoken (flat_map names l)))
    by (intros h l m H1 H2; apply in_map, in_flat_map; eauto).
  induction gs as [|h gs IH]; [destruct I|]. cbn [flat_map] in D. rewrite map_app in D.
  destruct I as [->|I], I' as [->|I'].
  - reflexivity.
  - exfalso. apply (distinct_apart _ _ (spoken label) D); [rewrite <- E; now apply in_map|]. rewrite <- E'. now apply (IN g').
  - exfalso. apply (distinct_apart _ _ (spoken label) D); [rewrite <- E'; now apply in_map|]. rewrite <- E. now apply (IN g).
  - apply IH; [now apply distinct_tail in D|exact I|exact I'].
Qed.

(** ** The tables *)
Lemma x86_right b : right x86_names (x86_contents b) = true.
Proof. destruct b as [[] []]; vm_compute; reflexivity. Qed.
Lemma arm32_right : right arm_names arm32_contents = true.
Proof. vm_compute. reflexivity. Qed.
Lemma arm64_right : right arm_names arm64_contents = true.
Proof. vm_compute. reflexivity. Qed.
Lemma riscv_right : right riscv_names riscv_contents = true.
Proof. vm_compute. reflexivity. Qed.
Lemma x86_apart : apart x86_names every_x86 = true.
Proof. vm_compute. reflexivity. Qed.
Lemma arm_apart : apart arm_names every_arm = true.
Proof. vm_compute. reflexivity. Qed.
Lemma riscv_apart : apart riscv_names every_riscv = true.
Proof. vm_compute. reflexivity. Qed.

Lemma labels_unique :
  (forall g g' label, called (x86_names g) label -> called (x86_names g') label -> g = g') /\
  (forall g g' label, called (arm_names g) label -> called (arm_names g') label -> g = g') /\
  (forall g g' label, called (riscv_names g) label -> called (riscv_names g') label -> g = g').
Proof.
  split; [|split]; intros g g' label.
  - exact (apart_unique _ _ x86_apart g g' label (every_x86_all g) (every_x86_all g')).
  - exact (apart_unique _ _ arm_apart g g' label (every_arm_all g) (every_arm_all g')).
  - exact (apart_unique _ _ riscv_apart g g' label (every_riscv_all g) (every_riscv_all g')).
Qed.

(** Getters that have lines. *)
Definition shows {G} (names : G -> list (list N)) (c : contents G) (g : G) : bool :=
  existsb (fun i => match snd i, names g with Flag g', n :: _ => calls (names g') n | _, _ => false end) (flat_map snd c).
Lemma shows_told {G} (names : G -> list (list N)) (has : G -> bool) n c g :
  (forall g g' label, called (names g) label -> called (names g') label -> g = g') -> right names c = true -> shows names c g = true ->
  told names has (said has n c) g.
Proof.
  intros U R S. apply existsb_exists in S as ((l & i) & I & E). destruct i as [g'|]; [|discriminate]. cbn [snd] in E.
  destruct (names g) as [|m ms] eqn:EN; [discriminate|]. apply calls_called in E.
  assert (g = g') as <-. { apply (U g g' m); [|exact E]. exists m. split; [rewrite EN; now left|reflexivity]. }
  exact (in_told names has n c g l R I).
Qed.
Lemma x86_shown b g : (b_x86_32 b = false -> ~ In g [X86IsaModel.Has_fpu; X86IsaModel.Has_cmov; X86IsaModel.Has_cmpxchg8b; X86IsaModel.Has_rdtsc]) ->
  shows x86_names (x86_contents b) g = true.
Proof.
  intros H. destruct b as [[] a]; cbn [b_x86_32] in H.
  - assert (E : forallb (shows x86_names (x86_contents (Build true a))) every_x86 = true) by (vm_compute; reflexivity).
    rewrite forallb_forall in E. apply E, every_x86_all.
  - specialize (H eq_refl).
    assert (E : forallb (fun g => shows x86_names (x86_contents (Build false a)) g ||
      match g with X86IsaModel.Has_fpu | X86IsaModel.Has_cmov | X86IsaModel.Has_cmpxchg8b | X86IsaModel.Has_rdtsc => true | _ => false end) every_x86 = true)
      by (vm_compute; reflexivity).
    rewrite forallb_forall in E. specialize (E g (every_x86_all g)). apply Bool.orb_true_iff in E as [E|E]; [exact E|]. exfalso. apply H.
    destruct g; try discriminate E; cbn [In]; tauto.
Qed.

(** ** x86 *)
Lemma x86_report b isa : exists said, read_isa_info (isa_info_x86 b isa) = Some said /\
  Tells x86_names (X86IsaModel.has_x86 b isa) [] said /\
  forall g, X86IsaSpec.by_build b g <> Some true -> told x86_names (X86IsaModel.has_x86 b isa) said g.
Proof.
  destruct (tells_right x86_names (X86IsaModel.has_x86 b isa) 0 (x86_contents b) (x86_right b) ltac:(lia)) as [R T].
  assert (L : lengths 0 (x86_contents b) = []) by (destruct b as [[] []]; vm_compute; reflexivity). rewrite L in T.
  exists (said (X86IsaModel.has_x86 b isa) 0 (x86_contents b)). split; [exact R|]. split; [exact T|].
  intros g H. apply shows_told; [apply labels_unique|apply x86_right|]. apply x86_shown. intros E I. apply H.
  cbn [In] in I. destruct b as [b32 a]. cbn in E. subst b32.
  destruct I as [<-|[<-|[<-|[<-|[]]]]]; destruct a; reflexivity.
Qed.

(** Two reports with the same text say the same about a getter that both have lines for. *)
Lemma told_both {G} names (has has' : G -> bool) sizes said g :
  (forall g g' label, called (names g) label -> called (names g') label -> g = g') ->
  Tells names has sizes said -> Tells names has' sizes said -> (forall l, ~ (called (names g) l /\ exists n, In (l, n) sizes)) ->
  told names has said g -> has g = has' g.
Proof.
  intros U T T' NS (label & C & I). destruct (tells_lines _ _ _ _ T' _ _ I) as [(g' & C' & E)|(n & IS & E)].
  - assert (g = g') as <- by exact (U _ _ _ C C'). destruct (has g), (has' g); (reflexivity || discriminate E).
  - exfalso. apply (NS label). eauto.
Qed.
Lemma x86_tells_all b isa isa' : isa_info_x86 b isa = isa_info_x86 b isa' -> forall g, X86IsaModel.has_x86 b isa g = X86IsaModel.has_x86 b isa' g.
Proof.
  intros E g. destruct (x86_report b isa) as (s & R & T & A). destruct (x86_report b isa') as (s' & R' & T' & _).
  rewrite E, R' in R. injection R as ->.
  assert (D : X86IsaSpec.by_build b g = Some true \/ X86IsaSpec.by_build b g <> Some true)
    by (destruct (X86IsaSpec.by_build b g) as [[]|]; [now left|now right|now right]).
  destruct D as [D|D].
  - now rewrite !(X86IsaProofs.getter_by_build _ _ _ _ D).
  - apply (told_both x86_names _ _ [] s g); [apply labels_unique|exact T|exact T'|intros l (_ & n & []) |now apply A].
Qed.

(** What the line of a getter says. *)
Lemma line_of {G} names (has : G -> bool) sizes said g label a :
  (forall g g' label, called (names g) label -> called (names g') label -> g = g') -> Tells names has sizes said ->
  (forall n, ~ In (label, n) sizes) -> called (names g) label -> In (label, a) said -> a = yes_or_no (has g).
Proof.
  intros U T NS C I. destruct (tells_lines _ _ _ _ T _ _ I) as [(g' & C' & E)|(n & IS & E)]; [|now destruct (NS n)].
  now assert (g = g') as <- by exact (U _ _ _ C C').
Qed.
Lemma x86_documented b m said label a g places state :
  1 <= X86DecodeModel.eax (X86DecodeModel.cpuid m 0) -> X86IsaSpec.coherent m -> X86IsaSpec.by_build b g = None ->
  X86IsaSpec.documented_on b m g = Some (X86IsaSpec.Entry places state) -> ~ X86IsaSpec.amx_getter g -> ~ X86IsaSpec.vaes_getter g ->
  read_isa_info (isa_info_x86 b (X86IsaModel.init_isa b m)) = Some said -> called (x86_names g) label -> In (label, a) said ->
  (a = Yes <-> (exists p, In p places /\ X86IsaSpec.announces m p) /\ X86IsaSpec.os_enabled m state) /\ (a = Yes \/ a = No).
Proof.
  intros H1 H2 H3 H4 H5 H6 R C I. destruct (x86_report b (X86IsaModel.init_isa b m)) as (s & R' & T & _). rewrite R' in R. injection R as ->.
  assert (E : a = yes_or_no (X86IsaModel.has_x86 b (X86IsaModel.init_isa b m) g))
    by (apply (line_of x86_names _ [] said g label); [apply labels_unique|exact T|intros n []|exact C|exact I]).
  pose proof (X86IsaProofs.reported_sound b m g places state H3 H4 H5 H6) as S.
  pose proof (X86IsaProofs.reported_complete b m g places state H1 H2 H3 H4 H5) as K. unfold X86IsaSpec.reports in S, K. subst a.
  destruct (X86IsaModel.has_x86 b (X86IsaModel.init_isa b m) g); cbn [yes_or_no]; (split; [split|]); auto; try discriminate.
  intros [P Q]. now discriminate (K P Q).
Qed.

(** ** ARM *)
Lemma arm_report arm32 isa svelen : svelen < 2 ^ 16 -> exists said, read_isa_info (isa_info_arm arm32 isa svelen) = Some said /\
  Tells arm_names (ArmIsaModel.has_arm arm32 isa) (arm_sizes arm32 svelen) said /\
  forall g, shows arm_names (if arm32 then arm32_contents else arm64_contents) g = true -> told arm_names (ArmIsaModel.has_arm arm32 isa) said g.
Proof.
  intros B. change (2 ^ 16) with 65536 in B.
  assert (E : ArmIsaModel.max_arm_sve_length arm32 svelen = if arm32 then 0 else 8 * svelen).
  { unfold ArmIsaModel.max_arm_sve_length. destruct arm32; [reflexivity|]. unfold u32. rewrite N.mod_small by (unfold two32; lia). lia. }
  unfold isa_info_arm. rewrite E. destruct arm32.
  - destruct (tells_right arm_names (ArmIsaModel.has_arm true isa) 0 arm32_contents arm32_right ltac:(lia)) as [R T].
    eexists. split; [exact R|]. split; [exact T|]. intros g. apply shows_told; [apply labels_unique|exact arm32_right].
  - destruct (tells_right arm_names (ArmIsaModel.has_arm false isa) (8 * svelen) arm64_contents arm64_right ltac:(lia)) as [R T].
    eexists. split; [exact R|]. split; [exact T|]. intros g. apply shows_told; [apply labels_unique|exact arm64_right].
Qed.
Lemma sve_label g l arm32 svelen : ~ (called (arm_names g) l /\ exists n, In (l, n) (arm_sizes arm32 svelen)).
Proof.
  intros (C & n & I). destruct arm32; [destruct I|]. destruct I as [E|[]]. injection E as <- _.
  assert (H : forallb (fun g => negb (calls (arm_names g) (text "SVE max length"))) every_arm = true) by (vm_compute; reflexivity).
  rewrite forallb_forall in H. specialize (H g (every_arm_all g)). apply calls_called in C. rewrite C in H. discriminate.
Qed.
Lemma arm_same_line arm32 isa isa' svelen svelen' : svelen < 2 ^ 16 -> svelen' < 2 ^ 16 ->
  isa_info_arm arm32 isa svelen = isa_info_arm arm32 isa' svelen' ->
  (arm32 = false -> svelen = svelen') /\
  forall g, shows arm_names (if arm32 then arm32_contents else arm64_contents) g = true -> ArmIsaModel.has_arm arm32 isa g = ArmIsaModel.has_arm arm32 isa' g.
Proof.
  intros B B' E. destruct (arm_report arm32 isa svelen B) as (s & R & T & A). destruct (arm_report arm32 isa' svelen' B') as (s' & R' & T' & _).
  rewrite E, R' in R. injection R as ->.
  assert (L : arm32 = false -> svelen = svelen').
  { intros ->. pose proof (tells_sizes _ _ _ _ T _ _ (or_introl eq_refl)) as I. destruct (tells_lines _ _ _ _ T' _ _ I) as [(g & _ & H)|(n & IN & H)].
    - destruct (ArmIsaModel.has_arm false isa' g); discriminate H.
    - destruct IN as [IN|[]]. injection IN as <-. injection H as H. lia. }
  split; [exact L|]. intros g S. assert (E' : arm_sizes arm32 svelen = arm_sizes arm32 svelen') by (destruct arm32; [reflexivity|now rewrite L]).
  apply (told_both arm_names _ _ (arm_sizes arm32 svelen) s g); [apply labels_unique|exact T|rewrite E'; exact T'|intros l; apply sve_label|now apply A].
Qed.

Lemma arm64_shown : forallb (shows arm_names arm64_contents)
  [ArmIsaModel.Has_atomics; ArmIsaModel.Has_neon_rdm; ArmIsaModel.Has_fp16_arith; ArmIsaModel.Has_fhm; ArmIsaModel.Has_bf16; ArmIsaModel.Has_neon_dot;
   ArmIsaModel.Has_i8mm; ArmIsaModel.Has_jscvt; ArmIsaModel.Has_fcma; ArmIsaModel.Has_sve; ArmIsaModel.Has_sve2; ArmIsaModel.Has_sme; ArmIsaModel.Has_sme2;
   ArmIsaModel.Has_aes; ArmIsaModel.Has_sha1; ArmIsaModel.Has_sha2; ArmIsaModel.Has_pmull; ArmIsaModel.Has_crc32] = true.
Proof. vm_compute. reflexivity. Qed.
Lemma arm64_tells isa isa' svelen svelen' : svelen < 2 ^ 16 -> svelen' < 2 ^ 16 ->
  isa_info_arm false isa svelen = isa_info_arm false isa' svelen' ->
  svelen = svelen' /\ forall g, ~ In g sme_extensions -> ArmIsaModel.has_arm false isa g = ArmIsaModel.has_arm false isa' g.
Proof.
  intros B B' E. destruct (arm_same_line false isa isa' svelen svelen' B B' E) as [L S]. split; [now apply L|]. intros g H.
  pose proof arm64_shown as K. rewrite forallb_forall in K.
  assert (Q : forall x, In x [ArmIsaModel.Has_atomics; ArmIsaModel.Has_neon_rdm; ArmIsaModel.Has_fp16_arith; ArmIsaModel.Has_fhm; ArmIsaModel.Has_bf16; ArmIsaModel.Has_neon_dot;
   ArmIsaModel.Has_i8mm; ArmIsaModel.Has_jscvt; ArmIsaModel.Has_fcma; ArmIsaModel.Has_sve; ArmIsaModel.Has_sve2; ArmIsaModel.Has_sme; ArmIsaModel.Has_sme2;
   ArmIsaModel.Has_aes; ArmIsaModel.Has_sha1; ArmIsaModel.Has_sha2; ArmIsaModel.Has_pmull; ArmIsaModel.Has_crc32] ->
   ArmIsaModel.has_arm false isa x = ArmIsaModel.has_arm false isa' x) by (intros x I; apply S, K, I). clear S K E L.
  pose proof (Q ArmIsaModel.Has_fp16_arith) as Q1. pose proof (Q ArmIsaModel.Has_bf16) as Q2. pose proof (Q ArmIsaModel.Has_sve) as Q3.
  destruct g; try reflexivity; try (apply Q; cbn [In]; tauto); try (exfalso; apply H; cbn [sme_extensions In]; tauto).
  - apply Q1. cbn [In]. tauto.
  - apply Q2. cbn [In]. tauto.
  - cbn [ArmIsaModel.has_arm]. cbn [ArmIsaModel.has_arm] in Q2, Q3. rewrite Q2, Q3 by (cbn [In]; tauto). reflexivity.
Qed.

Lemma arm32_tells c t chip ps c' t' chip' ps' svelen svelen' : svelen < 2 ^ 16 -> svelen' < 2 ^ 16 ->
  let isa := ArmIsaModel.arm_linux_isa true c t chip ps in let isa' := ArmIsaModel.arm_linux_isa true c' t' chip' ps' in
  isa_info_arm true isa svelen = isa_info_arm true isa' svelen' -> forall g, ArmIsaModel.has_arm true isa g = ArmIsaModel.has_arm true isa' g.
Proof.
  intros B B' isa isa' E. destruct (arm_same_line true isa isa' svelen svelen' B B' E) as [_ S].
  assert (F : forall c t chip ps, ArmIsaModel.has_arm true (ArmIsaModel.arm_linux_isa true c t chip ps) ArmIsaModel.Has_fp16_arith =
    ArmIsaModel.has_arm true (ArmIsaModel.arm_linux_isa true c t chip ps) ArmIsaModel.Has_neon_fp16_arith).
  { clear. intros c t chip ps. unfold ArmIsaModel.arm_linux_isa. destruct (ArmIsaModel.feature_words c ps) as [f f2].
    destruct (ArmIsaModel.last_architecture ps) as [v l].
    pose proof (ArmIsa32Proofs.builds (ArmIsaSpec.Inputs f f2 (ArmIsaModel.last_midr ps) v l chip t) ArmIsaModel.Has_fp16_arith ArmIsaModel.Has_neon_fp16_arith
      ltac:(cbn; tauto)) as H.
    unfold ArmIsaSpec.has32 in H. cbn [ArmIsaSpec.in_features ArmIsaSpec.in_features2 ArmIsaSpec.in_midr ArmIsaSpec.in_version ArmIsaSpec.in_letters ArmIsaSpec.in_chip ArmIsaSpec.in_target] in H.
    cbn [ArmIsaModel.has_arm] in H |- *.
    destruct (ArmIsaModel.decode_isa32 _ _ _ _ _ _ _ _ ArmIsaModel.F_fp16arith), (ArmIsaModel.decode_isa32 _ _ _ _ _ _ _ _ ArmIsaModel.F_neon); cbn [andb] in *; auto.
    discriminate (H eq_refl). }
  assert (K : forall g, shows arm_names arm32_contents g = true -> ArmIsaModel.has_arm true isa g = ArmIsaModel.has_arm true isa' g) by exact S.
  clear S E. intros g.
  assert (D : shows arm_names arm32_contents g = true \/ (forall i, ArmIsaModel.has_arm true i g = false) \/ In g [ArmIsaModel.Has_fp16_arith; ArmIsaModel.Has_neon_v8]).
  { destruct g; try (left; vm_compute; reflexivity); try (right; left; reflexivity); right; right; cbn [In]; tauto. }
  destruct D as [D|[D|D]]; [now apply K|now rewrite !D|]. cbn [In] in D. destruct D as [<-|[<-|[]]].
  - unfold isa, isa'. rewrite !F. apply K. vm_compute. reflexivity.
  - pose proof (K ArmIsaModel.Has_neon ltac:(vm_compute; reflexivity)) as K1. pose proof (K ArmIsaModel.Has_v8 ltac:(vm_compute; reflexivity)) as K2.
    cbn [ArmIsaModel.has_arm] in *. now rewrite K1, K2.
Qed.

Lemma arm64_documented hwcap hwcap2 t chip ps svelen said label a g w n : svelen < 2 ^ 16 -> In (g, (w, n)) ArmIsaSpec.kernel_bits64 ->
  read_isa_info (isa_info_arm false (ArmIsaModel.arm_linux_isa false (ArmIsaModel.Getauxval hwcap hwcap2) t chip ps) svelen) = Some said ->
  called (arm_names g) label -> In (label, a) said -> a = yes_or_no (ArmIsaSpec.bit hwcap hwcap2 w n).
Proof.
  intros B K R C I. destruct (arm_report false (ArmIsaModel.arm_linux_isa false (ArmIsaModel.Getauxval hwcap hwcap2) t chip ps) svelen B) as (s & R' & T & _).
  rewrite R' in R. injection R as ->. rewrite <- (ArmIsa32Proofs.linux_kernel_bits hwcap hwcap2 t chip ps g w n K).
  apply (line_of arm_names _ (arm_sizes false svelen) said g label); [apply labels_unique|exact T| |exact C|exact I].
  intros m J. apply (sve_label g label false svelen). eauto.
Qed.

(** ** RISC-V *)
Lemma riscv_report rv32 isa : exists said, read_isa_info (isa_info_riscv rv32 isa) = Some said /\
  Tells riscv_names (RiscvLinuxModel.has_riscv rv32 isa) [] said /\
  forall g, shows riscv_names riscv_contents g = true -> told riscv_names (RiscvLinuxModel.has_riscv rv32 isa) said g.
Proof.
  destruct (tells_right riscv_names (RiscvLinuxModel.has_riscv rv32 isa) 0 riscv_contents riscv_right ltac:(lia)) as [R T].
  eexists. split; [exact R|]. split; [exact T|]. intros g. apply shows_told; [apply labels_unique|exact riscv_right].
Qed.
Lemma riscv_tells rv32 hwcap hwcap' :
  let isa := RiscvLinuxModel.decode_hwcap hwcap in let isa' := RiscvLinuxModel.decode_hwcap hwcap' in
  isa_info_riscv rv32 isa = isa_info_riscv rv32 isa' -> forall g, RiscvLinuxModel.has_riscv rv32 isa g = RiscvLinuxModel.has_riscv rv32 isa' g.
Proof.
  intros isa isa' E. destruct (riscv_report rv32 isa) as (s & R & T & A). destruct (riscv_report rv32 isa') as (s' & R' & T' & _).
  rewrite E, R' in R. injection R as ->.
  assert (K : forall g, shows riscv_names riscv_contents g = true -> RiscvLinuxModel.has_riscv rv32 isa g = RiscvLinuxModel.has_riscv rv32 isa' g).
  { intros g S. apply (told_both riscv_names _ _ [] s g); [apply labels_unique|exact T|exact T'|intros l (_ & n & [])|now apply A]. }
  intros g. destruct g; try (apply K; vm_compute; reflexivity).
  - destruct rv32; reflexivity.
  - pose proof (K RiscvLinuxModel.Has_i ltac:(vm_compute; reflexivity)) as K1. pose proof (K RiscvLinuxModel.Has_m ltac:(vm_compute; reflexivity)) as K2.
    pose proof (K RiscvLinuxModel.Has_a ltac:(vm_compute; reflexivity)) as K3. pose proof (K RiscvLinuxModel.Has_f ltac:(vm_compute; reflexivity)) as K4.
    pose proof (K RiscvLinuxModel.Has_d ltac:(vm_compute; reflexivity)) as K5. cbn [RiscvLinuxModel.has_riscv] in *. now rewrite K1, K2, K3, K4, K5.
Qed.
(** The letter of the extension that the kernel reports. *)
Lemma riscv_documented rv32 hwcap said label a g letter :
  In (g, letter) riscv_letters -> read_isa_info (isa_info_riscv rv32 (RiscvLinuxModel.decode_hwcap hwcap)) = Some said ->
  called (riscv_names g) label -> In (label, a) said -> (a = Yes <-> RiscvLinuxSpec.kernel_names hwcap letter) /\ (a = Yes \/ a = No).
Proof.
  intros L R C I. destruct (riscv_report rv32 (RiscvLinuxModel.decode_hwcap hwcap)) as (s & R' & T & _). rewrite R' in R. injection R as ->.
  assert (E : a = yes_or_no (RiscvLinuxModel.has_riscv rv32 (RiscvLinuxModel.decode_hwcap hwcap) g))
    by (apply (line_of riscv_names _ [] said g label); [apply labels_unique|exact T|intros m []|exact C|exact I]).
  assert (H : RiscvLinuxModel.has_riscv rv32 (RiscvLinuxModel.decode_hwcap hwcap) g = true <-> RiscvLinuxSpec.kernel_names hwcap letter).
  { pose proof (RiscvApiProofs.riscv_isa_exact rv32 hwcap) as (H1 & H2 & H3 & H4 & H5 & H6 & H7 & _).
    cbn [riscv_letters In] in L. repeat (destruct L as [L|L]; [injection L as <- <-; assumption|]). destruct L. }
  subst a. destruct (RiscvLinuxModel.has_riscv rv32 (RiscvLinuxModel.decode_hwcap hwcap) g); cbn [yes_or_no]; split; try tauto.
  - split; [discriminate|]. intros K. now apply H in K.
Qed.

Lemma arm_said arm32 isa svelen : svelen < 2 ^ 16 -> exists said,
  read_isa_info (isa_info_arm arm32 isa svelen) = Some said /\ Tells arm_names (ArmIsaModel.has_arm arm32 isa) (arm_sizes arm32 svelen) said.
Proof. intros B. destruct (arm_report arm32 isa svelen B) as (s & R & T & _). now exists s. Qed.
Lemma riscv_said rv32 isa : exists said,
  read_isa_info (isa_info_riscv rv32 isa) = Some said /\ Tells riscv_names (RiscvLinuxModel.has_riscv rv32 isa) [] said.
Proof. destruct (riscv_report rv32 isa) as (s & R & T & _). now exists s. Qed.

(** Reports depend only on the getters that have lines. *)
Lemma print_same {G} (has has' : G -> bool) n (c : contents G) :
  (forall g label, In (label, Flag g) (flat_map snd c) -> has g = has' g) -> print_contents has n c = print_contents has' n c.
Proof.
  intros H. unfold print_contents. induction c as [|[h items] c IH]; [reflexivity|]. cbn [flat_map fst snd] in *.
  rewrite IH by (intros g label I; apply (H g label), in_or_app; now right). f_equal. f_equal. f_equal.
  assert (H' : forall g label, In (label, Flag g) items -> has g = has' g) by (intros g label I; apply (H g label), in_or_app; now left).
  clear - H'. induction items as [|[l i] items IH]; [reflexivity|]. cbn [flat_map]. rewrite IH by (intros g label I; apply (H' g label); now right).
  f_equal. unfold print_item. cbn [fst snd]. destruct i as [g|]; [|reflexivity]. now rewrite (H' g l (or_introl eq_refl)).
Qed.
Definition sme_word (k : N) : N := N.lor 0x2000800000 (2 ^ k).
Lemma sme_alike hwcap k t chip ps svelen : In k [38; 39; 40; 41; 42] ->
  isa_info_arm false (ArmIsaModel.arm_linux_isa false (ArmIsaModel.Getauxval hwcap (sme_word k)) t chip ps) svelen =
  isa_info_arm false (ArmIsaModel.arm_linux_isa false (ArmIsaModel.Getauxval hwcap 0x2000800000) t chip ps) svelen.
Proof.
  intros K. unfold isa_info_arm. cbn match. apply (print_same _ _ (ArmIsaModel.max_arm_sve_length false svelen) arm64_contents). intros g label I.
  assert (B : forall n, In n [1; 12; 13; 14; 23; 37] -> N.testbit (sme_word k) n = N.testbit 0x2000800000 n).
  { intros n J. cbn [In] in K, J. destruct K as [<-|[<-|[<-|[<-|[<-|[]]]]]], J as [<-|[<-|[<-|[<-|[<-|[<-|[]]]]]]]; reflexivity. }
  assert (D : (exists w n, In (g, (w, n)) ArmIsaSpec.kernel_bits64 /\ (w = ArmIsaSpec.Hwcap2 -> In n [1; 12; 13; 14; 23; 37])) \/
    In g [ArmIsaModel.Has_bf16; ArmIsaModel.Has_fp16_arith; ArmIsaModel.Has_neon_rdm; ArmIsaModel.Has_neon_dot]).
  { cbn [arm64_contents flat_map snd app In] in I.
    repeat (destruct I as [I|I]; [injection I as _ <- || discriminate I;
      first [right; cbn [In]; tauto | left; eexists _, _; split; [cbn; tauto|intros E; (discriminate E || (cbn [In]; tauto))]]|]). destruct I. }
  destruct D as [(w & n & H & Q)|D].
  - rewrite !(ArmIsa32Proofs.linux_kernel_bits _ _ _ _ _ _ _ _ H). unfold ArmIsaSpec.bit. destruct w; [reflexivity|]. now apply B, Q.
  - unfold ArmIsaModel.arm_linux_isa, ArmIsaModel.feature_words. cbn [In] in D.
    destruct D as [<-|[<-|[<-|[<-|[]]]]]; cbn [ArmIsaModel.has_arm].
    + rewrite !ArmIsaProofs.bf16_64. rewrite !B by (cbn [In]; tauto). reflexivity.
    + now rewrite !ArmIsaProofs.fp16arith_64.
    + now rewrite !ArmIsaProofs.rdm_64.
    + now rewrite !ArmIsaProofs.dot_64.
Qed.
Lemma sme_hidden g : In g sme_extensions -> exists hwcap2 hwcap2', forall hwcap t chip ps svelen,
  let isa := ArmIsaModel.arm_linux_isa false (ArmIsaModel.Getauxval hwcap hwcap2) t chip ps in
  let isa' := ArmIsaModel.arm_linux_isa false (ArmIsaModel.Getauxval hwcap hwcap2') t chip ps in
  isa_info_arm false isa svelen = isa_info_arm false isa' svelen /\
  ArmIsaModel.has_arm false isa g = true /\ ArmIsaModel.has_arm false isa' g = false /\
  ArmIsaModel.has_arm false isa ArmIsaModel.Has_sme2 = true /\ ArmIsaModel.has_arm false isa' ArmIsaModel.Has_sme2 = true.
Proof.
  intros I. assert (K : exists k, In k [38; 39; 40; 41; 42] /\ In (g, (ArmIsaSpec.Hwcap2, k)) ArmIsaSpec.kernel_bits64).
  { cbn [sme_extensions In] in I. destruct I as [<-|[<-|[<-|[<-|[<-|[]]]]]]; [exists 38|exists 39|exists 40|exists 41|exists 42]; cbn; tauto. }
  destruct K as (k & K & H). exists (sme_word k), 0x2000800000. intros hwcap t chip ps svelen isa isa'. split; [now apply sme_alike|].
  assert (S : In (ArmIsaModel.Has_sme2, (ArmIsaSpec.Hwcap2, 37)) ArmIsaSpec.kernel_bits64) by (cbn; tauto).
  unfold isa, isa'. rewrite !(ArmIsa32Proofs.linux_kernel_bits _ _ _ _ _ _ _ _ H), !(ArmIsa32Proofs.linux_kernel_bits _ _ _ _ _ _ _ _ S).
  cbn [In] in K. destruct K as [<-|[<-|[<-|[<-|[<-|[]]]]]]; repeat split.
Qed.
