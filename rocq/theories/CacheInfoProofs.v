(** Lemmas about cache-info. *)
From Verif Require Import Base Text TopologySpec LinuxTextSpec ToolsModel ReportSpec ReportProofs CacheInfoModel CacheInfoSpec.
Open Scope N_scope.

(** ** Lines *)
Definition body (count : N) (c : cache) (level : N) (nonunified_type : list N) : list N :=
  let g := ca_geometry c in
  text "L" ++ number level ++ text " " ++ (if has_flag flag_unified g then text "unified" else nonunified_type) ++ text " cache: " ++
  (if negb (count =? 1) then number count ++ text " x " else []) ++
  number (fst (in_units (g_size g))) ++ text " " ++ snd (in_units (g_size g)) ++
  (if level =? 1 then text ", "
   else text " (" ++ (if has_flag flag_inclusive g then text "inclusive" else text "exclusive") ++ text "), ") ++
  (if u32 (g_associativity g * g_line_size g) =? g_size g then text "fully associative"
   else number (g_associativity g) ++ text "-way set associative") ++
  (if negb (g_sets g =? 0) then
     text " (" ++ number (g_sets g) ++ text " sets" ++
     (if negb (g_partitions g =? 1) then text ", " ++ number (g_partitions g) ++ text " partitions" else []) ++
     (if has_flag flag_complex g then text ", complex indexing), " else text "), ")
   else []) ++
  number (g_line_size g) ++ text " byte lines" ++
  (if negb (Nat.eqb (ca_processor_count c) 0) then text ", shared by " ++ number (N.of_nat (ca_processor_count c)) ++ text " processors" else []).

Lemma report_body count c level type : report_cache count c level type = body count c level type ++ [10].
Proof.
  unfold report_cache, body. destruct (in_units (g_size (ca_geometry c))) as [size units]. cbn [fst snd].
  destruct (level =? 1); destruct (Nat.eqb (ca_processor_count c) 0); cbn [negb]; repeat rewrite <- app_assoc; reflexivity.
Qed.

Lemma body_plain count c level type : Forall (fun c => c <> 10) type -> Forall (fun c => c <> 10) (body count c level type).
Proof.
  intros T. unfold body, in_units.
  repeat first [apply Forall_app; split | apply number_plain | apply Forall_nil | exact T | apply text_plain; reflexivity |
    match goal with |- Forall _ (if ?b then _ else _) => destruct b | |- context [snd (if ?b then _ else _)] => destruct b; cbn [fst snd] end].
Qed.

Lemma has_flag_bit k g : has_flag (2 ^ k) g = N.testbit (g_flags g) k.
Proof.
  unfold has_flag. destruct (N.testbit (g_flags g) k) eqn:E.
  - destruct (N.eqb_spec (N.land (g_flags g) (2 ^ k)) 0) as [Z|_]; [|reflexivity].
    assert (H : N.testbit (N.land (g_flags g) (2 ^ k)) k = true) by (rewrite N.land_spec, E, N.pow2_bits_true; reflexivity).
    rewrite Z in H. rewrite N.bits_0 in H. discriminate.
  - replace (N.land (g_flags g) (2 ^ k)) with 0; [reflexivity|]. symmetry. apply N.bits_inj. intros j. rewrite N.land_spec, N.bits_0.
    destruct (N.eq_dec j k) as [->|NE]; [now rewrite E|]. rewrite N.pow2_bits_false by congruence. apply Bool.andb_false_r.
Qed.

Lemma in_units_ok size : size < two32 -> let '(n, u) := in_units size in n < two32 /\
  ((u = text "MB" /\ size = n * (1024 * 1024)) \/ (u = text "KB" /\ size = n * 1024) \/ (u = text "bytes" /\ size = n * 1)).
Proof.
  intros B. unfold in_units. destruct (N.eqb_spec (size mod 1048576) 0) as [E|E]; [|destruct (N.eqb_spec (size mod 1024) 0) as [E'|E']].
  - split; [apply N.le_lt_trans with size; [apply N.div_le_upper_bound; lia|exact B]|]. left. split; [reflexivity|].
    pose proof (N.div_mod size 1048576 ltac:(discriminate)) as H. change (1024 * 1024) with 1048576. lia.
  - split; [apply N.le_lt_trans with size; [apply N.div_le_upper_bound; lia|exact B]|]. right. left. split; [reflexivity|].
    pose proof (N.div_mod size 1024 ltac:(discriminate)) as H. lia.
  - split; [exact B|]. right. right. split; [reflexivity|lia].
Qed.

Definition type_of (k : kind) : list N := match k with Instruction => text "instruction" | _ => text "data" end.
Definition told (count : N) (c : cache) (level : N) (k : kind) : description :=
  let g := ca_geometry c in
  Description level (if has_flag flag_unified g then Unified else k) count (g_size g)
    (if level =? 1 then None else Some (has_flag flag_inclusive g))
    (if u32 (g_associativity g * g_line_size g) =? g_size g then None else Some (g_associativity g))
    (g_sets g) (g_partitions g) (has_flag flag_complex g) (g_line_size g) (N.of_nat (ca_processor_count c)).

Lemma read_tail line processors : line < two32 -> processors < two32 ->
  exists s', number_then (text " byte lines") (number line ++ text " byte lines" ++ (if negb (processors =? 0) then text ", shared by " ++ number processors ++ text " processors" else [])) = Some (line, s') /\
  match after (text ", shared by ") s' with
  | Some s => number_then (text " processors") s
  | None => Some (0, s')
  end = Some (processors, []).
Proof.
  intros L P. eexists. split; [apply number_then_read; [exact L|not_digit]|].
  destruct (N.eqb_spec processors 0) as [->|NE]; cbn [negb].
  - reflexivity.
  - rewrite after_app. rewrite <- (app_nil_r (text " processors")). rewrite number_then_read; [reflexivity|exact P|not_digit].
Qed.

Lemma read_kind u k r : k <> Unified ->
  one_of [(text "instruction cache: ", Instruction); (text "data cache: ", Data); (text "unified cache: ", Unified)]
    ((if u : bool then text "unified" else type_of k) ++ text " cache: " ++ r) = Some (if u then Unified else k, r).
Proof. intros H. destruct u; [reflexivity|]. destruct k; [reflexivity|reflexivity|now destruct H]. Qed.

Lemma read_count count n r : count < two32 -> n < two32 ->
  let s := (if negb (count =? 1) then number count ++ text " x " else []) ++ number n ++ text " " ++ r in
  after (text "x ") r = None ->
  exists m s', a_number s = Some (m, s') /\
    match after (text " x ") s' with
    | Some s => match a_number s with Some (a, s) => Some (m, a, s) | None => None end
    | None => Some (1, m, s')
    end = Some (count, n, text " " ++ r).
Proof.
  intros C B s X. subst s. destruct (N.eqb_spec count 1) as [->|NE]; cbn [negb].
  - cbn [app]. eexists. eexists. split; [apply a_number_read; [exact B|not_digit]|]. change (text " x ") with (32 :: text "x "). cbn [after app text].
    change (text " " ++ r) with (32 :: r). cbn [after]. rewrite N.eqb_refl. now rewrite X.
  - rewrite <- app_assoc. eexists. eexists. split; [apply a_number_read; [exact C|not_digit]|]. rewrite after_app.
    rewrite a_number_read; [reflexivity|exact B|not_digit].
Qed.

Lemma read_unit size (r : list N) : size < two32 -> exists unit,
  one_of [(text " bytes", 1); (text " KB", 1024); (text " MB", 1024 * 1024)] (text " " ++ snd (in_units size) ++ r) = Some (unit, r) /\
  fst (in_units size) * unit = size /\ fst (in_units size) < two32 /\ after (text "x ") (snd (in_units size) ++ r) = None.
Proof.
  intros B. pose proof (in_units_ok size B) as H. destruct (in_units size) as [n u]. cbn [fst snd]. destruct H as (Bn & [[-> E]|[[-> E]|[-> E]]]).
  - exists (1024 * 1024). repeat split; [now rewrite E|exact Bn].
  - exists 1024. repeat split; [now rewrite E|exact Bn].
  - exists 1. repeat split; [now rewrite E|exact Bn].
Qed.

Lemma read_inclusive (b i : bool) r :
  one_of [(text " (inclusive), ", Some true); (text " (exclusive), ", Some false); (text ", ", None)]
    ((if b then text ", " else text " (" ++ (if i then text "inclusive" else text "exclusive") ++ text "), ") ++ r) =
  Some (if b then None else Some i, r).
Proof. destruct b; [reflexivity|]. destruct i; reflexivity. Qed.

Lemma read_ways (b : bool) n r : n < two32 ->
  match after (text "fully associative (") ((if b then text "fully associative" else number n ++ text "-way set associative") ++ text " (" ++ r) with
  | Some s => Some (None, s)
  | None => match number_then (text "-way set associative (") ((if b then text "fully associative" else number n ++ text "-way set associative") ++ text " (" ++ r)
            with Some (n, s) => Some (Some n, s) | None => None end
  end = Some (if b then None else Some n, r).
Proof.
  intros B. destruct b.
  - change (text "fully associative" ++ text " (" ++ r) with (text "fully associative (" ++ r). now rewrite after_app.
  - replace ((number n ++ text "-way set associative") ++ text " (" ++ r) with (number n ++ text "-way set associative (" ++ r) by (now rewrite <- app_assoc).
    destruct (number_head n) as (d & q & E & D).
    replace (after (text "fully associative (") (number n ++ text "-way set associative (" ++ r)) with (@None (list N)).
    + rewrite number_then_read; [reflexivity|exact B|not_digit].
    + rewrite E. change (text "fully associative (") with (102 :: text "ully associative ("). cbn [after app]. unfold is_digit in D.
      destruct (N.eqb_spec 102 d); [lia|reflexivity].
Qed.

Lemma read_partitions n r : n < two32 -> match r with c :: _ => c <> 44 \/ after (text ", c") r <> None | [] => False end ->
  match after (text ", ") ((if negb (n =? 1) then text ", " ++ number n ++ text " partitions" else []) ++ r) with
  | Some q => match number_then (text " partitions") q with Some (n, q) => (n, q) | None => (1, (if negb (n =? 1) then text ", " ++ number n ++ text " partitions" else []) ++ r) end
  | None => (1, (if negb (n =? 1) then text ", " ++ number n ++ text " partitions" else []) ++ r)
  end = (n, r).
Proof.
  intros B H. destruct (N.eqb_spec n 1) as [->|NE]; cbn [negb app].
  - destruct r as [|c r]; [contradiction|]. change (text ", ") with [44; 32]. cbn [after]. destruct (N.eqb_spec 44 c) as [<-|NE]; [|reflexivity].
    destruct H as [H|H]; [now destruct H|]. change (text ", c") with [44; 32; 99] in H. cbn [after] in H. rewrite N.eqb_refl in H.
    destruct r as [|d r]; [reflexivity|]. destruct (N.eqb_spec 32 d) as [<-|]; [|reflexivity]. destruct r as [|e r]; [reflexivity|].
    destruct (N.eqb_spec 99 e) as [<-|]; [|now destruct H]. reflexivity.
  - replace ((text ", " ++ number n ++ text " partitions") ++ r) with (text ", " ++ number n ++ text " partitions" ++ r) by (now rewrite <- !app_assoc).
    rewrite after_app. rewrite number_then_read; [reflexivity|exact B|not_digit].
Qed.

Lemma read_complex (b : bool) r : one_of [(text ", complex indexing), ", true); (text "), ", false)] ((if b then text ", complex indexing), " else text "), ") ++ r) = Some (b, r).
Proof. destruct b; reflexivity. Qed.

Lemma read_body count c level k : count < two32 -> level < two32 -> narrow c -> k <> Unified -> g_sets (ca_geometry c) <> 0 ->
  read_line (body count c level (type_of k)) = Some (told count c level k).
Proof.
  intros C L (B1 & B2 & B3 & B4 & B5 & B6) K Z. set (g := ca_geometry c) in *. unfold read_line, body, told. fold g.
  rewrite after_app. rewrite number_then_read by (exact L || not_digit). rewrite read_kind by exact K.
  match goal with |- context [snd (in_units (g_size g)) ++ ?r] => set (rest1 := r) end.
  destruct (read_unit (g_size g) rest1 B1) as (unit & EU & ES & EF & EX).
  destruct (read_count count (fst (in_units (g_size g))) (snd (in_units (g_size g)) ++ rest1) C EF EX) as (m & s' & E1 & E2).
  rewrite E1, E2. clear E1 E2 m s'. rewrite EU. subst rest1. rewrite read_inclusive.
  destruct (N.eqb_spec (g_sets g) 0) as [E0|_]; [now destruct Z|]. cbn [negb].
  repeat rewrite <- (app_assoc (text " (")). rewrite read_ways by exact B2. repeat rewrite <- (app_assoc (number (g_sets g))).
  repeat rewrite <- (app_assoc (text " sets")). rewrite number_then_read; [|exact B3|not_digit]. rewrite <- app_assoc.
  rewrite read_partitions; [|exact B4|destruct (has_flag flag_complex g); cbn; [right; discriminate|left; discriminate]].
  rewrite read_complex. replace (Nat.eqb (ca_processor_count c) 0) with (N.of_nat (ca_processor_count c) =? 0) by (now destruct (ca_processor_count c)).
  destruct (read_tail (g_line_size g) (N.of_nat (ca_processor_count c)) B5 B6) as (s' & E1 & E2). rewrite E1, E2. now rewrite ES.
Qed.

(** ** What is told *)
Lemma told_fits count c level k : well_formed (ca_geometry c) -> k <> Unified -> fits level k (ca_geometry c) (told count c level k).
Proof.
  intros (E & P & B) K. unfold told. set (g := ca_geometry c) in *.
  change flag_unified with (2 ^ 0). change flag_inclusive with (2 ^ 1). change flag_complex with (2 ^ 2). rewrite !has_flag_bit.
  constructor; cbn [de_level de_kind de_count de_size de_inclusive de_ways de_sets de_partitions de_complex de_line]; try reflexivity.
  - intros H. destruct (N.eqb_spec level 1); [now destruct H|reflexivity].
  - assert (Z1 : g_sets g <> 0) by (intros Z; rewrite Z in E; rewrite N.mul_0_r in E; cbn in E; lia).
    assert (Z2 : g_partitions g <> 0) by (intros Z; rewrite Z in E; rewrite N.mul_0_r in E; cbn in E; lia).
    assert (E' : g_size g = g_associativity g * g_line_size g * (g_sets g * g_partitions g)) by (rewrite E; ring).
    assert (P1 : 0 < g_associativity g * g_line_size g) by (apply N.neq_0_lt_0; intros Z; rewrite Z in E'; lia).
    assert (Le : g_associativity g * g_line_size g <= g_size g) by (rewrite E'; apply N.le_trans with (g_associativity g * g_line_size g * 1); [lia|apply N.mul_le_mono_l; nia]).
    unfold u32. rewrite N.mod_small by (unfold two32 in *; lia). destruct (N.eqb_spec (g_associativity g * g_line_size g) (g_size g)) as [Q|Q].
    + rewrite Q in E'. assert (H : g_sets g * g_partitions g = 1) by (apply (N.mul_cancel_l _ _ (g_size g)); lia). apply N.eq_mul_1 in H. exact H.
    + split; [reflexivity|]. intros H. rewrite H in E'. lia.
Qed.

Lemma well_formed_sets g : well_formed g -> g_sets g <> 0.
Proof. intros (E & P & _) Z. rewrite Z, N.mul_0_r in E. cbn in E. lia. Qed.

(** ** The report *)
Definition told_of (skip : cache -> bool) (level : N) (k : kind) (cs : caches) : list description :=
  if Nat.eqb (fst cs) 0 then [] else match snd cs with c :: _ => if skip c then [] else [told (N.of_nat (fst cs)) c level k] | [] => [] end.
Definition bodies (skip : cache -> bool) (level : N) (k : kind) (cs : caches) : list (list N) :=
  if Nat.eqb (fst cs) 0 then [] else match snd cs with c :: _ => if skip c then [] else [body (N.of_nat (fst cs)) c level (type_of k)] | [] => [] end.

Lemma type_plain k : Forall (fun c => c <> 10) (type_of k).
Proof. destruct k; apply text_plain; reflexivity. Qed.
Lemma bodies_plain skip level k cs : Forall (Forall (fun c => c <> 10)) (bodies skip level k cs).
Proof.
  unfold bodies. destruct (Nat.eqb (fst cs) 0); [constructor|]. destruct (snd cs) as [|c l]; [constructor|]. destruct (skip c); [constructor|].
  constructor; [apply body_plain, type_plain|constructor].
Qed.
Lemma report_level_lines skip cs level k : good cs ->
  report_level skip cs level (type_of k) = Ok (flat_map (fun l => l ++ [10]) (bodies skip level k cs)).
Proof.
  destruct cs as [n l]. intros G. unfold report_level, bodies. cbn [fst snd]. destruct (Nat.eqb_spec n 0) as [E|E]; [reflexivity|].
  destruct G as [G|(_ & c & l' & G & _)]; cbn [fst snd] in G; [contradiction|]. subst l. cbn [rd bind]. unfold rd. cbn [nth_error bind].
  destruct (skip c); [reflexivity|]. cbn [flat_map]. rewrite app_nil_r. now rewrite report_body.
Qed.
Lemma read_all_app a b da db : read_all a = Some da -> read_all b = Some db -> read_all (a ++ b) = Some (da ++ db).
Proof.
  revert da. induction a as [|l a IH]; intros da E F; cbn [read_all app] in *.
  - injection E as <-. exact F.
  - destruct (read_line l); [|discriminate]. destruct (read_all a) as [x|]; [|discriminate]. injection E as <-. now rewrite (IH x eq_refl F).
Qed.
Lemma read_bodies skip level k cs : good cs -> level < two32 -> k <> Unified -> read_all (bodies skip level k cs) = Some (told_of skip level k cs).
Proof.
  destruct cs as [n l]. intros G L K. unfold bodies, told_of. cbn [fst snd]. destruct (Nat.eqb_spec n 0) as [E|E]; [reflexivity|].
  destruct G as [G|(B & c & l' & G & Nc & W)]; cbn [fst snd] in *; [contradiction|]. subst l. destruct (skip c); [reflexivity|].
  cbn [read_all]. rewrite read_body; [reflexivity|exact B|exact L|exact Nc|exact K|now apply well_formed_sets].
Qed.
Lemma told_level skip level k cs : good cs -> k <> Unified -> (forall c, skip c = true <-> left_out k c) -> level_told level k cs (told_of skip level k cs).
Proof.
  destruct cs as [n l]. intros G K S. unfold told_of. cbn [fst snd]. destruct (Nat.eqb_spec n 0) as [->|E]; [constructor|].
  destruct G as [G|(B & c & l' & G & Nc & W)]; cbn [fst snd] in *; [contradiction|]. subst l. destruct (skip c) eqn:Q.
  - apply omitted_told. now apply S.
  - apply first_told; [exact E|intros H; apply S in H; congruence|reflexivity|now apply told_fits|reflexivity].
Qed.

Definition skip_unified (c : cache) : bool := has_flag flag_unified (ca_geometry c).
Lemma skip_instruction c : skip_unified c = true <-> left_out Instruction c.
Proof. unfold skip_unified, left_out. change flag_unified with (2 ^ 0). rewrite has_flag_bit. tauto. Qed.
Lemma skip_data c : never c = true <-> left_out Data c.
Proof. unfold never, left_out. split; [discriminate|]. intros [H _]. discriminate. Qed.

Lemma report_told r : re_max r < two32 -> good (re_l1i r) -> good (re_l1d r) -> good (re_l2 r) -> good (re_l3 r) -> good (re_l4 r) ->
  exists s d1i d1d d2 d3 d4, cache_info r = Ok s /\ read_report s = Some (re_max r, d1i ++ d1d ++ d2 ++ d3 ++ d4) /\
    level_told 1 Instruction (re_l1i r) d1i /\ level_told 1 Data (re_l1d r) d1d /\ level_told 2 Data (re_l2 r) d2 /\
    level_told 3 Data (re_l3 r) d3 /\ level_told 4 Data (re_l4 r) d4.
Proof.
  intros B G1 G2 G3 G4 G5.
  eexists. exists (told_of skip_unified 1 Instruction (re_l1i r)), (told_of never 1 Data (re_l1d r)), (told_of never 2 Data (re_l2 r)),
    (told_of never 3 Data (re_l3 r)), (told_of never 4 Data (re_l4 r)).
  split; [|split; [|split; [apply told_level; [assumption|discriminate|apply skip_instruction]|]]];
    [| |repeat split; (apply told_level; [assumption|discriminate|apply skip_data])].
  - unfold cache_info. change (text "instruction") with (type_of Instruction). change (text "data") with (type_of Data). fold skip_unified.
    rewrite !report_level_lines by assumption. cbn [bind]. reflexivity.
  - unfold read_report.
    match goal with |- context [lines_from [] ?s] => replace s with
      (flat_map (fun l => l ++ [10]) ((text "Max cache size (upper bound): " ++ number (re_max r) ++ text " bytes") :: bodies skip_unified 1 Instruction (re_l1i r) ++
        bodies never 1 Data (re_l1d r) ++ bodies never 2 Data (re_l2 r) ++ bodies never 3 Data (re_l3 r) ++ bodies never 4 Data (re_l4 r)))
    end.
    2:{ cbn [flat_map]. rewrite !flat_map_app. repeat rewrite <- app_assoc. reflexivity. }
    rewrite lines_all.
    2:{ constructor; [repeat first [apply Forall_app; split | apply number_plain | apply text_plain; reflexivity]|].
        repeat (apply Forall_app; split); apply bodies_plain. }
    rewrite after_app. rewrite <- (app_nil_r (text " bytes")). rewrite number_then_read by (exact B || not_digit).
    erewrite read_all_app; [reflexivity|apply read_bodies; [assumption|reflexivity|discriminate]|].
    repeat (apply read_all_app; [apply read_bodies; [assumption|reflexivity|discriminate]|]). apply read_bodies; [assumption|reflexivity|discriminate].
Qed.
