(** Lemmas about cpu-info. *)
From Verif Require Import Base Text TopologySpec LinuxTextSpec ToolsModel ReportSpec ReportProofs CpuInfoModel CpuInfoSpec.
From Verif Require ArmCpuinfoSpec CpuidDumpModel CpuidDumpSpec CpuidDumpTextProofs.
Import ArmCpuinfoSpec(hex_number, nibble).
Import CpuidDumpModel(hex).
Open Scope N_scope.

(** ** Hexadecimal numbers *)
Lemma hex_value_lower c : CpuidDumpSpec.is_upper_hex c -> hex_value (lower c) = Some (nibble c).
Proof.
  intros H. unfold CpuidDumpSpec.is_upper_hex in H.
  assert (E : In c [48;49;50;51;52;53;54;55;56;57;65;66;67;68;69;70]).
  { destruct H as [H|H].
    - assert (c = 48 \/ c = 49 \/ c = 50 \/ c = 51 \/ c = 52 \/ c = 53 \/ c = 54 \/ c = 55 \/ c = 56 \/ c = 57) by lia. cbn. intuition auto.
    - assert (c = 65 \/ c = 66 \/ c = 67 \/ c = 68 \/ c = 69 \/ c = 70) by lia. cbn. intuition auto. }
  clear H. cbn in E. repeat (destruct E as [<-|E]; [reflexivity|]). destruct E.
Qed.
Lemma hex_read_lower ds : Forall CpuidDumpSpec.is_upper_hex ds -> forall n,
  hex_read (map lower ds) n = Some (fold_left (fun acc c => acc * 16 + nibble c) ds n).
Proof.
  intros F. induction F as [|c ds H F IH]; intros n; [reflexivity|]. cbn [map hex_read fold_left]. rewrite hex_value_lower by exact H. apply IH.
Qed.
Lemma hex8_read n r : n < two32 -> hex8 (hex08 n ++ r) = Some (n, r).
Proof.
  intros B. destruct (CpuidDumpTextProofs.hex_ok 8 n) as ((F & V & _) & _); [lia|exact B|].
  pose proof (CpuidDumpTextProofs.hex8_length n B) as L.
  assert (L' : length (hex08 n) = 8%nat) by (unfold hex08; rewrite map_length; exact L).
  unfold hex8. rewrite firstn_app, skipn_app, L'. cbn [Nat.sub]. rewrite <- L'. rewrite firstn_all, skipn_all. cbn [firstn skipn]. rewrite app_nil_r.
  rewrite Nat.eqb_refl. unfold hex08. rewrite hex_read_lower by exact F. unfold hex_number in V. rewrite V. reflexivity.
Qed.
Lemma hex08_plain n : n < two32 -> Forall (fun c => c <> 10) (hex08 n).
Proof.
  intros B. destruct (CpuidDumpTextProofs.hex_ok 8 n) as ((F & _) & _); [lia|exact B|]. unfold hex08. apply Forall_map.
  eapply Forall_impl; [|exact F]. intros c H. unfold lower, CpuidDumpSpec.is_upper_hex in *. destruct (N.leb_spec 65 c); lia.
Qed.

(** ** Names *)
Lemma name_in_some l n s : name_in l n = Some s -> In (n, s) l.
Proof.
  unfold name_in. destruct (find _ l) as [p|] eqn:E; [|discriminate]. intros H. injection H as <-. apply find_some in E as [I E].
  apply N.eqb_eq in E. destruct p. cbn in *. now subst.
Qed.

Definition blanks_free (s : list N) : list (list N) :=
  map (fun k => firstn k s) (filter (fun k => nth k s 0 =? 32) (seq 0 (length s))).
Definition no_newline (s : list N) : bool := forallb (fun c => negb (c =? 10)) s.
Definition vendor_ok (p : N * list N) : bool :=
  match meaning vendor_constants (snd p) with Some v => v =? fst p | None => false end &&
  forallb (fun q => match meaning vendor_constants q with Some _ => false | None => true end) (blanks_free (snd p)) &&
  no_newline (snd p) &&
  match snd p with c :: _ => negb (c =? 118) | [] => false end.
Definition uarch_ok (p : N * list N) : bool :=
  match meaning uarch_constants (snd p) with Some v => v =? fst p | None => false end &&
  match after (text "uarch 0x") (snd p) with Some _ => false | None => true end && no_newline (snd p).
Lemma vendors_ok : forallb vendor_ok vendor_names = true. Proof. vm_compute. reflexivity. Qed.
Lemma uarchs_ok : forallb uarch_ok uarch_names = true. Proof. vm_compute. reflexivity. Qed.

Lemma uarch_meaning u s : uarch_to_string u = Some s -> meaning uarch_constants s = Some u /\ after (text "uarch 0x") s = None /\ no_newline s = true.
Proof.
  intros E. apply name_in_some in E. pose proof uarchs_ok as F. rewrite forallb_forall in F. specialize (F _ E). unfold uarch_ok in F. cbn [fst snd] in F.
  apply Bool.andb_true_iff in F as [F F3]. apply Bool.andb_true_iff in F as [F1 F2].
  destruct (meaning uarch_constants s) as [m|]; [|discriminate]. apply N.eqb_eq in F1. subst m.
  destruct (after (text "uarch 0x") s); [discriminate|]. auto.
Qed.
Lemma vendor_meaning v s : vendor_to_string v = Some s -> meaning vendor_constants s = Some v /\
  (forall q, In q (blanks_free s) -> meaning vendor_constants q = None) /\ no_newline s = true /\ exists c r, s = c :: r /\ c <> 118.
Proof.
  intros E. apply name_in_some in E. pose proof vendors_ok as F. rewrite forallb_forall in F. specialize (F _ E). unfold vendor_ok in F. cbn [fst snd] in F.
  apply Bool.andb_true_iff in F as [F F4]. apply Bool.andb_true_iff in F as [F F3]. apply Bool.andb_true_iff in F as [F1 F2].
  destruct (meaning vendor_constants s) as [m|]; [|discriminate]. apply N.eqb_eq in F1. subst m. split; [reflexivity|]. split; [|split; [exact F3|]].
  - intros q I. rewrite forallb_forall in F2. specialize (F2 _ I). now destruct (meaning vendor_constants q).
  - destruct s as [|c r]; [discriminate|]. exists c, r. split; [reflexivity|]. intros ->. discriminate.
Qed.

Lemma plain_of s : no_newline s = true -> Forall (fun c => c <> 10) s.
Proof. intros H. unfold no_newline in H. rewrite forallb_forall in H. apply Forall_forall. intros c I E. apply H in I. subst c. discriminate. Qed.

Lemma read_uarch_name u s : uarch_to_string u = Some s -> read_uarch s = Some u.
Proof. intros E. destruct (uarch_meaning u s E) as (M & A & _). unfold read_uarch. now rewrite A. Qed.
Lemma read_uarch_hex u : u < two32 -> read_uarch (text "uarch 0x" ++ hex08 u) = Some u.
Proof.
  intros B. unfold read_uarch. rewrite after_app. pose proof (hex8_read u [] B) as E. rewrite app_nil_r in E. rewrite E. reflexivity.
Qed.

Lemma blanks_in p q : In p (blanks_free (p ++ 32 :: q)).
Proof.
  unfold blanks_free. apply in_map_iff. exists (length p). split.
  - rewrite firstn_app, Nat.sub_diag, firstn_all. apply app_nil_r.
  - apply filter_In. split; [apply in_seq; rewrite app_length; cbn [length]; lia|]. rewrite app_nth2, Nat.sub_diag by lia. reflexivity.
Qed.
Lemma read_named_vendor s v : meaning vendor_constants s = Some v -> (forall q, In q (blanks_free s) -> meaning vendor_constants q = None) ->
  forall rest u, read_uarch rest = Some u -> read_named [] (s ++ 32 :: rest) = Some (v, u).
Proof.
  intros M B rest u U.
  assert (G : forall w front, s = front ++ w -> read_named front (w ++ 32 :: rest) = Some (v, u)).
  { induction w as [|c w IH]; intros front E.
    - rewrite app_nil_r in E. subst front. cbn [app read_named]. change (32 =? 32) with true. cbv iota. rewrite M, U. reflexivity.
    - cbn [app read_named]. destruct (N.eqb_spec c 32) as [->|N].
      + rewrite (B front); [|rewrite E; apply blanks_in]. apply IH. rewrite E, <- app_assoc. reflexivity.
      + apply IH. rewrite E, <- app_assoc. reflexivity. }
  apply G. reflexivity.
Qed.

Lemma kind_read v u : v < two32 -> u < two32 -> exists s, print_kind v u = text ", " ++ s /\ read_kind s = Some (v, u).
Proof.
  intros BV BU. unfold print_kind. destruct (vendor_to_string v) as [vs|] eqn:EV.
  - assert (R : exists rest, match uarch_to_string u with Some us => text ", " ++ vs ++ text " " ++ us | None => text ", " ++ vs ++ text " uarch 0x" ++ hex08 u end =
        text ", " ++ vs ++ 32 :: rest /\ read_uarch rest = Some u).
    { destruct (uarch_to_string u) as [us|] eqn:EU.
      - exists us. split; [reflexivity|]. now apply read_uarch_name.
      - exists (text "uarch 0x" ++ hex08 u). split; [reflexivity|]. now apply read_uarch_hex. }
    destruct R as (rest & -> & RU). exists (vs ++ 32 :: rest). split; [reflexivity|].
    destruct (vendor_meaning v vs EV) as (M & B & _ & c & r & E & N). unfold read_kind.
    assert (A : after (text "vendor 0x") (vs ++ 32 :: rest) = None).
    { rewrite E. change (text "vendor 0x") with (118 :: text "endor 0x"). cbn [app after]. destruct (N.eqb_spec 118 c); [congruence|reflexivity]. }
    rewrite A. now apply read_named_vendor.
  - eexists (text "vendor 0x" ++ hex08 v ++ text " " ++ text "uarch 0x" ++ hex08 u). split; [reflexivity|].
    unfold read_kind. rewrite after_app. rewrite hex8_read by exact BV. rewrite after_app. now rewrite read_uarch_hex.
Qed.

(** ** Ranges *)
Lemma one_text : text ": 1 " = text ": " ++ number 1 ++ text " ". Proof. reflexivity. Qed.
Lemma range_read thing many i start count : many = thing ++ text "s" -> i < two32 -> told start count -> N.of_nat count < two32 -> forall rest,
  read_range thing (print_range thing many i (N.of_nat start) (N.of_nat count) ++ rest) = Some (range_of i start count, rest).
Proof.
  intros -> BI (P & B) BC rest. unfold print_range, read_range, range_of. destruct (N.eqb_spec (N.of_nat count) 1) as [E|NE].
  - assert (count = 1%nat) by lia. subst count. rewrite one_text. rewrite <- !app_assoc.
    rewrite number_then_read; [|exact BI|not_digit]. rewrite number_then_read; [|reflexivity|not_digit].
    rewrite after_app. rewrite after_app. rewrite number_then_read; [|lia|not_digit]. change (1 =? 1) with true. cbv iota.
    replace (start + 1 - 1)%nat with start by lia. reflexivity.
  - rewrite <- !app_assoc. rewrite number_then_read; [|exact BI|not_digit]. rewrite number_then_read; [|exact BC|not_digit].
    rewrite after_app. assert (A : forall r, after (text " (") (text "s" ++ text " (" ++ r) = None) by reflexivity. rewrite A.
    change (text "s" ++ text " (" ++ number (N.of_nat start) ++ text "-" ++ number (sub32 (u32 (N.of_nat start + N.of_nat count)) 1) ++ text ")" ++ rest)
      with (text "s (" ++ number (N.of_nat start) ++ text "-" ++ number (sub32 (u32 (N.of_nat start + N.of_nat count)) 1) ++ text ")" ++ rest).
    rewrite after_app. rewrite number_then_read; [|lia|not_digit].
    assert (L : sub32 (u32 (N.of_nat start + N.of_nat count)) 1 = N.of_nat (start + count - 1)).
    { unfold sub32, u32. destruct (N.eq_dec (N.of_nat start + N.of_nat count) two32) as [Q|Q].
      - rewrite Q. rewrite N.mod_same by discriminate. rewrite N.mod_small; unfold two32 in *; lia.
      - rewrite (N.mod_small (N.of_nat start + N.of_nat count)) by lia.
        replace (N.of_nat start + N.of_nat count + (two32 - 1)) with (N.of_nat (start + count - 1) + 1 * two32) by (unfold two32 in *; lia).
        rewrite N.mod_add by discriminate. apply N.mod_small. lia. }
    rewrite L. rewrite number_then_read; [reflexivity|lia|not_digit].
Qed.

(** ** Lines with an index *)
Fixpoint from {A B} (f : N -> A -> B) (i : N) (l : list A) : list B :=
  match l with [] => [] | x :: l' => f i x :: from f (i + 1) l' end.
Lemma from_seq {A B} (f : N -> A -> B) l : forall k, map (fun p => f (N.of_nat (fst p)) (snd p)) (combine (seq k (length l)) l) = from f (N.of_nat k) l.
Proof.
  induction l as [|x l IH]; intros k; [reflexivity|]. cbn [length seq combine map from fst snd]. rewrite IH. f_equal. f_equal. lia.
Qed.
Lemma numbered_from {A B} (f : N -> A -> B) l : numbered f l = from f 0 l.
Proof. apply (from_seq f l 0). Qed.
Lemma each_lines {A} (print : N -> A -> list N) l : forall i,
  each print i l = flat_map (fun x => x ++ [10]) (map (cons 9) (from print i l)).
Proof.
  induction l as [|x l IH]; intros i; [reflexivity|]. cbn [each from map flat_map]. rewrite IH. unfold tab, newline. cbn [app]. rewrite <- app_assoc. reflexivity.
Qed.
Lemma all_of_from {A B} (print : N -> A -> list N) (read : list N -> option B) (line : N -> A -> B) (good : A -> Prop) l :
  (forall i x, i < two32 -> good x -> read (print i x) = Some (line i x)) -> Forall good l -> forall i, i + N.of_nat (length l) <= two32 ->
  all_of read (from print i l) = Some (from line i l).
Proof.
  intros R F. induction F as [|x l G F IH]; intros i BL; [reflexivity|]. cbn [length] in BL. cbn [from all_of]. rewrite R by (auto; lia). rewrite IH by lia. reflexivity.
Qed.
Lemma all_of_any {A B} (print : N -> A -> list N) (read : list N -> option B) (line : A -> B) (good : A -> Prop) l :
  (forall i x, good x -> read (print i x) = Some (line x)) -> Forall good l -> forall i, all_of read (from print i l) = Some (map line l).
Proof.
  intros R F. induction F as [|x l G F IH]; intros i; [reflexivity|]. cbn [from all_of map]. rewrite R by exact G. rewrite IH. reflexivity.
Qed.
Lemma from_one_line {A} (print : N -> A -> list N) (good : A -> Prop) l :
  (forall i x, good x -> one_line (print i x)) -> Forall good l -> forall i, Forall one_line (from print i l).
Proof. intros R F. induction F as [|x l G F IH]; intros i; [constructor|]. cbn [from]. constructor; [now apply R|apply IH]. Qed.

(** ** The lines *)
Lemma one_line_app a b : one_line a -> one_line b -> one_line (a ++ b). Proof. intros A B. now apply Forall_app. Qed.
Lemma one_line_text s : forallb (fun c => negb (c =? 10)) (text s) = true -> one_line (text s). Proof. apply text_plain. Qed.
Lemma one_line_number n : one_line (number n). Proof. apply number_plain. Qed.
Ltac single := repeat (apply one_line_app); try apply one_line_number; try (apply one_line_text; reflexivity); try (apply hex08_plain; assumption).

Lemma kind_one_line v u : v < two32 -> u < two32 -> one_line (print_kind v u).
Proof.
  intros BV BU. unfold print_kind. destruct (vendor_to_string v) as [vs|] eqn:EV; [|single].
  destruct (vendor_meaning v vs EV) as (_ & _ & NV & _). destruct (uarch_to_string u) as [us|] eqn:EU; single; try (now apply plain_of).
  destruct (uarch_meaning u us EU) as (_ & _ & NU). now apply plain_of.
Qed.
Lemma range_one_line one many i s c : one_line one -> one_line many -> one_line (print_range one many i s c).
Proof. intros A B. unfold print_range. destruct (c =? 1); single; assumption. Qed.

Lemma package_read i name : i < two32 -> read_package (print_package i name) = Some (i, name).
Proof. intros B. unfold read_package, print_package. rewrite number_then_read; [reflexivity|exact B|not_digit]. Qed.

Definition has_name (u : N) : bool := match uarch_to_string u with Some _ => true | None => false end.
Lemma names_all : forallb (fun c => has_name (snd c) || existsb (fun id => same id (fst c)) unnamed_uarchs) uarch_constants = true.
Proof. vm_compute. reflexivity. Qed.
Lemma same_eq a : forall b, same a b = true -> a = b.
Proof.
  induction a as [|x a IH]; intros [|y b] H; try discriminate; [reflexivity|]. cbn [same] in H. apply Bool.andb_true_iff in H as [H1 H2].
  apply N.eqb_eq in H1. subst y. f_equal. now apply IH.
Qed.
Lemma named u : (exists id, In (id, u) uarch_constants) -> ~ without_name uarch_constants unnamed_uarchs u -> exists s, uarch_to_string u = Some s.
Proof.
  intros (id & I) N. pose proof names_all as F. rewrite forallb_forall in F. specialize (F _ I). cbn [fst snd] in F. apply Bool.orb_true_iff in F as [F|F].
  - unfold has_name in F. destruct (uarch_to_string u) as [s|]; [now exists s|discriminate].
  - exfalso. apply N. apply existsb_exists in F as (x & IX & E). apply same_eq in E. subst x. now exists id.
Qed.
Lemma count_read i u : N.of_nat (snd u) < two32 -> (exists id, In (id, fst u) uarch_constants) -> ~ without_name uarch_constants unnamed_uarchs (fst u) ->
  read_count (print_uarch i u) = Some (N.of_nat (snd u), fst u) /\ one_line (print_uarch i u).
Proof.
  intros B I N. destruct (named _ I N) as (s & E). destruct (uarch_meaning _ _ E) as (M & _ & NL). unfold read_count, print_uarch. rewrite E. split.
  - rewrite number_then_read; [|exact B|not_digit]. now rewrite M.
  - single. now apply plain_of.
Qed.
Lemma core_read i c : i < two32 -> told (c_processor_start c) (c_processor_count c) -> N.of_nat (c_processor_count c) < two32 ->
  c_vendor c < two32 -> c_uarch c < two32 -> read_core (print_core i c) = Some (core_line i c).
Proof.
  intros BI T BC BV BU. unfold read_core, print_core, print_processors. rewrite range_read; auto. cbv iota beta.
  destruct (kind_read _ _ BV BU) as (s & -> & E). rewrite after_app. rewrite E. reflexivity.
Qed.
Lemma cluster_read i c : i < two32 -> told (cl_processor_start c) (cl_processor_count c) -> N.of_nat (cl_processor_count c) < two32 ->
  told (cl_core_start c) (cl_core_count c) -> N.of_nat (cl_core_count c) < two32 ->
  cl_vendor c < two32 -> cl_uarch c < two32 -> read_cluster (print_cluster i c) = Some (cluster_line i c).
Proof.
  intros BI T BC T' BC' BV BU. unfold read_cluster, print_cluster, print_processors, print_cores. rewrite range_read; auto. cbv iota beta.
  assert (A : forall r, after [44; 9] (text "," ++ [tab] ++ r) = Some r) by reflexivity. rewrite A.
  rewrite range_read; auto. cbv iota beta. destruct (kind_read _ _ BV BU) as (s & -> & E). rewrite after_app. rewrite E. reflexivity.
Qed.
Lemma processor_read g i p : i < two32 -> p_linux_id p < two31 -> p_apic_id p < two32 ->
  read_processor (on_linux g) (on_x86 g) (print_processor g i p) = Some (processor_line (on_linux g) (on_x86 g) i p).
Proof.
  intros BI BL BA. assert (BL' : p_linux_id p < two32) by (unfold two31, two32 in *; lia).
  assert (E8 : hex8 (hex08 (p_apic_id p)) = Some (p_apic_id p, [])) by (rewrite <- (app_nil_r (hex08 (p_apic_id p))) at 1; now apply hex8_read).
  unfold read_processor, print_processor, processor_line.
  destruct (on_linux g), (on_x86 g); rewrite <- ?app_assoc; rewrite ?app_nil_r; cbn [app].
  - rewrite a_number_read; [|exact BI|not_digit]. rewrite after_app. rewrite number_then_read; [|exact BL'|not_digit]. rewrite after_app, E8. reflexivity.
  - rewrite a_number_read; [|exact BI|not_digit]. rewrite after_app.
    assert (Q : number_then (text ")") (number (p_linux_id p) ++ text ")") = Some (p_linux_id p, [])).
    { pose proof (number_then_read (p_linux_id p) (text ")") [] BL') as Q. rewrite app_nil_r in Q. apply Q. not_digit. }
    rewrite Q. reflexivity.
  - rewrite a_number_read; [|exact BI|not_digit]. rewrite after_app, E8. reflexivity.
  - rewrite <- (app_nil_r (number i)). rewrite a_number_read; [|exact BI|apply no_digit_nil]. reflexivity.
Qed.

(** ** The report *)
Definition packages_section (g : target) (v : view) : section :=
  if on_android g then (text "SoC name: " ++ nth 0 (v_names v) [], []) else (text "Packages:", from print_package 0 (v_names v)).
Definition report_sections (g : target) (v : view) : list section :=
  [packages_section g v; (text "Microarchitectures:", from print_uarch 0 (v_uarchs v)); (text "Cores:", from print_core 0 (v_cores v));
   (text "Clusters:", from print_cluster 0 (v_clusters v));
   (if on_linux g then text "Logical processors (System ID):" else text "Logical processors:", from (print_processor g) 0 (v_processors v))].

Lemma cpu_info_sections g v : (on_android g = true -> v_names v <> []) ->
  cpu_info g v = Ok (flat_map (fun l => l ++ [10]) (flat_map print_section (report_sections g v))).
Proof.
  intros H. unfold cpu_info, report_sections, packages_section. rewrite !each_lines.
  assert (P : (if on_android g then match v_names v with name :: _ => Ok (text "SoC name: " ++ name ++ [newline]) | [] => UB end
     else Ok (text "Packages:" ++ [newline] ++ flat_map (fun x => x ++ [10]) (map (cons 9) (from print_package 0 (v_names v))))) =
    Ok (flat_map (fun l => l ++ [10]) (print_section (packages_section g v)))).
  { unfold packages_section, print_section. destruct (on_android g); cbn [fst snd map flat_map].
    - destruct (v_names v) as [|n l]; [now destruct H|]. cbn [nth]. rewrite app_nil_r. rewrite <- app_assoc. reflexivity.
    - rewrite <- app_assoc. reflexivity. }
  rewrite P. cbn [bind]. f_equal. fold (packages_section g v). cbn [flat_map]. rewrite app_nil_r. rewrite !flat_map_app. f_equal.
  unfold print_section. cbn [fst snd flat_map]. destruct (on_linux g); rewrite <- !app_assoc; reflexivity.
Qed.

Lemma report_read g v : printable (v_names v) (v_uarchs v) (v_cores v) (v_clusters v) (v_processors v) ->
  (on_android g = true -> v_names v <> []) ->
  exists s, cpu_info g v = Ok s /\ read_cpu_info (on_android g) (on_linux g) (on_x86 g) s =
    Some (Report (if on_android g then [(0, nth 0 (v_names v) [])] else numbered pair (v_names v))
                 (map (fun u => (N.of_nat (snd u), fst u)) (v_uarchs v)) (numbered core_line (v_cores v)) (numbered cluster_line (v_clusters v))
                 (numbered (processor_line (on_linux g) (on_x86 g)) (v_processors v))).
Proof.
  intros [(L1 & L2) U (C1 & C2) (K1 & K2) (P1 & P2)] H. eexists. split; [now apply cpu_info_sections|]. unfold read_cpu_info.
  assert (NL : Forall one_line (v_names v)).
  { eapply Forall_impl; [|exact L1]. intros name NI. apply Forall_forall. intros c I ->. contradiction. }
  rewrite sections_read.
  2: { unfold report_sections. repeat apply Forall_cons; [| | | | |constructor]; cbn [fst snd].
       - unfold packages_section. destruct (on_android g); cbn [fst snd].
         + split; [eexists; eexists; split; [reflexivity|discriminate]|]. split; [|constructor]. apply one_line_app; [apply one_line_text; reflexivity|].
           destruct NL; [constructor|assumption].
         + split; [eexists; eexists; split; [reflexivity|discriminate]|]. split; [apply one_line_text; reflexivity|].
           apply (from_one_line print_package one_line); [|exact NL]. intros i x X. unfold print_package. single. exact X.
       - split; [eexists; eexists; split; [reflexivity|discriminate]|]. split; [apply one_line_text; reflexivity|].
         apply (from_one_line _ _ _ (fun i x X => proj2 (count_read i x (proj1 X) (proj1 (proj2 X)) (proj2 (proj2 X)))) U).
       - split; [eexists; eexists; split; [reflexivity|discriminate]|]. split; [apply one_line_text; reflexivity|].
         eapply from_one_line; [|exact C1]. intros i x (T & B & V & W). unfold print_core, print_processors. single;
           [apply range_one_line; apply one_line_text; reflexivity|now apply kind_one_line].
       - split; [eexists; eexists; split; [reflexivity|discriminate]|]. split; [apply one_line_text; reflexivity|].
         eapply from_one_line; [|exact K1]. intros i x (T & B & T' & B' & V & W). unfold print_cluster, print_processors, print_cores. single;
           try (apply range_one_line; apply one_line_text; reflexivity); [repeat constructor; discriminate|now apply kind_one_line].
       - split; [destruct (on_linux g); eexists; eexists; (split; [reflexivity|discriminate])|].
         split; [destruct (on_linux g); apply one_line_text; reflexivity|].
         eapply from_one_line; [|exact P1]. intros i x (B & B'). unfold print_processor. single; [destruct (on_linux g); [single|constructor]|destruct (on_x86 g); [single|constructor]]. }
  unfold report_sections.
  assert (P : (if on_android g
       then match after (text "SoC name: ") (fst (packages_section g v)) with
            | Some name => match snd (packages_section g v) with [] => Some [(0, name)] | _ => None end | None => None end
       else match headed (text "Packages:") (packages_section g v) with Some ls => all_of read_package ls | None => None end) =
      Some (if on_android g then [(0, nth 0 (v_names v) [])] else numbered pair (v_names v))).
  { unfold packages_section, headed. destruct (on_android g); cbn [fst snd].
    - rewrite after_app. reflexivity.
    - assert (E : after (text "Packages:") (text "Packages:") = Some []) by reflexivity. rewrite E. rewrite numbered_from.
      apply (all_of_from print_package read_package pair (fun _ => True)); [intros i x B _; now apply package_read|now apply Forall_forall|lia]. }
  rewrite P. unfold headed. cbn [fst snd].
  assert (E1 : after (text "Microarchitectures:") (text "Microarchitectures:") = Some []) by reflexivity. rewrite E1.
  rewrite (all_of_any print_uarch read_count (fun u => (N.of_nat (snd u), fst u)) _ _ (fun i x X => proj1 (count_read i x (proj1 X) (proj1 (proj2 X)) (proj2 (proj2 X)))) U).
  assert (E2 : after (text "Cores:") (text "Cores:") = Some []) by reflexivity. rewrite E2. rewrite !numbered_from.
  rewrite (all_of_from print_core read_core core_line _ _ (fun i x B X => core_read i x B (proj1 X) (proj1 (proj2 X)) (proj1 (proj2 (proj2 X))) (proj2 (proj2 (proj2 X)))) C1 0) by lia.
  assert (E3 : after (text "Clusters:") (text "Clusters:") = Some []) by reflexivity. rewrite E3.
  erewrite (all_of_from print_cluster read_cluster cluster_line _ _ _ K1 0) by lia.
  assert (E4 : after (if on_linux g then text "Logical processors (System ID):" else text "Logical processors:")
    (if on_linux g then text "Logical processors (System ID):" else text "Logical processors:") = Some []) by (destruct (on_linux g); reflexivity). rewrite E4.
  rewrite (all_of_from (print_processor g) (read_processor (on_linux g) (on_x86 g)) (processor_line (on_linux g) (on_x86 g)) _ _
    (fun i x B X => processor_read g i x B (proj1 X) (proj2 X)) P1 0) by lia.
  reflexivity.
  Unshelve. intros i x B (T & BC & T' & BC' & V & W). now apply cluster_read.
Qed.
