(** Signatures that are looked up in tables. *)
From Verif Require Import Base BaseProofs Text LinuxTextSpec X86CpuinfoModel ArmClusterMidrModel ArmCpuinfoModel ArmCpuinfoMeaningProofs ArmChipsetModel
  ArmChipsetSpec ArmChipsetFitProofs ArmChipsetMatchProofs ArmChipsetReadProofs ArmChipsetOtherProofs.
Open Scope N_scope.

(** ** Allwinner *)

Definition sun1 : list piece := exactly "sun" ++ [Number 1] ++ exactly "i".
Definition sun2 : list piece := exactly "sun" ++ [Number 2] ++ exactly "i".
Lemma sun_exclusive s r r' : bytes s -> fit sun1 s = Some r -> fit sun2 s = Some r' -> False.
Proof.
  intros B. let v := eval vm_compute in sun1 in change sun1 with v. let v := eval vm_compute in sun2 in change sun2 with v.
  destruct s as [|x0 [|x1 [|x2 [|x3 [|x4 [|x5 s]]]]]]; hyps B.
  all: repeat (cbn -[N.lor N.add N.mul N.eqb N.leb N.ltb u32 sub32]; first [discriminate | clash | step]).
Qed.
Lemma sun_iff s m : bytes s -> (sun s = Some m <-> exists p rest, In p [sun1; sun2] /\ fits p s m rest).
Proof.
  intros B. unfold sun. fold sun1. fold sun2. split.
  - destruct (fit sun1 s) as [[m' rest]|] eqn:E1.
    + intros [= ->]. exists sun1, rest. split; [now left|]. apply fit_iff; [reflexivity|exact B|exact E1].
    + destruct (fit sun2 s) as [[m' rest]|] eqn:E2; [|discriminate]. intros [= ->]. exists sun2, rest. split; [right; now left|]. apply fit_iff; [reflexivity|exact B|exact E2].
  - intros (p & rest & [<-|[<-|[]]] & F); apply fit_iff in F; try reflexivity; try exact B; rewrite ?F; [reflexivity|].
    destruct (fit sun1 s) as [r|] eqn:E1; [|reflexivity]. destruct (sun_exclusive s _ _ B E1 F).
Qed.

Lemma compiled_iff arm32 only32 : compiled arm32 only32 = true <-> for_build arm32 only32.
Proof. unfold compiled, for_build. destruct arm32, only32; cbn; intuition. Qed.
Lemma find_sunxi_spec arm32 platform cores : forall l,
  (exists only32 model suffix, In (only32, platform, cores, model, suffix) l /\ for_build arm32 only32 /\ find_sunxi arm32 platform cores l = (model, suffix)) \/
  (forall only32 model suffix, In (only32, platform, cores, model, suffix) l -> ~ for_build arm32 only32) /\ find_sunxi arm32 platform cores l = (0, 0).
Proof.
  induction l as [|[[[[o p] n] m] x] l IH]; [right; split; [intros ? ? ? []|reflexivity]|]. cbn [find_sunxi].
  destruct (compiled arm32 o && (platform =? p) && (cores =? n)) eqn:E.
  - rewrite !Bool.andb_true_iff, !N.eqb_eq in E. destruct E as [[E ->] ->]. left. exists o, m, x. split; [now left|]. split; [now apply compiled_iff|reflexivity].
  - destruct IH as [(o' & m' & x' & I & F & R)|[NI R]]; [left; exists o', m', x'; split; [now right|]; split; assumption|]. right. split; [|exact R].
    intros o' m' x' [I|I] F; [|exact (NI o' m' x' I F)]. injection I as -> -> -> -> ->.
    apply compiled_iff in F. rewrite F, !N.eqb_refl in E. discriminate.
Qed.
Definition trimmed (x : N) : list N := if x =? 0 then [] else [x].
Lemma padded_trimmed x : padded (letter x) = padded (trimmed x).
Proof. unfold trimmed. now destruct (N.eqb_spec x 0) as [->|]. Qed.
Lemma allwinner_map : allwinner_chips = map (fun '(o, p, n, m, x) => (o, p, n, m, trimmed x)) sunxi_map.
Proof. vm_compute. reflexivity. Qed.
Lemma allwinner_unique only32 only32' platform cores model model' suffix suffix' :
  In (only32, platform, cores, model, suffix) allwinner_chips -> In (only32', platform, cores, model', suffix') allwinner_chips -> model = model' /\ suffix = suffix'.
Proof.
  assert (F : forallb (fun '(_, p, n, m, x) => forallb (fun '(_, p', n', m', x') =>
    negb (p =? p') || negb (n =? n') || (m =? m') && same x x') allwinner_chips) allwinner_chips = true) by (vm_compute; reflexivity).
  intros I I'. rewrite forallb_forall in F. specialize (F _ I). cbv beta iota in F. rewrite forallb_forall in F. specialize (F _ I'). cbv beta iota in F.
  rewrite !N.eqb_refl in F. cbn [negb orb] in F. rewrite Bool.andb_true_iff, N.eqb_eq, same_iff in F. exact F.
Qed.
Lemma sunxi_reads arm32 cores : reads (match_sunxi arm32 cores) (sunxi arm32 cores).
Proof.
  intros s B. rewrite sunxi_value by exact B. intros c. unfold sunxi. fold sun1. fold sun2.
  assert (T : forall platform o m x, In (o, platform, cores, m, x) sunxi_map -> In (o, platform, cores, m, trimmed x) allwinner_chips).
  { intros platform o m x I. rewrite allwinner_map. apply in_map_iff. now exists (o, platform, cores, m, x). }
  assert (T' : forall platform o m y, In (o, platform, cores, m, y) allwinner_chips -> exists x, y = trimmed x /\ In (o, platform, cores, m, x) sunxi_map).
  { intros platform o m y I. rewrite allwinner_map in I. apply in_map_iff in I. destruct I as ([[[[o' p'] n'] m'] x'] & E & I). injection E as <- <- <- <- <-. now exists x'. }
  pose proof (fun m => sun_iff s m B) as S0. destruct (sun s) as [platform|]; split.
  - destruct (proj1 (S0 platform) eq_refl) as (p & rest & I & F).
    destruct (find_sunxi arm32 platform cores sunxi_map) as [model suffix] eqn:E. intros [= <-]. exists p, platform, rest. split; [exact I|]. split; [exact F|].
    destruct (find_sunxi_spec arm32 platform cores sunxi_map) as [(o & m & x & J & G & R)|[NI R]]; rewrite R in E; injection E as <- <-.
    + left. exists o, m, (trimmed x). split; [now apply T|]. split; [exact G|]. unfold chip_of. change (trimmed x ++ repeat 0 (8 - length (trimmed x))) with (padded (trimmed x)).
      now rewrite padded_trimmed.
    + right. split; [|reflexivity]. intros o m y J. apply T' in J. destruct J as (x & _ & J). exact (NI o m x J).
  - intros (p & platform' & rest & I & F & K). assert (Q : Some platform = Some platform') by (apply S0; now exists p, rest). injection Q as <-.
    destruct (find_sunxi_spec arm32 platform cores sunxi_map) as [(o & m & x & J & G & R)|[NI R]]; rewrite R.
    + destruct K as [(o' & m' & y & J' & G' & ->)|[NK _]]; [|destruct (NK o m (trimmed x) (T _ _ _ _ J) G)].
      destruct (allwinner_unique _ _ _ _ _ _ _ _ (T _ _ _ _ J) J') as [<- <-]. rewrite padded_trimmed. reflexivity.
    + destruct K as [(o' & m' & y & J' & G' & ->)|[_ ->]]; [|reflexivity]. apply T' in J'. destruct J' as (x & _ & J'). destruct (NI o' m' x J' G').
  - discriminate.
  - intros (p & platform & rest & I & F & K). assert (Q : None = Some platform) by (apply S0; now exists p, rest). discriminate.
Qed.

(** ** Huawei *)

Definition huawei_tail (rest : list N) : bool :=
  match rest with
  | [] => true
  | [d; l; d1; d2] => (d =? 45) && (l =? 76) && is_numeric d1 && is_numeric d2
  | [d; c; l; d1; d2] => (d =? 45) && is_uppercase c && (l =? 76) && is_numeric d1 && is_numeric d2
  | _ => false
  end.
Lemma numeric_iff c : c < 256 -> is_numeric c = true <-> is_digit c.
Proof.
  intros B. pose proof (by_byte (fun c => Bool.eqb (is_numeric c) ((48 <=? c) && (c <=? 57))) c B) as H.
  specialize (H ltac:(vm_compute; reflexivity)). apply Bool.eqb_prop in H. rewrite H. rewrite Bool.andb_true_iff, !N.leb_le. reflexivity.
Qed.
Lemma uppercase_iff c : c < 256 -> is_uppercase c = true <-> 65 <= c <= 90.
Proof.
  intros B. pose proof (by_byte (fun c => Bool.eqb (is_uppercase c) ((65 <=? c) && (c <=? 90))) c B) as H.
  specialize (H ltac:(vm_compute; reflexivity)). apply Bool.eqb_prop in H. rewrite H. rewrite Bool.andb_true_iff, !N.leb_le. reflexivity.
Qed.
Lemma huawei_tail_iff rest : bytes rest -> (huawei_tail rest = true <->
  rest = [] \/ exists capitals m, (capitals = [] \/ exists x, 65 <= x <= 90 /\ capitals = [x]) /\ exists ds, number 2 ds m /\ rest = text "-" ++ capitals ++ text "L" ++ ds).
Proof.
  intros B. change (text "-") with [45]. change (text "L") with [76]. split.
  - destruct rest as [|d [|l [|d1 [|d2 [|d3 [|d4 rest]]]]]]; try discriminate; hyps B; cbn [huawei_tail].
    + now left.
    + rewrite !Bool.andb_true_iff, !N.eqb_eq, !numeric_iff by assumption. intros [[[-> ->] H1] H2]. right. exists [], (dec_value [d1; d2]). split; [now left|].
      exists [d1; d2]. split; [|reflexivity]. split; [reflexivity|]. split; [constructor; [assumption|constructor; [assumption|constructor]]|reflexivity].
    + rewrite !Bool.andb_true_iff, !N.eqb_eq, !numeric_iff, uppercase_iff by assumption. intros [[[[-> U] ->] H1] H2]. right. exists [l], (dec_value [d2; d3]).
      split; [right; exists l; split; [exact U|reflexivity]|].
      exists [d2; d3]. split; [|reflexivity]. split; [reflexivity|]. split; [constructor; [assumption|constructor; [assumption|constructor]]|reflexivity].
  - intros [->|(caps & m & C & ds & (L & F & _) & ->)]; [reflexivity|]. destruct ds as [|d1 [|d2 [|]]]; try discriminate. inversion F as [|? ? F1 F']; subst. inversion F' as [|? ? F2 _]; subst.
    assert (D : forall d, is_digit d -> d < 256) by (unfold is_digit; intros; lia).
    destruct C as [->|(x & U & ->)]; cbn [app huawei_tail].
    + rewrite !Bool.andb_true_iff, !N.eqb_eq, !numeric_iff by auto. auto.
    + rewrite !Bool.andb_true_iff, !N.eqb_eq, !numeric_iff, uppercase_iff by (auto; lia). auto.
Qed.
Lemma huawei_value s : bytes s -> match_huawei s = Ok (
  match s with
  | x :: y :: z :: rest => let model := find_huawei (x + 256 * (y + 256 * (z + 256 * 0))) huawei_map in
      if negb (model =? 0) && huawei_tail rest then Some (Chip ve_hisilicon se_kirin model (padded [])) else None
  | _ => None
  end).
Proof.
  intros B. unfold match_huawei. destruct s as [|x0 [|x1 [|x2 s]]]; [reflexivity..|]. hyps B.
  set (w := x0 + 256 * (x1 + 256 * (x2 + 256 * 0))). change (load_le 3 (x0 :: x1 :: x2 :: s) 0) with (Ok w). cbv zeta. cbn [bind].
  set (model := find_huawei w huawei_map). clearbody model w.
  destruct s as [|x3 [|x4 [|x5 [|x6 [|x7 [|x8 s]]]]]]; hyps B.
  all: repeat (unfold no_match, found; cbn -[N.lor N.add N.mul N.eqb N.leb N.ltb u32 sub32 is_numeric is_uppercase padded]; first [reflexivity | clash | step]).
Qed.
Fixpoint packed (w : list N) : N := match w with [] => 0 | c :: r => c + 256 * packed r end.
Lemma packed_eqb : forall a b, bytes a -> bytes b -> length a = length b -> (packed a =? packed b) = same a b.
Proof.
  induction a as [|x a IH]; intros [|y b] A B L; try discriminate; [reflexivity|]. apply bytes_cons in A. apply bytes_cons in B. destruct A as [X A], B as [Y B].
  injection L as L. cbn [packed same]. rewrite <- (IH b A B L). rewrite word_eqb by exact X.
  replace ((y + 256 * packed b) mod 256) with y by (rewrite (N.mul_comm 256), N.mod_add, N.mod_small by lia; reflexivity).
  replace ((y + 256 * packed b) / 256) with (packed b) by (rewrite (N.mul_comm 256), N.div_add, N.div_small by lia; reflexivity).
  now destruct (x =? y).
Qed.
Lemma huawei_packed : huawei_map = map (fun '(w, m) => (packed w, m)) huawei_devices.
Proof. vm_compute. reflexivity. Qed.
Lemma huawei_codes : Forall (fun '(w, m) => bytes w /\ length w = 3%nat /\ m <> 0) huawei_devices.
Proof.
  assert (F : forallb (fun '(w, m) => forallb (fun c => c <? 256) w && (length w =? 3)%nat && negb (m =? 0)) huawei_devices = true) by (vm_compute; reflexivity).
  rewrite forallb_forall in F. apply Forall_forall. intros [w m] I. specialize (F _ I). cbv beta iota in F.
  rewrite !Bool.andb_true_iff, forallb_forall, Nat.eqb_eq, Bool.negb_true_iff, N.eqb_neq in F. destruct F as [[F L] Z]. split; [|split; assumption].
  apply Forall_forall. intros c J. specialize (F c J). now apply N.ltb_lt.
Qed.
Lemma find_packed code : bytes code -> length code = 3%nat -> forall l, Forall (fun '(w, m) => bytes w /\ length w = 3%nat /\ m <> 0) l ->
  let m := find_huawei (packed code) (map (fun '(w, m) => (packed w, m)) l) in
  m <> 0 /\ In (code, m) l \/ m = 0 /\ forall m, ~ In (code, m) l.
Proof.
  intros B L. induction l as [|[w m] l IH]; intros F; [right; split; [reflexivity|intros m []]|]. inversion F as [|? ? F0 F']; subst. destruct F0 as (Bw & Lw & Z).
  cbn [map find_huawei]. rewrite packed_eqb by (assumption || congruence). destruct (same w code) eqn:E.
  - apply same_iff in E. subst w. left. split; [exact Z|now left].
  - destruct (IH F') as [[Q I]|[Q I]]; [left; split; [exact Q|now right]|right]. split; [exact Q|]. intros m' [J|J]; [|exact (I m' J)].
    injection J as -> ->. rewrite (proj2 (same_iff _ _) eq_refl) in E. discriminate.
Qed.
Lemma huawei_unique code m m' : In (code, m) huawei_devices -> In (code, m') huawei_devices -> m = m'.
Proof.
  assert (F : forallb (fun '(w, m) => forallb (fun '(w', m') => negb (same w w') || (m =? m')) huawei_devices) huawei_devices = true) by (vm_compute; reflexivity).
  intros I I'. rewrite forallb_forall in F. specialize (F _ I). cbv beta iota in F. rewrite forallb_forall in F. specialize (F _ I'). cbv beta iota in F.
  rewrite (proj2 (same_iff _ _) eq_refl) in F. now apply N.eqb_eq in F.
Qed.
Lemma huawei_reads : reads match_huawei huawei.
Proof.
  intros s B. rewrite huawei_value by exact B. unfold huawei. intros c.
  assert (L3 : forall code model, In (code, model) huawei_devices -> length code = 3%nat).
  { intros code model I. pose proof huawei_codes as F. rewrite Forall_forall in F. apply (F _ I). }
  assert (SH : forall (P : Prop), (forall x, s <> x) -> P) by (intros P Q; destruct (Q s eq_refl)).
  destruct s as [|x [|y [|z rest]]];
    [(split; [discriminate|]; intros (code & model & r & I & E & _); apply L3 in I; apply (f_equal (@length N)) in E; rewrite app_length, I in E; cbn in E; lia)..|].
  clear SH. change (x + 256 * (y + 256 * (z + 256 * 0))) with (packed [x; y; z]). cbv zeta. hyps B.
  pose proof (find_packed [x; y; z] ltac:(repeat (constructor; [assumption|]); constructor) eq_refl huawei_devices huawei_codes) as K. cbv zeta in K. rewrite <- huawei_packed in K.
  set (model := find_huawei (packed [x; y; z]) huawei_map) in *. clearbody model. rewrite <- (Bool.negb_involutive (model =? 0)). pose proof (huawei_tail_iff rest B) as T. split.
  - destruct (N.eqb_spec model 0) as [->|Z]; [discriminate|]. cbn [negb andb]. destruct (huawei_tail rest) eqn:H; [|discriminate]. intros [= <-].
    destruct K as [[_ I]|[Q _]]; [|contradiction]. exists [x; y; z], model, rest. split; [exact I|]. split; [reflexivity|]. split; [reflexivity|]. now apply T.
  - intros (code & m & r & I & E & -> & R). pose proof (L3 _ _ I) as L. destruct code as [|a [|b [|d [|]]]]; try discriminate. cbn [app] in E. injection E as <- <- <- <-.
    apply T in R. rewrite R. destruct K as [[Z I']|[_ NI]]; [|destruct (NI m I)]. rewrite (huawei_unique _ _ _ I I') in *.
    destruct (N.eqb_spec model 0); [contradiction|]. reflexivity.
Qed.

(** ** Tegra *)

Lemma is_tegra_value s : bytes s -> is_tegra s = Ok (same s (text "tegra") || same s (text "tegra3")).
Proof.
  intros B. spell. unfold is_tegra. destruct s as [|x0 [|x1 [|x2 [|x3 [|x4 [|x5 [|x6 s]]]]]]]; hyps B; repeat (run; words; first [reflexivity | clash | step]).
Qed.

(** ** Tables *)

Lemma plain_bytes s : plain s -> bytes s.
Proof. intros P. eapply Forall_impl; [|exact P]. cbn. intros; lia. Qed.
Lemma rd_at {A} (p : list A) x r : rd (p ++ x :: r) (length p) = Ok x.
Proof. unfold rd. now rewrite nth_error_app2, Nat.sub_diag by lia. Qed.
(** Comparing as many characters as [s] has with a string. *)
Lemma strncmp_prefix w : forall s pw ps, length pw = length ps -> ~ In 0 s -> ~ In 0 w ->
  strncmp_same (length s) (pw ++ w ++ [0]) (ps ++ s) (length ps) = Ok (same s (firstn (length s) w)).
Proof.
  induction w as [|x w IH]; intros s pw ps L Zs Zw; destruct s as [|y s]; try reflexivity; cbn [length strncmp_same app firstn].
  - rewrite rd_at. rewrite <- L, rd_at. cbn [bind]. destruct (N.eqb_spec 0 y) as [<-|]; [destruct Zs; now left|reflexivity].
  - rewrite rd_at. rewrite <- L, rd_at. cbn [bind same]. rewrite (N.eqb_sym y x). destruct (N.eqb_spec x y) as [<-|]; [|reflexivity]. cbn [negb].
    destruct (N.eqb_spec x 0) as [->|]; [destruct Zw; now left|]. specialize (IH s (pw ++ [x]) (ps ++ [x])). rewrite !app_length in IH. cbn [length] in IH.
    rewrite !Nat.add_1_r, <- !app_assoc in IH. cbn [app] in IH. rewrite L. apply IH; [congruence|intros I; apply Zs; now right|intros I; apply Zw; now right].
Qed.
