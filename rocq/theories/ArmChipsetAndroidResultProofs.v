(** The chip of an Android device. *)
From Verif Require Import Base BaseProofs Text LinuxTextSpec X86CpuinfoModel ArmClusterMidrModel ArmCpuinfoModel ArmChipsetModel ArmChipsetSpec ArmChipsetNameSpec ArmChipsetFixupSpec ArmChipsetAndroidSpec
  ArmChipsetFitProofs ArmChipsetMatchProofs ArmChipsetReadProofs ArmChipsetOtherProofs ArmChipsetDeviceProofs ArmChipsetSourceProofs ArmChipsetExclusiveProofs ArmChipsetNameProofs
  ArmChipsetFixupProofs ArmChipsetGoodProofs ArmChipsetLinuxProofs ArmChipsetAndroidProofs.
Open Scope N_scope.

(** ** What the sources say *)

Definition list_of (c : source -> chip) : list chip := map c [Hardware; Board; Platform; Mediatek; Arch; Chipname; Hardware_chipname].
Lemma in_list_of c x : In (c x) (list_of c).
Proof. unfold list_of. apply in_map. destruct x; cbn; tauto. Qed.
Lemma list_of_in c d : In d (list_of c) -> exists x, d = c x.
Proof. unfold list_of. intros I. apply in_map_iff in I. destruct I as (x & <- & _). now exists x. Qed.
Lemma saying_good arm32 cores frequency p x c : says arm32 cores frequency p x c -> good c.
Proof.
  destruct x; cbn [says]; intros H.
  - destruct H as [[_ H]|[_ H]]; [eapply tegra_good; exact H|eapply hardware_good; exact H].
  - eapply board_good; exact H.
  - eapply platform_good; exact H.
  - eapply mediatek_good; exact H.
  - eapply arch_good; exact H.
  - eapply chipname_good; exact H.
  - eapply chipname_good; exact H.
Qed.
Lemma saying_unique arm32 cores frequency p x c c' : plain_properties p -> says arm32 cores frequency p x c -> says arm32 cores frequency p x c' -> c = c'.
Proof.
  intros (P1 & P2 & P3 & P4 & P5 & P6 & P7). destruct x; cbn [says]; intros H H'.
  - destruct H as [[T H]|[T H]], H' as [[T' H']|[T' H']]; try contradiction; [eapply (tegra_functional arm32 (an_hardware p)); eassumption|eapply (hardware_functional arm32 cores frequency (an_hardware p)); eassumption].
  - eapply (board_functional arm32 cores frequency (an_board p)); eassumption.
  - eapply (platform_functional arm32 cores frequency (an_platform p)); eassumption.
  - eapply (mediatek_functional (an_mediatek p)); eassumption.
  - eapply (arch_functional (an_arch p)); eassumption.
  - eapply (chipname_functional arm32 (an_chipname p)); eassumption.
  - eapply (chipname_functional arm32 (an_hardware_chipname p)); eassumption.
Qed.
Lemma plain_bytes_of s : plain s -> bytes s.
Proof. apply plain_bytes. Qed.
Lemma saying_exists arm32 cores frequency p : plain_properties p -> exists d, saying arm32 cores frequency p d /\
  exists tegra, is_tegra (an_platform p) = Ok tegra /\ from_hardware arm32 cores frequency tegra (an_hardware p) = Ok (d Hardware) /\
    from_board arm32 cores frequency (an_board p) = Ok (d Board) /\ from_platform arm32 cores frequency (an_platform p) = Ok (d Platform) /\ from_mediatek (an_mediatek p) = Ok (d Mediatek) /\
    from_arch (an_arch p) = Ok (d Arch) /\ from_chipname arm32 (an_chipname p) = Ok (d Chipname) /\ from_chipname arm32 (an_hardware_chipname p) = Ok (d Hardware_chipname).
Proof.
  intros (P1 & P2 & P3 & P4 & P5 & P6 & P7).
  destruct (from_board_gives arm32 cores frequency _ P2) as (c2 & E2 & H2). destruct (from_platform_gives arm32 cores frequency _ P3) as (c3 & E3 & H3).
  destruct (from_mediatek_gives _ P4) as (c4 & E4 & H4). destruct (from_arch_gives _ P5) as (c5 & E5 & H5). destruct (from_chipname_gives arm32 _ P6) as (c6 & E6 & H6).
  destruct (from_chipname_gives arm32 _ P7) as (c7 & E7 & H7). pose proof (is_tegra_value (an_platform p) (plain_bytes_of _ P3)) as T.
  assert (X : exists tegra c1, is_tegra (an_platform p) = Ok tegra /\ from_hardware arm32 cores frequency tegra (an_hardware p) = Ok c1 /\ says arm32 cores frequency p Hardware c1).
  { destruct (same (an_platform p) (text "tegra") || same (an_platform p) (text "tegra3")) eqn:B.
    - destruct (from_tegra_gives arm32 cores frequency _ P1) as (c1 & E1 & H1). exists true, c1. split; [exact T|]. split; [exact E1|]. left. split; [|exact H1].
      apply Bool.orb_true_iff in B. rewrite !same_iff in B. exact B.
    - destruct (from_hardware_gives arm32 cores frequency _ P1) as (c1 & E1 & H1). exists false, c1. split; [exact T|]. split; [exact E1|]. right. split; [|exact H1].
      intros Q. assert (true = false); [|discriminate]. rewrite <- B. symmetry. apply Bool.orb_true_iff. rewrite !same_iff. exact Q. }
  destruct X as (tegra & c1 & Et & E1 & H1).
  exists (fun x => match x with Hardware => c1 | Board => c2 | Platform => c3 | Mediatek => c4 | Arch => c5 | Chipname => c6 | Hardware_chipname => c7 end). split.
  - intros x. destruct x; assumption.
  - exists tegra. repeat (split; [assumption|]). assumption.
Qed.

Definition decide (cs : list chip) : res chip :=
  match agreed_vendor ve_unknown cs with
  | None => Ok unknown_chip
  | Some vendor =>
      if vendor =? ve_unknown then Ok unknown_chip
      else
        do cs <- propagate cs;
        match unanimous unknown_chip cs with
        | Some c => Ok c
        | None =>
            match cs with
            | [hardware; board; platform; mediatek; arch; chipname; hardware_chipname] =>
                Ok (disambiguate vendor hardware board platform mediatek arch chipname hardware_chipname)
            | _ => UB
            end
        end
  end.
Lemma agreed_same : forall cs cs' v, map chp_vendor cs = map chp_vendor cs' -> agreed_vendor v cs = agreed_vendor v cs'.
Proof.
  induction cs as [|c cs IH]; intros [|c' cs'] v E; try discriminate; [reflexivity|]. cbn [map agreed_vendor] in *. injection E as Ev E. rewrite Ev. now rewrite !(IH cs') by exact E.
Qed.
Lemma good_unknown c : good c -> ~ recognized c -> c = unknown_chip.
Proof. intros [->|P] U; [reflexivity|]. destruct U. intros ->. destruct (proper_vendor _ P) as [V _]. now apply V. Qed.
Lemma good_recognized c : good c -> recognized c -> proper c.
Proof. intros [->|P] U; [now destruct U|exact P]. Qed.
Lemma proper_recognized c : proper c -> recognized c.
Proof. intros P ->. destruct (proper_vendor _ P) as [V _]. now apply V. Qed.
Lemma recognized_dec c : recognized c \/ ~ recognized c.
Proof.
  destruct c as [v se m x]. unfold recognized, unknown_chip. destruct (N.eq_dec v ve_unknown) as [->|]; [|left; congruence]. destruct (N.eq_dec se se_unknown) as [->|]; [|left; congruence].
  destruct (N.eq_dec m 0) as [->|]; [|left; congruence]. destruct (list_eq_dec N.eq_dec x (repeat 0 8)) as [->|]; [right; intros H; now apply H|left]. intros E. apply n. now injection E.
Qed.
Lemma corrected_good arm32 cores frequency c c' : good c -> corrected arm32 cores frequency c c' -> fixup arm32 cores frequency c = Ok c' /\ good c' /\ chp_vendor c' = chp_vendor c.
Proof.
  intros G C. destruct G as [->|P].
  - assert (H : holds_suffix (chp_suffix unknown_chip) []) by (split; [constructor|split; [cbn; lia|reflexivity]]).
    destruct (fixup_corrects arm32 cores frequency unknown_chip [] H) as (c1 & x & E & C1 & _). pose proof (corrected_unique _ _ _ _ _ _ C C1). subst c1. rewrite fixup_unknown in E. injection E as <-.
    split; [apply fixup_unknown|]. split; [now left|reflexivity].
  - destruct (fixup_proper arm32 cores frequency c P) as (c1 & E & C1 & P1 & V). pose proof (corrected_unique _ _ _ _ _ _ C C1). subst c1. split; [exact E|]. split; [now right|exact V].
Qed.
Lemma good_corrected arm32 cores frequency c : good c -> exists c', corrected arm32 cores frequency c c'.
Proof.
  intros [->|P].
  - assert (H : holds_suffix (chp_suffix unknown_chip) []) by (split; [constructor|split; [cbn; lia|reflexivity]]).
    destruct (fixup_corrects arm32 cores frequency unknown_chip [] H) as (c1 & x & E & C1 & _). now exists c1.
  - destruct (fixup_proper arm32 cores frequency c P) as (c1 & E & C1 & _). now exists c1.
Qed.
Lemma meaning_exists arm32 cores frequency p : plain_properties p -> exists c, meaning arm32 cores frequency p c.
Proof.
  intros P. destruct (saying_exists arm32 cores frequency p P) as (d & S0 & _).
  assert (X : forall x, exists c', corrected arm32 cores frequency (d x) c') by (intros x; apply good_corrected; eapply saying_good; apply S0).
  destruct (X Hardware) as (c1 & C1), (X Board) as (c2 & C2), (X Platform) as (c3 & C3), (X Mediatek) as (c4 & C4), (X Arch) as (c5 & C5), (X Chipname) as (c6 & C6), (X Hardware_chipname) as (c7 & C7).
  exists (fun x => match x with Hardware => c1 | Board => c2 | Platform => c3 | Mediatek => c4 | Arch => c5 | Chipname => c6 | Hardware_chipname => c7 end). exists d. split; [exact S0|].
  intros x. destruct x; assumption.
Qed.
Lemma meaning_good arm32 cores frequency p c x : meaning arm32 cores frequency p c -> good (c x).
Proof. intros (d & S0 & C). eapply corrected_good; [eapply saying_good; apply (S0 x)|apply C]. Qed.
Lemma meaning_unique arm32 cores frequency p c c' : plain_properties p -> meaning arm32 cores frequency p c -> meaning arm32 cores frequency p c' -> forall x, c x = c' x.
Proof.
  intros P (d & S0 & C) (d' & S0' & C') x. pose proof (saying_unique _ _ _ _ _ _ _ P (S0 x) (S0' x)) as E. specialize (C x). specialize (C' x). rewrite <- E in C'. eapply corrected_unique; eassumption.
Qed.
Lemma android_decides arm32 cores frequency p c : plain_properties p -> meaning arm32 cores frequency p c -> android_chip arm32 cores frequency p = decide (list_of c).
Proof.
  intros P M. destruct M as (d' & S0' & C). destruct (saying_exists arm32 cores frequency p P) as (d & S0 & tegra & E & E1 & E2 & E3 & E4 & E5 & E6 & E7).
  assert (D : forall x, corrected arm32 cores frequency (d x) (c x)).
  { intros x. specialize (C x). now rewrite (saying_unique _ _ _ _ _ _ _ P (S0 x) (S0' x)). }
  assert (G : forall x, fixup arm32 cores frequency (d x) = Ok (c x) /\ chp_vendor (c x) = chp_vendor (d x)).
  { intros x. destruct (corrected_good arm32 cores frequency (d x) (c x)) as (F & _ & V); [eapply saying_good; apply S0|apply D|]. now split. }
  unfold android_chip. rewrite E. cbn [bind]. rewrite E1. cbn [bind]. rewrite E2. cbn [bind]. rewrite E3. cbn [bind]. rewrite E4. cbn [bind]. rewrite E5. cbn [bind].
  rewrite E6. cbn [bind]. rewrite E7. cbn [bind]. cbv zeta. unfold decide.
  rewrite (agreed_same (list_of c) [d Hardware; d Board; d Platform; d Mediatek; d Arch; d Chipname; d Hardware_chipname] ve_unknown)
    by (unfold list_of; cbn [map]; now rewrite !(fun x => proj2 (G x))).
  destruct (agreed_vendor ve_unknown _) as [v|]; [|reflexivity]. destruct (v =? ve_unknown); [reflexivity|].
  cbn [each]. rewrite !(fun x => proj1 (G x)). cbn [bind]. reflexivity.
Qed.

(** ** Propagated suffixes *)

Lemma good_has c : good c -> exists x, has c x.
Proof. intros [->|(_ & _ & H)]; [|exact H]. exists []. split; [constructor|split; [cbn; lia|reflexivity]]. Qed.
Lemma good_series c : good c -> chp_series c = se_unknown -> c = unknown_chip.
Proof. intros [->|P] E; [reflexivity|]. destruct (proper_vendor _ P) as [_ S0]. contradiction. Qed.
Lemma likes_in a b y : likes a b -> In y b -> exists x, In x a /\ like x y.
Proof. induction 1 as [|x' y' a b L H IH]; intros I; [destruct I|]. destruct I as [<-|I]; [exists x'; split; [now left|exact L]|]. destruct (IH I) as (x & J & L'). exists x. split; [now right|exact L']. Qed.
Lemma propagate_good cs : Forall good cs -> exists cs', propagate cs = Ok cs' /\ likes cs cs' /\ Forall good cs'.
Proof.
  intros G. assert (A : all_have cs) by (apply Forall_forall; intros c I; rewrite Forall_forall in G; now apply good_has, G).
  destruct (propagate_keeps cs A) as (cs' & E & L & A'). exists cs'. split; [exact E|]. split; [exact L|]. apply Forall_forall. intros c' I.
  destruct (likes_in _ _ _ L I) as (c & J & (V & S0 & M)). rewrite Forall_forall in G. unfold all_have in A'. rewrite Forall_forall in A'. destruct (A' c' I) as (x & H).
  destruct (G c J) as [->|((vs & N1) & B & _)].
  - left. apply In_nth_error in J. destruct J as (a & Ea). destruct (propagate_whole se_unknown [] cs a) as (cs2 & E2 & _ & _ & W).
    + cbn. lia.
    + exact A.
    + intros i c Ei Si. apply nth_error_In in Ei. rewrite (good_series c (G c Ei) Si). exists 0%nat. split; [cbn; lia|]. split; [constructor|split; [cbn; lia|reflexivity]].
    + exists unknown_chip. split; [exact Ea|]. split; [reflexivity|]. split; [constructor|split; [cbn; lia|reflexivity]].
    + rewrite E in E2. injection E2 as <-. apply In_nth_error in I. destruct I as (i & Ei). pose proof (has_pad _ _ (W i c' Ei (eq_sym S0))) as Hw.
      destruct c' as [v' se' m' a']. cbn in V, S0, M, Hw. subst. reflexivity.
  - right. split; [exists vs; now rewrite <- V, <- S0|]. split; [now rewrite <- M|]. now exists x.
Qed.
Lemma seven (cs' : list chip) : length cs' = 7%nat -> exists c, cs' = list_of c.
Proof.
  intros L. do 7 (destruct cs' as [|? cs']; [discriminate|]). destruct cs'; [|discriminate].
  exists (fun x => match x with Hardware => c | Board => c0 | Platform => c1 | Mediatek => c2 | Arch => c3 | Chipname => c4 | Hardware_chipname => c5 end). reflexivity.
Qed.
Lemma likes_of c c' : likes (list_of c) (list_of c') -> forall x, like (c x) (c' x).
Proof.
  unfold list_of. cbn [map]. intros H. inversion H as [|? ? ? ? L1 H1]; subst. inversion H1 as [|? ? ? ? L2 H2]; subst. inversion H2 as [|? ? ? ? L3 H3]; subst. inversion H3 as [|? ? ? ? L4 H4]; subst.
  inversion H4 as [|? ? ? ? L5 H5]; subst. inversion H5 as [|? ? ? ? L6 H6]; subst. inversion H6 as [|? ? ? ? L7 H7]; subst. intros x. destruct x; assumption.
Qed.
Lemma propagated c : (forall x, good (c x)) -> exists c', propagate (list_of c) = Ok (list_of c') /\ (forall x, like (c x) (c' x)) /\ forall x, good (c' x).
Proof.
  intros G. destruct (propagate_good (list_of c)) as (cs' & E & L & G').
  - apply Forall_forall. intros d I. apply list_of_in in I. destruct I as (x & ->). apply G.
  - destruct (seven cs') as (c' & ->); [now rewrite <- (likes_length _ _ L)|]. exists c'. split; [exact E|]. split; [now apply likes_of|]. intros x. rewrite Forall_forall in G'. apply G'. apply in_list_of.
Qed.

(** ** The decision *)

Lemma like_known a b : like a b -> good a -> good b -> recognized a <-> known_series b = true.
Proof.
  intros (V & S0 & M) Ga Gb. rewrite known_series_iff, <- S0. split.
  - intros R. now apply proper_vendor, good_recognized.
  - intros S1 ->. now apply S1.
Qed.
Lemma decide_none c : (forall x, good (c x)) -> (forall x, ~ recognized (c x)) -> decide (list_of c) = Ok unknown_chip.
Proof. intros G N1. unfold list_of. cbn [map]. rewrite !(fun x => good_unknown _ (G x) (N1 x)). reflexivity. Qed.
Lemma decide_vendors c x y : (forall x, good (c x)) -> recognized (c x) -> recognized (c y) -> chp_vendor (c x) <> chp_vendor (c y) -> decide (list_of c) = Ok unknown_chip.
Proof.
  intros G Rx Ry D. unfold decide. destruct (agreed_vendor ve_unknown (list_of c)) as [v|] eqn:E; [|reflexivity]. exfalso. apply agreed_some in E. destruct E as (_ & E & _).
  apply D. rewrite (E (c x)), (E (c y)); [reflexivity|apply in_list_of|now apply proper_vendor, good_recognized|apply in_list_of|now apply proper_vendor, good_recognized].
Qed.
Lemma one_vendor c v x : (forall x, good (c x)) -> (forall x, recognized (c x) -> chp_vendor (c x) = v) -> recognized (c x) -> agreed_vendor ve_unknown (list_of c) = Some v /\ v <> ve_unknown.
Proof.
  intros G A R. assert (V : v <> ve_unknown) by (rewrite <- (A x R); now apply proper_vendor, good_recognized). split; [|exact V].
  destruct (agreed_vendor ve_unknown (list_of c)) as [v'|] eqn:E.
  - apply agreed_some in E. destruct E as (_ & E & _). rewrite <- (E (c x)), (A x R); [reflexivity|apply in_list_of|rewrite (A x R); exact V].
  - exfalso. apply agreed_none in E. destruct E as (d & I & D & [[N0 _]|(e & J & E & W)]); [now apply N0|]. apply list_of_in in I. apply list_of_in in J. destruct I as (y & ->), J as (z & ->).
    assert (Ry : recognized (c y)) by (intros Q; rewrite Q in D; now apply D). assert (Rz : recognized (c z)) by (intros Q; rewrite Q in E; now apply E). apply W. now rewrite (A y Ry), (A z Rz).
Qed.
Lemma decide_one c v x : (forall x, good (c x)) -> (forall x, recognized (c x) -> chp_vendor (c x) = v) -> recognized (c x) ->
  exists c', propagate (list_of c) = Ok (list_of c') /\ (forall x, like (c x) (c' x)) /\ (forall x, good (c' x)) /\
    decide (list_of c) = match unanimous unknown_chip (list_of c') with
      | Some c => Ok c
      | None => Ok (disambiguate v (c' Hardware) (c' Board) (c' Platform) (c' Mediatek) (c' Arch) (c' Chipname) (c' Hardware_chipname))
      end.
Proof.
  intros G A R. destruct (one_vendor c v x G A R) as [E V]. destruct (propagated c G) as (c' & P & L & G'). exists c'. split; [exact P|]. split; [exact L|]. split; [exact G'|].
  unfold decide. rewrite E, (proj2 (N.eqb_neq _ _) V), P. cbn [bind]. unfold list_of at 1. cbn [map]. reflexivity.
Qed.
Lemma decide_agreement c whole : (forall x, good (c x)) -> agreement c whole -> decide (list_of c) = Ok whole.
Proof.
  intros G (w & Hw & (x0 & E0) & R0 & A). rewrite <- E0 in R0.
  assert (Av : forall x, recognized (c x) -> chp_vendor (c x) = chp_vendor whole) by (intros x R; now apply A).
  destruct (decide_one c (chp_vendor whole) x0 G Av R0) as (c' & P & L & G' & ->).
  assert (T : forall x, recognized (c x) -> c' x = whole).
  { intros x R. assert (I0 : exists a, nth_error (list_of c) a = Some (c x0)) by (apply In_nth_error, in_list_of). destruct I0 as (a & Ea).
    destruct (propagate_whole (chp_series whole) w (list_of c) a) as (cs2 & E2 & _ & _ & W).
    - apply Hw.
    - apply Forall_forall. intros d I. apply list_of_in in I. destruct I as (y & ->). now apply good_has.
    - intros i d Ei Si. apply nth_error_In, list_of_in in Ei. destruct Ei as (y & ->). assert (Ry : recognized (c y)).
      { destruct (recognized_dec (c y)) as [R'|R']; [exact R'|]. exfalso. pose proof (proj2 (proper_vendor _ (good_recognized _ (G x0) R0))) as S0. rewrite E0, <- Si, (good_unknown _ (G y) R') in S0.
        now apply S0. }
      destruct (A y Ry) as (_ & v & rest & Hv & Q). exists (length v). subst w. split; [rewrite app_length; lia|]. unfold has. rewrite firstn_app, firstn_all, Nat.sub_diag. cbn [firstn].
      now rewrite app_nil_r.
    - exists (c x0). split; [exact Ea|]. rewrite E0. split; [reflexivity|exact Hw].
    - rewrite P in E2. injection E2 as <-. destruct (In_nth_error _ _ (in_list_of c' x)) as (i & Ei). destruct (A x R) as ((V1 & S1 & M1) & _). destruct (L x) as (V2 & S2 & M2).
      assert (Hx : has (c' x) w) by (apply (W i _ Ei); congruence). apply has_pad in Hx. change (holds_suffix (chp_suffix whole) w) with (has whole w) in Hw. apply has_pad in Hw.
      destruct (c' x) as [v' s' m' a'], whole as [v0 s0 m0 a0]. cbn in *. congruence. }
  assert (U : forall d, In d (list_of c') -> known_series d = true -> d = whole).
  { intros d I K. apply list_of_in in I. destruct I as (x & ->). apply T. now apply (like_known _ _ (L x) (G x) (G' x)). }
  assert (K0 : known_series (c' x0) = true) by now apply (like_known _ _ (L x0) (G x0) (G' x0)).
  destruct (unanimous unknown_chip (list_of c')) as [d|] eqn:E.
  - apply unanimous_some in E. destruct E as (_ & I & [->|[J K]]).
    + exfalso. destruct (I (c' x0) (in_list_of c' x0) K0) as (S0 & _). apply known_series_iff in K0. now apply K0.
    + f_equal. now apply U.
  - exfalso. apply unanimous_none in E. destruct E as (a & b & I & Ka & Kb & [->|J] & D); [discriminate|]. rewrite (U a I Ka), (U b J Kb) in D. destruct D. split; [|split]; reflexivity.
Qed.

(** Which source is believed. *)
Lemma prefer_first (c c' : source -> chip) : (forall x, recognized (c x) <-> known_series (c' x) = true) -> (forall x, ~ recognized (c x) -> c' x = unknown_chip) ->
  forall before z, (exists y, first_known c (before ++ [z]) y /\ prefer (map c' before) (c' z) = c' y) \/ (forall x, In x (before ++ [z]) -> ~ recognized (c x)) /\ prefer (map c' before) (c' z) = unknown_chip.
Proof.
  intros K U. induction before as [|b before IH]; intros z; cbn [map prefer app].
  - destruct (recognized_dec (c z)) as [R|R].
    + left. exists z. split; [|reflexivity]. exists [], []. split; [reflexivity|]. split; [exact R|intros x []].
    + right. split; [intros x [<-|[]]; exact R|now apply U].
  - destruct (recognized_dec (c b)) as [R|R].
    + rewrite (proj1 (K b) R). left. exists b. split; [|reflexivity]. exists [], (before ++ [z]). split; [reflexivity|]. split; [exact R|intros x []].
    + destruct (known_series (c' b)) eqn:Q; [apply K in Q; contradiction|]. destruct (IH z) as [(y & (be & af & E & Ry & N1) & P)|(N1 & P)].
      * left. exists y. split; [|exact P]. exists (b :: be), af. rewrite E. split; [reflexivity|]. split; [exact Ry|]. intros x [<-|I]; [exact R|now apply N1].
      * right. split; [|exact P]. intros x [<-|I]; [exact R|now apply N1].
Qed.
Lemma first_known_unique c order y y' : first_known c order y -> first_known c order y' -> y = y'.
Proof.
  intros (b & a & E & R & N1) (b' & a' & E' & R' & N1'). rewrite E in E'. clear E. revert b' E' N1'. induction b as [|x b IH]; intros [|x' b'] E' N1'; cbn [app] in E'.
  - now injection E'.
  - injection E' as <- _. destruct (N1' y); [now left|exact R].
  - injection E' as -> _. destruct (N1 y'); [now left|exact R'].
  - injection E' as <- E'. apply (IH (fun z I => N1 z (or_intror I)) b' E'). intros z I. apply N1'. now right.
Qed.
Lemma believed_value v (c c' : source -> chip) : (forall x, recognized (c x) <-> known_series (c' x) = true) -> (forall x, ~ recognized (c x) -> c' x = unknown_chip) ->
  let r := disambiguate v (c' Hardware) (c' Board) (c' Platform) (c' Mediatek) (c' Arch) (c' Chipname) (c' Hardware_chipname) in
  (forall order, In (v, order) believed -> (exists y, first_known c order y /\ r = c' y) \/ (forall x, In x order -> ~ recognized (c x)) /\ r = unknown_chip) /\
  ((forall order, ~ In (v, order) believed) -> r = unknown_chip).
Proof.
  intros K U. cbv zeta. unfold disambiguate.
  destruct (N.eqb_spec v ve_qualcomm) as [->|N1]; [|destruct (N.eqb_spec v ve_mediatek) as [->|N2]; [|destruct (N.eqb_spec v ve_hisilicon) as [->|N3];
    [|destruct (N.eqb_spec v ve_amlogic) as [->|N4]; [|destruct (N.eqb_spec v ve_marvell) as [->|N5]; [|destruct (N.eqb_spec v ve_rockchip) as [->|N6];
    [|destruct (N.eqb_spec v ve_spreadtrum) as [->|N7]]]]]]].
  1-7: split; [intros order I; unfold believed in I; cbn [In] in I;
      repeat (destruct I as [I|I]; [try discriminate; injection I as <-|]); try contradiction
    |intros Q; exfalso; eapply Q; unfold believed; cbn [In]; tauto].
  - apply (prefer_first c c' K U [Hardware_chipname; Chipname; Hardware; Board] Platform).
  - apply (prefer_first c c' K U [Chipname; Hardware; Board; Platform] Mediatek).
  - apply (prefer_first c c' K U [Hardware; Board] Platform).
  - apply (prefer_first c c' K U [Hardware] Platform).
  - apply (prefer_first c c' K U [Chipname; Board] Hardware).
  - apply (prefer_first c c' K U [Board; Hardware] Platform).
  - apply (prefer_first c c' K U [Chipname; Board; Hardware] Platform).
  - split; [|reflexivity]. intros order I. exfalso. unfold believed in I. cbn [In] in I. repeat (destruct I as [I|I]; [injection I as <- <-; contradiction|]). contradiction.
Qed.
Lemma propagated_facts (c c' : source -> chip) : (forall x, good (c x)) -> (forall x, good (c' x)) -> (forall x, like (c x) (c' x)) ->
  (forall x, recognized (c x) <-> known_series (c' x) = true) /\ (forall x, ~ recognized (c x) -> c' x = unknown_chip).
Proof.
  intros G G' L. split; [intros x; now apply like_known|]. intros x R. apply good_series; [apply G'|]. destruct (L x) as (_ & S0 & _). rewrite <- S0, (good_unknown _ (G x) R). reflexivity.
Qed.
(** In any case: nothing, or a model that some source means. *)
Lemma decide_sound c : (forall x, good (c x)) -> exists r, decide (list_of c) = Ok r /\ good r /\ (r = unknown_chip \/ exists x, recognized (c x) /\ same_model r (c x)).
Proof.
  intros G. destruct (agreed_vendor ve_unknown (list_of c)) as [v|] eqn:E.
  2: { exists unknown_chip. unfold decide. rewrite E. split; [reflexivity|]. split; now left. }
  destruct (N.eq_dec v ve_unknown) as [->|V].
  { exists unknown_chip. unfold decide. rewrite E, N.eqb_refl. split; [reflexivity|]. split; now left. }
  pose proof (agreed_some _ _ _ E) as (_ & A & B). destruct (B V) as [->|(d & I & D)]; [now destruct V|]. apply list_of_in in I. destruct I as (x & ->).
  assert (R : recognized (c x)) by (intros Q; rewrite Q in D; now apply V).
  assert (Av : forall x, recognized (c x) -> chp_vendor (c x) = v) by (intros y Ry; apply A; [apply in_list_of|now apply proper_vendor, good_recognized]).
  destruct (decide_one c v x G Av R) as (c' & P & L & G' & ->). destruct (propagated_facts c c' G G' L) as (K & U).
  assert (Q : forall y, recognized (c y) -> same_model (c' y) (c y)) by (intros y _; destruct (L y) as (? & ? & ?); split; [|split]; congruence).
  destruct (unanimous unknown_chip (list_of c')) as [d|] eqn:Eu.
  - exists d. split; [reflexivity|]. apply unanimous_some in Eu. destruct Eu as (_ & _ & [->|[J Kd]]); [split; now left|]. apply list_of_in in J. destruct J as (y & ->).
    split; [apply G'|]. right. exists y. apply K in Kd. split; [exact Kd|now apply Q].
  - eexists. split; [reflexivity|]. destruct (believed_value v c c' K U) as [B1 B2]. cbv zeta in B1, B2. set (r := disambiguate _ _ _ _ _ _ _ _) in *.
    assert (X : (exists order, In (v, order) believed) \/ forall order, ~ In (v, order) believed).
    { destruct (in_dec N.eq_dec v (map fst believed)) as [I|I].
      - left. apply in_map_iff in I. destruct I as ((v' & order) & <- & I). now exists order.
      - right. intros order J. apply I. apply (in_map fst) in J. exact J. }
    destruct X as [(order & X)|X].
    + destruct (B1 order X) as [(y & (be & af & _ & Ry & _) & ->)|(_ & ->)]; [|split; now left]. split; [apply G'|]. right. exists y. split; [exact Ry|now apply Q].
    + rewrite (B2 X). split; now left.
Qed.
(** Different models of one vendor. *)
Lemma decide_disagreement c v x y : (forall x, good (c x)) -> (forall x, recognized (c x) -> chp_vendor (c x) = v) -> recognized (c x) -> recognized (c y) -> ~ same_model (c x) (c y) ->
  (forall order z, In (v, order) believed -> first_known c order z -> exists r, decide (list_of c) = Ok r /\ same_model r (c z)) /\
  (forall order, In (v, order) believed -> (forall z, In z order -> ~ recognized (c z)) -> decide (list_of c) = Ok unknown_chip) /\
  ((forall order, ~ In (v, order) believed) -> decide (list_of c) = Ok unknown_chip).
Proof.
  intros G A Rx Ry D. destruct (decide_one c v x G A Rx) as (c' & P & L & G' & ->). destruct (propagated_facts c c' G G' L) as (K & U).
  destruct (unanimous unknown_chip (list_of c')) as [d|] eqn:Eu.
  { exfalso. apply unanimous_some in Eu. destruct Eu as (_ & I & _). destruct (I (c' x) (in_list_of c' x) (proj1 (K x) Rx)) as (S1 & M1 & _).
    destruct (I (c' y) (in_list_of c' y) (proj1 (K y) Ry)) as (S2 & M2 & _). apply D. destruct (L x) as (_ & S3 & M3), (L y) as (_ & S4 & M4). split; [|split]; [|congruence..].
    now rewrite (A x Rx), (A y Ry). }
  destruct (believed_value v c c' K U) as [B1 B2]. cbv zeta in B1, B2. set (r := disambiguate _ _ _ _ _ _ _ _) in *. split; [|split].
  - intros order z I F. exists r. split; [reflexivity|]. destruct (B1 order I) as [(z' & F' & ->)|(N1 & _)].
    + rewrite (first_known_unique c order z z' F F'). destruct (L z') as (V & S0 & M). split; [|split]; congruence.
    + exfalso. destruct F as (be & af & -> & R & _). apply (N1 z); [apply in_or_app; right; now left|exact R].
  - intros order I N1. f_equal. destruct (B1 order I) as [(z' & (be & af & -> & R & _) & _)|(_ & Q)]; [|exact Q]. exfalso. apply (N1 z'); [apply in_or_app; right; now left|exact R].
  - intros Q. f_equal. now apply B2.
Qed.
