(** Getters include what an extension builds on. *)
From Verif Require Import Base X86DescriptorModel X86DecodeModel X86IsaModel X86IsaSpec X86IsaProofs X86IsaBaseSpec.
Open Scope N_scope.

(** What the pairs must satisfy apart from CPUID: decided by running through them. *)
Definition state_of (g : getter) : list N := match documented false false false g with Some (Entry _ s) => asked g s | None => [] end.
Definition included (l k : list N) : bool := match l with [] => true | _ => forallb (fun i => existsb (N.eqb i) k) l end.
Definition pair_ok (x32 android : bool) (p : getter * getter) : bool :=
  let '(a, c) := p in
  (match documented false false false a with Some _ => included (state_of c) (state_of a) | None => true end) &&
  match by_build (Build x32 android) a, by_build (Build x32 android) c with
  | Some true, Some true | Some false, _ | None, None | None, Some true => true
  | _, _ => false
  end.

Lemma pairs_ok b p : In p x86_builds_on -> pair_ok (b_x86_32 b) (b_android b) p = true.
Proof.
  revert p. apply forallb_forall. destruct b as [[] []]; reflexivity.
Qed.

Lemma state_same b m g places state : documented_on b m g = Some (Entry places state) -> asked g state = state_of g.
Proof.
  unfold documented_on, state_of.
  set (i := vendor_of b m =? vendor_intel). set (a := (vendor_of b m =? vendor_amd) || (vendor_of b m =? vendor_hygon)). set (e := b_x86_32 b && _).
  clearbody i a e. destruct g, i, a, e; cbn; intros H; try discriminate H; now injection H as <- <-.
Qed.

Lemma entry_always b m g : documented false false false g = None -> documented_on b m g = None.
Proof. unfold documented_on. destruct g; cbn; intros H; try discriminate H; reflexivity. Qed.

Lemma gate_included m l k : included l k = true -> gate m k = true -> gate m l = true.
Proof.
  destruct l as [|i l]; [reflexivity|]. intros I. assert (K : forall j, In j (i :: l) -> In j k).
  { intros j Hj. unfold included in I. rewrite forallb_forall in I. specialize (I j Hj). apply existsb_exists in I. destruct I as (x & Hx & E).
    apply N.eqb_eq in E. now subst x. }
  destruct k as [|i' k]; [destruct (K i (or_introl eq_refl))|]. unfold gate. rewrite !Bool.andb_true_iff. intros (((A & B) & C) & D). repeat split; try assumption.
  - apply forallb_forall. intros j Hj. rewrite forallb_forall in C. now apply C, K.
  - apply forallb_forall. intros j Hj. rewrite forallb_forall in D. now apply D, K.
Qed.

(** By its entry. *)
Lemma reports_iff b m g places state : 1 <= eax (cpuid m 0) -> by_build b g = None -> documented_on b m g = Some (Entry places state) ->
  reports b m g <-> announced b m g /\ gate m (state_of g) = true.
Proof.
  intros H HB HD. unfold reports. rewrite (getter_value b m g places state H HB HD), (state_same _ _ _ _ _ HD), Bool.andb_true_iff.
  rewrite exists_announces by (eapply documented_real; exact HD). split.
  - intros (P & G). split; [|exact G]. exists places, state. split; [exact HD|exact P].
  - intros ((places' & state' & HD' & P) & G). rewrite HD in HD'. injection HD' as <- <-. now split.
Qed.

Lemma one_step b m a c : announces_completely b m -> In (a, c) x86_builds_on -> reports b m a -> reports b m c.
Proof.
  intros HH HI HR. pose proof (pairs_ok b _ HI) as OK. unfold pair_ok in OK. destruct b as [x32 android]. cbn [b_x86_32 b_android] in OK.
  apply Bool.andb_true_iff in OK. destruct OK as (I & OK). set (b := Build x32 android) in *.
  destruct (by_build b c) as [[|]|] eqn:BC.
  - exact (getter_by_build b _ c true BC).
  - destruct (by_build b a) as [[|]|] eqn:BA; try discriminate OK. exfalso. unfold reports in HR. rewrite (getter_by_build b _ a false BA) in HR. discriminate HR.
  - destruct (by_build b a) as [[|]|] eqn:BA; try discriminate OK.
    { exfalso. unfold reports in HR. rewrite (getter_by_build b _ a false BA) in HR. discriminate HR. }
    destruct (N.eq_dec (eax (cpuid m 0)) 0) as [E|E]; [now apply reports_none in HR|]. assert (HM : 1 <= eax (cpuid m 0)) by lia.
    destruct (documented_on b m c) as [(pc & sc)|] eqn:DC.
    + destruct (documented_on b m a) as [(pa & sa)|] eqn:DA.
      * apply (reports_iff b m a pa sa HM BA DA) in HR. destruct HR as (A & G). apply (reports_iff b m c pc sc HM BC DC). split; [now apply (HH a c)|].
        apply (gate_included m _ (state_of a)); [|exact G]. destruct (documented false false false a) eqn:D0; [exact I|]. now apply (entry_always b m) in D0; rewrite DA in D0.
      * apply no_entry in DA. destruct DA as [-> |[-> | ->]].
        -- assert (c = Has_avx10_1) as ->. { cbv [x86_builds_on map app In] in HI. repeat (destruct HI as [HI|HI]; [try discriminate HI; now injection HI as <-|]). destruct HI. }
           unfold reports in HR. rewrite avx10_2_value in HR by exact HM. apply Bool.andb_true_iff in HR. apply HR.
        -- assert (c = Has_3dnow_plus) as ->. { cbv [x86_builds_on map app In] in HI. repeat (destruct HI as [HI|HI]; [try discriminate HI; now injection HI as <-|]). destruct HI. }
           apply geode_value in HR; [|exact HM|exact BA]. apply (reports_iff b m _ pc sc HM BC DC). split; [|reflexivity].
           exists [ext_edx 30], []. split; [reflexivity|]. exists (ext_edx 30). split; [now left|exact (proj1 HR)].
        -- exfalso. cbv [x86_builds_on map app In] in HI. repeat (destruct HI as [HI|HI]; [discriminate HI|]). destruct HI.
    + apply no_entry in DC. exfalso. cbv [x86_builds_on map app In] in HI.
      destruct DC as [-> |[-> | ->]]; repeat (destruct HI as [HI|HI]; [discriminate HI|]); destruct HI.
Qed.

Lemma all_needs b m a c : announces_completely b m -> needs a c -> reports b m a -> reports b m c.
Proof. intros HH N. induction N as [|a c d I _ IH]; [auto|]. intros HR. apply IH. now apply (one_step b m a c). Qed.

(** For examples. *)
Definition announcedb (b : build) (m : cpu) (g : getter) : bool :=
  match documented_on b m g with Some (Entry places _) => existsb (announcesb m) places | None => false end.
Lemma announcedb_spec b m g : announcedb b m g = true <-> announced b m g.
Proof.
  unfold announcedb, announced. destruct (documented_on b m g) as [(places & state)|] eqn:D.
  - rewrite exists_announces by (eapply documented_real; exact D). split.
    + intros P. exists places, state. now split.
    + intros (places' & state' & E & P). now injection E as <- <-.
  - split; [discriminate|]. intros (places & state & E & _). discriminate E.
Qed.
Lemma completely_by_run b m : forallb (fun p => implb (announcedb b m (fst p)) (announcedb b m (snd p))) x86_builds_on = true -> announces_completely b m.
Proof.
  intros H a c I A. rewrite forallb_forall in H. specialize (H _ I). cbn [fst snd] in H. apply announcedb_spec. apply announcedb_spec in A. rewrite A in H. exact H.
Qed.
