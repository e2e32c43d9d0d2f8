(** No chipset is twice in the table of chipsets. *)
From Verif Require Import Base ArmClusterMidrModel.
Open Scope nat_scope.

Definition entry_key (cfg : cluster_config) : N * N := (cc_series cfg, cc_model cfg).
Fixpoint distinct (l : list (N * N)) : bool :=
  match l with [] => true | k :: r => negb (existsb (fun q => (fst q =? fst k) && (snd q =? snd k))%N r) && distinct r end.
Lemma distinct_spec l : distinct l = true -> NoDup l.
Proof.
  induction l as [|k r IH]; [constructor|]. cbn [distinct]. intros D. apply andb_prop in D. destruct D as [D R]. constructor; [|auto].
  intros I. apply negb_true_iff in D. rewrite <- not_true_iff_false in D. apply D. apply existsb_exists. exists k. now rewrite !N.eqb_refl.
Qed.
Lemma tables_distinct : forallb (fun arm32 => distinct (map entry_key (cluster_table arm32))) [true; false] = true.
Proof. vm_compute. reflexivity. Qed.

Lemma chipset_once arm32 i j cfg cfg' : nth_error (cluster_table arm32) i = Some cfg -> nth_error (cluster_table arm32) j = Some cfg' ->
  cc_series cfg = cc_series cfg' -> cc_model cfg = cc_model cfg' -> i = j.
Proof.
  intros I J S M. pose proof tables_distinct as D. rewrite forallb_forall in D. specialize (D arm32 ltac:(destruct arm32; cbn; auto)).
  apply distinct_spec in D. rewrite NoDup_nth_error in D. apply D.
  - rewrite map_length. apply nth_error_Some. congruence.
  - rewrite !nth_error_map, I, J. cbn [option_map]. unfold entry_key. congruence.
Qed.
