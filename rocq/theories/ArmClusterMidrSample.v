(** Sample processor tables for the examples about the main id registers of ARM clusters. *)
From Verif Require Import Base BaseProofs ArmMidrModel ArmMidrSpec ArmClustersModel ArmClustersSpec ArmClustersProofs ArmClusterMidrModel ArmClusterMidrSpec.
Open Scope nat_scope.

Definition cortex_a53 : N := 0x410FD034.
Definition cortex_a72 : N := 0x410FD080.
Definition plain_decode (midr : N) (vfpv4 : bool) : N * N := (N.shiftr midr 24, N.land (N.shiftr midr 4) 0xFFF).
Definition unknown_chip : chipset := Chipset 0 0 0.

Lemma unknown_chip_not_tabulated arm32 cfg :
  In cfg (cluster_table arm32) -> cc_series cfg = ch_series unknown_chip -> cc_model cfg = ch_model unknown_chip -> False.
Proof.
  intros H _ M. assert (X : forallb (fun cfg => negb (cc_model cfg =? 0)%N) (cluster_table arm32) = true) by (destruct arm32; vm_compute; reflexivity).
  rewrite forallb_forall in X. specialize (X cfg H). rewrite M in X. discriminate.
Qed.

(** A processor that is listed and reports a MIDR, one that is listed and does not,
    and one that is usable but not listed; [l] is its leader, [n] the size of its cluster. *)
Definition says (midr mhz : N) (l n : nat) : aproc :=
  AProc (N.lor (N.lor af_valid af_max_frequency) af_midr) midr mhz 0 l n 0 0 0 0 areport0.
Definition silent (mhz : N) (l n : nat) : aproc :=
  AProc (N.lor (N.lor af_valid af_max_frequency) af_processor) 0 mhz 0 l n 0 0 0 0 areport0.
Definition offline (mhz : N) (l n : nat) : aproc := AProc (N.lor af_valid af_max_frequency) 0 mhz 0 l n 0 0 0 0 areport0.

(** Decidable versions of the hypotheses. *)
Definition usable_all (ps : list aproc) (f : nat -> bool) : bool := forallb (fun i => negb (a_valid (entry ps i)) || f i) (seq 0 (length ps)).
Lemma usable_all_spec ps f : usable_all ps f = true -> forall i, usable ps i -> f i = true.
Proof.
  unfold usable_all. rewrite forallb_forall. intros H i U. specialize (H i). unfold usable in U. rewrite U in H. apply H, in_seq.
  apply usable_lt in U. lia.
Qed.
Lemma clusters_ok_computed ps :
  usable_all ps (fun i => (leader ps i <=? i) && a_valid (entry ps (leader ps i)) && (leader ps (leader ps i) =? leader ps i)) = true -> clusters_ok ps.
Proof.
  intros H i U. pose proof (usable_all_spec _ _ H i U) as X. cbv beta in X. rewrite !andb_true_iff, Nat.leb_le, Nat.eqb_eq in X. tauto.
Qed.
Lemma sizes_ok_computed ps : usable_all ps (fun i => a_count (entry ps i) =? length (cluster_members ps (leader ps i))) = true -> sizes_ok ps.
Proof. intros H i U. pose proof (usable_all_spec _ _ H i U) as X. now apply Nat.eqb_eq in X. Qed.
Lemma all_or_nothing_computed ps :
  usable_all ps (fun i => reports (entry ps i) || forallb (fun b => negb (N.testbit (a_flags (entry ps i)) b)) [17; 18; 19; 20]%N) = true ->
  forall i, usable ps i -> all_or_nothing (entry ps i).
Proof. intros H i U. pose proof (usable_all_spec _ _ H i U) as X. cbv beta in X. apply orb_true_iff in X. exact X. Qed.
Lemma reports_agree_computed ps :
  usable_all ps (fun i => usable_all ps (fun j => negb ((leader ps i =? leader ps j) && reports (entry ps i) && reports (entry ps j)) ||
     (a_midr (entry ps i) =? a_midr (entry ps j))%N)) = true -> reports_agree ps.
Proof.
  intros H i j Ui Uj EL Ri Rj. pose proof (usable_all_spec _ _ (usable_all_spec _ _ H i Ui) j Uj) as X. cbv beta in X.
  rewrite EL, Nat.eqb_refl, Ri, Rj in X. cbn [andb negb orb] in X. now apply N.eqb_eq.
Qed.
Definition only_reporter (ps : list aproc) (r : nat) : bool := usable_all ps (fun j => negb (names_core (entry ps j)) || (j =? r)).
Lemma only_reporter_spec ps r : only_reporter ps r = true -> forall j, usable ps j -> names_core (entry ps j) = true -> j = r.
Proof. intros H j U N. pose proof (usable_all_spec _ _ H j U) as X. cbv beta in X. rewrite N in X. now apply Nat.eqb_eq in X. Qed.
Lemma unattributable_computed ps r : (2 <=? length (cluster_leaders ps)) && a_valid (entry ps r) && names_core (entry ps r) && in_cpuinfo (entry ps r) &&
  only_reporter ps r && usable_all ps (fun j => negb (in_cpuinfo (entry ps j)) || (j <=? r)) = true -> unattributable ps.
Proof.
  rewrite !andb_true_iff, Nat.leb_le. intros (((((H1 & H2) & H3) & H4) & H5) & H6). split; [exact H1|]. exists r.
  split; [exact H2|]. split; [exact H3|]. split; [exact H4|]. intros j U. split; [now apply only_reporter_spec|].
  intros I. pose proof (usable_all_spec _ _ H6 j U) as X. cbv beta in X. rewrite I in X. now apply Nat.leb_le in X.
Qed.
Lemma two_reports ps i j : i <> j -> usable ps i -> usable ps j -> names_core (entry ps i) = true -> names_core (entry ps j) = true -> ~ unattributable ps.
Proof. intros N Ui Uj Ni Nj (_ & r & _ & _ & _ & H). apply N. transitivity r; [now apply H|symmetry; now apply H]. Qed.

(** Four LITTLE and four big cores; one of each reports. *)
Definition two_reporting : list aproc :=
  [silent 1000 0 4; says cortex_a53 1000 0 4; silent 1000 0 4; silent 1000 0 4;
   says cortex_a72 2000 4 4; silent 2000 4 4; silent 2000 4 4; silent 2000 4 4].
(** Only the last listed one reports, and it is a big core. *)
Definition last_reporting : list aproc := repeat (silent 1000 0 4) 4 ++ repeat (silent 2000 4 4) 3 ++ [says cortex_a72 2000 4 4].
(** Only the last listed one reports; it is in the slower cluster, the report is that of a big core. *)
Definition swapped_reporting : list aproc := repeat (silent 2000 0 4) 4 ++ repeat (silent 1000 4 4) 3 ++ [says cortex_a72 1000 4 4].
(** Only the four big cores report. *)
Definition big_reporting : list aproc := repeat (silent 1000 0 4) 4 ++ repeat (says cortex_a72 2000 4 4) 4.
(** The four big cores are offline, so /proc/cpuinfo has the LITTLE ones only. *)
Definition big_offline : list aproc := repeat (says cortex_a53 1000 0 4) 4 ++ repeat (offline 2000 4 4) 4.
(** A kernel whose core_siblings_list has all cores of the package. *)
Definition one_package : list aproc := repeat (says cortex_a53 1000 0 8) 4 ++ repeat (says cortex_a72 2000 0 8) 4.
(** Three clusters, a report from the second. *)
Definition middle_reporting : list aproc :=
  [silent 1000 0 2; silent 1000 0 2; silent 1500 2 2; says cortex_a53 1500 2 2; silent 2000 4 2; silent 2000 4 2].
(** Eight Cortex-A7 cores in two clusters, a report from the first. *)
Definition octa_a7 : list aproc := repeat (says 0x410FC073 1700 0 4) 1 ++ repeat (silent 1700 0 4) 3 ++ repeat (silent 1700 4 4) 4.
