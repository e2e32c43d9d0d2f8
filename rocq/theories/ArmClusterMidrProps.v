(** C32 and C48: the main id registers of ARM clusters, and the table of chipsets. *)
From Verif Require Import Base ArmMidrModel ArmMidrSpec ArmClustersModel ArmClustersSpec ArmClusterMidrModel ArmChipsetTableProofs ArmClusterMidrSpec
  ArmMidrTableProofs ArmClusterMidrSample.
Open Scope nat_scope.

(** C32: detection reads and writes only inside its arrays and ends; the number of
    clusters is that of the leaders; nothing else of the table is changed; every usable
    processor has the MIDR, vendor, microarchitecture and maximum frequency of its
    leader, the latter the first one known in the cluster; and vendor and
    microarchitecture are those of the MIDR. *)
Theorem arm_clusters_share_midr : forall arm32 decode chip listed ps, clusters_ok ps ->
  exists ss, assign_midrs arm32 decode chip listed ps = Ok (length (cluster_leaders ps), ss) /\ length ss = length ps /\
    (forall i, only_midr_differs (entry ps i) (entry ss i)) /\ (forall i, ~ usable ps i -> entry ss i = entry ps i) /\
    (forall i, usable ps i -> follows_leader (entry ss (leader ps i)) (entry ss i) /\
       (a_vendor (entry ss i), a_uarch (entry ss i)) =
         decode (a_midr (entry ss i)) (any_flag (ar_features (a_report (entry ps (leader ps i)))) feature_vfpv4)) /\
    (forall i x, usable ps i -> cluster_max ps (leader ps i) = Some x -> knows_max (entry ss i) = true /\ a_max (entry ss i) = x) /\
    (forall i, usable ps i -> cluster_max ps (leader ps i) = None -> a_max (entry ss i) = a_max (entry ps (leader ps i))).
Proof. exact assign_midrs_total. Qed.
Print Assumptions arm_clusters_share_midr.

Example arm_clusters_share_midr_case : clusters_ok two_reporting /\
  exists ss, assign_midrs false plain_decode unknown_chip 8 two_reporting = Ok (2, ss) /\
    map a_midr ss = repeat cortex_a53 4 ++ repeat cortex_a72 4 /\ map a_uarch ss = repeat 0xD03%N 4 ++ repeat 0xD08%N 4.
Proof. split; [now apply clusters_ok_computed|]. eexists. split; [vm_compute; reflexivity|]. split; reflexivity. Qed.

(** C32: the report for a cluster is kept, except perhaps for the architecture
    field, which is that of ARMv7 and later in the table of chipsets.  The
    exception is the one the code makes: a single report, for the last processor. *)
Theorem arm_cluster_report_kept : forall arm32 decode chip listed ps ss n, clusters_ok ps ->
  assign_midrs arm32 decode chip listed ps = Ok (n, ss) -> forall i m, ~ unattributable ps -> usable ps i ->
  cluster_midr ps (leader ps i) = Some m -> same_core m (a_midr (entry ss i)).
Proof. exact kept_of_cluster. Qed.
Print Assumptions arm_cluster_report_kept.

(** So is that of a processor, if the reports within its cluster agree. *)
Theorem arm_processor_report_kept : forall arm32 decode chip listed ps ss n, clusters_ok ps ->
  assign_midrs arm32 decode chip listed ps = Ok (n, ss) -> forall i, ~ unattributable ps -> reports_agree ps -> usable ps i ->
  reports (entry ps i) = true -> same_core (a_midr (entry ps i)) (a_midr (entry ss i)).
Proof. exact kept_of_processor. Qed.
Print Assumptions arm_processor_report_kept.

Example arm_report_kept_case : clusters_ok two_reporting /\ ~ unattributable two_reporting /\ reports_agree two_reporting /\
  usable two_reporting 1 /\ reports (entry two_reporting 1) = true /\ cluster_midr two_reporting (leader two_reporting 3) = Some cortex_a53.
Proof.
  split; [now apply clusters_ok_computed|]. split; [now apply (two_reports _ 1 4)|]. split; [apply reports_agree_computed; vm_compute; reflexivity|].
  repeat split; reflexivity.
Qed.

(** If they do not agree they are lost: a kernel whose sibling lists join the
    big and the LITTLE cores of a package makes every core a LITTLE one, whatever
    was reported. *)
Theorem arm_processor_report_kept_refuted :
  ~ (forall arm32 decode chip listed ps ss n, clusters_ok ps -> assign_midrs arm32 decode chip listed ps = Ok (n, ss) ->
     forall i, ~ unattributable ps -> usable ps i -> reports (entry ps i) = true -> same_core (a_midr (entry ps i)) (a_midr (entry ss i))).
Proof.
  intros H. assert (C : clusters_ok one_package) by now apply clusters_ok_computed.
  assert (E : exists ss, assign_midrs false plain_decode unknown_chip 8 one_package = Ok (1, ss) /\ a_midr (entry ss 7) = cortex_a53)
    by (eexists; split; [vm_compute; reflexivity|reflexivity]).
  destruct E as (ss & E & M). assert (NU : ~ unattributable one_package) by (apply (two_reports _ 1 4); [discriminate|reflexivity..]).
  specialize (H _ _ _ _ _ _ _ C E 7 NU eq_refl eq_refl). destruct H as (H & _). specialize (H PartNumber ltac:(discriminate)). rewrite M in H. vm_compute in H. discriminate H.
Qed.
Print Assumptions arm_processor_report_kept_refuted.

(** C32: if /proc/cpuinfo lists all usable processors and at least one of them
    reports its MIDR, all of them have one in the end. *)
Theorem arm_every_cluster_gets_midr : forall arm32 decode chip listed ps ss n, clusters_ok ps ->
  assign_midrs arm32 decode chip listed ps = Ok (n, ss) ->
  (forall i, usable ps i -> all_or_nothing (entry ps i)) -> (exists r, usable ps r /\ reports (entry ps r) = true) ->
  usable_count ps <= listed -> forall i, usable ps i -> reports (entry ss i) = true.
Proof. exact known_everywhere. Qed.
Print Assumptions arm_every_cluster_gets_midr.

Example arm_every_cluster_gets_midr_case : clusters_ok middle_reporting /\ (forall i, usable middle_reporting i -> all_or_nothing (entry middle_reporting i)) /\
  usable middle_reporting 3 /\ reports (entry middle_reporting 3) = true /\ usable_count middle_reporting = 6 /\
  map reports middle_reporting = [false; false; false; true; false; false].
Proof.
  split; [now apply clusters_ok_computed|]. split; [apply all_or_nothing_computed; vm_compute; reflexivity|]. repeat split; reflexivity.
Qed.

(** If some are offline, and so are not listed, their clusters may not get any. *)
Theorem arm_every_cluster_gets_midr_refuted :
  ~ (forall arm32 decode chip listed ps ss n, clusters_ok ps -> assign_midrs arm32 decode chip listed ps = Ok (n, ss) ->
     (forall i, usable ps i -> all_or_nothing (entry ps i)) -> (exists r, usable ps r /\ reports (entry ps r) = true) ->
     forall i, usable ps i -> reports (entry ss i) = true).
Proof.
  intros H. assert (C : clusters_ok big_offline) by now apply clusters_ok_computed.
  assert (E : exists ss, assign_midrs false plain_decode unknown_chip 4 big_offline = Ok (2, ss) /\ a_midr (entry ss 7) = 0%N /\ reports (entry ss 7) = false)
    by (eexists; split; [vm_compute; reflexivity|split; reflexivity]).
  destruct E as (ss & E & _ & M).
  assert (AN : forall i, usable big_offline i -> all_or_nothing (entry big_offline i)) by (apply all_or_nothing_computed; vm_compute; reflexivity).
  specialize (H _ _ _ _ _ _ _ C E AN
    (ex_intro (fun r => usable big_offline r /\ reports (entry big_offline r) = true) 0 (conj eq_refl eq_refl)) 7 eq_refl). rewrite M in H. discriminate H.
Qed.
Print Assumptions arm_every_cluster_gets_midr_refuted.

(** Of two clusters of a chip that is not in the table, with a single report, from
    a processor of the faster one: the slower one gets the companion design of the
    reported one, the faster one what was reported. *)
Theorem arm_little_cluster_guessed : forall arm32 decode chip listed ps ss n, clusters_ok ps ->
  assign_midrs arm32 decode chip listed ps = Ok (n, ss) -> forall first other r big little,
  (forall cfg, In cfg (cluster_table arm32) -> cc_series cfg = ch_series chip -> cc_model cfg = ch_model chip -> False) ->
  cluster_leaders ps = [first; other] -> 2 <= listed -> (forall i, usable ps i -> all_or_nothing (entry ps i)) ->
  usable ps r -> reports (entry ps r) = true -> (forall j, usable ps j -> names_core (entry ps j) = true -> j = r) ->
  leader ps r <> slower_of ps first other ->
  field_of Architecture (a_midr (entry ps r)) = 0xF%N -> In (big, little) pairs -> big <> kryo_280_gold -> design (a_midr (entry ps r)) = big ->
  forall i, usable ps i ->
    if leader ps i =? slower_of ps first other then design (a_midr (entry ss i)) = little else a_midr (entry ss i) = a_midr (entry ps r).
Proof. exact companion_guessed. Qed.
Print Assumptions arm_little_cluster_guessed.

Example arm_little_cluster_guessed_case : clusters_ok last_reporting /\ cluster_leaders last_reporting = [0; 4] /\
  (forall i, usable last_reporting i -> all_or_nothing (entry last_reporting i)) /\
  usable last_reporting 7 /\ reports (entry last_reporting 7) = true /\
  (forall j, usable last_reporting j -> names_core (entry last_reporting j) = true -> j = 7) /\
  slower_of last_reporting 0 4 = 0 /\ leader last_reporting 7 = 4 /\ design (a_midr (entry last_reporting 7)) = (0x41, 0xD08)%N /\
  exists ss, assign_midrs false plain_decode unknown_chip 8 last_reporting = Ok (2, ss) /\ map a_midr ss = repeat 0x410FD030%N 4 ++ repeat cortex_a72 4.
Proof.
  split; [now apply clusters_ok_computed|]. split; [reflexivity|]. split; [apply all_or_nothing_computed; vm_compute; reflexivity|].
  split; [reflexivity|]. split; [reflexivity|]. split; [now apply only_reporter_spec|]. do 3 (split; [reflexivity|]).
  eexists. split; [vm_compute; reflexivity|reflexivity].
Qed.

(** The guess depends on exactly one processor having reported: if all big cores
    do, the LITTLE ones get the MIDR of the big ones. *)
Theorem arm_little_cluster_guessed_refuted :
  ~ (forall arm32 decode chip listed ps ss n, clusters_ok ps -> assign_midrs arm32 decode chip listed ps = Ok (n, ss) -> forall first other r big little,
     (forall cfg, In cfg (cluster_table arm32) -> cc_series cfg = ch_series chip -> cc_model cfg = ch_model chip -> False) ->
     cluster_leaders ps = [first; other] -> 2 <= listed -> (forall i, usable ps i -> all_or_nothing (entry ps i)) ->
     usable ps r -> reports (entry ps r) = true -> (forall j, usable ps j -> names_core (entry ps j) = true -> leader ps j = leader ps r) ->
     leader ps r <> slower_of ps first other ->
     field_of Architecture (a_midr (entry ps r)) = 0xF%N -> In (big, little) pairs -> big <> kryo_280_gold -> design (a_midr (entry ps r)) = big ->
     forall i, usable ps i -> leader ps i = slower_of ps first other -> design (a_midr (entry ss i)) = little).
Proof.
  intros H. assert (C : clusters_ok big_reporting) by now apply clusters_ok_computed.
  assert (E : exists ss, assign_midrs false plain_decode unknown_chip 8 big_reporting = Ok (2, ss) /\ a_midr (entry ss 0) = cortex_a72)
    by (eexists; split; [vm_compute; reflexivity|reflexivity]).
  destruct E as (ss & E & M).
  assert (AN : forall i, usable big_reporting i -> all_or_nothing (entry big_reporting i)) by (apply all_or_nothing_computed; vm_compute; reflexivity).
  specialize (H _ _ _ _ _ _ _ C E 0 4 7 (0x41, 0xD08)%N (0x41, 0xD03)%N (unknown_chip_not_tabulated false) eq_refl ltac:(lia)
    AN eq_refl eq_refl).
  assert (X : design (a_midr (entry ss 0)) = (0x41, 0xD03)%N); [|rewrite M in X; vm_compute in X; discriminate X].
  clear E. apply H; try reflexivity; try discriminate; [|cbn; tauto].
  intros j U N. do 8 (destruct j as [|j]; [first [reflexivity|discriminate N]|]). unfold usable in U. destruct j; discriminate U.
Qed.
Print Assumptions arm_little_cluster_guessed_refuted.

(** And the single report that cannot be attributed is, after all, kept for the
    cluster of the last processor: if that is the slower one, its cores and the
    big ones all have the MIDR of a big core. *)
Theorem arm_unattributable_guessed_refuted :
  ~ (forall arm32 decode chip listed ps ss n, clusters_ok ps -> assign_midrs arm32 decode chip listed ps = Ok (n, ss) -> forall first other r big little,
     (forall cfg, In cfg (cluster_table arm32) -> cc_series cfg = ch_series chip -> cc_model cfg = ch_model chip -> False) ->
     cluster_leaders ps = [first; other] -> 2 <= listed -> (forall i, usable ps i -> all_or_nothing (entry ps i)) ->
     unattributable ps -> usable ps r -> reports (entry ps r) = true ->
     field_of Architecture (a_midr (entry ps r)) = 0xF%N -> In (big, little) pairs -> big <> kryo_280_gold -> design (a_midr (entry ps r)) = big ->
     forall i, usable ps i -> leader ps i = slower_of ps first other -> design (a_midr (entry ss i)) = little).
Proof.
  intros H. assert (C : clusters_ok swapped_reporting) by now apply clusters_ok_computed.
  assert (E : exists ss, assign_midrs false plain_decode unknown_chip 8 swapped_reporting = Ok (2, ss) /\ map a_midr ss = repeat cortex_a72 8 /\
    a_midr (entry ss 4) = cortex_a72) by (eexists; split; [vm_compute; reflexivity|split; reflexivity]).
  destruct E as (ss & E & _ & M).
  assert (AN : forall i, usable swapped_reporting i -> all_or_nothing (entry swapped_reporting i)) by (apply all_or_nothing_computed; vm_compute; reflexivity).
  specialize (H _ _ _ _ _ _ _ C E 0 4 7 (0x41, 0xD08)%N (0x41, 0xD03)%N (unknown_chip_not_tabulated false) eq_refl ltac:(lia)
    AN).
  assert (X : design (a_midr (entry ss 4)) = (0x41, 0xD03)%N); [|rewrite M in X; vm_compute in X; discriminate X].
  clear E. apply H; try reflexivity; try discriminate; [|cbn; tauto]. apply (unattributable_computed _ 7). vm_compute. reflexivity.
Qed.
Print Assumptions arm_unattributable_guessed_refuted.

(** Otherwise, on a chip that is not in the table, a cluster without a report gets
    the nearest one before it, and if there is none the last one. *)
Theorem arm_missing_midr_filled_in : forall arm32 decode chip listed ps ss n, clusters_ok ps ->
  assign_midrs arm32 decode chip listed ps = Ok (n, ss) ->
  (forall cfg, In cfg (cluster_table arm32) -> cc_series cfg = ch_series chip -> cc_model cfg = ch_model chip -> False) ->
  (forall i, usable ps i -> all_or_nothing (entry ps i)) -> 1 <= reporters ps -> reporters ps < listed ->
  ~ (length (cluster_leaders ps) = 2 /\ reporters ps = 1) -> forall i, usable ps i -> filled_in ps (leader ps i) (a_midr (entry ss i)).
Proof. exact scan_result. Qed.
Print Assumptions arm_missing_midr_filled_in.

Example arm_missing_midr_filled_in_case : clusters_ok middle_reporting /\ reporters middle_reporting = 1 /\ cluster_leaders middle_reporting = [0; 2; 4] /\
  (forall i, usable middle_reporting i -> all_or_nothing (entry middle_reporting i)) /\
  cluster_midr middle_reporting 0 = None /\ cluster_midr middle_reporting 2 = Some cortex_a53 /\ cluster_midr middle_reporting 4 = None.
Proof.
  split; [now apply clusters_ok_computed|]. split; [reflexivity|]. split; [reflexivity|].
  split; [apply all_or_nothing_computed; vm_compute; reflexivity|]. repeat split; reflexivity.
Qed.

(** A chip that is in the table, with a single report that cannot be attributed:
    if the entry describes the clusters that were found, they get its MIDRs. *)
Theorem arm_chipset_table_used : forall arm32 decode chip listed ps ss n, clusters_ok ps ->
  assign_midrs arm32 decode chip listed ps = Ok (n, ss) -> forall cfg, unattributable ps -> sizes_ok ps ->
  In cfg (cluster_table arm32) -> cc_series cfg = ch_series chip -> cc_model cfg = ch_model chip -> listed = cc_cores cfg ->
  length (cluster_leaders ps) = cc_clusters cfg ->
  (forall c l, nth_error (cluster_leaders ps) c = Some l -> nth_error (cc_cluster_cores cfg) c = Some (length (cluster_members ps l))) ->
  forall c l i, nth_error (cluster_leaders ps) c = Some l -> usable ps i -> leader ps i = l ->
    nth_error (cc_cluster_midr cfg) c = Some (a_midr (entry ss i)).
Proof. exact table_result. Qed.
Print Assumptions arm_chipset_table_used.

Example arm_chipset_table_used_case : clusters_ok swapped_reporting /\ sizes_ok swapped_reporting /\ unattributable swapped_reporting /\
  (forall c l, nth_error (cluster_leaders swapped_reporting) c = Some l -> nth_error [4; 4; 0] c = Some (length (cluster_members swapped_reporting l))) /\
  exists ss, assign_midrs false plain_decode (Chipset 1 series_msm 8976) 8 swapped_reporting = Ok (2, ss) /\
    map a_midr ss = repeat cortex_a53 4 ++ repeat cortex_a72 4.
Proof.
  split; [now apply clusters_ok_computed|]. split; [now apply sizes_ok_computed|]. split; [apply (unattributable_computed _ 7); vm_compute; reflexivity|].
  split; [|eexists; split; [vm_compute; reflexivity|reflexivity]].
  intros c l E. change (cluster_leaders swapped_reporting) with [0; 4] in E. destruct c as [|[|[|c]]]; try discriminate E; injection E as <-; reflexivity.
Qed.

(** C48: the entries of the table have one to three clusters, each with at least one
    core, from the lower ranked designs to the higher ranked ones; there is at most
    one entry for a chip; and all but that for MT6592 describe as many cores as they
    say the chip has. *)
Theorem arm_chipset_table_sound : forall arm32 cfg, In cfg (cluster_table arm32) ->
  1 <= cc_clusters cfg <= 3 /\ length (cc_cluster_cores cfg) = 3 /\ length (cc_cluster_midr cfg) = 3 /\
  (forall c n, nth_error (cc_cluster_cores cfg) c = Some n -> (n = 0 <-> cc_clusters cfg <= c)) /\
  (forall c m m', S c < cc_clusters cfg -> nth_error (cc_cluster_midr cfg) c = Some m -> nth_error (cc_cluster_midr cfg) (S c) = Some m' ->
     (midr_score_core arm32 m <= midr_score_core arm32 m')%N) /\
  (forall other, In other (cluster_table arm32) -> cc_series other = cc_series cfg -> cc_model other = cc_model cfg -> other = cfg) /\
  (~ (cc_series cfg = 5%N /\ cc_model cfg = 6592%N) -> list_sum (cc_cluster_cores cfg) = cc_cores cfg).
Proof. exact table_sound. Qed.
Print Assumptions arm_chipset_table_sound.

Example arm_chipset_table_sound_case : In (Config On_both series_mt 6797 10 3 [4; 4; 2] [0x410FD034; 0x410FD034; 0x410FD081]%N) (cluster_table false).
Proof. vm_compute. tauto. Qed.

(** A chipset is not twice in it. *)
Theorem arm_chipset_table_unique : forall arm32 i j cfg cfg', nth_error (cluster_table arm32) i = Some cfg -> nth_error (cluster_table arm32) j = Some cfg' ->
  cc_series cfg = cc_series cfg' -> cc_model cfg = cc_model cfg' -> i = j.
Proof. exact chipset_once. Qed.
Print Assumptions arm_chipset_table_unique.

Example arm_chipset_table_unique_case : map cc_model (filter (fun c => (cc_series c =? series_kirin)%N) (cluster_table false)) = [950; 955]%N.
Proof. vm_compute. reflexivity. Qed.

(** The one for MT6592 does not. *)
Theorem arm_chipset_table_cores_refuted :
  ~ (forall arm32 cfg, In cfg (cluster_table arm32) -> list_sum (cc_cluster_cores cfg) = cc_cores cfg).
Proof.
  intros H. specialize (H true (Config On_arm32 series_mt 6592 4 2 [4; 4; 0] [0x410FC074; 0x410FC074; 0]%N) ltac:(vm_compute; tauto)). discriminate H.
Qed.
Print Assumptions arm_chipset_table_cores_refuted.

(** So with all processors listed it makes no difference. *)
Theorem arm_mt6592_entry_unused : forall arm32 decode vendor chip ps, clusters_ok ps -> sizes_ok ps ->
  (forall cfg, In cfg (cluster_table arm32) -> cc_series cfg = ch_series chip -> cc_model cfg = ch_model chip -> False) ->
  assign_midrs arm32 decode (Chipset vendor 5 6592) (usable_count ps) ps = assign_midrs arm32 decode chip (usable_count ps) ps.
Proof. exact mt6592_same. Qed.
Print Assumptions arm_mt6592_entry_unused.

Example arm_mt6592_entry_unused_case : clusters_ok octa_a7 /\ sizes_ok octa_a7 /\ usable_count octa_a7 = 8 /\
  exists ss, assign_midrs true plain_decode (Chipset 2 5 6592) 8 octa_a7 = Ok (2, ss) /\ map a_midr ss = repeat 0x410FC073%N 8.
Proof.
  split; [now apply clusters_ok_computed|]. split; [now apply sizes_ok_computed|]. split; [reflexivity|].
  eexists. split; [vm_compute; reflexivity|reflexivity].
Qed.
