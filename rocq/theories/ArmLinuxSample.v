(** Sample ARM Linux machines: files for CPU numbers below 10. *)
From Verif Require Import Base Sorting Text LinuxTextModel LinuxTextSpec LinuxTextProps CpuinfoLineModel CpuinfoLineSpec
  TopologySpec X86LinuxSpec RiscvSample ArmMidrModel ArmClustersModel ArmClusterMidrModel ArmCpuinfoModel ArmCpuinfoSpec
  ArmCpuinfoResultProofs ArmCpuinfoSample ArmLinuxModel ArmLinuxSpec ArmOrderProofs ArmUarchModel ArmCacheModel ArmDecodersModel
  ArmCacheProofs ArmClustersSample ArmMidrSpec.
Open Scope nat_scope.

(** ** The lines of /proc/cpuinfo *)
Definition digit_of (c : nat) : string :=
  match c with 0 => "0" | 1 => "1" | 2 => "2" | 3 => "3" | 4 => "4" | 5 => "5" | 6 => "6" | 7 => "7" | 8 => "8" | _ => "9" end%string.
(** A CPU that is online: number, implementer, part and architecture version. *)
Record scpu := Scpu { s_id : nat; s_implementer : N; s_part : N; s_version : N }.
Definition implementer_texts : list (N * string) := [(0x41%N, "0x41"%string); (0x43%N, "0x43"%string); (0x51%N, "0x51"%string)].
Definition part_texts : list (N * string) :=
  [(0xD03%N, "0xd03"%string); (0xD05%N, "0xd05"%string); (0xD07%N, "0xd07"%string); (0xD0A%N, "0xd0a"%string); (0xD0B%N, "0xd0b"%string);
   (0xD0D%N, "0xd0d"%string); (0xD41%N, "0xd41"%string); (0xD44%N, "0xd44"%string); (0xA1%N, "0x0a1"%string); (0xFFF%N, "0xfff"%string); (0xC07%N, "0xc07"%string); (0xC0F%N, "0xc0f"%string)].
Definition text_of (texts : list (N * string)) (n : N) : string :=
  match find (fun t => (fst t =? n)%N) texts with Some t => snd t | None => ""%string end.
Definition version_text (n : N) : string := if (n =? 6)%N then "6" else if (n =? 7)%N then "7" else "8".
Definition block (s : scpu) : list (list N) :=
  [field_line "processor" (digit_of (s_id s)); field_line "Features" "fp asimd";
   field_line "CPU implementer" (text_of implementer_texts (s_implementer s)); text "CPU architecture: " ++ text (version_text (s_version s));
   field_line "CPU variant" "0x1"; field_line "CPU part" (text_of part_texts (s_part s)); field_line "CPU revision" "0"; []].
Definition block_meanings (s : scpu) : list arm_meaning :=
  [Announces (N.of_nat (s_id s)); Says (Feats [text "fp"; text "asimd"]); Says (Field Implementer (s_implementer s));
   Says (Arch (s_version s) []); Says (Field Variant 1); Says (Field PartNumber (s_part s)); Says (Field Revision 0); Nothing].
Definition scpu_ok (s : scpu) : Prop :=
  s_id s < 10 /\ In (s_implementer s) (map fst implementer_texts) /\ In (s_part s) (map fst part_texts) /\ In (s_version s) [6; 7; 8]%N.

Lemma block_says arm32 s : scpu_ok s -> Forall2 (arm_line_means arm32) (block s) (block_meanings s).
Proof.
  destruct s as [c im pa ve]. unfold scpu_ok, block, block_meanings. cbn [s_id s_implementer s_part s_version]. intros (H1 & H2 & H3 & H4).
  constructor.
  { assert (X : forall v n, split_line (field_line "processor" v) = Ok (Some (text "processor", text v)) ->
       is_decimal (text v) -> dec_value (text v) = n -> (n < two32)%N -> arm_line_means arm32 (field_line "processor" v) (Announces n)).
    { intros v n E D <- L. apply means_processor; [now apply computed_key_value|exact D|exact L]. }
    do 10 (destruct c as [|c]; [apply X; [vm_compute; reflexivity|digits|reflexivity|reflexivity]|]). lia. }
  constructor.
  { change [text "fp"; text "asimd"] with (words (text "fp asimd")). apply means_features. apply computed_key_value. vm_compute. reflexivity. }
  constructor.
  { cbn in H2. destruct H2 as [<-|[<-|[<-|[]]]]; solve_hex. }
  constructor.
  { assert (X : forall v n, split_line (text "CPU architecture: " ++ text v) = Ok (Some (text "CPU architecture", text v)) ->
       is_decimal (text v) -> bytes (text v) -> dec_value (text v) = n -> (0 < n < two32)%N ->
       arm_line_means arm32 (text "CPU architecture: " ++ text v) (Says (Arch n []))).
    { intros v n E D B <- L. apply means_architecture with (v := text v); auto; [now apply computed_key_value|now rewrite app_nil_r|].
      intros (c0 & r & Y & _). discriminate Y. }
    cbn in H4. destruct H4 as [<-|[<-|[<-|[]]]]; (apply X; [vm_compute; reflexivity|digits|repeat constructor|reflexivity|split; reflexivity]). }
  constructor; [solve_hex|].
  constructor.
  { cbn in H3. repeat (destruct H3 as [<-|H3]; [solve_hex|]). destruct H3. }
  constructor.
  { change 0%N with (dec_value (text "0")) at 1. apply means_revision; [apply computed_key_value; vm_compute; reflexivity|digits|reflexivity]. }
  constructor; [apply blank_nothing|constructor].
Qed.

Lemma blocks_say arm32 cpus : Forall scpu_ok cpus -> Forall2 (arm_line_means arm32) (flat_map block cpus) (flat_map block_meanings cpus).
Proof. induction 1 as [|s l H HF IH]; [constructor|]. cbn [flat_map]. apply Forall2_app; [now apply block_says|exact IH]. Qed.

(** ** Machines *)
Record machine := Machine { m_cpus : list nat; m_online : list scpu; m_group : nat -> nat; m_khz : nat -> string }.
Definition is_online (m : machine) (c : nat) : bool := existsb (fun s => s_id s =? c) (m_online m).
Definition mates (m : machine) (c : nat) : list nat := filter (fun j => is_online m j && (m_group m j =? m_group m c)) (m_cpus m).
Definition text_file (s : string) : file := File (Some (text s ++ [10%N])) [].
Definition arm_machine_files (m : machine) : arm_files :=
  let cpus := list_file (m_cpus m) in
  ArmFiles (text_file "63") cpus cpus cpus cpus (File (Some (join 10 (flat_map block (m_online m)))) [])
    (fun c => if is_online m c then ACpuFiles (text_file (m_khz m c)) no_file (text_file "0")
                (SiblingFiles (list_file (mates m c)) (list_file (mates m c)))
              else ACpuFiles no_file no_file no_file (SiblingFiles no_file no_file)).
Definition singles (cpus : list nat) : list (N * N) := map (fun c => (N.of_nat c, N.of_nat c)) cpus.
Definition meanings (m : machine) : list arm_meaning := flat_map block_meanings (m_online m).
Definition machine_usable (m : machine) : nat -> Prop := arm_usable 64 (Some (singles (m_cpus m))) (Some (singles (m_cpus m))).

Definition machine_ok (m : machine) : Prop :=
  m_cpus m <> [] /\ Forall (fun c => c < 10) (m_cpus m) /\ m_online m <> [] /\ Forall scpu_ok (m_online m).

Lemma text_number s : is_decimal (text s) -> ~ starts_with_digit [10%N].
Proof. intros _ (c & r & E & H). injection E as <- _. unfold is_digit in H. lia. Qed.

Lemma block_line_fits s l : scpu_ok s -> In l (block s) -> ~ In 10%N l /\ length l < 1000.
Proof.
  destruct s as [c im pa ve]. unfold scpu_ok, block. cbn [s_id s_implementer s_part s_version]. intros (H1 & H2 & H3 & H4) H.
  assert (F : forallb (fun n => negb (N.eqb n 10)) l = true -> ~ In 10%N l).
  { intros X Y. rewrite forallb_forall in X. specialize (X _ Y). discriminate X. }
  cbn [In] in H. destruct H as [<-|[<-|[<-|[<-|[<-|[<-|[<-|[<-|[]]]]]]]]].
  - do 10 (destruct c as [|c]; [split; [apply F; reflexivity|vm_compute; lia]|]). lia.
  - split; [apply F; reflexivity|vm_compute; lia].
  - cbn in H2. destruct H2 as [<-|[<-|[<-|[]]]]; (split; [apply F; reflexivity|vm_compute; lia]).
  - cbn in H4. destruct H4 as [<-|[<-|[<-|[]]]]; (split; [apply F; reflexivity|vm_compute; lia]).
  - split; [apply F; reflexivity|vm_compute; lia].
  - cbn in H3. repeat (destruct H3 as [<-|H3]; [split; [apply F; reflexivity|vm_compute; lia]|]). destruct H3.
  - split; [apply F; reflexivity|vm_compute; lia].
  - split; [apply F; reflexivity|cbn; lia].
Qed.

Lemma lines_fit lines : Forall (fun l => length l < 1000) lines -> pieces_fit 1024 lines.
Proof.
  induction 1 as [|l r H HF IH]; [exact I|]. cbn [pieces_fit]. destruct r; [lia|]. split; [lia|exact IH].
Qed.

Lemma machine_files_say arm32 m : machine_ok m ->
  arm_files_say arm32 64 (arm_machine_files m) 64 (Some (singles (m_cpus m))) (Some (singles (m_cpus m))) (meanings m).
Proof.
  intros (H1 & H2 & H3 & H4).
  assert (L : list_says (list_file (m_cpus m)) (Some (singles (m_cpus m)))) by now apply list_file_says.
  split; auto.
  - apply (max_number 64 (text_file "63") (text "63") [10%N]); try reflexivity; try chars; try constructor. apply (text_number "63"). chars.
  - now unfold two32.
  - left. discriminate.
  - split; [constructor|]. exists (flat_map block (m_online m)). split; [reflexivity|].
    assert (A : forall l, In l (flat_map block (m_online m)) -> ~ In 10%N l /\ length l < 1000).
    { intros l Hl. apply in_flat_map in Hl. destruct Hl as (s & Hs & Hl). rewrite Forall_forall in H4. apply (block_line_fits s); auto. }
    split; [destruct (m_online m); [congruence|discriminate]|].
    split; [apply Forall_forall; intros l Hl; now apply A|].
    split; [apply lines_fit, Forall_forall; intros l Hl; now apply A|]. now apply blocks_say.
Qed.

Lemma machine_usable_iff m c : Forall (fun c => c < 10) (m_cpus m) -> (machine_usable m c <-> In c (m_cpus m)).
Proof.
  intros H. unfold machine_usable, arm_usable, in_list. rewrite (singles_listed (m_cpus m) c).
  rewrite Forall_forall in H. split; [tauto|]. intros X. specialize (H _ X). split; [lia|tauto].
Qed.

Lemma machine_groups m : machine_ok m -> (forall c, In c (m_cpus m) -> is_online m c = true) ->
  groups_say (machine_usable m) (arm_machine_files m) (m_group m).
Proof.
  intros (H1 & H2 & H3 & H4) ON. split.
  - intros i Hi. apply (machine_usable_iff _ _ H2) in Hi. unfold arm_machine_files. cbn [amf_cpu]. rewrite (ON _ Hi). cbn [ac_package_id].
    exists (text "0"), [10%N]. split; [reflexivity|]. split; [constructor|]. split; [chars|]. split; [chars|].
    split; [apply (text_number "0"); chars|]. split; [cbn; lia|reflexivity].
  - left. intros i Hi. apply (machine_usable_iff _ _ H2) in Hi. unfold arm_machine_files. cbn [amf_cpu]. rewrite (ON _ Hi). cbn [ac_siblings sf_cluster_cpus].
    exists (singles (mates m i)). split.
    + apply list_file_says.
      * intros E. assert (X : In i (mates m i)) by (apply filter_In; split; [exact Hi|now rewrite (ON _ Hi), Nat.eqb_refl]). rewrite E in X. destruct X.
      * apply Forall_forall. intros c Hc. apply filter_In in Hc. rewrite Forall_forall in H2. now apply H2.
    + intros j Hj. apply (machine_usable_iff _ _ H2) in Hj. unfold singles. rewrite singles_listed. unfold mates. rewrite filter_In, (ON _ Hj). cbn [andb].
      rewrite Nat.eqb_eq. tauto.
Qed.

(** All CPUs online, all of one version; computed. *)
Definition about_version (m : machine) (c : nat) : bool * N :=
  (match about (meanings m) c with [] => false | _ => true end, version_of (meanings m) c).
Lemma machine_all_online m version : machine_ok m ->
  forallb (fun c => fst (about_version m c) && (snd (about_version m c) =? version)%N) (m_cpus m) = true ->
  all_online (machine_usable m) (meanings m) version.
Proof.
  intros (H1 & H2 & H3 & H4) H. rewrite forallb_forall in H.
  assert (U : forall c, machine_usable m c -> fst (about_version m c) = true /\ snd (about_version m c) = version).
  { intros c Hc. apply (machine_usable_iff _ _ H2) in Hc. specialize (H _ Hc). apply andb_true_iff in H. now rewrite N.eqb_eq in H. }
  split.
  - destruct (m_cpus m) as [|c l] eqn:E; [congruence|]. exists c. apply machine_usable_iff; [now rewrite E|rewrite E; now left].
  - intros c Hc. destruct (U c Hc) as (X & _). unfold online. unfold about_version in X. cbn [fst] in X. now destruct (about _ _).
  - intros c Hc. now destruct (U c Hc) as (_ & X).
Qed.

(** The clocks are given as decimal numbers. *)
Lemma machine_clocks m : machine_ok m -> (forall c, In c (m_cpus m) -> is_online m c = true) ->
  (forall c, In c (m_cpus m) -> is_decimal (text (m_khz m c)) /\ (dec_value (text (m_khz m c)) < two32)%N /\ length (text (m_khz m c)) < 31) ->
  clocks_say (machine_usable m) (arm_machine_files m) (fun c => Some (dec_value (text (m_khz m c)))).
Proof.
  intros (H1 & H2 & H3 & H4) ON K c Hc. apply (machine_usable_iff _ _ H2) in Hc. destruct (K c Hc) as (K1 & K2 & K3).
  unfold arm_machine_files. cbn [amf_cpu]. rewrite (ON _ Hc). cbn [ac_max_frequency].
  apply (RiscvLinuxSpec.number_there (text_file (m_khz m c)) (text (m_khz m c)) [10%N]); auto; [constructor|repeat constructor|now apply (text_number (m_khz m c))|].
  rewrite app_length. cbn [length]. lia.
Qed.

(** ** Sorts and decoders *)
Definition arm_sort (arm32 : bool) : list aproc -> list aproc := isort (cmp_arm_linux_processor arm32).
Lemma arm_sort_sorts arm32 : sorts (cmp_arm_linux_processor arm32) (arm_sort arm32).
Proof. apply isort_sorts, cmp_arm_preorder. Qed.

Definition gnu64 : build := Build false false true false.
Definition library64 (chip : chipset) : arm_decoders := library_decoders gnu64 (fun _ _ _ => Ok chip).
Definition unknown_chip : chipset := Chipset 0 0 0.


(** ** The machines of the examples *)

(** Four Cortex-A55 and two Cortex-A75. *)
Definition big_little : machine :=
  Machine [0; 1; 2; 3; 4; 5]
    [Scpu 0 0x41 0xD05 8; Scpu 1 0x41 0xD05 8; Scpu 2 0x41 0xD05 8; Scpu 3 0x41 0xD05 8; Scpu 4 0x41 0xD0A 8; Scpu 5 0x41 0xD0A 8]
    (fun c => c / 4) (fun c => if c <? 4 then "1800000"%string else "2500000"%string).
(** Four Cortex-A53 and four Cortex-A57, of which the last is offline. *)
Definition one_offline : machine :=
  Machine [0; 1; 2; 3; 4; 5; 6; 7]
    [Scpu 0 0x41 0xD03 8; Scpu 1 0x41 0xD03 8; Scpu 2 0x41 0xD03 8; Scpu 3 0x41 0xD03 8; Scpu 4 0x41 0xD07 8; Scpu 5 0x41 0xD07 8;
     Scpu 6 0x41 0xD07 8] (fun c => c / 4) (fun _ => "1800000"%string).
Definition three_speeds (c : nat) : string := match c with 0 => "3000000"%string | 1 => "2500000"%string | _ => "2000000"%string end.
(** Cortex-A76, A77, A76, in the order of their frequencies. *)
Definition alternating : machine :=
  Machine [0; 1; 2] [Scpu 0 0x41 0xD0B 8; Scpu 1 0x41 0xD0D 8; Scpu 2 0x41 0xD0B 8] (fun c => c) three_speeds.
(** Cortex-A76, A77, A55 in an Exynos. *)
Definition exynos : machine :=
  Machine [0; 1; 2] [Scpu 0 0x41 0xD0B 8; Scpu 1 0x41 0xD0D 8; Scpu 2 0x41 0xD05 8] (fun c => c) three_speeds.
Definition exynos_chip : chipset := Chipset 3 series_exynos 0.
(** A ThunderX. *)
Definition thunderx : machine := Machine [0] [Scpu 0 0x43 0xA1 8] (fun c => c) (fun _ => "2000000"%string).
(** Two unknown processors in a cluster, of different architecture versions. *)
Definition two_versions : machine := Machine [0; 1] [Scpu 0 0x51 0xFFF 6; Scpu 1 0x51 0xFFF 7] (fun _ => 0) (fun _ => "2000000"%string).

(** Three pairs of Cortex-A76, the first slower than the others. *)
Definition three_pairs : machine :=
  Machine [0; 1; 2; 3; 4; 5] (map (fun c => Scpu c 0x41 0xD0B 8) [0; 1; 2; 3; 4; 5]) (fun c => c / 2)
    (fun c => if c <? 2 then "2200000"%string else "2800000"%string).
(** Cortex-A55 and A75, of which the kernel says that they are all siblings. *)
Definition one_group : machine := Machine (m_cpus big_little) (m_online big_little) (fun _ => 0) (m_khz big_little).

Ltac machine_is_ok := split; [discriminate|split; [repeat constructor|split; [discriminate|
  repeat (constructor; [split; [cbn; lia|split; [cbn; tauto|split; [cbn; tauto|cbn; tauto]]]|]); constructor]]].
Lemma big_little_ok : machine_ok big_little. Proof. machine_is_ok. Qed.
Lemma one_offline_ok : machine_ok one_offline. Proof. machine_is_ok. Qed.
Lemma alternating_ok : machine_ok alternating. Proof. machine_is_ok. Qed.
Lemma exynos_ok : machine_ok exynos. Proof. machine_is_ok. Qed.
Lemma thunderx_ok : machine_ok thunderx. Proof. machine_is_ok. Qed.
Lemma three_pairs_ok : machine_ok three_pairs. Proof. machine_is_ok. Qed.
Lemma one_group_ok : machine_ok one_group. Proof. machine_is_ok. Qed.
Lemma two_versions_ok : machine_ok two_versions. Proof. machine_is_ok. Qed.

Definition detect (m : machine) (chip : chipset) : res aoutcome :=
  arm_linux_init true false false junk 64 (arm_sort false) (fun _ => true) (library64 chip) (arm_machine_files m).

(** A 32-bit kernel that prints the first-level caches. *)
Definition old_kernel_lines : list (list N) :=
  block (Scpu 0 0x41 0xFFF 6) ++
  [field_line "I size" "16384"; field_line "I assoc" "4"; field_line "I line length" "32"; field_line "I sets" "128"].
Definition old_kernel_meanings : list arm_meaning :=
  block_meanings (Scpu 0 0x41 0xFFF 6) ++
  [Says (L1 false CacheSize 16384); Says (L1 false CacheWays 4); Says (L1 false CacheLine 32); Says (L1 false CacheSets 128)].
Definition old_kernel_files : arm_files :=
  let cpus := list_file [0] in
  ArmFiles (text_file "63") cpus cpus cpus cpus (File (Some (join 10 old_kernel_lines)) [])
    (fun _ => ACpuFiles no_file no_file no_file (SiblingFiles no_file no_file)).
Definition gnu32 : build := Build true false false false.

Lemma old_kernel_says : arm_files_say true 64 old_kernel_files 64 (Some (singles [0])) (Some (singles [0])) old_kernel_meanings.
Proof.
  assert (L : list_says (list_file [0]) (Some (singles [0]))) by (apply list_file_says; [discriminate|repeat constructor]).
  split; auto.
  - apply (max_number 64 (text_file "63") (text "63") [10%N]); try reflexivity; try chars; try constructor. apply (text_number "63"). chars.
  - now unfold two32.
  - left. discriminate.
  - split; [constructor|]. exists old_kernel_lines. split; [reflexivity|]. split; [discriminate|].
    split.
    { apply Forall_forall. intros l Hl X. assert (F : forallb (fun l => negb (existsb (N.eqb 10) l)) old_kernel_lines = true) by (vm_compute; reflexivity).
      rewrite forallb_forall in F. specialize (F _ Hl). apply negb_true_iff in F.
      enough (existsb (N.eqb 10) l = true) by congruence. apply existsb_exists. exists 10%N. split; [exact X|reflexivity]. }
    split.
    { apply lines_fit, Forall_forall. intros l Hl. assert (F : forallb (fun l => length l <? 1000) old_kernel_lines = true) by (vm_compute; reflexivity).
      rewrite forallb_forall in F. specialize (F _ Hl). now apply Nat.ltb_lt in F. }
    apply Forall2_app; [apply block_says; split; [cbn; lia|split; [cbn; tauto|split; cbn; tauto]]|].
    assert (X : forall key value n w, split_line (field_line key value) = Ok (Some (text key, text value)) -> text key = cache_key false w ->
      is_decimal (text value) -> dec_value (text value) = n -> (n < two32)%N -> arm_line_means true (field_line key value) (Says (L1 false w n))).
    { intros key value n w E K D <- B. apply (means_cache true _ false w (text value)); auto. rewrite <- K. now apply computed_key_value. }
    repeat (constructor; [apply X; [vm_compute; reflexivity|reflexivity|digits|reflexivity|reflexivity]|]). constructor.
Qed.
