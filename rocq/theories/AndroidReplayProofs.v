From Verif Require Import Base Text LinuxTextSpec ToolsModel ReportSpec ReportProofs MockFileModel MockFileSpec RecordModel RecordSpec RecordProofs
  SysfsNameModel SysfsNameSpec SysfsNameProofs RecordPathProofs
  AndroidRecordModel AndroidRecordSpec AndroidRecordProofs AndroidHeaderProofs AndroidDeviceProofs.
From Verif Require ArmMachSpec ArmMachNameProofs ArmPackageModel.
Open Scope N_scope.

(** ** kernel_max *)
Lemma strip_word s b : s <> [] -> forallb nonblank s = true -> forallb python_blank b = true -> strip (s ++ b) = s.
Proof.
  intros NE F B. assert (L : forall l r, l <> [] -> forallb nonblank l = true -> lstrip (l ++ r) = l ++ r).
  { intros [|c l] r H G; [congruence|]. cbn in G. apply Bool.andb_true_iff in G as [G _]. unfold nonblank in G. apply Bool.negb_true_iff in G.
    cbn. now rewrite G. }
  unfold strip. rewrite L by assumption. rewrite rev_app_distr, lstrip_all by (now rewrite forallb_rev).
  rewrite <- (app_nil_r (rev s)), L.
  - rewrite app_nil_r. apply rev_involutive.
  - intros E. apply NE. rewrite <- (rev_involutive s), E. reflexivity.
  - now rewrite forallb_rev.
Qed.
Lemma digits_value_fold ds : Forall is_digit ds -> forall acc, digits_value acc ds = Some (fold_left (fun acc c => acc * 10 + (c - 48)) ds acc).
Proof.
  induction 1 as [|c ds D F IH]; intros acc; [reflexivity|]. cbn [digits_value fold_left]. unfold is_digit in D.
  replace ((48 <=? c) && (c <=? 57)) with true by (symmetry; apply Bool.andb_true_iff; rewrite !N.leb_le; lia).
  rewrite IH. do 2 f_equal. lia.
Qed.
Lemma number_digits n : Forall is_digit (number n).
Proof. apply ArmMachNameProofs.decimal_digits. Qed.
Lemma number_int n : n < two32 -> python_int (number n ++ [10]) = Some n.
Proof.
  intros B. destruct (ArmMachNameProofs.decimal_numeral n B) as ((NE & F) & V & _). fold (number n) in *. unfold python_int.
  rewrite strip_word; [|exact NE| |reflexivity].
  - destruct (number n) eqn:E; [congruence|]. rewrite digits_value_fold by exact F. fold (dec_value (n0 :: l)). now rewrite V.
  - apply forallb_forall. rewrite Forall_forall in F. intros c I. specialize (F c I). unfold is_digit in F. unfold nonblank, python_blank.
    rewrite Bool.negb_true_iff, Bool.orb_false_iff, Bool.andb_false_iff, N.eqb_neq, !N.leb_gt. lia.
Qed.

(** ** Paths *)
Lemma number_itself n : forallb itself (number n) = true.
Proof.
  apply forallb_forall. pose proof (number_digits n) as F. rewrite Forall_forall in F. intros c I. specialize (F c I). unfold is_digit in F.
  unfold itself. rewrite !Bool.andb_true_iff, !Bool.negb_true_iff, !N.eqb_neq. lia.
Qed.
Lemma cpu_files_itself : forallb (forallb itself) android_cpu_files = true.
Proof. vm_compute. reflexivity. Qed.
Lemma cache_files_itself : forallb (forallb itself) android_cache_files = true.
Proof. vm_compute. reflexivity. Qed.
Lemma system_itself : forallb (forallb itself) android_system_files = true.
Proof. vm_compute. reflexivity. Qed.
Lemma in_cpu_paths kernel_max p : In p (android_cpu_paths kernel_max) <-> exists cpu, cpu <= kernel_max /\
  ((exists f, In f android_cpu_files /\ p = cpu_path cpu f) \/ exists i f, In f android_cache_files /\ i < 5 /\ p = cache_path cpu i f).
Proof.
  unfold android_cpu_paths. rewrite in_flat_map. assert (R : forall n x, In x (range n) <-> (N.to_nat x < n)%nat).
  { intros n x. unfold range. rewrite in_map_iff. split.
    - intros (k & <- & I). apply in_seq in I. rewrite Nat2N.id. lia.
    - intros L. exists (N.to_nat x). split; [lia|]. apply in_seq. lia. }
  split.
  - intros (cpu & I & J). apply R in I. exists cpu. split; [lia|]. apply in_app_or in J as [J|J].
    + apply in_map_iff in J as (f & <- & J). left. now exists f.
    + apply in_flat_map in J as (i & Ii & J). apply R in Ii. apply in_map_iff in J as (f & <- & J). right. exists i, f. repeat split; [exact J|lia].
  - intros (cpu & L & J). exists cpu. split; [apply R; lia|]. apply in_or_app. destruct J as [(f & J & ->)|(i & f & J & Li & ->)].
    + left. now apply in_map.
    + right. apply in_flat_map. exists i. split; [apply R; lia|now apply in_map].
Qed.
Lemma cpu_paths_itself kernel_max : forallb (forallb itself) (android_cpu_paths kernel_max) = true.
Proof.
  apply forallb_forall. intros p I. apply in_cpu_paths in I as (cpu & _ & [(f & J & ->)|(i & f & J & _ & ->)]).
  - pose proof cpu_files_itself as F. rewrite forallb_forall in F. unfold cpu_path. rewrite !forallb_app, number_itself, (F f J). reflexivity.
  - pose proof cache_files_itself as F. rewrite forallb_forall in F. unfold cache_path. rewrite !forallb_app, !number_itself, (F f J). reflexivity.
Qed.
Lemma cpu_paths_differ kernel_max p : In p (android_cpu_paths kernel_max) -> p <> proc_cpuinfo.
Proof.
  intros I. apply in_cpu_paths in I as (cpu & _ & [(f & J & ->)|(i & f & J & _ & ->)]); intros E; discriminate E.
Qed.

(** ** The architecture *)
Lemma abi_fold (ps : list property_pair) : forall abi : option (list N), ~ In (text "ro.product.cpu.abi") (map fst ps) ->
  fold_left (fun abi p => if same_text (fst p) (text "ro.product.cpu.abi") then Some (snd p) else abi) ps abi = abi.
Proof.
  induction ps as [|p ps IH]; intros abi H; [reflexivity|]. cbn [fold_left]. destruct (same_text_spec (fst p) (text "ro.product.cpu.abi")) as [E|E].
  - destruct H. left. exact E.
  - apply IH. intros I. apply H. now right.
Qed.
Lemma abi_value ps : NoDup (map fst ps) ->
  match abi_of ps with Some v => property_of ps (text "ro.product.cpu.abi") = v | None => property_of ps (text "ro.product.cpu.abi") = [] end.
Proof.
  unfold abi_of. induction ps as [|[k v] ps IH]; intros D; [reflexivity|]. cbn [map fst] in D. inversion D as [|x y NI D' Ex]; subst.
  cbn [fold_left property_of fst snd]. destruct (same_text_spec k (text "ro.product.cpu.abi")) as [->|NE].
  - rewrite abi_fold by exact NI. now destruct (list_eq_dec N.eq_dec (text "ro.product.cpu.abi") (text "ro.product.cpu.abi")).
  - destruct (list_eq_dec N.eq_dec k (text "ro.product.cpu.abi")); [contradiction|]. apply IH. exact D'.
Qed.
Lemma arm64_agrees ps : NoDup (map fst ps) -> is_arm64 ps = arm64_device ps.
Proof.
  intros D. pose proof (abi_value ps D) as A. unfold is_arm64, arm64_device. destruct (abi_of ps) as [v|]; rewrite A; [reflexivity|].
  reflexivity.
Qed.

(** ** Properties *)
Lemma text_told s : property_text s -> told s = s /\ bytes s /\ apart s = true /\ ~ In 93 s /\ ~ In 10 s.
Proof.
  intros F. unfold property_text in F. split; [|split; [|split; [|split]]].
  - apply told_text. eapply Forall_impl; [|exact F]. cbn. unfold text_byte. intros c H. lia.
  - eapply Forall_impl; [|exact F]. cbn. intros c H. lia.
  - induction F as [|c s H F IH]; [reflexivity|]. cbn [apart]. rewrite IH, Bool.andb_true_r. replace (c =? 0) with false; [reflexivity|].
    symmetry. apply N.eqb_neq. lia.
  - rewrite Forall_forall in F. intros I. apply F in I. lia.
  - rewrite Forall_forall in F. intros I. apply F in I. lia.
Qed.
Lemma strncmp_exact n a b : (length a < n)%nat -> strncmp_equal n a b = true <-> a = b.
Proof.
  revert a b. induction n as [|n IH]; intros a b L; [lia|]. destruct a as [|x a], b as [|y b]; cbn [strncmp_equal]; try easy.
  cbn [length] in L. rewrite Bool.andb_true_iff, N.eqb_eq, IH by lia. split; [intros [-> ->]; reflexivity|]. intros E. now injection E as -> ->.
Qed.
Lemma property_replayed ps key : (length key < 32)%nat -> Forall (fun p => (length (snd p) <= 92)%nat) ps -> mock_property ps key = property_of ps key.
Proof.
  intros L F. induction F as [|[k v] ps H F IH]; [reflexivity|]. cbn [mock_property property_of]. cbn [snd] in H.
  pose proof (strncmp_exact 32 key k L) as C. destruct (list_eq_dec N.eq_dec k key) as [->|NE].
  - replace (strncmp_equal 32 key key) with true by (symmetry; now apply C). now apply firstn_all2.
  - destruct (strncmp_equal 32 key k); [|exact IH]. destruct NE. symmetry. now apply C.
Qed.
Lemma chip_properties ps : Forall (fun p => (length (snd p) <= 92)%nat) ps ->
  ArmPackageModel.parse_properties (mock_property ps) = ArmPackageModel.parse_properties (property_of ps).
Proof. intros F. unfold ArmPackageModel.parse_properties. now rewrite !property_replayed by (exact F || (vm_compute; lia)). Qed.

(** ** The replay *)
Lemma without_newline_prefix x : exists t, x = without_newline x ++ t.
Proof.
  unfold without_newline. destruct (rev x) as [|c r] eqn:E.
  - exists []. rewrite <- (rev_involutive x), E. reflexivity.
  - destruct (c =? 10); [exists [c]|exists []; now rewrite app_nil_r]. rewrite <- (rev_involutive x), E. reflexivity.
Qed.

Lemma recording_android : forall d crlf props x32 kernel_max,
  dv_getprop d = through_adb crlf (getprop props) -> dv_cpuinfo32 d = option_map (through_adb crlf) x32 ->
  NoDup (map fst props) -> Forall (fun p => property_text (fst p) /\ property_text (snd p)) props ->
  dv_file d (text "/sys/devices/system/cpu/kernel_max") = Some (number kernel_max ++ [10]) -> kernel_max < two32 ->
  dv_file d (text "/proc/cpuinfo") <> None ->
  (forall path content, In path (android_paths kernel_max) -> dv_file d path = Some content -> bytes content /\ zeros_apart content /\ N.of_nat (length content) < two32) ->
  (forall x, x32 = Some x -> bytes x /\ zeros_apart x /\ N.of_nat (length x) < two32 /\ ~ In 13 x) ->
  exists t, dump_android d = Some t /\
  forall a, let file := device_file a (arm64_device props) (dv_file d) (match x32 with Some ((_ :: _) as x) => Some (without_newline x) | _ => None end) in
  exists es, read_android a t = Some (es, props) /\ Forall backed (map as_mock_file es) /\
    (forall path, (exists i, named path (map as_mock_file es) i) <-> In path (android_paths kernel_max) /\ file path <> None) /\
    (forall path content i f, file path = Some content -> named path (map as_mock_file es) i -> nth_error (map as_mock_file es) i = Some f ->
       length (contents f) = length content /\ (contents f = content <-> Forall text_byte content)).
Proof.
  intros d crlf props x32 kernel_max Eg E32 ND PT Ek Bk Ep HF H32.
  destruct (dv_file d (text "/proc/cpuinfo")) as [cpuinfo|] eqn:Ec; [clear Ep|congruence].
  unfold dump_android. rewrite Eg, getprop_exact.
  2: { eapply Forall_impl; [|exact PT]. intros p [K V]. apply text_told in K, V. split; tauto. }
  2: { eapply Forall_impl; [|exact PT]. intros p [K V]. apply text_told in K, V. split; tauto. }
  unfold kernel_max_of. rewrite Ek, number_int by exact Bk. eexists. split; [reflexivity|]. intros a. fold (told32 x32).
  set (file := device_file a (arm64_device props) (dv_file d) (told32 x32)).
  assert (W : Forall writable (flat_map (filed (dv_file d)) (android_paths kernel_max))).
  { apply all_writable; [|exact HF]. unfold android_paths. rewrite forallb_app, cpu_paths_itself. reflexivity. }
  assert (B32 : forall x, x32 = Some x -> bytes (without_newline x) /\ zeros_apart (without_newline x) /\ N.of_nat (length (without_newline x)) < two32 /\ ~ In 13 x).
  { intros x Ex. destruct (H32 x Ex) as (B & Z & L & R). destruct (without_newline_prefix x) as (t & Et). split; [|split; [|split]].
    - rewrite Et in B. unfold bytes in B. now apply Forall_app in B as [B _].
    - apply apart_iff in Z. rewrite Et in Z. apply apart_app in Z as [Z _]. now apply apart_iff.
    - rewrite Et, app_length in L. lia.
    - exact R. }
  assert (Wf : Forall writable (flat_map (filed file) (android_paths kernel_max))).
  { apply all_writable; [unfold android_paths; rewrite forallb_app, cpu_paths_itself; reflexivity|].
    intros path content I E. unfold file, device_file in E. destruct a; [|exact (HF path content I E)].
    destruct (arm64_device props && _); [|exact (HF path content I E)].
    unfold told32 in E. destruct x32 as [[|c x]|]; try discriminate. injection E as <-. destruct (B32 _ eq_refl) as (B & Z & L & _). now repeat split. }
  assert (Sy : Forall sayable props).
  { eapply Forall_impl; [|exact PT]. intros p [K V]. apply text_told in K, V. unfold sayable. tauto. }
  assert (Tp : map told_pair props = props).
  { rewrite <- (map_id props) at 2. apply map_ext_in. intros [k v] I. rewrite Forall_forall in PT. destruct (PT _ I) as [K V]. unfold told_pair.
    cbn [fst snd] in *. now rewrite (proj1 (text_told k K)), (proj1 (text_told v V)). }
  exists (map entry_told (flat_map (filed file) (android_paths kernel_max))). split; [|apply mock_files_of].
  unfold read_android. rewrite (arm64_agrees props ND).
  rewrite (header_steps a d (arm64_device props) crlf x32 cpuinfo kernel_max props); try assumption.
  - fold file. rewrite files_read by exact Wf. rewrite table_read by exact Sy. rewrite Tp. reflexivity.
  - exact (proj1 (HF _ _ (or_introl eq_refl) Ec)).
  - intros x Ex. destruct (B32 x Ex) as (B & _ & _ & R). now split.
  - unfold android_paths in W. rewrite system_files_eq in W. cbn [app flat_map] in W. apply Forall_app in W as [_ W]. exact W.
  - intros p I. unfold device_file. destruct a; [|reflexivity].
    destruct (list_eq_dec N.eq_dec p (text "/proc/cpuinfo")) as [->|]; [now apply cpu_paths_differ in I|]. now rewrite Bool.andb_false_r.
Qed.

(** ** Which files *)
Lemma described_cpu cpu f : cpu < two32 -> described (cpu_path cpu f) = Some (cpu, f).
Proof. exact (described_read cpu f). Qed.
Lemma described_cache cpu i f : cpu < two32 -> described (cache_path cpu i f) = Some (cpu, text "cache/index" ++ number i ++ text "/" ++ f).
Proof. intros B. exact (described_read cpu (text "cache/index" ++ number i ++ text "/" ++ f) B). Qed.
Lemma system_undescribed : forallb (fun p => match described p with None => true | Some _ => false end) android_system_files = true.
Proof. vm_compute. reflexivity. Qed.
Lemma android_has : forall kernel_max k n path, kernel_max < two32 -> n < two32 -> file_name k n = Some path ->
  (In path (android_paths kernel_max) <-> n <= kernel_max /\ In k [Max_freq; Min_freq; Package_id; Core_siblings; Core_id; Thread_siblings]).
Proof.
  intros kernel_max k n path Bk B E. rewrite file_name_whole in E. apply (f_equal (fun o => match o with Some x => x | None => [] end)) in E. cbv beta iota in E.
  subst path. rewrite path_of. unfold android_paths. rewrite in_app_iff, in_cpu_paths. split.
  - intros [I|(cpu & L & I)].
    + pose proof system_undescribed as F. rewrite forallb_forall in F. specialize (F _ I). now rewrite described_cpu in F.
    + assert (Bc : cpu < two32) by lia. destruct I as [(f & J & Ef)|(i & f & _ & _ & Ef)].
      * apply (f_equal described) in Ef. rewrite !described_cpu in Ef by assumption. injection Ef as -> <-. split; [exact L|].
        assert (A : in_texts (kernel_name k) android_cpu_files = true).
        { unfold in_texts. apply existsb_exists. exists (kernel_name k). split; [exact J|]. now destruct (list_eq_dec N.eq_dec (kernel_name k) (kernel_name k)). }
        destruct k; try (vm_compute in A; discriminate A); cbn [In]; tauto.
      * apply (f_equal described) in Ef. rewrite described_cpu, described_cache in Ef by assumption. injection Ef as _ Ef.
        destruct k; discriminate Ef.
  - intros [L K]. right. exists n. split; [exact L|]. left. exists (kernel_name k). split; [|reflexivity].
    assert (A : in_texts (kernel_name k) android_cpu_files = true).
    { destruct K as [<-|[<-|[<-|[<-|[<-|[<-|[]]]]]]]; vm_compute; reflexivity. }
    unfold in_texts in A. apply existsb_exists in A as (x & I & Ex). destruct (list_eq_dec N.eq_dec x (kernel_name k)) as [<-|]; [exact I|discriminate].
Qed.

(** ** Devices that are not replayed *)
Lemma bracket_stops : exists d, (exists props, dv_getprop d = getprop props) /\ dump_android d = None.
Proof.
  exists (Device (fun _ => None) (getprop [(text "a", text "[x]")]) None). split; [now exists [(text "a", text "[x]")]|]. vm_compute. reflexivity.
Qed.
Lemma condition_broken : exists d t, (exists props, dv_getprop d = getprop props) /\ dump_android d = Some t /\ forall a, read_android a t = None.
Proof.
  exists (Device (fun _ => None) (getprop [(text "ro.product.cpu.abi", text "arm64-v8a")]) None). eexists.
  split; [now exists [(text "ro.product.cpu.abi", text "arm64-v8a")]|]. split; [vm_compute; reflexivity|]. intros []; vm_compute; reflexivity.
Qed.
Lemma long_names : exists props key, NoDup (map fst props) /\ Forall (fun p => (length (snd p) <= 92)%nat) props /\
  mock_property props key <> property_of props key.
Proof.
  exists [(text "ro.vendor.some.very.long.property.a", text "1"); (text "ro.vendor.some.very.long.property.b", text "2")], (text "ro.vendor.some.very.long.property.b").
  split; [|split].
  - repeat constructor; cbn; intros I; repeat destruct I as [I|I]; discriminate || contradiction.
  - repeat constructor; vm_compute; lia.
  - vm_compute. discriminate.
Qed.
