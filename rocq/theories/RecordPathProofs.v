From Verif Require Import Base Text ToolsModel ReportSpec ReportProofs SysfsNameModel SysfsNameSpec SysfsNameProofs RecordModel.
Open Scope N_scope.

Definition in_texts (s : list N) (l : list (list N)) : bool := existsb (fun x => if list_eq_dec N.eq_dec x s then true else false) l.
Definition of_a_recorded (path : list N) : bool :=
  match described path with
  | Some (n, s) => (n <? 16) && (in_texts s cpu_files || match after (text "cache/") s with Some _ => true | None => false end)
  | None => true
  end.
Lemma all_recorded : forallb of_a_recorded linux_paths = true.
Proof. vm_compute. reflexivity. Qed.
Definition recorded_kind (k : kind) : bool := in_texts (kernel_name k) cpu_files.

Lemma path_of k n : before_number ++ number n ++ behind_number k = cpu_path n (kernel_name k).
Proof. unfold cpu_path. now rewrite behind_slash. Qed.

Lemma recorded_paths : forall k n path, n < two32 -> file_name k n = Some path ->
  (In path linux_paths <-> n < 16 /\ In k [Max_freq; Min_freq; Package_id; Core_siblings; Core_id; Thread_siblings]).
Proof.
  intros k n path B E. rewrite file_name_whole in E. apply (f_equal (fun o => match o with Some x => x | None => [] end)) in E. cbv beta iota in E.
  subst path. split.
  - intros I. pose proof all_recorded as A. rewrite forallb_forall in A. specialize (A _ I). unfold of_a_recorded in A.
    rewrite behind_slash, described_read in A by exact B. apply Bool.andb_true_iff in A as [L A]. apply N.ltb_lt in L. split; [exact L|].
    destruct k; try (vm_compute in A; discriminate A); cbn [In]; tauto.
  - intros [L K]. rewrite path_of. unfold linux_paths. apply in_or_app. right. apply in_flat_map. exists n. split.
    + apply in_map_iff. exists (N.to_nat n). split; [lia|]. apply in_seq. lia.
    + apply in_or_app. left. apply in_map. destruct K as [<-|[<-|[<-|[<-|[<-|[<-|[]]]]]]]; cbn [In kernel_name cpu_files]; tauto.
Qed.

Lemma recorded_single : forall path, In path single_files -> In path linux_paths.
Proof. intros path I. apply in_or_app. now left. Qed.

From Verif Require Import MockFileModel MockFileSpec RecordSpec RecordProofs.

Lemma recording_zero : exists fs content files,
  fs (text "/proc/cpuinfo") = Some content /\ Forall text_byte content /\
  option_map (map as_mock_file) (read_header (dump_linux fs)) = Some files /\
  run (mock_filesystem files) [Open (text "/proc/cpuinfo") 0; Read 0 64] = UB.
Proof.
  exists (fun path => if strings_equal path (text "/proc/cpuinfo") then Some [0; 49; 50] else None), [0; 49; 50].
  exists [MockFile (text "/proc/cpuinfo") 3 [10; 0] None].
  split; [reflexivity|]. split; [|split; vm_compute; reflexivity].
  repeat constructor; unfold text_byte; lia.
Qed.

Lemma recording_clusters : forall fs es n path i,
  (forall path content, In path linux_paths -> fs path = Some content -> bytes content /\ zeros_apart content /\ N.of_nat (length content) < two32) ->
  read_header (dump_linux fs) = Some es -> n < two32 -> file_name Cluster_cpus n = Some path -> ~ named path (map as_mock_file es) i.
Proof.
  intros fs es n path i H R B E Nm. destruct (recording_linux fs H) as (es' & R' & _ & P & _). rewrite R in R'. injection R' as <-.
  assert (I : In path linux_paths) by (apply P; now exists i). apply (recorded_paths _ _ _ B E) in I as [_ I]. cbn in I.
  now repeat destruct I as [I|I].
Qed.

Lemma recording_bytes : exists fs content f,
  fs (text "/proc/cpuinfo") = Some content /\ option_map (map as_mock_file) (read_header (dump_linux fs)) = Some [f] /\
  content = [195; 169] /\ contents f = text "xC".
Proof.
  exists (fun path => if strings_equal path (text "/proc/cpuinfo") then Some [195; 169] else None), [195; 169].
  exists (MockFile (text "/proc/cpuinfo") 2 (text "xC3xA9" ++ [0]) None). repeat split; vm_compute; reflexivity.
Qed.
