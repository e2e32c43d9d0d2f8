From Verif Require Import Base Text LinuxTextSpec ToolsModel ReportSpec ReportProofs MockFileModel MockFileSpec RecordModel RecordSpec RecordProofs
  AndroidRecordModel AndroidRecordSpec AndroidRecordProofs AndroidHeaderProofs.
From Verif Require ArmMachSpec ArmMachNameProofs.
Open Scope N_scope.

Lemma same_text_spec a b : Bool.reflect (a = b) (same_text a b).
Proof. unfold same_text. destruct (list_eq_dec N.eq_dec a b); now constructor. Qed.

Definition other_system_files : list (list N) := tl android_system_files.
Lemma others_differ : forallb (fun p => negb (same_text p proc_cpuinfo)) other_system_files = true.
Proof. vm_compute. reflexivity. Qed.
Lemma system_files_eq : android_system_files = proc_cpuinfo :: other_system_files.
Proof. reflexivity. Qed.
Lemma other_plain d arm64 : flat_map (dump_android_file d arm64) other_system_files = flat_map (dump_system_file (dv_file d)) other_system_files.
Proof.
  pose proof others_differ as F. rewrite forallb_forall in F. induction other_system_files as [|p l IH]; [reflexivity|]. cbn [flat_map].
  rewrite IH by (intros x I; apply F; now right). f_equal. specialize (F p (or_introl eq_refl)). apply Bool.negb_true_iff in F.
  unfold dump_android_file, dump_system_file. rewrite F. cbn [andb]. destruct (dv_file d p); [cbn [app]; apply app_nil_r|reflexivity].
Qed.
Lemma others_same a arm64 file c32 p : In p other_system_files -> device_file a arm64 file c32 p = file p.
Proof.
  intros I. pose proof others_differ as F. rewrite forallb_forall in F. specialize (F p I). apply Bool.negb_true_iff in F.
  unfold device_file. destruct a; [|reflexivity]. change (if list_eq_dec N.eq_dec p (text "/proc/cpuinfo") then true else false) with (same_text p proc_cpuinfo).
  rewrite F, Bool.andb_false_r. reflexivity.
Qed.
Lemma filed_same fs fs' paths : (forall p, In p paths -> fs p = fs' p) -> flat_map (filed fs) paths = flat_map (filed fs') paths.
Proof.
  induction paths as [|p paths IH]; intros H; [reflexivity|]. cbn [flat_map]. rewrite IH by (intros q I; apply H; now right). f_equal.
  unfold filed. now rewrite (H p (or_introl eq_refl)).
Qed.

(** The 32-bit /proc/cpuinfo that is recorded. *)
Definition told32 (x32 : option (list N)) : option (list N) :=
  match x32 with Some ((_ :: _) as x) => Some (without_newline x) | _ => None end.

Lemma adb_nonempty crlf x : through_adb crlf x = [] <-> x = [].
Proof. split; [|now intros ->]. destruct x as [|c x]; [reflexivity|]. unfold through_adb. cbn. now destruct (_ && _). Qed.

Lemma steps_as defined st s st' t t' : steps defined st s st' t -> t = t' -> steps defined st s st' t'.
Proof. now intros H <-. Qed.

Lemma first_steps a d crlf x32 content (arm64 : bool) :
  dv_file d proc_cpuinfo = Some content -> dv_cpuinfo32 d = option_map (through_adb crlf) x32 ->
  bytes content -> (forall x, x32 = Some x -> bytes (without_newline x) /\ ~ In 13 x) ->
  steps (defined_for a) None (dump_android_file d arm64 proc_cpuinfo) None
        (flat_map recorded (filed (device_file a arm64 (dv_file d) (told32 x32)) proc_cpuinfo)).
Proof.
  intros E E32 B B32. assert (P : scan true (mock_entry proc_cpuinfo content) = Some true) by (apply entry_plain; [reflexivity|exact B]).
  unfold dump_android_file. rewrite E. change (same_text proc_cpuinfo proc_cpuinfo) with true. cbn [andb]. destruct arm64.
  - rewrite <- app_assoc.
    assert (S1 : steps (defined_for a) None (text "#if CPUINFO_ARCH_ARM64" ++ [newline]) (Some (match a with Arm64 => true | _ => false end, match a with Arm64 => true | _ => false end)) []).
    { apply steps_directive; [vm_compute; intros I; repeat destruct I as [I|I]; discriminate || contradiction|]. intros ls. destruct a; reflexivity. }
    pose proof (steps_plain (defined_for a) (Some (match a with Arm64 => true | _ => false end, match a with Arm64 => true | _ => false end)) _ P) as S2.
    assert (S4 : forall t b, steps (defined_for a) (Some (t, b)) (text "#endif" ++ [newline]) None []).
    { intros t b. apply steps_directive; [vm_compute; intros I; repeat destruct I as [I|I]; discriminate || contradiction|]. intros ls. reflexivity. }
    destruct x32 as [x|].
    + cbn [option_map] in E32. rewrite E32. destruct (B32 x eq_refl) as [Bx Rx]. destruct x as [|c x].
      * cbn [through_adb flat_map app].
        eapply steps_as; [exact (steps_app _ _ _ _ _ _ _ _ S1 (steps_app _ _ _ _ _ _ _ _ S2 (S4 _ _)))|].
        unfold filed, device_file. rewrite E. destruct a; cbn [app active andb flat_map told32].
        -- change (if list_eq_dec N.eq_dec proc_cpuinfo (text "/proc/cpuinfo") then true else false) with true. reflexivity.
        -- reflexivity.
      * destruct (through_adb crlf (c :: x)) as [|e y] eqn:Ey; [now apply adb_nonempty in Ey|]. rewrite <- Ey.
        rewrite (rejoined crlf (c :: x) Rx [] (conj (fun I => I) (fun I => I))). cbn [app].
        assert (S3 : steps (defined_for a) (Some (match a with Arm64 => true | _ => false end, match a with Arm64 => true | _ => false end))
                       (text "#elif CPUINFO_ARCH_ARM" ++ [newline]) (Some (true, match a with Arm64 => false | _ => true end)) []).
        { apply steps_directive; [vm_compute; intros I; repeat destruct I as [I|I]; discriminate || contradiction|]. intros ls. destruct a; reflexivity. }
        assert (P32 : scan true (mock_entry proc_cpuinfo (without_newline (c :: x))) = Some true) by (apply entry_plain; [reflexivity|exact Bx]).
        pose proof (steps_plain (defined_for a) (Some (true, match a with Arm64 => false | _ => true end)) _ P32) as S5.
        rewrite <- !app_assoc. rewrite (app_assoc (text "#elif CPUINFO_ARCH_ARM")). rewrite (app_assoc (text "#if CPUINFO_ARCH_ARM64")).
        eapply steps_as; [exact (steps_app _ _ _ _ _ _ _ _ S1 (steps_app _ _ _ _ _ _ _ _ S2 (steps_app _ _ _ _ _ _ _ _ S3 (steps_app _ _ _ _ _ _ _ _ S5 (S4 _ _)))))|].
        unfold filed, device_file. rewrite E. destruct a; cbn [app active andb flat_map told32].
        -- change (if list_eq_dec N.eq_dec proc_cpuinfo (text "/proc/cpuinfo") then true else false) with true. reflexivity.
        -- rewrite !app_nil_r. reflexivity.
    + cbn [option_map] in E32. rewrite E32. cbn [app].
      rewrite (app_assoc (text "#if CPUINFO_ARCH_ARM64")) || idtac.
      eapply steps_as; [exact (steps_app _ _ _ _ _ _ _ _ S1 (steps_app _ _ _ _ _ _ _ _ S2 (S4 _ _)))|].
      unfold filed, device_file. rewrite E. destruct a; cbn [app active andb flat_map told32].
      * change (if list_eq_dec N.eq_dec proc_cpuinfo (text "/proc/cpuinfo") then true else false) with true. reflexivity.
      * reflexivity.
  - cbn [app]. rewrite app_nil_r. eapply steps_as; [exact (steps_plain (defined_for a) None _ P)|].
    unfold filed, device_file. destruct a; cbn [andb]; rewrite E; cbn [flat_map active]; symmetry; apply app_nil_r.
Qed.

(** ** The whole header *)
Lemma recorded_plain l : Forall writable l -> scan true (flat_map recorded l) = Some true.
Proof. intros F. apply scan_flat. eapply Forall_impl; [|exact F]. intros pc (P & B & _). now apply entry_plain. Qed.
Lemma properties_plain l : Forall sayable l -> scan true (flat_map property_entry l) = Some true.
Proof. intros F. apply scan_flat. eapply Forall_impl; [|exact F]. intros p (K & _ & V & _). now apply property_plain. Qed.

Lemma header_steps a d arm64 crlf x32 content kernel_max ps :
  dv_file d proc_cpuinfo = Some content -> dv_cpuinfo32 d = option_map (through_adb crlf) x32 ->
  bytes content -> (forall x, x32 = Some x -> bytes (without_newline x) /\ ~ In 13 x) ->
  Forall writable (flat_map (filed (dv_file d)) (other_system_files ++ android_cpu_paths kernel_max)) ->
  Forall sayable ps ->
  (forall p, In p (android_cpu_paths kernel_max) -> device_file a arm64 (dv_file d) (told32 x32) p = dv_file d p) ->
  preprocess (defined_for a)
     (text "struct cpuinfo_mock_file filesystem[] = {" ++ [newline] ++
      flat_map (dump_android_file d arm64) android_system_files ++
      flat_map (dump_system_file (dv_file d)) (android_cpu_paths kernel_max) ++
      text "	{ NULL }," ++ [newline] ++ text "};" ++ [newline] ++
      text "#ifdef __ANDROID__" ++ [newline] ++
      text "struct cpuinfo_mock_property properties[] = {" ++ [newline] ++
      flat_map property_entry ps ++
      text "	{ NULL }," ++ [newline] ++ text "};" ++ [newline] ++ text "#endif /* __ANDROID__ */" ++ [newline]) =
  Some (text "struct cpuinfo_mock_file filesystem[] = {" ++ [newline] ++
        flat_map recorded (flat_map (filed (device_file a arm64 (dv_file d) (told32 x32))) (android_paths kernel_max)) ++
        text "	{ NULL }," ++ [newline] ++ text "};" ++ [newline] ++
        text "struct cpuinfo_mock_property properties[] = {" ++ [newline] ++
        flat_map property_entry ps ++ text "	{ NULL }," ++ [newline] ++ text "};" ++ [newline]).
Proof.
  intros E E32 B B32 W Sy Dv. unfold android_paths. rewrite system_files_eq. cbn [flat_map app]. rewrite other_plain.
  set (first := dump_android_file d arm64 proc_cpuinfo). set (firstk := filed (device_file a arm64 (dv_file d) (told32 x32)) proc_cpuinfo).
  assert (S1 : steps (defined_for a) None first None (flat_map recorded firstk)) by (now apply (first_steps a d crlf x32 content arm64)).
  clearbody first firstk.
  rewrite <- (app_assoc first), (app_assoc (flat_map (dump_system_file (dv_file d)) other_system_files)).
  rewrite <- flat_map_app, dump_filed.
  rewrite (filed_same (device_file a arm64 (dv_file d) (told32 x32)) (dv_file d) (other_system_files ++ android_cpu_paths kernel_max)).
  2: { intros p I. apply in_app_or in I as [I|I]; [now apply others_same|now apply Dv]. }
  set (rest := flat_map (filed (dv_file d)) (other_system_files ++ android_cpu_paths kernel_max)) in *. clearbody rest.
  pose proof (steps_plain (defined_for a) None _ (recorded_plain rest W)) as S2. cbn [active] in S2.
  assert (S0 : steps (defined_for a) None (text "struct cpuinfo_mock_file filesystem[] = {" ++ [newline]) None (text "struct cpuinfo_mock_file filesystem[] = {" ++ [newline]))
    by (apply (steps_plain (defined_for a) None); reflexivity).
  assert (S3 : steps (defined_for a) None (text "	{ NULL }," ++ [newline] ++ text "};" ++ [newline]) None (text "	{ NULL }," ++ [newline] ++ text "};" ++ [newline]))
    by (apply (steps_plain (defined_for a) None); reflexivity).
  assert (S4 : steps (defined_for a) None (text "#ifdef __ANDROID__" ++ [newline]) (Some (true, true)) []).
  { apply steps_directive; [vm_compute; intros I; repeat destruct I as [I|I]; discriminate || contradiction|]. intros ls. destruct a; reflexivity. }
  assert (S5 : steps (defined_for a) (Some (true, true)) (text "struct cpuinfo_mock_property properties[] = {" ++ [newline]) (Some (true, true))
                 (text "struct cpuinfo_mock_property properties[] = {" ++ [newline]))
    by (apply (steps_plain (defined_for a) (Some (true, true))); reflexivity).
  pose proof (steps_plain (defined_for a) (Some (true, true)) _ (properties_plain ps Sy)) as S6. cbn [active] in S6.
  assert (S7 : steps (defined_for a) (Some (true, true)) (text "	{ NULL }," ++ [newline] ++ text "};" ++ [newline]) (Some (true, true)) (text "	{ NULL }," ++ [newline] ++ text "};" ++ [newline]))
    by (apply (steps_plain (defined_for a) (Some (true, true))); reflexivity).
  assert (S8 : steps (defined_for a) (Some (true, true)) (text "#endif /* __ANDROID__ */" ++ [newline]) None []).
  { apply steps_directive; [vm_compute; intros I; repeat destruct I as [I|I]; discriminate || contradiction|]. intros ls. reflexivity. }
  pose proof (steps_app _ _ _ _ _ _ _ _ S0 (steps_app _ _ _ _ _ _ _ _ S1 (steps_app _ _ _ _ _ _ _ _ S2 (steps_app _ _ _ _ _ _ _ _ S3
             (steps_app _ _ _ _ _ _ _ _ S4 (steps_app _ _ _ _ _ _ _ _ S5 (steps_app _ _ _ _ _ _ _ _ S6 (steps_app _ _ _ _ _ _ _ _ S7 S8)))))))) as S.
  specialize (S []). rewrite app_nil_r in S. unfold preprocess. rewrite <- !app_assoc in S.
  change (preprocess_from (defined_for a) None []) with (Some (@nil N)) in S. unfold adds in S. cbn [option_map] in S. rewrite !app_nil_r in S.
  unfold preprocess_from in S. rewrite flat_map_app. rewrite <- !app_assoc. cbn [app] in S. exact S.
Qed.
