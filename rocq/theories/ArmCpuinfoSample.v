(** Sample ARM /proc/cpuinfo files. *)
From Verif Require Import Base BaseProofs Text LinuxTextModel LinuxTextSpec CpuinfoLineModel CpuinfoLineSpec X86CpuinfoModel
  ArmMidrModel ArmClustersModel ArmMidrSpec ArmCpuinfoModel ArmCpuinfoSpec ArmCpuinfoResultProofs.
Open Scope N_scope.

(** "key", a tab, ": ", "value". *)
Definition field_line (key value : string) : list N := text key ++ [9] ++ text ": " ++ text value.
Arguments field_line (key value)%string.

(** A Cortex-A53 and a Cortex-A72, as a 64-bit kernel prints them. *)
Definition board_lines : list (list N) :=
  [field_line "processor" "0"; field_line "BogoMIPS" "38.40";
   field_line "Features" "fp asimd  evtstrm aes crc32 asimddp"; field_line "CPU implementer" "0x41";
   text "CPU architecture: 8"; field_line "CPU variant" "0x0"; field_line "CPU part" "0xd03"; field_line "CPU revision" "4"; [];
   field_line "processor" "1"; field_line "BogoMIPS" "38.40"; field_line "Features" "fp asimd"; field_line "CPU implementer" "0x41";
   text "CPU architecture: 8"; field_line "CPU variant" "0x1"; field_line "CPU part" "0xd08"; field_line "CPU revision" "2"; [];
   field_line "Hardware" "Some Board"; field_line "Revision" "0020"; []].
Definition a53_names := [text "fp"; text "asimd"; text "evtstrm"; text "aes"; text "crc32"; text "asimddp"].
Definition board_meanings : list arm_meaning :=
  [Announces 0; Nothing; Says (Feats a53_names); Says (Field Implementer 0x41); Says (Arch 8 []);
   Says (Field Variant 0); Says (Field PartNumber 0xD03); Says (Field Revision 4); Nothing;
   Announces 1; Nothing; Says (Feats [text "fp"; text "asimd"]); Says (Field Implementer 0x41); Says (Arch 8 []);
   Says (Field Variant 1); Says (Field PartNumber 0xD08); Says (Field Revision 2); Nothing;
   Board (text "Some Board"); BoardRevision (text "0020"); Nothing].
Definition board_blocks : list (N * N * list (list N)) :=
  [(0, 0x410FD034, a53_names); (1, 0x411FD082, [text "fp"; text "asimd"])].

Ltac hexadecimal ds := exists ds; split; [reflexivity|]; split; [discriminate|]; split; [cbn; lia|];
  split; [repeat (constructor; [unfold is_hex; cbn; lia|]); constructor|reflexivity].

Lemma says_hex arm32 (key value : string) f n k ds : split_line (field_line key value) = Ok (Some (text key, text value)) ->
  (text key, f, k) = (text "CPU part", PartNumber, 3%nat) \/ (text key, f, k) = (text "CPU implementer", Implementer, 2%nat) \/
  (text key, f, k) = (text "CPU variant", Variant, 1%nat) ->
  text value = text "0x" ++ ds -> ds <> [] -> (length ds <= k)%nat -> Forall is_hex ds -> hex_number ds = n ->
  arm_line_means arm32 (field_line key value) (Says (Field f n)).
Proof.
  intros E Hk Hv Hne Hl Hf Hn. apply computed_key_value in E.
  assert (X : is_hexadecimal k (text value) n) by (exists ds; repeat split; auto).
  destruct Hk as [Hk|[Hk|Hk]]; injection Hk as Ek -> ->; rewrite Ek in E.
  - eapply means_part; eassumption.
  - eapply means_implementer; [left; reflexivity|eassumption|eassumption].
  - eapply means_variant; eassumption.
Qed.

Ltac solve_hex := eapply says_hex; [vm_compute; reflexivity|cbn; tauto|reflexivity|discriminate|cbn; lia|
  repeat (constructor; [unfold is_hex; cbn; lia|]); constructor|reflexivity].

Lemma says_nothing arm32 line : (split_line line = Ok None \/ exists k v, split_line line = Ok (Some (k, v)) /\
    ~ In k plain_keys /\ forall data which, k <> cache_key data which) -> arm_line_means arm32 line Nothing.
Proof.
  intros H. apply means_nothing. intros k v Hkv. destruct H as [E|(k' & v' & E & N1 & N2)].
  - now apply (computed_not_key line E) in Hkv.
  - rewrite (computed_key line k' v' k v E Hkv). auto.
Qed.

Lemma blank_nothing arm32 : arm_line_means arm32 [] Nothing.
Proof. apply says_nothing. left. reflexivity. Qed.
Lemma bogomips_nothing arm32 : arm_line_means arm32 (field_line "BogoMIPS" "38.40") Nothing.
Proof.
  apply says_nothing. right. exists (text "BogoMIPS"), (text "38.40"). split; [vm_compute; reflexivity|].
  split; [cbn; intros H; repeat destruct H as [H|H]; try discriminate H; exact H|]. intros [] []; discriminate.
Qed.

Lemma digits_ok ds : Forall is_digit ds -> ds <> [] -> is_decimal ds.
Proof. split; assumption. Qed.

Ltac digits := split; [discriminate|repeat (constructor; [unfold is_digit; cbn; lia|]); constructor].

Lemma board_lines_mean arm32 : Forall2 (arm_line_means arm32) board_lines board_meanings.
Proof.
  unfold board_lines, board_meanings.
  assert (P : forall v n, split_line (field_line "processor" v) = Ok (Some (text "processor", text v)) ->
     is_decimal (text v) -> dec_value (text v) = n -> n < two32 -> arm_line_means arm32 (field_line "processor" v) (Announces n)).
  { intros v n E D <- L. apply means_processor; [now apply computed_key_value|exact D|exact L]. }
  assert (R : forall v n, split_line (field_line "CPU revision" v) = Ok (Some (text "CPU revision", text v)) ->
     is_decimal (text v) -> dec_value (text v) = n -> n < 16 ->
     arm_line_means arm32 (field_line "CPU revision" v) (Says (Field Revision n))).
  { intros v n E D <- L. apply means_revision; [now apply computed_key_value|exact D|exact L]. }
  assert (F : forall v ws, split_line (field_line "Features" v) = Ok (Some (text "Features", text v)) -> words (text v) = ws ->
     arm_line_means arm32 (field_line "Features" v) (Says (Feats ws))).
  { intros v ws E <-. apply means_features. now apply computed_key_value. }
  assert (A : arm_line_means arm32 (text "CPU architecture: 8") (Says (Arch 8 []))).
  { change 8 with (dec_value (text "8")). apply means_architecture with (v := text "8").
    - apply computed_key_value. vm_compute. reflexivity.
    - reflexivity.
    - repeat constructor.
    - digits.
    - intros (c & s & E & _). discriminate.
    - split; reflexivity. }
  repeat match goal with
  | |- Forall2 _ [] [] => constructor
  | |- Forall2 _ (_ :: _) (_ :: _) => constructor
  end; try apply blank_nothing; try apply bogomips_nothing; try exact A; try solve_hex;
    try (apply P; [vm_compute; reflexivity|digits|reflexivity|reflexivity]);
    try (apply R; [vm_compute; reflexivity|digits|reflexivity|reflexivity]);
    try (apply F; vm_compute; reflexivity).
  - apply means_board; [apply computed_key_value; vm_compute; reflexivity|discriminate].
  - apply means_board_revision; [apply computed_key_value; vm_compute; reflexivity|discriminate].
Qed.

(** The arrays as the caller passes them: never written. *)
Definition fresh (n : nat) : chars := repeat None n.
Definition blank_procs (n : nat) : list aproc := repeat aproc0 n.

(** Values of chosen length. *)
Definition long_line (key : string) (n : nat) : list N := text key ++ [9] ++ text ": " ++ repeat 65 n.
Arguments long_line key%string n%nat.
