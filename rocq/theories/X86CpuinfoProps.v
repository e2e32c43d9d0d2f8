(** Property theorems about x86 /proc/cpuinfo (C14) and decimal numbers in it (C41). *)
From Verif Require Import Base Text LinuxTextModel LinuxTextSpec CpuinfoLineModel CpuinfoLineSpec CpuinfoLineProofs
  X86CpuinfoModel X86CpuinfoSpec X86CpuinfoProofs.
Open Scope N_scope.

(** ** C14 *)

(** The splitter never reads outside the line, and finds exactly the key and the
    value of the line. *)
Theorem split_line_never_leaves_line : forall line,
  split_line line = Ok None \/
  exists key value, split_line line = Ok (Some (key, value)) /\ key_value line key value.
Proof. exact split_line_total. Qed.
Print Assumptions split_line_never_leaves_line.

Theorem split_line_exact : forall line key value,
  key_value line key value -> split_line line = Ok (Some (key, value)).
Proof. exact split_line_key_value. Qed.
Print Assumptions split_line_exact.

(** Arbitrary bytes in one line: no out-of-bounds access, and only the current
    and the newly announced processor can change. *)
Theorem proc_cpuinfo_line_is_local : forall char_signed max st line,
  length (ps_procs st) = N.to_nat max ->
  exists st', x86_parse_line char_signed max st line = Ok st' /\
    length (ps_procs st') = length (ps_procs st) /\
    forall cpu, cpu <> N.to_nat (ps_index st) -> cpu <> N.to_nat (ps_index st') ->
      nth_error (ps_procs st') cpu = nth_error (ps_procs st) cpu.
Proof.
  intros sg max st line H. destruct (parse_line_safe sg max st line H) as (st' & E & L & P & _).
  exists st'. auto.
Qed.
Print Assumptions proc_cpuinfo_line_is_local.

(** Arbitrary file contents and reads: no out-of-bounds access, the parser stops,
    no Linux id changes, and no flag other than APIC_ID and PROC_CPUINFO. *)
Theorem proc_cpuinfo_arbitrary_contents : forall char_signed max file wants procs,
  length procs = N.to_nat max ->
  exists ok procs', x86_parse_proc_cpuinfo char_signed max file wants procs = Ok (ok, procs') /\
    length procs' = length procs /\
    forall cpu p, nth_error procs cpu = Some p -> exists p',
      nth_error procs' cpu = Some p' /\ x_linux_id p' = x_linux_id p /\
      exists extra, N.lor extra (128 + 2048) = 128 + 2048 /\ x_flags p' = N.lor (x_flags p) extra.
Proof. exact proc_cpuinfo_safe. Qed.
Print Assumptions proc_cpuinfo_arbitrary_contents.

(** A file of meaningful lines: the record of each processor gets the APIC id
    given in its block, and the flags say what was seen. *)
Theorem proc_cpuinfo_exact : forall char_signed max wants procs lines meanings,
  no_io_error wants -> lines <> [] -> Forall (fun l => ~ In 10 l) lines ->
  pieces_fit 2048 lines -> Forall2 line_means lines meanings -> length procs = N.to_nat max ->
  exists procs', x86_parse_proc_cpuinfo char_signed max (Some (join 10 lines)) wants procs = Ok (true, procs') /\
    length procs' = length procs /\
    forall cpu p, nth_error procs cpu = Some p ->
      exists p', nth_error procs' cpu = Some p' /\
        x_linux_id p' = x_linux_id p /\
        (forall a, apic_given meanings 0 (N.of_nat cpu) None = Some a ->
           x_apic_id p' = a /\ N.testbit (x_flags p') 7 = true) /\
        (apic_given meanings 0 (N.of_nat cpu) None = None ->
           x_apic_id p' = x_apic_id p /\ N.testbit (x_flags p') 7 = N.testbit (x_flags p) 7) /\
        (In (Announces (N.of_nat cpu)) meanings -> N.testbit (x_flags p') 11 = true) /\
        (~ In (Announces (N.of_nat cpu)) meanings ->
           N.testbit (x_flags p') 11 = N.testbit (x_flags p) 11) /\
        (forall b, b <> 7 -> b <> 11 -> N.testbit (x_flags p') b = N.testbit (x_flags p) b).
Proof.
  intros sg max wants procs lines ms H1 H2 H3 H4 H5 H6.
  destruct (proc_cpuinfo_meaning sg max wants procs lines ms H1 H2 H3 H4 H5 H6) as (ps & E & L & P).
  exists ps. split; [exact E|]. split; [exact L|]. intros cpu p Hp.
  eexists. split; [exact (P cpu p Hp)|]. unfold updated; cbn [x_apic_id x_linux_id x_flags].
  assert (A : announced ms (N.of_nat cpu) = true <-> In (Announces (N.of_nat cpu)) ms).
  { unfold announced. rewrite existsb_exists. split.
    - intros (m & Hi & Hm). destruct m; try discriminate. apply N.eqb_eq in Hm. now subst.
    - intros Hi. eexists. split; [exact Hi|]. apply N.eqb_refl. }
  assert (B7 : forall b, b <> 7 -> N.testbit flag_apic_id b = false).
  { intros b Hb. change flag_apic_id with (2 ^ 7). apply N.pow2_bits_false. auto. }
  assert (B11 : forall b, b <> 11 -> N.testbit flag_proc_cpuinfo b = false).
  { intros b Hb. change flag_proc_cpuinfo with (2 ^ 11). apply N.pow2_bits_false. auto. }
  split; [reflexivity|]. rewrite !N.lor_spec.
  split. { intros a Ha. rewrite Ha. split; [reflexivity|]. cbn. now rewrite !orb_true_r. }
  split. { intros Ha. rewrite Ha. split; [reflexivity|]. rewrite N.bits_0.
           destruct (announced ms (N.of_nat cpu)); cbn; now rewrite ?orb_false_r. }
  split. { intros Hi. apply A in Hi. rewrite Hi. cbn. now rewrite orb_true_r. }
  split. { intros Hi. destruct (announced ms (N.of_nat cpu)) eqn:Ea; [exfalso; apply Hi; now apply A|].
           destruct (apic_given ms 0 (N.of_nat cpu) None); cbn; now rewrite ?orb_false_r. }
  intros b Hb7 Hb11. rewrite !N.lor_spec.
  replace (N.testbit (if announced ms (N.of_nat cpu) then flag_proc_cpuinfo else 0) b) with false
    by (destruct (announced ms (N.of_nat cpu)); [now rewrite B11|now rewrite N.bits_0]).
  destruct (apic_given ms 0 (N.of_nat cpu) None); rewrite ?(B7 b Hb7), ?N.bits_0; now rewrite !orb_false_r.
Qed.
Print Assumptions proc_cpuinfo_exact.

(** For a file of per-processor blocks with distinct CPU numbers, the APIC id
    given for CPU n is the one in the block of CPU n. *)
Lemma apic_given_nothing k r cur cpu acc :
  apic_given (repeat Nothing k ++ r) cur cpu acc = apic_given r cur cpu acc.
Proof. induction k; cbn; auto. Qed.

Theorem apic_id_of_block : forall blocks n a b c,
  NoDup (map (fun q => fst (fst q)) blocks) -> In ((n, a), (b, c)) blocks ->
  apic_given (flat_map (fun q => block (fst (fst q)) (snd (fst q)) (fst (snd q)) (snd (snd q))) blocks) 0 n None
  = Some a.
Proof.
  intros blocks n a b c Hnd Hin. generalize 0 as cur. intros cur.
  assert (Hnone : forall bl cur acc, ~ In n (map (fun q : N * N * (nat * nat) => fst (fst q)) bl) ->
    apic_given (flat_map (fun q => block (fst (fst q)) (snd (fst q)) (fst (snd q)) (snd (snd q))) bl) cur n acc = acc).
  { induction bl as [|[[n' a'] [b' c']] bl IH]; intros cur' acc Hn; [reflexivity|]. cbn in Hn |- *.
    rewrite <- app_assoc, apic_given_nothing. cbn. rewrite apic_given_nothing.
    replace (n' =? n) with false by (symmetry; apply N.eqb_neq; tauto). apply IH. tauto. }
  revert cur. induction blocks as [|[[n' a'] [b' c']] bl IH]; intros cur; [destruct Hin|].
  cbn in Hnd |- *. inversion Hnd as [|? ? Hni Hnd']; subst.
  rewrite <- app_assoc, apic_given_nothing. cbn. rewrite apic_given_nothing.
  destruct Hin as [E|Hin].
  - injection E as -> -> -> ->. rewrite N.eqb_refl. now apply Hnone.
  - assert (n' <> n). { intros ->. apply Hni. change n with (fst (fst ((n, a), (b, c)))). now apply (in_map (fun q => fst (fst q))). }
    replace (n' =? n) with false by (symmetry; now apply N.eqb_neq). now apply IH.
Qed.
Print Assumptions apic_id_of_block.

(** A line as the kernel prints it. *)
Lemma kernel_line key0 kc pad v0 vc :
  kc <> 32 -> kc <> 9 -> spaces_tabs pad -> ~ In 58 ((key0 ++ [kc]) ++ pad) -> vc <> 32 -> hd vc v0 <> 32 ->
  key_value ((key0 ++ [kc]) ++ pad ++ [58] ++ [32] ++ (v0 ++ [vc]) ++ []) (key0 ++ [kc]) (v0 ++ [vc]).
Proof.
  intros. exists key0, kc, pad, [32], v0, vc, [].
  repeat split; auto; repeat constructor.
Qed.

Example proc_cpuinfo_case :
  let tab := [9] in
  line_means (text "processor" ++ tab ++ text ": 12") (Announces 12) /\
  line_means (text "apicid" ++ tab ++ tab ++ text ": 5") (Gives 5) /\
  x86_parse_proc_cpuinfo true 14 (Some (text "processor" ++ tab ++ text ": 12" ++ [10] ++
      text "vendor_id" ++ tab ++ text ": GenuineIntel" ++ [10] ++
      text "apicid" ++ tab ++ tab ++ text ": 5" ++ [10])) [Some 7%nat; Some 3%nat] (repeat (XProc 0 0 3) 14)
  = Ok (true, repeat (XProc 0 0 3) 12 ++ [XProc 5 0 2179; XProc 0 0 3]).
Proof.
  split; [|split; [|vm_compute; reflexivity]].
  - change 12 with (dec_value (text "12")). apply means_processor.
    + apply (kernel_line (text "processo") 114 [9] [49] 50); try discriminate.
      * constructor; [now right|constructor].
      * cbn. intros H. repeat destruct H as [H|H]; discriminate || exact H.
    + split; [discriminate|]. repeat constructor; discriminate.
    + reflexivity.
  - change 5 with (dec_value (text "5")). apply means_apicid.
    + apply (kernel_line (text "apici") 100 [9; 9] [] 53); try discriminate.
      * repeat (constructor; [now right|]). constructor.
      * cbn. intros H. repeat destruct H as [H|H]; discriminate || exact H.
    + split; [discriminate|]. repeat constructor; discriminate.
    + reflexivity.
Qed.

(** ** C41 *)

(** Decimal numbers below 2^32 are decoded exactly. *)
Theorem processor_number_exact : forall char_signed digits,
  is_decimal digits -> dec_value digits < two32 -> parse_processor_number char_signed digits = dec_value digits.
Proof. exact pnum_decimal. Qed.
Print Assumptions processor_number_exact.

Theorem apic_number_exact : forall char_signed digits,
  is_decimal digits -> dec_value digits < two32 -> parse_all_digits char_signed digits = Some (dec_value digits).
Proof. exact all_digits_decimal. Qed.
Print Assumptions apic_number_exact.

(** An APIC id containing any other character is ignored. *)
Theorem apic_number_rejected : forall char_signed s,
  bytes s -> ~ Forall is_digit s -> parse_all_digits char_signed s = None.
Proof. intros sg s. exact (all_digits_bad sg s 0). Qed.
Print Assumptions apic_number_rejected.

Example numbers_case : is_decimal (text "4294967295") /\ dec_value (text "4294967295") < two32 /\
  ~ Forall is_digit (text "1a").
Proof.
  split; [split; [discriminate|repeat constructor; discriminate]|]. split; [reflexivity|].
  intros H. apply Forall_inv_tail, Forall_inv in H. destruct H as (_ & H). now apply H.
Qed.

(** In a processor number the character ':' is taken for the digit 10. *)
Theorem colon_as_digit_refuted :
  exists s, bytes s /\ ~ Forall is_digit s /\ s = text "1:" /\
    parse_processor_number true s = 20 /\ parse_processor_number false s = 20.
Proof.
  exists (text "1:"). split; [repeat constructor|]. split.
  - intros H. apply Forall_inv_tail, Forall_inv in H. destruct H as (_ & H). now apply H.
  - repeat split; reflexivity.
Qed.
Print Assumptions colon_as_digit_refuted.

(** Numbers of 2^32 and more wrap around instead of being rejected. *)
Theorem large_number_wraps_refuted :
  is_decimal (text "4294967298") /\ parse_processor_number true (text "4294967298") = 2 /\
  parse_all_digits true (text "4294967298") = Some 2.
Proof. split; [split; [discriminate|repeat constructor; discriminate]|]. split; reflexivity. Qed.
Print Assumptions large_number_wraps_refuted.
