(** The sample machine with its second threads switched off. *)
From Verif Require Import Base Sorting Text LinuxTextModel LinuxTextSpec LinuxTextProps CpuinfoLineModel CpuinfoLineSpec
  CpuinfoLineProofs TopologySpec X86CpuinfoModel X86CpuinfoSpec X86CpuinfoProps X86LinuxModel X86LinuxSpec X86Sample X86OfflineSpec.
Open Scope N_scope.

(** Two cores; CPUs 0 and 1 have APIC ids 0 and 2, CPUs 2 and 3 are offline. *)
Definition threads_off_lines : list (list N) :=
  [text "processor" ++ [9] ++ text ": 0"; text "apicid" ++ [9; 9] ++ text ": 0"; [];
   text "processor" ++ [9] ++ text ": 1"; text "apicid" ++ [9; 9] ++ text ": 2"; []].
Definition threads_off_meanings : list meaning := [Announces 0; Gives 0; Nothing; Announces 1; Gives 2; Nothing].
(** All four online. *)
Definition threads_on_lines : list (list N) :=
  [text "processor" ++ [9] ++ text ": 0"; text "apicid" ++ [9; 9] ++ text ": 0"; [];
   text "processor" ++ [9] ++ text ": 1"; text "apicid" ++ [9; 9] ++ text ": 2"; [];
   text "processor" ++ [9] ++ text ": 2"; text "apicid" ++ [9; 9] ++ text ": 1"; [];
   text "processor" ++ [9] ++ text ": 3"; text "apicid" ++ [9; 9] ++ text ": 3"; []].
Definition threads_on_meanings : list meaning :=
  threads_off_meanings ++ [Announces 2; Gives 1; Nothing; Announces 3; Gives 3; Nothing].
Definition four_cpus (lines : list (list N)) : linux_files :=
  let cpus := File (Some (text "0-3" ++ [10])) [] in
  LinuxFiles (File (Some (text "63" ++ [10])) []) cpus cpus cpus cpus (File (Some (join 10 lines)) []).

Lemma four_cpus_say lines ms : lines <> [] -> Forall (fun l => ~ In 10 l) lines -> pieces_fit 2048 lines -> Forall2 line_means lines ms ->
  files_say 32 (four_cpus lines) 64 (Some [(0, 3)]) (Some [(0, 3)]) ms.
Proof.
  intros H1 H2 H3 H4.
  assert (Q : list_says (File (Some (text "0-3" ++ [10])) []) (Some [(0, 3)])).
  { eapply says_ranges; [reflexivity|repeat constructor; discriminate|].
    exists [text "0-3" ++ [10]]. split; [discriminate|]. split; [reflexivity|]. split; [repeat constructor; cbn; lia|].
    constructor; [|constructor]. split; [|unfold u32max; cbn; lia]. apply (entry_range [] [48] [51] [10]); chars. }
  constructor; auto.
  - apply (max_number 32 (lf_kernel_max sample_files) (text "63") [10]); try reflexivity; try chars; try constructor.
    intros (c & s & E & H). injection E as <- _. unfold is_digit in H. lia.
  - unfold two32. lia.
  - split; [constructor|]. exists lines. auto.
Qed.

Ltac its_lines :=
  assert (D : forall d, 48 <= d <= 57 -> is_decimal [d]) by (intros d Hd; split; [discriminate|repeat constructor; lia]);
  assert (MP : forall d, 48 <= d <= 57 -> line_means (text "processor" ++ [9] ++ text ": " ++ [d]) (Announces (d - 48)))
    by (intros d Hd; replace (d - 48) with (dec_value [d]) by (cbn; lia); apply means_processor; [|now apply D|cbn; unfold two32; lia];
        apply (kernel_line (text "processo") 114 [9] [] d); try discriminate; try (cbn; lia); constructor; [now right|constructor]);
  assert (MA : forall d, 48 <= d <= 57 -> line_means (text "apicid" ++ [9; 9] ++ text ": " ++ [d]) (Gives (d - 48)))
    by (intros d Hd; replace (d - 48) with (dec_value [d]) by (cbn; lia); apply means_apicid; [|now apply D|cbn; unfold two32; lia];
        apply (kernel_line (text "apici") 100 [9; 9] [] d); try discriminate; try (cbn; lia); repeat (constructor; [now right|]); constructor);
  assert (ME : line_means [] Nothing) by (apply no_kv; intros k v E; vm_compute in E; discriminate);
  repeat apply Forall2_cons; try exact ME; try apply Forall2_nil;
  first [apply (MP 48); lia|apply (MP 49); lia|apply (MP 50); lia|apply (MP 51); lia
        |apply (MA 48); lia|apply (MA 49); lia|apply (MA 50); lia|apply (MA 51); lia].
Lemma threads_off_say : files_say 32 (four_cpus threads_off_lines) 64 (Some [(0, 3)]) (Some [(0, 3)]) threads_off_meanings.
Proof.
  apply four_cpus_say; [discriminate| |cbn; lia|its_lines].
  repeat constructor; cbn; intros H; repeat destruct H as [H|H]; discriminate || exact H.
Qed.
Lemma threads_on_say : files_say 32 (four_cpus threads_on_lines) 64 (Some [(0, 3)]) (Some [(0, 3)]) threads_on_meanings.
Proof.
  apply four_cpus_say; [discriminate| |cbn; lia|its_lines].
  repeat constructor; cbn; intros H; repeat destruct H as [H|H]; discriminate || exact H.
Qed.
Lemma four_usable ms c : usable 64 (Some [(0, 3)]) (Some [(0, 3)]) ms c -> c = 0 \/ c = 1 \/ c = 2 \/ c = 3.
Proof. intros (_ & (a & b & [E|[]] & H) & _). injection E as <- <-. lia. Qed.
Lemma threads_on_distinct : distinct_apic_ids (usable 64 (Some [(0, 3)]) (Some [(0, 3)]) threads_on_meanings) threads_on_meanings.
Proof.
  intros a b Ha Hb. apply four_usable in Ha. apply four_usable in Hb.
  destruct Ha as [->|[->|[->| ->]]], Hb as [->|[->|[->| ->]]]; intros E; vm_compute in E; congruence || reflexivity.
Qed.
