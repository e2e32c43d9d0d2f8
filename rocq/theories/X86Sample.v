(** A sample machine for the examples about x86 Linux detection. *)
From Verif Require Import Base Sorting Text LinuxTextModel LinuxTextSpec LinuxTextProps CpuinfoLineModel CpuinfoLineSpec
  CpuinfoLineProofs TopologySpec X86CpuinfoModel X86CpuinfoSpec X86CpuinfoProps X86LinuxModel X86LinuxSpec.
Open Scope N_scope.

(** ** A sample machine: two cores with two threads each; CPU numbers and APIC
    ids in different orders; CPU 4 possible but not present. *)
Definition sample_cache (size bits : N) : xcache := XCache (Geometry size 8 64 1 64 0) bits.
Definition sample_info : xinfo :=
  XInfo 1 2 3 0 1 1 2 (sample_cache 32768 1) (sample_cache 32768 1) (sample_cache 262144 1)
        (sample_cache 8388608 3) (sample_cache 0 0).
Definition sample_lines : list (list N) :=
  [text "processor" ++ [9] ++ text ": 0"; text "vendor_id" ++ [9] ++ text ": GenuineIntel";
   text "apicid" ++ [9; 9] ++ text ": 1"; [];
   text "processor" ++ [9] ++ text ": 1"; text "apicid" ++ [9; 9] ++ text ": 2"; [];
   text "processor" ++ [9] ++ text ": 2"; text "apicid" ++ [9; 9] ++ text ": 0"; [];
   text "processor" ++ [9] ++ text ": 3"; text "apicid" ++ [9; 9] ++ text ": 3"; []].
Definition sample_meanings : list meaning :=
  [Announces 0; Nothing; Gives 1; Nothing; Announces 1; Gives 2; Nothing; Announces 2; Gives 0; Nothing;
   Announces 3; Gives 3; Nothing].
Definition sample_files : linux_files :=
  let possible := File (Some (text "0-4" ++ [10])) [Some 2%nat] in
  let present := File (Some (text "0-3" ++ [10])) [] in
  LinuxFiles (File (Some (text "63" ++ [10])) []) possible present possible present
             (File (Some (join 10 sample_lines)) [Some 5%nat; Some 100%nat]).

Lemma line_kv line k v : split_line line = Ok (Some (k, v)) -> key_value line k v.
Proof.
  intros H. destruct (split_line_never_leaves_line line) as [E|(k' & v' & E & HK)]; [congruence|].
  assert (k' = k /\ v' = v) as (-> & ->) by (rewrite H in E; injection E; auto). exact HK.
Qed.

Lemma no_kv line : (forall k v, split_line line = Ok (Some (k, v)) -> k <> text "processor" /\ k <> text "apicid") ->
  line_means line Nothing.
Proof. intros H. apply means_nothing. intros k v HK. apply (H k v). now apply split_line_exact. Qed.

Lemma sample_files_say : files_say 32 sample_files 64 (Some [(0, 4)]) (Some [(0, 3)]) sample_meanings.
Proof.
  assert (D : forall d, 48 <= d <= 57 -> is_decimal [d]) by (intros d Hd; split; [discriminate|repeat constructor; lia]).
  assert (P : list_says (File (Some (text "0-4" ++ [10])) [Some 2%nat]) (Some [(0, 4)])).
  { eapply says_ranges; [reflexivity|repeat constructor; discriminate|].
    exists [text "0-4" ++ [10]]. split; [discriminate|]. split; [reflexivity|]. split; [repeat constructor; cbn; lia|].
    constructor; [|constructor]. split; [|unfold u32max; cbn; lia]. apply (entry_range [] [48] [52] [10]); chars. }
  assert (Q : list_says (File (Some (text "0-3" ++ [10])) []) (Some [(0, 3)])).
  { eapply says_ranges; [reflexivity|repeat constructor; discriminate|].
    exists [text "0-3" ++ [10]]. split; [discriminate|]. split; [reflexivity|]. split; [repeat constructor; cbn; lia|].
    constructor; [|constructor]. split; [|unfold u32max; cbn; lia]. apply (entry_range [] [48] [51] [10]); chars. }
  constructor; auto.
  - apply (max_number 32 (lf_kernel_max sample_files) (text "63") [10]); try reflexivity; try chars.
    intros (c & s & E & H). injection E as <- _. unfold is_digit in H. lia.
  - unfold two32. lia.
  - split; [repeat constructor; discriminate|]. exists sample_lines. split; [reflexivity|]. split; [discriminate|].
    split; [|split].
    + repeat constructor; cbn; intros H; repeat destruct H as [H|H]; discriminate || exact H.
    + cbn. lia.
    + assert (MP : forall d, 48 <= d <= 57 -> line_means (text "processor" ++ [9] ++ text ": " ++ [d]) (Announces (d - 48))).
      { intros d Hd. replace (d - 48) with (dec_value [d]) by (cbn; lia). apply means_processor; [|now apply D|cbn; unfold two32; lia].
        apply (kernel_line (text "processo") 114 [9] [] d); try discriminate; try (cbn; lia).
        constructor; [now right|constructor]. }
      assert (MA : forall d, 48 <= d <= 57 -> line_means (text "apicid" ++ [9; 9] ++ text ": " ++ [d]) (Gives (d - 48))).
      { intros d Hd. replace (d - 48) with (dec_value [d]) by (cbn; lia). apply means_apicid; [|now apply D|cbn; unfold two32; lia].
        apply (kernel_line (text "apici") 100 [9; 9] [] d); try discriminate; try (cbn; lia).
        repeat (constructor; [now right|]). constructor. }
      assert (ME : line_means [] Nothing) by (apply no_kv; intros k v E; vm_compute in E; discriminate).
      repeat apply Forall2_cons; try exact ME; try apply Forall2_nil.
      all: first [apply (MP 48); lia|apply (MP 49); lia|apply (MP 50); lia|apply (MP 51); lia
                 |apply (MA 48); lia|apply (MA 49); lia|apply (MA 50); lia|apply (MA 51); lia
                 |idtac].
      apply no_kv; intros k v E; vm_compute in E; injection E as <- _; split; discriminate.
Qed.

(** The present and possible lists are disjoint. *)
Definition no_usable_files : linux_files :=
  let possible := File (Some (text "1" ++ [10])) [] in
  let present := File (Some (text "0" ++ [10])) [] in
  LinuxFiles (File (Some (text "63" ++ [10])) []) possible present possible present (lf_cpuinfo sample_files).

(** One CPU whose APIC id is 2^32-1. *)
Definition broadcast_files : linux_files :=
  let list := File (Some (text "0" ++ [10])) [] in
  LinuxFiles (File (Some (text "63" ++ [10])) []) list list list list
             (File (Some (text "processor : 0" ++ [10] ++ text "apicid : 4294967295" ++ [10])) []).

(** Two threads per core, caches described without sharing information. *)
Definition legacy_info : xinfo :=
  XInfo 1 2 3 0 1 1 0 (sample_cache 16384 0) (sample_cache 16384 0) (sample_cache 262144 0)
        (sample_cache 0 0) (sample_cache 0 0).

(** The sort used in the examples. *)
Definition sample_sort : list xproc -> list xproc := isort cmp_x86_linux_processor.
