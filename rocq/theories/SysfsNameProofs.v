From Verif Require Import Base Text ToolsModel ReportSpec ReportProofs SysfsNameModel SysfsNameSpec.
From Verif Require ArmChipsetNameProofs.
Open Scope nat_scope.

Lemma number_short n : length (number n) <= 10.
Proof. apply ArmChipsetNameProofs.decimal_length. Qed.

Lemma name_size_eq k : name_size k = length before_number + 10 + length (behind_number k) + 1.
Proof. destruct k; reflexivity. Qed.

Lemma file_name_whole k n : file_name k n = Some (before_number ++ number n ++ behind_number k).
Proof.
  unfold file_name. cbv zeta. pose proof (number_short n) as L. rewrite name_size_eq, !app_length.
  destruct (_ <=? _) eqn:E; [|reflexivity]. apply Nat.leb_le in E. exfalso.
  generalize dependent (length before_number). generalize dependent (length (behind_number k)). intros. lia.
Qed.

Lemma behind_slash k : behind_number k = text "/" ++ kernel_name k.
Proof. destruct k; reflexivity. Qed.

Lemma described_read n s : (n < two32)%N -> described (before_number ++ number n ++ text "/" ++ s) = Some (n, s).
Proof.
  intros B. unfold described. change (text "/sys/devices/system/cpu/cpu") with before_number.
  rewrite after_app, a_number_read; [|exact B|apply no_digit; reflexivity]. now rewrite after_app.
Qed.

Lemma names_exact : forall k n, (n < two32)%N ->
  exists path, file_name k n = Some path /\ described path = Some (n, kernel_name k) /\
    forall k' n', (n' < two32)%N -> file_name k' n' = Some path -> k' = k /\ n' = n.
Proof.
  intros k n B. exists (before_number ++ number n ++ behind_number k).
  split; [apply file_name_whole|]. rewrite behind_slash. split; [now apply described_read|].
  intros k' n' B' E. rewrite file_name_whole in E. apply (f_equal (fun o => match o with Some x => described x | None => None end)) in E. cbv beta iota in E.
  rewrite behind_slash, !described_read in E by assumption. injection E as -> E. split; [|reflexivity].
  destruct k, k'; try reflexivity; discriminate E.
Qed.
