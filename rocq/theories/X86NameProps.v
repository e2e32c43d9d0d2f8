(** Property theorems about the names of x86 processors and packages: C26. *)
From Verif Require Import Base Text X86DescriptorModel X86DecodeModel X86NameModel X86NameSpec X86NameScan X86NameFinal X86PackageModel X86PackageProofs.
Open Scope nat_scope.

(** For all 256^48 brand strings: no access outside the arrays, and the result is the name
    of the specification (but for a last character that does not fit). *)
Theorem x86_name_exact : forall raw out, length raw = 48 -> length out = 48 ->
  exists m, normalize_brand_string raw out = Ok (m, length (brand_name raw)) /\ length m = 48 /\
    length (brand_name raw) <= length (without_zeros raw) /\ holds_string m (firstn 47 (brand_name raw)).
Proof. exact normalize_exact. Qed.
Print Assumptions x86_name_exact.

(** If the brand string ends with a NUL, as CPUID documents, then the name has no blank at
    its ends, no double blank, and the returned length is its length. *)
Theorem x86_name_clean : forall raw out, length raw = 48 -> length out = 48 -> nth_error raw 47 = Some 0%N ->
  exists m, normalize_brand_string raw out = Ok (m, length (brand_name raw)) /\ holds_string m (brand_name raw) /\ clean (brand_name raw).
Proof. exact terminated_clean. Qed.
Print Assumptions x86_name_clean.

(** Vendors, "CPU", "Processor" and the like are no words of the name. *)
Theorem x86_name_words : forall raw w, length raw = 48 -> In w (words (brand_name raw)) -> ~ In 45%N w -> ~ In w (map text never_named).
Proof. exact named_words. Qed.
Print Assumptions x86_name_words.

Definition brand (s : string) : list N := text s ++ repeat 0%N (48 - length (text s)).
Arguments brand s%string.

Example x86_name_case :
  brand_name (brand "Intel(R) Core(TM) i7 CPU       X 990  @ 3.47GHz") = text "Core i7 990X" /\
  brand_name (brand "AMD FX(tm)-8150 Eight-Core Processor") = text "FX-8150" /\
  brand_name (brand "Quad-Core AMD Opteron(tm) Processor 2347 HE") = text "Opteron 2347 HE" /\
  brand_name (brand "Genuine Intel(R) CPU             0000 @ 1.73GHz") = [] /\
  brand_name (brand "AMD Athlon(tm) 64 X2 Dual Core Processor 3800+") = text "Athlon 64 X2 3800+" /\
  nth_error (brand "Intel(R) Core(TM) i7 CPU       X 990  @ 3.47GHz") 47 = Some 0%N /\
  words (text "Core i7 990X") = map text ["Core"; "i7"; "990X"]%string.
Proof. vm_compute. repeat split. Qed.

(** A brand string of 48 characters without NUL: the name ends with a blank, and the returned
    length is not that of the name. *)
Theorem x86_name_unterminated_refuted : exists raw m n s,
  length raw = 48 /\ normalize_brand_string raw (repeat 85%N 48) = Ok (m, n) /\ holds_string m s /\ hd_error (rev s) = Some 32%N /\ n <> length s.
Proof.
  exists (repeat 65%N 46 ++ [32%N; 66%N]). do 3 eexists. split; [reflexivity|]. split; [vm_compute; reflexivity|].
  split; [exists []; split; [instantiate (1 := repeat 65%N 46 ++ [32%N]); reflexivity|]|split; [reflexivity|discriminate]].
  intros X. cbn in X. repeat (destruct X as [X|X]; [discriminate X|]). exact X.
Qed.
Print Assumptions x86_name_unterminated_refuted.

(** The name is discarded if "Eng" comes anywhere before "Sample", although the state is
    documented as the previous token only. *)
Theorem x86_name_previous_token_refuted : exists m,
  normalize_brand_string (brand "AMD Eng X7-1234 Sample") (repeat 85%N 48) = Ok (m, 0) /\
  brand_name (brand "AMD X7-1234 Sample") = text "X7-1234 Sample".
Proof. eexists. split; vm_compute; reflexivity. Qed.
Print Assumptions x86_name_previous_token_refuted.

(** The package is named after the vendor and the processor, for every CPUID contents and
    whatever was in the arrays. *)
Theorem x86_package_name_exact : forall b m stack, length stack = 48 ->
  exists p, detect_package_name b m stack = Ok p /\ length p = 48 /\
    holds_string p (package_name (decode_vendor b (ebx (cpuid m 0)) (ecx (cpuid m 0)) (edx (cpuid m 0))) (firstn 47 (brand_name (raw_brand_string m)))).
Proof. exact detect_package_exact. Qed.
Print Assumptions x86_package_name_exact.

Example x86_package_name_case :
  package_name 2 (text "FX-8150") = text "AMD FX-8150" /\ package_name 0 (text "FX-8150") = text "FX-8150" /\ package_name 1 [] = [] /\
  length (package_name 50 (repeat 65%N 45)) = 47.
Proof. vm_compute. repeat split. Qed.
