(** Lemmas about brand strings that are terminated, and the names of packages. *)
From Verif Require Import Base BaseProofs Text X86DescriptorModel X86DecodeModel X86NameModel X86NameSpec X86NameScan X86NameFinal X86PackageModel.
Open Scope nat_scope.

Lemma terminated_clean : forall raw out, length raw = 48 -> length out = 48 -> nth_error raw 47 = Some 0%N ->
  exists m, normalize_brand_string raw out = Ok (m, length (brand_name raw)) /\ holds_string m (brand_name raw) /\ clean (brand_name raw).
Proof.
  intros raw out L LO Z. destruct (normalize_exact raw out L LO) as (m & N & _ & _ & H). exists m. split; [assumption|].
  rewrite firstn_all2 in H by now apply name_fits. split; [assumption|now apply name_clean].
Qed.

Lemma raw_length : forall m, length (raw_brand_string m) = 48.
Proof.
  intros m. unfold raw_brand_string. destruct (_ <=? _)%N; [|reflexivity]. reflexivity.
Qed.

Lemma detect_package_exact : forall b m stack, length stack = 48 ->
  exists p, detect_package_name b m stack = Ok p /\ length p = 48 /\
    holds_string p (package_name (decode_vendor b (ebx (cpuid m 0)) (ecx (cpuid m 0)) (edx (cpuid m 0))) (firstn 47 (brand_name (raw_brand_string m)))).
Proof.
  intros b m stack L. unfold detect_package_name.
  destruct (normalize_exact (raw_brand_string m) stack (raw_length m) L) as (n & N & LN & _ & H). rewrite N. cbn [bind fst].
  destruct (package_exact (decode_vendor b (ebx (cpuid m 0)) (ecx (cpuid m 0)) (edx (cpuid m 0))) n _ (repeat 0%N 48) H LN eq_refl)
    as (p & o & P & LP & HP & _).
  rewrite P. cbn [bind fst]. exists p. now repeat split.
Qed.
