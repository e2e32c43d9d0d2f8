(** How chips that are reported wrongly are corrected, and what the lines of /proc/cpuinfo and the
    properties of Android devices say together. *)
From Verif Require Import Base Text LinuxTextSpec ArmClusterMidrModel ArmCpuinfoModel ArmChipsetModel ArmChipsetSpec ArmChipsetNameSpec.
Open Scope N_scope.

(** ** Corrections *)

(** The chip reported, with so many cores; if there are as many as in the second number, it is
    really the other.  Some of these are about 32-bit ARM, some about chips without a suffix. *)
Record misreport := Misreport {
  mr_only32 : bool; mr_plain : bool; mr_series : N; mr_model : N; mr_cores : N; mr_other_cores : N; mr_other_series : N; mr_other_model : N
}.
Definition misreports : list misreport := [
  Misreport false true se_msm 8916 4 8 se_msm 8939;
  Misreport false true se_msm 8937 8 4 se_msm 8917;
  Misreport false true se_msm 8960 2 4 se_apq 8064;
  Misreport false true se_msm 8996 4 8 se_msm 8994;
  Misreport true true se_msm 8610 2 4 se_msm 8612;
  Misreport true false se_exynos 5420 4 6 se_exynos 5260;
  Misreport false false se_exynos 7580 8 4 se_exynos 7578;
  Misreport false false se_mt 6752 8 4 se_mt 6732;
  Misreport false false se_rk 3288 4 6 se_rk 3399
].
(** Chips with another name. *)
Definition renamed : list (bool * bool * N * N * N) := [(false, true, se_msm, 8216, 8916); (true, false, se_exynos, 4410, 4412)].
Definition applies (arm32 only32 without : bool) (suffix : list N) : Prop := for_build arm32 only32 /\ (without = true -> suffix = []).

(** The series and the model that are meant. *)
Inductive model_meant (arm32 : bool) (cores : N) (suffix : list N) : N -> N -> N -> N -> Prop :=
| Meant_right : forall r, In r misreports -> applies arm32 (mr_only32 r) (mr_plain r) suffix -> cores = mr_cores r ->
    model_meant arm32 cores suffix (mr_series r) (mr_model r) (mr_series r) (mr_model r)
| Meant_other : forall r, In r misreports -> applies arm32 (mr_only32 r) (mr_plain r) suffix -> cores = mr_other_cores r ->
    model_meant arm32 cores suffix (mr_series r) (mr_model r) (mr_other_series r) (mr_other_model r)
| Meant_unknown : forall r, In r misreports -> applies arm32 (mr_only32 r) (mr_plain r) suffix -> cores <> mr_cores r -> cores <> mr_other_cores r ->
    model_meant arm32 cores suffix (mr_series r) (mr_model r) (mr_series r) 0
| Meant_renamed : forall only32 without series model new, In (only32, without, series, model, new) renamed -> applies arm32 only32 without suffix ->
    model_meant arm32 cores suffix series model series new
| Meant_same : forall series model,
    (forall r, In r misreports -> mr_series r = series -> mr_model r = model -> ~ applies arm32 (mr_only32 r) (mr_plain r) suffix) ->
    (forall only32 without new, In (only32, without, series, model, new) renamed -> ~ applies arm32 only32 without suffix) ->
    model_meant arm32 cores suffix series model series model.

(** Suffixes: the name given twice, and other spellings.  The last needs the highest frequency in
    kHz. *)
Definition respelled (frequency : N) : list (N * option N * list N * list N) := [
  (se_msm, None, text "MSM", []); (se_apq, None, text "APQ", []); (se_msm, Some 8976, text "SG", text "PRO");
  (se_msm, Some 8996, text "PRO", if 2188800 <=? frequency then text "PRO-AC" else text "PRO-AB");
  (se_mt, None, text "TURBO", text "T"); (se_mt, None, text "TRUBO", text "T")
].
Definition of_model (m : option N) (model : N) : Prop := match m with None => True | Some m => m = model end.
Definition suffix_meant (frequency series model : N) (suffix suffix' : list N) : Prop :=
  (exists m, In (series, m, suffix, suffix') (respelled frequency) /\ of_model m model) \/
  (forall m new, In (series, m, suffix, new) (respelled frequency) -> ~ of_model m model) /\ suffix' = suffix.

Definition corrected (arm32 : bool) (cores frequency : N) (c c' : chip) : Prop :=
  exists suffix series' model' suffix', holds_suffix (chp_suffix c) suffix /\
    model_meant arm32 cores suffix (chp_series c) (chp_model c) series' model' /\ suffix_meant frequency (chp_series c) (chp_model c) suffix suffix' /\
    c' = chip_of (chp_vendor c) series' model' suffix'.

(** ** Raspberry Pi *)

(** The processor is in the fourth hexadecimal digit from the right of a revision; those with four
    digits are older. *)
Definition pi_processors : list (N * N) := [(48, 2835); (49, 2836); (50, 2837); (51, 2711)].
Inductive pi_model (arm32 : bool) (revision : list N) : N -> N -> Prop :=
| Pi_old : arm32 = true -> length revision = 4%nat -> pi_model arm32 revision 2708 2835
| Pi_new : forall high digit low model new, revision = high ++ digit :: low -> length low = 3%nat -> (1 <= length high <= 4)%nat ->
    In (digit, new) pi_processors -> pi_model arm32 revision model new
| Pi_same : forall model, ~ (arm32 = true /\ length revision = 4%nat /\ model = 2708) ->
    (forall high digit low new, revision = high ++ digit :: low -> length low = 3%nat -> (1 <= length high <= 4)%nat -> ~ In (digit, new) pi_processors) ->
    pi_model arm32 revision model model.

(** ** GNU/Linux *)

(** Cells of a buffer are bytes, or were never written. *)
Definition written (buffer : chars) : Prop := Forall (fun c => match c with Some x => x < 256 | None => True end) buffer.

(** The text in a buffer of [size] characters. *)
Definition holds_text (size : nat) (buffer : chars) (s : list N) : Prop :=
  plain s /\ exists rest, buffer = map Some s ++ rest /\ ((length s < size)%nat /\ (exists rest', rest = Some 0 :: rest') \/ length s = size).
Inductive linux_means (arm32 : bool) (cores frequency : N) (hardware revision : chars) : chip -> Prop :=
| Linux_unknown : forall s, holds_text 64 hardware s -> ArmChipsetNameSpec.hardware arm32 cores frequency s unknown_chip ->
    linux_means arm32 cores frequency hardware revision unknown_chip
| Linux_broadcom : forall s r c m', holds_text 64 hardware s -> ArmChipsetNameSpec.hardware arm32 cores frequency s c -> chp_vendor c = ve_broadcom ->
    holds_text 9 revision r -> pi_model arm32 r (chp_model c) m' ->
    linux_means arm32 cores frequency hardware revision (chip_of ve_broadcom se_bcm m' [])
| Linux_other : forall s c c', holds_text 64 hardware s -> ArmChipsetNameSpec.hardware arm32 cores frequency s c -> chp_vendor c <> ve_broadcom -> chp_vendor c <> ve_unknown ->
    corrected arm32 cores frequency c c' ->
    linux_means arm32 cores frequency hardware revision c'.
