(** What the names of chips on ARM Linux and Android mean, independently of the code that
    matches them. *)
From Verif Require Import Base Text LinuxTextSpec ArmClusterMidrModel ArmCpuinfoModel ArmChipsetModel.
Open Scope N_scope.

(** ** Texts *)

(** Characters of a C string. *)
Definition plain (s : list N) : Prop := Forall (fun c => 0 < c < 256) s.
Definition is_letter (c : N) : Prop := 65 <= c <= 90 \/ 97 <= c <= 122.
Definition capital (c : N) : N := if 97 <=? c then c - 32 else c.
Definition number (n : nat) (ds : list N) (m : N) : Prop := length ds = n /\ Forall is_digit ds /\ dec_value ds = m.

(** Patterns: a character, a letter (given in lower case) in either case, any character, and
    a number with as many digits. *)
Inductive piece := Is (c : N) | Letter (c : N) | Any | Number (n : nat).
Definition exactly (w : string) : list piece := map Is (text w).
Definition letters (w : string) : list piece := map Letter (text w).
(** [fits p s m rest]: [s] starts with the pattern, with the number [m] (0 if there is none), and
    [rest] follows. *)
Inductive fits : list piece -> list N -> N -> list N -> Prop :=
| Fits_end : forall rest, fits [] rest 0 rest
| Fits_is : forall c p s m rest, fits p s m rest -> fits (Is c :: p) (c :: s) m rest
| Fits_letter : forall c x p s m rest, x = c \/ x + 32 = c -> fits p s m rest -> fits (Letter c :: p) (x :: s) m rest
| Fits_any : forall x p s m rest, fits p s m rest -> fits (Any :: p) (x :: s) m rest
| Fits_number : forall n ds p s m rest, number n ds m -> fits p s 0 rest -> fits (Number n :: p) (ds ++ s) m rest.

(** What may follow, and the suffix that it gives. *)
Definition nothing (rest suffix : list N) : Prop := rest = [] /\ suffix = [].
Definition anything (rest suffix : list N) : Prop := suffix = [].
(** Letters and the character [x], as many as there are, but at most eight. *)
Definition in_suffix (x c : N) : Prop := is_letter c \/ c = x.
Definition as_suffix (x : N) (rest suffix : list N) : Prop :=
  exists p r, rest = p ++ r /\ Forall (in_suffix x) p /\ suffix = map capital p /\
    (length p = 8%nat \/ (length p < 8)%nat /\ forall c r', r = c :: r' -> ~ in_suffix x c).
(** The same, and nothing else. *)
Definition all_suffix (x : N) (rest suffix : list N) : Prop := Forall (in_suffix x) rest /\ (length rest <= 8)%nat /\ suffix = map capital rest.
(** Letters; what follows the first eight does not matter. *)
Definition eight_letters (rest suffix : list N) : Prop := Forall is_letter (firstn 8 rest) /\ suffix = map capital (firstn 8 rest).
Definition one_letter (rest suffix : list N) : Prop := rest = [] /\ suffix = [] \/ exists c, is_letter c /\ rest = [c] /\ suffix = [capital c].

Definition chip_of (vendor series model : N) (suffix : list N) : chip := Chip vendor series model (suffix ++ repeat 0 (8 - length suffix)).

(** ** Signatures *)

(** [pattern forms tail vendor series] reads a text that has one of the forms. *)
Definition reading := list N -> chip -> Prop.
Definition pattern (forms : list (list piece)) (tail : list N -> list N -> Prop) (vendor series : N) : reading :=
  fun s c => exists p m rest suffix, In p forms /\ fits p s m rest /\ tail rest suffix /\ c = chip_of vendor series m suffix.
(** The same with a given model. *)
Definition keyword (forms : list (list piece)) (tail : list N -> list N -> Prop) (vendor series model : N) : reading :=
  fun s c => exists p m rest suffix, In p forms /\ fits p s m rest /\ tail rest suffix /\ c = chip_of vendor series model suffix.
Definition either (a b : reading) : reading := fun s c => a s c \/ b s c.
Definition provided (P : Prop) (a : reading) : reading := fun s c => P /\ a s c.

Definition msm : reading := pattern [letters "msm" ++ [Number 4]; letters "msm" ++ exactly " " ++ [Number 4]] (as_suffix 45) ve_qualcomm se_msm.
Definition apq : reading := pattern [letters "apq" ++ [Number 4]; letters "apq" ++ exactly " " ++ [Number 4]] (as_suffix 45) ve_qualcomm se_apq.
Definition sdm : reading := pattern [exactly "SDM" ++ [Number 3]] nothing ve_qualcomm se_snapdragon.
Definition sm : reading := pattern [exactly "SM" ++ [Number 4]] nothing ve_qualcomm se_snapdragon.
Definition samsung_exynos : reading :=
  let name := exactly "S" ++ letters "amsung" ++ exactly " E" ++ letters "xynos" in
  pattern [name ++ [Number 4]; name ++ exactly " " ++ [Number 4]; name ++ [Number 4; Any]] nothing ve_samsung se_exynos.
Definition exynos : reading := pattern [exactly "exynos" ++ [Number 4]] nothing ve_samsung se_exynos.
Definition universal : reading := pattern [letters "universal" ++ [Number 4]] nothing ve_samsung se_exynos.
Definition smdk (cores : N) : reading :=
  either (keyword [letters "smdk" ++ exactly "4210"] nothing ve_samsung se_exynos 4210)
    (either (provided (cores = 2) (keyword [letters "smdk" ++ exactly "4x12"] nothing ve_samsung se_exynos 4212))
       (provided (cores = 4) (keyword [letters "smdk" ++ exactly "4x12"] nothing ve_samsung se_exynos 4412))).
Definition mt_forms : list (list piece) := [letters "mt" ++ [Number 4]; letters "mtk" ++ [Number 4]].
Definition mt : reading := pattern mt_forms (all_suffix 47) ve_mediatek se_mt.
(** ro.mediatek.platform may continue with anything. *)
Definition mt_start : reading := pattern mt_forms (as_suffix 47) ve_mediatek se_mt.
Definition kirin : reading :=
  pattern [letters "k" ++ exactly "irin" ++ [Number 3]; letters "k" ++ exactly "irin" ++ [Any; Number 3]] nothing ve_hisilicon se_kirin.
Definition rk : reading := pattern [letters "rk" ++ [Number 4]] one_letter ve_rockchip se_rk.
Definition sc : reading :=
  either (pattern [letters "sc" ++ [Number 4]; letters "sp" ++ [Number 4]] eight_letters ve_spreadtrum se_sc)
    (keyword [letters "scx" ++ exactly "15"; letters "spx" ++ exactly "15"] nothing ve_spreadtrum se_sc 7715).
Definition unisoc_t : reading := pattern [exactly "Unisoc T" ++ [Number 3]; exactly "Unisoc T" ++ [Number 4]] nothing ve_unisoc se_unisoc_t.
Definition unisoc_ums : reading := pattern [exactly "Unisoc UMS" ++ [Number 3]; exactly "Unisoc UMS" ++ [Number 4]] nothing ve_unisoc se_unisoc_ums.
(** There may be a letter, but it is lost. *)
Definition lost_letter (rest suffix : list N) : Prop := (rest = [] \/ exists c, is_letter c /\ rest = [c]) /\ suffix = [].
Definition lc : reading := pattern [exactly "lc" ++ [Number 4]] lost_letter ve_leadcore se_lc.
Definition pxa : reading :=
  either (pattern [exactly "PXA" ++ [Number 3]; exactly "PXA" ++ [Number 4]] nothing ve_marvell se_pxa)
    (keyword [exactly "PXA1L88"] nothing ve_marvell se_pxa 1088).
Definition bcm : reading := pattern [exactly "BCM" ++ [Number 4]] nothing ve_broadcom se_bcm.
Definition omap : reading := pattern [exactly "OMAP" ++ [Number 4]] nothing ve_texas_instruments se_omap.
Definition tcc : reading := pattern [exactly "tcc" ++ [Number 3] ++ exactly "x"] (fun rest suffix => rest = [] /\ suffix = text "X") ve_telechips se_tcc.

(** Signatures whose meaning depends on the number of cores and the highest frequency. *)
Definition word (w : string) (vendor series model : N) (suffix : string) : reading := fun s c => s = text w /\ c = chip_of vendor series model (text suffix).
Definition broadcom (cores frequency : N) : reading := fun s c =>
  cores = 1 /\ frequency < 999999 /\ word "rhea" ve_broadcom se_bcm 21654 "" s c \/
  cores = 1 /\ 999999 <= frequency /\ word "rhea" ve_broadcom se_bcm 21654 "G" s c \/
  cores = 4 /\ word "java" ve_broadcom se_bcm 23550 "" s c \/
  cores = 1 /\ word "hawaii" ve_broadcom se_bcm 21663 "" s c \/
  cores = 2 /\ frequency < 1200000 /\ word "hawaii" ve_broadcom se_bcm 21664 "" s c \/
  cores = 2 /\ 1200000 <= frequency /\ word "hawaii" ve_broadcom se_bcm 21664 "T" s c \/
  cores = 2 /\ word "capri" ve_broadcom se_bcm 28155 "" s c.
Definition wmt (cores frequency : N) : reading := fun s c =>
  exists model, word "WMT" ve_wondermedia se_wm model "" s c /\
    (model = 8950 /\ cores = 1 /\ frequency = 1008000 \/ model = 8850 /\ cores = 1 /\ frequency = 1200000 \/
     model = 8880 /\ cores = 2 /\ frequency = 1500000 \/
     model = 0 /\ ~ (cores = 1 /\ (frequency = 1008000 \/ frequency = 1200000)) /\ ~ (cores = 2 /\ frequency = 1500000)).
Definition omap4 (cores frequency : N) : reading := fun s c => cores = 2 /\ frequency = 1008000 /\ word "omap4" ve_texas_instruments se_omap 4430 "" s c.

(** Tables, as the comments in the source have them: whether for 32-bit ARM only, the text and
    the name of the chip. *)
Record device := Device { dv_only32 : bool; dv_text : string; dv_name : string }.
Definition hardware_devices : list device := [
  Device true "k3v2oem1" "HiSilicon K3V2";
  Device true "hi6620oem" "HiSilicon Kirin 910T";
  Device false "hi6250" "HiSilicon Kirin 650";
  Device false "hi6210sft" "HiSilicon Kirin 620";
  Device false "hi3751" "HiSilicon Hi3751";
  Device true "hi3630" "HiSilicon Kirin 920";
  Device false "hi3635" "HiSilicon Kirin 930";
  Device true "gs702a" "Actions ATM7029";
  Device true "gs702c" "Actions ATM7029B";
  Device true "gs703d" "Actions ATM7039S";
  Device true "gs705a" "Actions ATM7059A";
  Device true "Amlogic Meson8" "Amlogic S812";
  Device true "Amlogic Meson8B" "Amlogic S805";
  Device true "mapphone_CDMA" "Texas Instruments OMAP4430";
  Device true "Superior" "Texas Instruments OMAP4470";
  Device true "Tuna" "Texas Instruments OMAP4460";
  Device true "Manta" "Samsung Exynos 5250";
  Device true "Odin" "LG Nuclun 7111";
  Device true "Madison" "MStar 6A338"
]%string.
Definition tegra_devices : list device := [
  Device true "cardhu" "Nvidia Tegra T30";
  Device true "kai" "Nvidia Tegra T30L";
  Device true "p3" "Nvidia Tegra T20";
  Device true "n1" "Nvidia Tegra AP20H";
  Device true "SHW-M380S" "Nvidia Tegra T20";
  Device true "m470" "Nvidia Tegra T30L";
  Device true "endeavoru" "Nvidia Tegra AP33";
  Device true "evitareul" "Nvidia Tegra T33";
  Device true "enrc2b" "Nvidia Tegra T33";
  Device true "mozart" "Nvidia Tegra T114";
  Device true "tegratab" "Nvidia Tegra T114";
  Device true "tn8" "Nvidia Tegra T124";
  Device true "roth" "Nvidia Tegra T114";
  Device true "pisces" "Nvidia Tegra T114";
  Device true "mocha" "Nvidia Tegra T124";
  Device true "stingray" "Nvidia Tegra AP20H";
  Device true "Ceres" "Nvidia Tegra SL460N";
  Device true "MT799" "Nvidia Tegra T30";
  Device true "t8400n" "Nvidia Tegra T114";
  Device true "chagall" "Nvidia Tegra T30";
  Device true "ventana" "Nvidia Tegra T20";
  Device true "bobsleigh" "Nvidia Tegra T33";
  Device true "tegra_fjdev101" "Nvidia Tegra AP33";
  Device true "tegra_fjdev103" "Nvidia Tegra T33";
  Device true "nbx03" "Nvidia Tegra T20";
  Device true "txs03" "Nvidia Tegra T30L";
  Device true "x3" "Nvidia Tegra AP33";
  Device true "vu10" "Nvidia Tegra AP33";
  Device true "BIRCH" "Nvidia Tegra T30L";
  Device true "macallan" "Nvidia Tegra T114";
  Device true "maya" "Nvidia Tegra T114";
  Device true "antares" "Nvidia Tegra T20";
  Device true "tostab12AL" "Nvidia Tegra T30L";
  Device true "tostab12BL" "Nvidia Tegra T30L";
  Device true "sphinx" "Nvidia Tegra T30";
  Device true "tostab11BS" "Nvidia Tegra T30";
  Device true "tostab12BA" "Nvidia Tegra T114";
  Device true "vangogh" "Nvidia Tegra T20";
  Device true "a110" "Nvidia Tegra T30L";
  Device true "picasso_e" "Nvidia Tegra AP20H";
  Device true "picasso_e2" "Nvidia Tegra T30L";
  Device true "picasso" "Nvidia Tegra AP20H";
  Device true "picasso_m" "Nvidia Tegra T30";
  Device true "picasso_mf" "Nvidia Tegra T30";
  Device true "avalon" "Nvidia Tegra T30L";
  Device true "NS_14T004" "Nvidia Tegra T30L";
  Device true "WIKIPAD" "Nvidia Tegra T30";
  Device true "kb" "Nvidia Tegra T114";
  Device false "foster_e" "Nvidia Tegra T210";
  Device false "foster_e_hdd" "Nvidia Tegra T210";
  Device false "darcy" "Nvidia Tegra T210"
]%string.
Definition board_devices : list device := [
  Device false "hi6250" "HiSilicon Kirin 650";
  Device false "hi6210sft" "HiSilicon Kirin 620";
  Device true "hi3630" "HiSilicon Kirin 920";
  Device false "hi3635" "HiSilicon Kirin 930";
  Device false "hi3650" "HiSilicon Kirin 950";
  Device false "hi3660" "HiSilicon Kirin 960";
  Device true "mp523x" "Renesas MP5232";
  Device false "BEETHOVEN" "HiSilicon Kirin 950";
  Device true "hws7701u" "Rockchip RK3168";
  Device true "g2mv" "Nvidia Tegra SL460N";
  Device true "K00F" "Rockchip RK3188";
  Device true "T7H" "Rockchip RK3066";
  Device true "tuna" "Texas Instruments OMAP4460";
  Device true "grouper" "Nvidia Tegra T30L";
  Device false "flounder" "Nvidia Tegra T132";
  Device false "dragon" "Nvidia Tegra T210";
  Device false "sailfish" "Qualcomm MSM8996PRO";
  Device false "marlin" "Qualcomm MSM8996PRO"
]%string.
Definition platform_devices : list device := [
  Device true "hi6620oem" "HiSilicon Kirin 910T";
  Device false "hi6250" "HiSilicon Kirin 650";
  Device false "hi6210sft" "HiSilicon Kirin 620";
  Device true "hi3630" "HiSilicon Kirin 920";
  Device false "hi3635" "HiSilicon Kirin 930";
  Device false "hi3650" "HiSilicon Kirin 950";
  Device false "hi3660" "HiSilicon Kirin 960";
  Device true "k3v2oem1" "HiSilicon K3V2";
  Device true "k3v200" "HiSilicon K3V2";
  Device true "montblanc" "NovaThor U8500";
  Device false "song" "Pinecone Surge S1";
  Device true "rk322x" "Rockchip RK3229";
  Device false "tegra132" "Nvidia Tegra T132";
  Device false "tegra210_dragon" "Nvidia Tegra T210";
  Device true "tegra4" "Nvidia Tegra T114";
  Device true "s5pc110" "Samsung Exynos 3110"
]%string.
Definition amlogic_devices : list device := [
  Device true "meson3" "Amlogic AML8726-M";
  Device true "meson6" "Amlogic AML8726-MX";
  Device true "meson8" "Amlogic S805";
  Device false "gxbaby" "Amlogic S905";
  Device false "gxl" "Amlogic S905X";
  Device false "gxm" "Amlogic S912"
]%string.
Definition allwinner_chips : list (bool * N * N * N * list N) := [
  (true, 4, 1, 10, text "");
  (true, 5, 1, 13, text "");
  (true, 6, 4, 31, text "");
  (true, 7, 2, 20, text "");
  (true, 8, 2, 23, text "");
  (true, 8, 4, 33, text "");
  (true, 8, 8, 83, text "T");
  (true, 9, 8, 80, text "");
  (false, 50, 4, 64, text "")
].
Definition huawei_devices : list (list N * N) := [
  (text "ALP", 970);
  (text "BAC", 659);
  (text "BLA", 970);
  (text "BKL", 970);
  (text "CLT", 970);
  (text "COL", 970);
  (text "COR", 970);
  (text "DUK", 960);
  (text "EML", 970);
  (text "EVA", 955);
  (text "FRD", 950);
  (text "INE", 710);
  (text "KNT", 950);
  (text "LON", 960);
  (text "LYA", 980);
  (text "MCN", 980);
  (text "MHA", 960);
  (text "NEO", 970);
  (text "NXT", 950);
  (text "PAN", 980);
  (text "PAR", 970);
  (text "RVL", 970);
  (text "STF", 960);
  (text "SUE", 980);
  (text "VIE", 955);
  (text "VKY", 960);
  (text "VTR", 960)
].
Definition for_build (arm32 only32 : bool) : Prop := only32 = true -> arm32 = true.
Definition sunxi (arm32 : bool) (cores : N) : reading := fun s c =>
  exists p platform rest, In p [exactly "sun" ++ [Number 1] ++ exactly "i"; exactly "sun" ++ [Number 2] ++ exactly "i"] /\ fits p s platform rest /\
    ((exists only32 model suffix, In (only32, platform, cores, model, suffix) allwinner_chips /\ for_build arm32 only32 /\ c = chip_of ve_allwinner se_a model suffix) \/
     (forall only32 model suffix, In (only32, platform, cores, model, suffix) allwinner_chips -> ~ for_build arm32 only32) /\ c = chip_of ve_allwinner se_a 0 []).
(** Three letters, possibly followed by a dash, possibly a capital letter, L, and two digits. *)
Definition huawei : reading := fun s c =>
  exists code model rest, In (code, model) huawei_devices /\ s = code ++ rest /\ c = chip_of ve_hisilicon se_kirin model [] /\
    (rest = [] \/ exists capitals m, (capitals = [] \/ exists x, 65 <= x <= 90 /\ capitals = [x]) /\
       exists ds, number 2 ds m /\ rest = text "-" ++ capitals ++ text "L" ++ ds).

(** ** Sources *)

Definition any (signatures : list reading) : reading := fun s c => exists r, In r signatures /\ r s c.
(** [unless a b]: as [a] reads a text, and as [b] does if [a] does not. *)
Definition unless (a b : reading) : reading := fun s c => a s c \/ (forall c', ~ a s c') /\ b s c.
Definition unrecognized : reading := fun _ c => c = unknown_chip.
Definition if_arm32 (arm32 : bool) (signatures : list reading) : list reading := if arm32 then signatures else [].

(** A word starts with a letter, at the start or after a space, a tabulator or a comma. *)
Definition starts_word (before rest : list N) : Prop :=
  (before = [] \/ exists p c, before = p ++ [c] /\ (c = 32 \/ c = 9 \/ c = 44)) /\ exists c r, rest = c :: r /\ is_letter c.
(** The first word from which on the text has a meaning. *)
Definition first_word (signature : reading) : reading := fun s c =>
  exists before rest, s = before ++ rest /\ starts_word before rest /\ signature rest c /\
    forall before' rest' c', s = before' ++ rest' -> starts_word before' rest' -> signature rest' c' -> (length before <= length before')%nat.

Definition mp523x : reading := word "mp523x" ve_renesas se_mp 5232 "".
Definition word_signatures : list reading := [msm; apq; sdm; sm; mt; kirin; rk].
Definition hardware_signatures (arm32 : bool) (cores frequency : N) : list reading :=
  [samsung_exynos; universal; sc; unisoc_t; unisoc_ums; sunxi arm32 cores; bcm; tcc] ++ if_arm32 arm32 [smdk cores; pxa; omap; wmt cores frequency].
Definition board_signatures (arm32 : bool) (cores frequency : N) : list reading :=
  [msm; apq; universal; mt; sc; huawei] ++ if_arm32 arm32 [smdk cores; pxa; lc; broadcom cores frequency].
Definition platform_signatures (arm32 : bool) (cores frequency : N) : list reading :=
  [msm; apq; exynos; mt; kirin; sc; rk; huawei] ++ if_arm32 arm32 [lc; broadcom cores frequency; omap4 cores frequency].
Definition chipname_signatures (arm32 : bool) : list reading := [msm; apq; sm; exynos; universal; mt; sc] ++ if_arm32 arm32 [pxa; mp523x].
