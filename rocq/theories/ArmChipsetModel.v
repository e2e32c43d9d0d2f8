(** Model of src/arm/linux/chipset.c.  Definitions only.
    [arm32] tells whether the code is compiled for 32-bit ARM.  A text is the list of the
    characters between two pointers [start] and [end]; reading at or after [end] is undefined.
    Left out: the log messages.  Computing a pointer beyond the end of an array for a comparison
    ("start + 7 > end") is taken as arithmetic. *)
From Verif Require Import Base Text ArmClusterMidrModel ArmCpuinfoModel.
From Verif Require ArmMachModel X86CpuinfoModel.
Import ArmMachModel(decimal).
Import X86CpuinfoModel(bytes_eqb).
Open Scope N_scope.

(** enum cpuinfo_arm_chipset_series, src/arm/api.h:42-76. *)
Definition se_unknown : N := 0.
Definition se_qsd : N := 1.
Definition se_msm : N := 2.
Definition se_apq : N := 3.
Definition se_snapdragon : N := 4.
Definition se_mt : N := 5.
Definition se_exynos : N := 6.
Definition se_k3v : N := 7.
Definition se_hi : N := 8.
Definition se_kirin : N := 9.
Definition se_atm : N := 10.
Definition se_a : N := 11.
Definition se_aml : N := 12.
Definition se_s : N := 13.
Definition se_bcm : N := 14.
Definition se_nuclun : N := 15.
Definition se_lc : N := 16.
Definition se_pxa : N := 17.
Definition se_6a : N := 18.
Definition se_u : N := 19.
Definition se_tegra_t : N := 20.
Definition se_tegra_ap : N := 21.
Definition se_tegra_sl : N := 22.
Definition se_surge_s : N := 23.
Definition se_mp : N := 24.
Definition se_rk : N := 25.
Definition se_sc : N := 26.
Definition se_tcc : N := 27.
Definition se_omap : N := 28.
Definition se_unisoc_t : N := 29.
Definition se_unisoc_ums : N := 30.
Definition se_wm : N := 31.

(** enum cpuinfo_arm_chipset_vendor, src/arm/api.h:15-40. *)
Definition ve_unknown : N := 0.
Definition ve_qualcomm : N := 1.
Definition ve_mediatek : N := 2.
Definition ve_samsung : N := 3.
Definition ve_hisilicon : N := 4.
Definition ve_actions : N := 5.
Definition ve_allwinner : N := 6.
Definition ve_amlogic : N := 7.
Definition ve_broadcom : N := 8.
Definition ve_lg : N := 9.
Definition ve_leadcore : N := 10.
Definition ve_marvell : N := 11.
Definition ve_mstar : N := 12.
Definition ve_novathor : N := 13.
Definition ve_nvidia : N := 14.
Definition ve_pinecone : N := 15.
Definition ve_renesas : N := 16.
Definition ve_rockchip : N := 17.
Definition ve_spreadtrum : N := 18.
Definition ve_telechips : N := 19.
Definition ve_texas_instruments : N := 20.
Definition ve_unisoc : N := 21.
Definition ve_wondermedia : N := 22.

(** chipset_series_vendor, chipset.c:57-90. *)
Definition series_vendor : list N := [
  ve_unknown; ve_qualcomm; ve_qualcomm; ve_qualcomm; ve_qualcomm; ve_mediatek; ve_samsung; ve_hisilicon; ve_hisilicon; ve_hisilicon;
  ve_actions; ve_allwinner; ve_amlogic; ve_amlogic; ve_broadcom; ve_lg; ve_leadcore; ve_marvell; ve_mstar; ve_novathor;
  ve_nvidia; ve_nvidia; ve_nvidia; ve_pinecone; ve_renesas; ve_rockchip; ve_spreadtrum; ve_telechips; ve_texas_instruments; ve_unisoc;
  ve_unisoc; ve_wondermedia
].

(** struct cpuinfo_arm_chipset, src/arm/api.h:80-85: the suffix has eight characters. *)
Record chip := Chip { chp_vendor : N; chp_series : N; chp_model : N; chp_suffix : list N }.
Definition suffix_max : nat := 8.
Definition padded (l : list N) : list N := l ++ repeat 0 (suffix_max - length l).
Definition unknown_chip : chip := Chip ve_unknown se_unknown 0 (padded []).
(** What the rest of the library looks at. *)
Definition seen (c : chip) : chipset := Chipset (chp_vendor c) (chp_series c) (chp_model c).

(** ** Characters: chipset.c:13-51 *)

Definition is_whitespace (c : N) : bool := (c =? 32) || (c =? 9) || (c =? 13) || (c =? 10).
Definition is_alphabetic (c : N) : bool := (N.lor c 32 + 256 - 97) mod 256 <=? 25.
Definition is_uppercase (c : N) : bool := (c + 256 - 65) mod 256 <=? 25.
Definition is_numeric (c : N) : bool := (c + 256 - 48) mod 256 <? 10.
(** c & '\xDF' *)
Definition to_upper (c : N) : N := N.land c 0xDF.

(** load_u16le, load_u24le, load_u32le: [n] bytes from position [k], the first one least. *)
Fixpoint load_le (n : nat) (s : list N) (k : nat) : res N :=
  match n with
  | O => Ok 0
  | S n' => do b <- rd s k; do w <- load_le n' s (S k); Ok (b + 256 * w)
  end.

(** A number of [n] digits from position [k] on: the loops that fill [model]. *)
Fixpoint model_number (n : nat) (s : list N) (k : nat) (m : N) : res (option N) :=
  match n with
  | O => Ok (Some m)
  | S n' =>
      do c <- rd s k;
      let digit := sub32 c 48 in
      if 10 <=? digit then Ok None else model_number n' s (S k) (u32 (m * 10 + digit))
  end.

(** As many characters of a suffix as there are, at most [n]: the letters in upper case, and
    [extra] as it is. *)
Fixpoint suffix_letters (extra : option N) (n : nat) (s : list N) (k : nat) : res (list N) :=
  match n with
  | O => Ok []
  | S n' =>
      if (k =? length s)%nat then Ok []
      else
        do c <- rd s k;
        if is_alphabetic c then do r <- suffix_letters extra n' s (S k); Ok (to_upper c :: r)
        else if match extra with Some x => c =? x | None => false end then do r <- suffix_letters extra n' s (S k); Ok (c :: r)
        else Ok []
  end.
(** The same, but every character must be one of a suffix. *)
Fixpoint all_letters (extra : option N) (n : nat) (s : list N) (k : nat) : res (option (list N)) :=
  match n with
  | O => Ok (Some [])
  | S n' =>
      if (k =? length s)%nat then Ok (Some [])
      else
        do c <- rd s k;
        let go x := do r <- all_letters extra n' s (S k); Ok (option_map (cons x) r) in
        if is_alphabetic c then go (to_upper c)
        else if match extra with Some x => c =? x | None => false end then go c
        else Ok None
  end.

Definition no_match : res (option chip) := Ok None.
(** A number, then what [f] makes of it. *)
Definition with_number (n : nat) (s : list N) (k : nat) (f : N -> res (option chip)) : res (option chip) :=
  do m <- model_number n s k 0; match m with None => no_match | Some m => f m end.
Definition found (vendor series model : N) (suffix : list N) : res (option chip) := Ok (Some (Chip vendor series model (padded suffix))).
(** A one-letter suffix, or none if it is 0. *)
Definition letter (c : N) : list N := [c].

(** ** Signatures *)

(** match_msm_apq, chipset.c:106-178. *)
Definition match_msm_apq (s : list N) : res (option chip) :=
  if (length s <? 7)%nat then no_match
  else
    do w <- load_le 3 s 0;
    let signature := N.lor 0x00202020 w in
    let go series :=
      do c <- rd s 3;
      let pos := if c =? 32 then 4%nat else 3%nat in
      if (c =? 32) && (length s <? pos + 4)%nat then no_match
      else with_number 4 s pos (fun m => do suffix <- suffix_letters (Some 45) suffix_max s (pos + 4); found ve_qualcomm series m suffix) in
    if signature =? 0x6D736D then go se_msm
    else if signature =? 0x717061 then go se_apq
    else no_match.

(** match_sdm, chipset.c:192-224. *)
Definition match_sdm (s : list N) : res (option chip) :=
  if negb (length s =? 6)%nat then no_match
  else
    do w <- load_le 3 s 0;
    if negb (w =? 0x004D4453) then no_match
    else with_number 3 s 3 (fun m => found ve_qualcomm se_snapdragon m []).

(** match_sm, chipset.c:238-270. *)
Definition match_sm (s : list N) : res (option chip) :=
  if negb (length s =? 6)%nat then no_match
  else
    do w <- load_le 2 s 0;
    if negb (w =? 0x4D53) then no_match
    else with_number 4 s 2 (fun m => found ve_qualcomm se_snapdragon m []).

(** match_samsung_exynos, chipset.c:285-357. *)
Definition match_samsung_exynos (s : list N) : res (option chip) :=
  if negb ((length s =? 18) || (length s =? 19))%nat then no_match
  else
    do w <- load_le 4 s 0;
    if negb (N.lor 0x20202000 w =? 0x736D6153) then no_match
    else
      do w <- load_le 4 s 4;
      if negb (N.lor 0x00202020 w =? 0x20676E75) then no_match
      else
        do w <- load_le 4 s 8;
        if negb (N.lor 0x20202000 w =? 0x6E797845) then no_match
        else
          do w <- load_le 2 s 12;
          if negb (N.lor 0x2020 w =? 0x736F) then no_match
          else
            do c <- rd s 14;
            if (c =? 32) && negb (length s =? 19)%nat then no_match
            else with_number 4 s (if c =? 32 then 15 else 14) (fun m => found ve_samsung se_exynos m []).

(** match_exynos, chipset.c:372-408. *)
Definition match_exynos (s : list N) : res (option chip) :=
  if negb (length s =? 10)%nat then no_match
  else
    do w <- load_le 4 s 0;
    if negb (w =? 0x6E797865) then no_match
    else
      do w <- load_le 2 s 4;
      if negb (w =? 0x736F) then no_match
      else with_number 4 s 6 (fun m => found ve_samsung se_exynos m []).

(** match_universal, chipset.c:424-469. *)
Definition match_universal (s : list N) : res (option chip) :=
  if negb (length s =? 13)%nat then no_match
  else
    do c <- rd s 0;
    if negb (N.lor 0x20 c =? 0x75) then no_match
    else
      do w <- load_le 4 s 1;
      if negb (N.lor 0x20202020 w =? 0x6576696E) then no_match
      else
        do w <- load_le 4 s 5;
        if negb (N.lor 0x20202020 w =? 0x6C617372) then no_match
        else with_number 4 s 9 (fun m => found ve_samsung se_exynos m []).

(** match_and_parse_smdk, chipset.c:487-545. *)
Definition match_smdk (cores : N) (s : list N) : res (option chip) :=
  if negb (length s =? 8)%nat then no_match
  else
    do w <- load_le 4 s 0;
    if negb (N.lor 0x20202020 w =? 0x6B646D73) then no_match
    else
      do w <- load_le 4 s 4;
      let model := if w =? 0x30313234 then 4210
                   else if w =? 0x32317834 then if cores =? 2 then 4212 else if cores =? 4 then 4412 else 0
                   else 0 in
      if model =? 0 then no_match else found ve_samsung se_exynos model [].

(** match_mt, chipset.c:564-660. *)
Definition match_mt (match_end : bool) (s : list N) : res (option chip) :=
  if (length s <? 6)%nat then no_match
  else
    do w <- load_le 2 s 0;
    if negb (N.lor 0x2020 w =? 0x746D) then no_match
    else
      do c <- rd s 2;
      let k := N.lor c 0x20 =? 107 in
      let pos := if k then 3%nat else 2%nat in
      if k && (length s <? pos + 4)%nat then no_match
      else
        with_number 4 s pos (fun m =>
          let pos := (pos + 4)%nat in
          if match_end then
            if (suffix_max <? length s - pos)%nat then no_match
            else
              do suffix <- all_letters (Some 47) (length s - pos) s pos;
              match suffix with None => no_match | Some suffix => found ve_mediatek se_mt m suffix end
          else do suffix <- suffix_letters (Some 47) suffix_max s pos; found ve_mediatek se_mt m suffix).

(** match_kirin, chipset.c:678-732. *)
Definition match_kirin (s : list N) : res (option chip) :=
  if negb ((length s =? 8) || (length s =? 9))%nat then no_match
  else
    do c <- rd s 0;
    if negb (N.lor c 0x20 =? 107) then no_match
    else
      do w <- load_le 4 s 1;
      if negb (w =? 0x6E697269) then no_match
      else
        do c <- rd s 5;
        if is_whitespace c && negb (length s =? 9)%nat then no_match
        else with_number 3 s (length s - 3) (fun m => found ve_hisilicon se_kirin m []).

(** match_rk, chipset.c:747-803. *)
Definition match_rk (s : list N) : res (option chip) :=
  if negb ((length s =? 6) || (length s =? 7))%nat then no_match
  else
    do w <- load_le 2 s 0;
    if negb (N.lor 0x2020 w =? 0x6B72) then no_match
    else
      with_number 4 s 2 (fun m =>
        if (length s =? 7)%nat then
          do c <- rd s 6;
          if is_alphabetic c then found ve_rockchip se_rk m (letter (to_upper c)) else no_match
        else found ve_rockchip se_rk m []).

(** match_sc, chipset.c:821-903. *)
Definition match_sc (s : list N) : res (option chip) :=
  if (length s <? 5)%nat then no_match
  else
    do w <- load_le 2 s 0;
    let w := N.lor 0x2020 w in
    if negb ((w =? 0x6373) || (w =? 0x7073)) then no_match
    else
      do c <- rd s 2;
      if N.lor c 0x20 =? 120 then
        if negb (length s =? 5)%nat then no_match
        else
          do w <- load_le 2 s 3;
          if negb (w =? 0x3531) then no_match else found ve_spreadtrum se_sc 7715 []
      else if (length s <? 6)%nat then no_match
      else
        with_number 4 s 2 (fun m =>
          do suffix <- all_letters None suffix_max s 6;
          match suffix with None => no_match | Some suffix => found ve_spreadtrum se_sc m suffix end).

(** match_t, chipset.c:919-961. *)
Definition match_t (s : list N) : res (option chip) :=
  if negb ((length s =? 11) || (length s =? 12))%nat then no_match
  else
    do w <- load_le 4 s 0;
    if negb (w =? 0x73696E55) then no_match
    else
      do w <- load_le 4 s 4;
      if negb (w =? 0x5420636F) then no_match
      else with_number (length s - 8) s 8 (fun m => found ve_unisoc se_unisoc_t m []).

(** match_ums, chipset.c:977-1025. *)
Definition match_ums (s : list N) : res (option chip) :=
  if negb ((length s =? 13) || (length s =? 14))%nat then no_match
  else
    do w <- load_le 4 s 0;
    if negb (w =? 0x73696E55) then no_match
    else
      do w <- load_le 4 s 4;
      if negb (w =? 0x5520636F) then no_match
      else
        do w <- load_le 2 s 8;
        if negb (w =? 0x534D) then no_match
        else with_number (length s - 10) s 10 (fun m => found ve_unisoc se_unisoc_ums m []).

(** match_lc, chipset.c:1040-1094.  The letter is stored in *chipset, which is then overwritten
    with a suffix of 0. *)
Definition match_lc (s : list N) : res (option chip) :=
  if negb ((length s =? 6) || (length s =? 7))%nat then no_match
  else
    do w <- load_le 2 s 0;
    if negb (w =? 0x636C) then no_match
    else
      with_number 4 s 2 (fun m =>
        if (length s =? 7)%nat then
          do c <- rd s 6;
          if is_alphabetic c then found ve_leadcore se_lc m (letter 0) else no_match
        else found ve_leadcore se_lc m (letter 0)).

(** match_pxa, chipset.c:1109-1160. *)
Definition match_pxa (s : list N) : res (option chip) :=
  if negb ((length s =? 6) || (length s =? 7))%nat then no_match
  else
    do c <- rd s 0;
    if negb (c =? 80) then no_match
    else
      do w <- load_le 2 s 1;
      if negb (w =? 0x4158) then no_match
      else
        let number := with_number (length s - 3) s 3 (fun m => found ve_marvell se_pxa m []) in
        if (length s =? 7)%nat then
          do w <- load_le 4 s 3;
          if w =? 0x38384C31 then found ve_marvell se_pxa 1088 [] else number
        else number.

(** match_bcm, chipset.c:1174-1206. *)
Definition match_bcm (s : list N) : res (option chip) :=
  if negb (length s =? 7)%nat then no_match
  else
    do w <- load_le 3 s 0;
    if negb (w =? 0x004D4342) then no_match
    else with_number 4 s 3 (fun m => found ve_broadcom se_bcm m []).

(** match_omap, chipset.c:1220-1251. *)
Definition match_omap (s : list N) : res (option chip) :=
  if negb (length s =? 8)%nat then no_match
  else
    do w <- load_le 4 s 0;
    if negb (w =? 0x50414D4F) then no_match
    else with_number 4 s 4 (fun m => found ve_texas_instruments se_omap m []).

(** match_and_parse_broadcom, chipset.c:1272-1384. *)
Definition match_broadcom (cores frequency : N) (s : list N) : res (option chip) :=
  let n := length s in
  if negb ((n =? 4) || (n =? 5) || (n =? 6))%nat then no_match
  else
    do w <- load_le 4 s 0;
    do r <- (if w =? 0x61656872 then
               Ok (if (n =? 4)%nat && (cores =? 1) then (21654, if 999999 <=? frequency then 71 else 0) else (0, 0))
             else if w =? 0x6176616A then Ok (if (n =? 4)%nat && (cores =? 4) then (23550, 0) else (0, 0))
             else if w =? 0x61776168 then
               if (n =? 6)%nat then
                 do ii <- load_le 2 s 4;
                 Ok (if ii =? 0x6969 then
                       if cores =? 1 then (21663, 0)
                       else if cores =? 2 then (21664, if 1200000 <=? frequency then 84 else 0)
                       else (0, 0)
                     else (0, 0))
               else Ok (0, 0)
             else if w =? 0x72706163 then
               if (n =? 5)%nat then
                 do c <- rd s 4;
                 Ok (if (c =? 105) && (cores =? 2) then (28155, 0) else (0, 0))
               else Ok (0, 0)
             else Ok (0, 0));
    let '(model, suffix) := r in
    if negb (model =? 0) then found ve_broadcom se_bcm model (letter suffix) else no_match.

(** ** Tables *)

Definition compiled (arm32 only32 : bool) : bool := arm32 || negb only32.

(** struct special_map_entry, chipset.c:1937-1942; the first field tells whether the entry is
    compiled for 32-bit ARM only. *)
Record special := Special { sp_only32 : bool; sp_platform : list N; sp_series : N; sp_model : N; sp_suffix : N }.

(** special_hardware_map_entries, chipset.c:1944-2068. *)
Definition hardware_map : list special := [
   Special true (text "k3v2oem1") se_k3v 2 0;
   Special true (text "hi6620oem") se_kirin 910 84;
   Special false (text "hi6250") se_kirin 650 0;
   Special false (text "hi6210sft") se_kirin 620 0;
   Special false (text "hi3751") se_hi 3751 0;
   Special true (text "hi3630") se_kirin 920 0;
   Special false (text "hi3635") se_kirin 930 0;
   Special true (text "gs702a") se_atm 7029 0;
   Special true (text "gs702c") se_atm 7029 66;
   Special true (text "gs703d") se_atm 7039 83;
   Special true (text "gs705a") se_atm 7059 65;
   Special true (text "Amlogic Meson8") se_s 812 0;
   Special true (text "Amlogic Meson8B") se_s 805 0;
   Special true (text "mapphone_CDMA") se_omap 4430 0;
   Special true (text "Superior") se_omap 4470 0;
   Special true (text "Tuna") se_omap 4460 0;
   Special true (text "Manta") se_exynos 5250 0;
   Special true (text "Odin") se_nuclun 7111 0;
   Special true (text "Madison") se_6a 338 0
].
(** tegra_hardware_map_entries, chipset.c:2070-2397. *)
Definition tegra_map : list special := [
   Special true (text "cardhu") se_tegra_t 30 0;
   Special true (text "kai") se_tegra_t 30 76;
   Special true (text "p3") se_tegra_t 20 0;
   Special true (text "n1") se_tegra_ap 20 72;
   Special true (text "SHW-M380S") se_tegra_t 20 0;
   Special true (text "m470") se_tegra_t 30 76;
   Special true (text "endeavoru") se_tegra_ap 33 0;
   Special true (text "evitareul") se_tegra_t 33 0;
   Special true (text "enrc2b") se_tegra_t 33 0;
   Special true (text "mozart") se_tegra_t 114 0;
   Special true (text "tegratab") se_tegra_t 114 0;
   Special true (text "tn8") se_tegra_t 124 0;
   Special true (text "roth") se_tegra_t 114 0;
   Special true (text "pisces") se_tegra_t 114 0;
   Special true (text "mocha") se_tegra_t 124 0;
   Special true (text "stingray") se_tegra_ap 20 72;
   Special true (text "Ceres") se_tegra_sl 460 78;
   Special true (text "MT799") se_tegra_t 30 0;
   Special true (text "t8400n") se_tegra_t 114 0;
   Special true (text "chagall") se_tegra_t 30 0;
   Special true (text "ventana") se_tegra_t 20 0;
   Special true (text "bobsleigh") se_tegra_t 33 0;
   Special true (text "tegra_fjdev101") se_tegra_ap 33 0;
   Special true (text "tegra_fjdev103") se_tegra_t 33 0;
   Special true (text "nbx03") se_tegra_t 20 0;
   Special true (text "txs03") se_tegra_t 30 76;
   Special true (text "x3") se_tegra_ap 33 0;
   Special true (text "vu10") se_tegra_ap 33 0;
   Special true (text "BIRCH") se_tegra_t 30 76;
   Special true (text "macallan") se_tegra_t 114 0;
   Special true (text "maya") se_tegra_t 114 0;
   Special true (text "antares") se_tegra_t 20 0;
   Special true (text "tostab12AL") se_tegra_t 30 76;
   Special true (text "tostab12BL") se_tegra_t 30 76;
   Special true (text "sphinx") se_tegra_t 30 0;
   Special true (text "tostab11BS") se_tegra_t 30 0;
   Special true (text "tostab12BA") se_tegra_t 114 0;
   Special true (text "vangogh") se_tegra_t 20 0;
   Special true (text "a110") se_tegra_t 30 76;
   Special true (text "picasso_e") se_tegra_ap 20 72;
   Special true (text "picasso_e2") se_tegra_t 30 76;
   Special true (text "picasso") se_tegra_ap 20 72;
   Special true (text "picasso_m") se_tegra_t 30 0;
   Special true (text "picasso_mf") se_tegra_t 30 0;
   Special true (text "avalon") se_tegra_t 30 76;
   Special true (text "NS_14T004") se_tegra_t 30 76;
   Special true (text "WIKIPAD") se_tegra_t 30 0;
   Special true (text "kb") se_tegra_t 114 0;
   Special false (text "foster_e") se_tegra_t 210 0;
   Special false (text "foster_e_hdd") se_tegra_t 210 0;
   Special false (text "darcy") se_tegra_t 210 0
].
(** special_board_map_entries, chipset.c:2678-2798. *)
Definition board_map : list special := [
   Special false (text "hi6250") se_kirin 650 0;
   Special false (text "hi6210sft") se_kirin 620 0;
   Special true (text "hi3630") se_kirin 920 0;
   Special false (text "hi3635") se_kirin 930 0;
   Special false (text "hi3650") se_kirin 950 0;
   Special false (text "hi3660") se_kirin 960 0;
   Special true (text "mp523x") se_mp 5232 0;
   Special false (text "BEETHOVEN") se_kirin 950 0;
   Special true (text "hws7701u") se_rk 3168 0;
   Special true (text "g2mv") se_tegra_sl 460 78;
   Special true (text "K00F") se_rk 3188 0;
   Special true (text "T7H") se_rk 3066 0;
   Special true (text "tuna") se_omap 4460 0;
   Special true (text "grouper") se_tegra_t 30 76;
   Special false (text "flounder") se_tegra_t 132 0;
   Special false (text "dragon") se_tegra_t 210 0;
   Special false (text "sailfish") se_msm 8996 80;
   Special false (text "marlin") se_msm 8996 80
].
(** special_platform_map_entries, chipset.c:2986-3094. *)
Definition platform_map : list special := [
   Special true (text "hi6620oem") se_kirin 910 84;
   Special false (text "hi6250") se_kirin 650 0;
   Special false (text "hi6210sft") se_kirin 620 0;
   Special true (text "hi3630") se_kirin 920 0;
   Special false (text "hi3635") se_kirin 930 0;
   Special false (text "hi3650") se_kirin 950 0;
   Special false (text "hi3660") se_kirin 960 0;
   Special true (text "k3v2oem1") se_k3v 2 0;
   Special true (text "k3v200") se_k3v 2 0;
   Special true (text "montblanc") se_u 8500 0;
   Special false (text "song") se_surge_s 1 0;
   Special true (text "rk322x") se_rk 3229 0;
   Special false (text "tegra132") se_tegra_t 132 0;
   Special false (text "tegra210_dragon") se_tegra_t 210 0;
   Special true (text "tegra4") se_tegra_t 114 0;
   Special true (text "s5pc110") se_exynos 3110 0
].
(** sunxi_map_entries, chipset.c:1393-1452: sunxi, cores, model, suffix. *)
Definition sunxi_map : list (bool * N * N * N * N) := [
   (true, 4, 1, 10, 0);
   (true, 5, 1, 13, 0);
   (true, 6, 4, 31, 0);
   (true, 7, 2, 20, 0);
   (true, 8, 2, 23, 0);
   (true, 8, 4, 33, 0);
   (true, 8, 8, 83, 84);
   (true, 9, 8, 80, 0);
   (false, 50, 4, 64, 0)
].
(** huawei_platform_map, chipset.c:1627-1763. *)
Definition huawei_map : list (N * N) := [
   (0x00504C41, 970);
   (0x00434142, 659);
   (0x00414C42, 970);
   (0x004C4B42, 970);
   (0x00544C43, 970);
   (0x004C4F43, 970);
   (0x00524F43, 970);
   (0x004B5544, 960);
   (0x004C4D45, 970);
   (0x00415645, 955);
   (0x00445246, 950);
   (0x00454E49, 710);
   (0x00544E4B, 950);
   (0x004E4F4C, 960);
   (0x0041594C, 980);
   (0x004E434D, 980);
   (0x0041484D, 960);
   (0x004F454E, 970);
   (0x0054584E, 950);
   (0x004E4150, 980);
   (0x00524150, 970);
   (0x004C5652, 970);
   (0x00465453, 960);
   (0x00455553, 980);
   (0x00454956, 955);
   (0x00594B56, 960);
   (0x00525456, 960)
].
(** amlogic_map_entries, chipset.c:2942-2984. *)
Definition amlogic_map : list (bool * list N * N * N * list N) := [
   (true, text "meson3", se_aml, 8726, text "-M");
   (true, text "meson6", se_aml, 8726, text "-MX");
   (true, text "meson8", se_s, 805, text "");
   (false, text "gxbaby", se_s, 905, text "");
   (false, text "gxl", se_s, 905, text "X");
   (false, text "gxm", se_s, 912, text "")
].

(** The loop of match_and_parse_sunxi over the table, chipset.c:1527-1533. *)
Fixpoint find_sunxi (arm32 : bool) (platform cores : N) (l : list (bool * N * N * N * N)) : N * N :=
  match l with
  | [] => (0, 0)
  | (only32, sunxi, n, model, suffix) :: r =>
      if compiled arm32 only32 && (platform =? sunxi) && (cores =? n) then (model, suffix) else find_sunxi arm32 platform cores r
  end.
(** match_and_parse_sunxi, chipset.c:1469-1550. *)
Definition match_sunxi (arm32 : bool) (cores : N) (s : list N) : res (option chip) :=
  if (length s <? 5)%nat then no_match
  else
    do c <- rd s 0;
    if negb (c =? 115) then no_match
    else
      do w <- load_le 2 s 1;
      if negb (w =? 0x6E75) then no_match
      else
        do c <- rd s 3;
        let first := sub32 c 48 in
        if 10 <=? first then no_match
        else
          do c <- rd s 4;
          let second := sub32 c 48 in
          let two := second <? 10 in
          let platform := if two then u32 (first * 10 + second) else first in
          let pos := if two then 5%nat else 4%nat in
          if two && (pos =? length s)%nat then no_match
          else
            do c <- rd s pos;
            if negb (c =? 105) then no_match
            else
              let '(model, suffix) := find_sunxi arm32 platform cores sunxi_map in
              found ve_allwinner se_a model (letter suffix).

(** match_and_parse_wmt, chipset.c:1565-1620. *)
Definition match_wmt (cores frequency : N) (s : list N) : res (option chip) :=
  if negb (length s =? 3)%nat then no_match
  else
    do c <- rd s 0;
    if negb (c =? 87) then no_match
    else
      do w <- load_le 2 s 1;
      if negb (w =? 0x544D) then no_match
      else
        let model := if cores =? 1 then if frequency =? 1008000 then 8950 else if frequency =? 1200000 then 8850 else 0
                     else if cores =? 2 then if frequency =? 1500000 then 8880 else 0
                     else 0 in
        found ve_wondermedia se_wm model [].

(** match_and_parse_huawei, chipset.c:1780-1843. *)
Fixpoint find_huawei (platform : N) (l : list (N * N)) : N :=
  match l with [] => 0 | (p, model) :: r => if p =? platform then model else find_huawei platform r end.
Definition match_huawei (s : list N) : res (option chip) :=
  let n := length s in
  if negb ((n =? 3) || (n =? 7) || (n =? 8))%nat then no_match
  else
    do w <- load_le 3 s 0;
    let model := find_huawei w huawei_map in
    if model =? 0 then no_match
    else if (3 <? n)%nat then
      do dash <- rd s 3;
      do capital <- rd s 4;
      if negb (dash =? 45) || negb (is_uppercase capital) then no_match
      else
        do l <- rd s (n - 3);
        do d1 <- rd s (n - 2);
        do d2 <- rd s (n - 1);
        if negb (l =? 76) || negb (is_numeric d1) || negb (is_numeric d2) then no_match else found ve_hisilicon se_kirin model []
    else found ve_hisilicon se_kirin model [].

(** match_tcc, chipset.c:1857-1899. *)
Definition match_tcc (s : list N) : res (option chip) :=
  if negb (length s =? 7)%nat then no_match
  else
    do c <- rd s 0;
    if negb (c =? 116) then no_match
    else
      do w <- load_le 2 s 1;
      if negb (w =? 0x6363) then no_match
      else
        with_number 3 s 3 (fun m =>
          do c <- rd s 6;
          if negb (c =? 120) then no_match else found ve_telechips se_tcc m (letter 88)).

(** is_tegra, chipset.c:1912-1935. *)
Definition is_tegra (s : list N) : res bool :=
  if negb ((length s =? 5) || (length s =? 6))%nat then Ok false
  else
    do c <- rd s 0;
    if negb (c =? 116) then Ok false
    else
      do w <- load_le 4 s 1;
      if negb (w =? 0x61726765) then Ok false
      else if (length s =? 5)%nat then Ok true
      else do c <- rd s 5; Ok (c =? 51).

(** strncmp(a, b, n) == 0, for arrays. *)
Fixpoint strncmp_same (n : nat) (a b : list N) (k : nat) : res bool :=
  match n with
  | O => Ok true
  | S n' =>
      do x <- rd a k; do y <- rd b k;
      if negb (x =? y) then Ok false else if x =? 0 then Ok true else strncmp_same n' a b (S k)
  end.

(** The loops over tables of platforms, such as chipset.c:2437-2457.  [s] are the characters before
    the terminator. *)
Fixpoint find_special (arm32 : bool) (s : list N) (l : list special) : res (option special) :=
  match l with
  | [] => Ok None
  | e :: r =>
      if compiled arm32 (sp_only32 e) then
        let platform := sp_platform e ++ [0] in
        do same <- strncmp_same (length s) platform s 0;
        if same then do c <- rd platform (length s); if c =? 0 then Ok (Some e) else find_special arm32 s r
        else find_special arm32 s r
      else find_special arm32 s r
  end.
Definition special_chip (suffix : N -> list N) (e : special) : res chip :=
  do vendor <- rd series_vendor (N.to_nat (sp_series e));
  Ok (Chip vendor (sp_series e) (sp_model e) (padded (suffix (sp_suffix e)))).

(** ** Decoding a text *)

(** Attempts one after the other: the first that succeeds. *)
Fixpoint first_of (attempts : list (list N -> res (option chip))) (s : list N) (otherwise : res chip) : res chip :=
  match attempts with
  | [] => otherwise
  | f :: r => do c <- f s; match c with Some c => Ok c | None => first_of r s otherwise end
  end.
Definition on_arm32 (arm32 : bool) {A} (l : list A) : list A := if arm32 then l else [].
Definition from_table (arm32 : bool) (suffix : N -> list N) (table : list special) (s : list N) : res chip :=
  do e <- find_special arm32 s table;
  match e with Some e => special_chip suffix e | None => Ok unknown_chip end.

(** The loop over the words of the Hardware line, chipset.c:2461-2526. *)
Definition word_attempts : list (list N -> res (option chip)) := [match_msm_apq; match_sdm; match_sm; match_mt true; match_kirin; match_rk].
Fixpoint words (word_start : bool) (s : list N) (otherwise : res chip) : res chip :=
  match s with
  | [] => otherwise
  | c :: rest =>
      if (c =? 32) || (c =? 9) || (c =? 44) then words true rest otherwise
      else if word_start && is_alphabetic c then first_of word_attempts s (words false rest otherwise)
      else words false rest otherwise
  end.

(** cpuinfo_arm_linux_decode_chipset_from_proc_cpuinfo_hardware, chipset.c:2412-2675. *)
Definition from_hardware (arm32 : bool) (cores frequency : N) (tegra : bool) (s : list N) : res chip :=
  if tegra then from_table arm32 letter tegra_map s
  else
    words true s
      (first_of
         ([match_samsung_exynos; match_universal] ++ on_arm32 arm32 [match_smdk cores] ++ [match_sc; match_t; match_ums] ++
          on_arm32 arm32 [match_pxa] ++ [match_sunxi arm32 cores; match_bcm] ++ on_arm32 arm32 [match_omap; match_wmt cores frequency] ++
          [match_tcc]) s
         (from_table arm32 letter hardware_map s)).

(** cpuinfo_arm_android_decode_chipset_from_ro_product_board, chipset.c:2813-2933. *)
Definition board_suffix (c : N) : list N := if c =? 80 then [80; 82; 79] else [c].
Definition from_board (arm32 : bool) (cores frequency : N) (s : list N) : res chip :=
  first_of
    ([match_msm_apq; match_universal] ++ on_arm32 arm32 [match_smdk cores] ++ [match_mt true; match_sc] ++
     on_arm32 arm32 [match_pxa; match_lc; match_broadcom cores frequency] ++ [match_huawei]) s
    (from_table arm32 board_suffix board_map s).

(** The loop over the Amlogic table, chipset.c:3229-3251.  A name is in an array of six
    characters, and the property in a longer one, with a terminator. *)
Fixpoint find_amlogic (arm32 : bool) (s : list N) (l : list (bool * list N * N * N * list N)) : res (option chip) :=
  match l with
  | [] => Ok None
  | (only32, platform, series, model, suffix) :: r =>
      if compiled arm32 only32 then
        do same <- strncmp_same 6 (platform ++ repeat 0 (6 - length platform)) (s ++ [0]) 0;
        if same then Ok (Some (Chip ve_amlogic series model (padded suffix))) else find_amlogic arm32 s r
      else find_amlogic arm32 s r
  end.
Definition match_amlogic (arm32 : bool) (s : list N) : res (option chip) :=
  if (length s <=? 6)%nat then find_amlogic arm32 s amlogic_map else no_match.
(** chipset.c:3207-3221. *)
Definition match_omap4 (cores frequency : N) (s : list N) : res (option chip) :=
  if bytes_eqb s (text "omap4") && (cores =? 2) && (frequency =? 1008000) then found ve_texas_instruments se_omap 4430 [] else no_match.

(** cpuinfo_arm_android_decode_chipset_from_ro_board_platform, chipset.c:3109-3281. *)
Definition from_platform (arm32 : bool) (cores frequency : N) (s : list N) : res chip :=
  first_of
    ([match_msm_apq; match_exynos; match_mt true; match_kirin; match_sc; match_rk] ++ on_arm32 arm32 [match_lc] ++ [match_huawei] ++
     on_arm32 arm32 [match_broadcom cores frequency; match_omap4 cores frequency] ++ [match_amlogic arm32]) s
    (from_table arm32 letter platform_map s).
(** cpuinfo_arm_android_decode_chipset_from_ro_mediatek_platform, chipset.c:3291-3305. *)
Definition from_mediatek (s : list N) : res chip := first_of [match_mt false] s (Ok unknown_chip).
(** cpuinfo_arm_android_decode_chipset_from_ro_arch, chipset.c:3320-3334. *)
Definition from_arch (s : list N) : res chip := first_of [match_exynos] s (Ok unknown_chip).
(** cpuinfo_arm_android_decode_chipset_from_ro_chipname, chipset.c:3346-3432. *)
Definition match_mp523x (s : list N) : res (option chip) := if bytes_eqb s (text "mp523x") then found ve_renesas se_mp 5232 [] else no_match.
Definition from_chipname (arm32 : bool) (s : list N) : res chip :=
  first_of ([match_msm_apq; match_sm; match_exynos; match_universal; match_mt true; match_sc] ++ on_arm32 arm32 [match_pxa; match_mp523x]) s
    (Ok unknown_chip).

(** ** Corrections: cpuinfo_arm_fixup_chipset, chipset.c:3443-3743 *)

Definition with_model (m : N) (c : chip) : chip := Chip (chp_vendor c) (chp_series c) m (chp_suffix c).
(** The model is right for [n] cores, [other] is meant for [n'], and others are impossible. *)
Definition by_cores (cores : N) (n n' other : N) (c : chip) : chip :=
  if cores =? n then c else if cores =? n' then with_model other c else with_model 0 c.
(** Overwrites the first characters of a suffix. *)
Definition put (l : list N) (k : nat) (suffix : list N) : list N := firstn k suffix ++ l ++ skipn (k + length l) suffix.
Definition with_suffix (s : list N) (c : chip) : chip := Chip (chp_vendor c) (chp_series c) (chp_model c) s.

Definition fixup_msm (arm32 : bool) (cores frequency : N) (c : chip) : res chip :=
  do first <- rd (chp_suffix c) 0;
  if first =? 0 then
    let m := chp_model c in
    Ok (if m =? 8216 then with_model 8916 c
        else if m =? 8916 then by_cores cores 4 8 8939 c
        else if m =? 8937 then by_cores cores 8 4 8917 c
        else if m =? 8960 then
          if cores =? 2 then c else if cores =? 4 then Chip (chp_vendor c) se_apq 8064 (chp_suffix c) else with_model 0 c
        else if m =? 8996 then by_cores cores 4 8 8994 c
        else if arm32 && (m =? 8610) then by_cores cores 2 4 8612 c
        else c)
  else
    do w <- load_le 4 (chp_suffix c) 0;
    Ok (if w =? 0x004D534D then with_suffix (put [0; 0; 0] 0 (chp_suffix c)) c
        else if chp_model c =? 8976 then if w =? 0x00004753 then with_suffix (put [80; 82; 79] 0 (chp_suffix c)) c else c
        else if chp_model c =? 8996 then
          if w =? 0x004F5250 then with_suffix (put [45; 65; if 2188800 <=? frequency then 67 else 66] 3 (chp_suffix c)) c else c
        else c).

Definition fixup (arm32 : bool) (cores frequency : N) (c : chip) : res chip :=
  let series := chp_series c in
  if series =? se_msm then fixup_msm arm32 cores frequency c
  else if series =? se_apq then
    do w <- load_le 4 (chp_suffix c) 0;
    Ok (if w =? 0x00515041 then with_suffix (put [0; 0; 0] 0 (chp_suffix c)) c else c)
  else if series =? se_exynos then
    let m := chp_model c in
    Ok (if arm32 && (m =? 4410) then with_model 4412 c
        else if arm32 && (m =? 5420) then by_cores cores 4 6 5260 c
        else if m =? 7580 then by_cores cores 8 4 7578 c
        else c)
  else if series =? se_mt then
    let c := if chp_model c =? 6752 then by_cores cores 8 4 6732 c else c in
    do first <- rd (chp_suffix c) 0;
    if first =? 84 then
      do w <- load_le 4 (chp_suffix c) 1;
      if (w =? 0x4F425255) || (w =? 0x4F425552) then
        do last <- rd (chp_suffix c) 5;
        Ok (if last =? 0 then with_suffix (put [0; 0; 0; 0] 1 (chp_suffix c)) c else c)
      else Ok c
    else Ok c
  else if series =? se_rk then Ok (if chp_model c =? 3288 then by_cores cores 4 6 3399 c else c)
  else Ok c.

(** ** Names: cpuinfo_arm_chipset_to_string, chipset.c:3746-3842 *)

(** chipset_vendor_string. *)
Definition vendor_strings : list (list N) := map text [
  "Unknown"; "Qualcomm"; "MediaTek"; "Samsung"; "HiSilicon"; "Actions"; "Allwinner"; "Amlogic"; "Broadcom"; "LG"; "Leadcore"; "Marvell";
  "MStar"; "NovaThor"; "Nvidia"; "Pinecone"; "Renesas"; "Rockchip"; "Spreadtrum"; "Telechips"; "Texas Instruments"; "Unisoc"; "WonderMedia"
]%string.
(** chipset_series_string; the first is NULL. *)
Definition series_strings : list (option (list N)) := None :: map (fun s => Some (text s)) [
  "QSD"; "MSM"; "APQ"; "Snapdragon "; "MT"; "Exynos "; "K3V"; "Hi"; "Kirin "; "ATM"; "A"; "AML"; "S"; "BCM"; "Nuclun "; "LC"; "PXA"; "6A"; "U";
  "Tegra T"; "Tegra AP"; "Tegra SL"; "Surge S"; "MP"; "RK"; "SC"; "TCC"; "OMAP"; "T"; "UMS"; "WM"
]%string.

(** strnlen of an array, and the characters before. *)
Fixpoint until_nul (l : list N) : list N := match l with [] => [] | c :: r => if c =? 0 then [] else c :: until_nul r end.

(** The characters written before the terminator; %s with a NULL pointer is undefined.  48 is
    CPUINFO_ARM_CHIPSET_NAME_MAX; strncpy of a vendor that is too long would leave no
    terminator. *)
Definition package_name_max : nat := 48.
Definition chip_name (c : chip) : res (list N) :=
  let vendor := if N.of_nat (length vendor_strings) <=? chp_vendor c then ve_unknown else chp_vendor c in
  let series := if N.of_nat (length series_strings) <=? chp_series c then se_unknown else chp_series c in
  do vendor_string <- rd vendor_strings (N.to_nat vendor);
  do series_string <- rd series_strings (N.to_nat series);
  if chp_model c =? 0 then
    if series =? se_unknown then if (length vendor_string <? package_name_max)%nat then Ok vendor_string else UB
    else match series_string with
         | None => UB
         | Some series_string => Ok (firstn (package_name_max - 1) (vendor_string ++ [32] ++ series_string))
         end
  else
    match series_string with
    | None => UB
    | Some series_string =>
        Ok (firstn (package_name_max - 1) (vendor_string ++ [32] ++ series_string ++ decimal 10 (chp_model c) ++ until_nul (chp_suffix c)))
    end.

(** ** GNU/Linux *)

(** strnlen(buffer, max) and the characters before: an uninitialised character must not be read. *)
Fixpoint c_string (max : nat) (buf : chars) : res (list N) :=
  match max with
  | O => Ok []
  | S max' =>
      match buf with
      | Some c :: rest => if c =? 0 then Ok [] else do r <- c_string max' rest; Ok (c :: r)
      | _ => UB
      end
  end.

(** cpuinfo_arm_fixup_raspberry_pi_chipset, chipset.c:4149-4199. *)
Definition fixup_raspberry_pi (arm32 : bool) (revision : list N) (c : chip) : res chip :=
  let n := length revision in
  if arm32 && (n =? 4)%nat then Ok (if chp_model c =? 2708 then with_model 2835 c else c)
  else if ((5 <=? n) && (n <=? 8))%nat then
    do digit <- rd revision (n - 4);
    let model := if digit =? 48 then 2835 else if digit =? 49 then 2836 else if digit =? 50 then 2837 else if digit =? 51 then 2711 else 0 in
    Ok (if negb (model =? 0) then Chip (chp_vendor c) (chp_series c) model (put [0] 0 (chp_suffix c)) else c)
  else Ok c.

(** cpuinfo_arm_linux_decode_chipset, chipset.c:4215-4234. *)
Definition linux_chip (arm32 : bool) (cores frequency : N) (hardware revision : chars) : res chip :=
  do s <- c_string hardware_value_max hardware;
  do c <- from_hardware arm32 cores frequency false s;
  if chp_vendor c =? ve_unknown then Ok c
  else if chp_vendor c =? ve_broadcom then do r <- c_string revision_value_max revision; fixup_raspberry_pi arm32 r c
  else fixup arm32 cores frequency c.

(** The call in src/arm/linux/init.c:245-246: the frequency is always 0. *)
Definition linux_chipset (arm32 : bool) (hardware revision : chars) (cores : nat) : res chipset :=
  do c <- linux_chip arm32 (N.of_nat cores) 0 hardware revision; Ok (seen c).

(** ** Android: cpuinfo_arm_android_decode_chipset, chipset.c:3845-4141 *)

(** struct cpuinfo_android_properties, src/arm/linux/api.h, in the order of
    enum cpuinfo_android_chipset_property; the characters before the terminators. *)
Record android_properties := AndroidProperties {
  an_hardware : list N; an_board : list N; an_platform : list N; an_mediatek : list N; an_arch : list N; an_chipname : list N;
  an_hardware_chipname : list N
}.

(** The vendor reported, [None] if there are several: lines 4008-4030. *)
Fixpoint agreed_vendor (vendor : N) (cs : list chip) : option N :=
  match cs with
  | [] => Some vendor
  | c :: r =>
      if chp_vendor c =? ve_unknown then agreed_vendor vendor r
      else if vendor =? ve_unknown then agreed_vendor (chp_vendor c) r
      else if vendor =? chp_vendor c then agreed_vendor vendor r
      else None
  end.

Fixpoint each {A B} (f : A -> res B) (l : list A) : res (list B) :=
  match l with [] => Ok [] | x :: r => do y <- f x; do ys <- each f r; Ok (y :: ys) end.

(** Lines 4043-4069, for one pair; [ni] is the length of the suffix of [i] before the inner loop. *)
Definition propagate_pair (ni i j : nat) (cs : list chip) : res (list chip) :=
  do ci <- rd cs i; do cj <- rd cs j;
  if chp_series ci =? chp_series cj then
    let nj := length (until_nul (chp_suffix cj)) in
    if (ni =? nj)%nat then Ok cs
    else if bytes_eqb (firstn (Nat.min ni nj) (chp_suffix ci)) (firstn (Nat.min ni nj) (chp_suffix cj)) then
      if (nj <? ni)%nat then wr cs j (with_suffix (put (firstn ni (chp_suffix ci)) 0 (chp_suffix cj)) cj)
      else wr cs i (with_suffix (put (firstn nj (chp_suffix cj)) 0 (chp_suffix ci)) ci)
    else Ok cs
  else Ok cs.
Fixpoint up_to (n : nat) {A} (f : nat -> A -> res A) (k : nat) (a : A) : res A :=
  match n with O => Ok a | S n' => do b <- f k a; up_to n' f (S k) b end.
Definition propagate (cs : list chip) : res (list chip) :=
  up_to (length cs) (fun i cs => do ci <- rd cs i; let ni := length (until_nul (chp_suffix ci)) in up_to i (fun j cs => propagate_pair ni i j cs) 0 cs) 0 cs.

(** strncmp(a, b, 8) == 0 for suffixes. *)
Definition same_suffix (a b : list N) : bool := bytes_eqb (until_nul a) (until_nul b).
Definition known_series (c : chip) : bool := negb (chp_series c =? se_unknown).

(** The first with a series, or else the last one. *)
Fixpoint prefer (cs : list chip) (last : chip) : chip :=
  match cs with [] => last | c :: r => if known_series c then c else prefer r last end.
(** disambiguate_..._chipset, lines 3845-3953. *)
Definition disambiguate (vendor : N) (hardware board platform mediatek arch chipname hardware_chipname : chip) : chip :=
  if vendor =? ve_qualcomm then prefer [hardware_chipname; chipname; hardware; board] platform
  else if vendor =? ve_mediatek then prefer [chipname; hardware; board; platform] mediatek
  else if vendor =? ve_hisilicon then prefer [hardware; board] platform
  else if vendor =? ve_amlogic then prefer [hardware] platform
  else if vendor =? ve_marvell then prefer [chipname; board] hardware
  else if vendor =? ve_rockchip then prefer [board; hardware] platform
  else if vendor =? ve_spreadtrum then prefer [chipname; board; hardware] platform
  else unknown_chip.

(** Lines 4071-4137: [None] if two chipsets differ. *)
Fixpoint unanimous (chosen : chip) (cs : list chip) : option chip :=
  match cs with
  | [] => Some chosen
  | c :: r =>
      if known_series c then
        if negb (known_series chosen) then unanimous c r
        else if (chp_series c =? chp_series chosen) && (chp_model c =? chp_model chosen) && same_suffix (chp_suffix c) (chp_suffix chosen) then unanimous chosen r
        else None
      else unanimous chosen r
  end.

Definition android_chip (arm32 : bool) (cores frequency : N) (p : android_properties) : res chip :=
  do tegra <- is_tegra (an_platform p);
  do hardware <- from_hardware arm32 cores frequency tegra (an_hardware p);
  do board <- from_board arm32 cores frequency (an_board p);
  do platform <- from_platform arm32 cores frequency (an_platform p);
  do mediatek <- from_mediatek (an_mediatek p);
  do arch <- from_arch (an_arch p);
  do chipname <- from_chipname arm32 (an_chipname p);
  do hardware_chipname <- from_chipname arm32 (an_hardware_chipname p);
  let cs := [hardware; board; platform; mediatek; arch; chipname; hardware_chipname] in
  match agreed_vendor ve_unknown cs with
  | None => Ok unknown_chip
  | Some vendor =>
      if vendor =? ve_unknown then Ok unknown_chip
      else
        do cs <- each (fixup arm32 cores frequency) cs;
        do cs <- propagate cs;
        match unanimous unknown_chip cs with
        | Some c => Ok c
        | None =>
            match cs with
            | [hardware; board; platform; mediatek; arch; chipname; hardware_chipname] =>
                Ok (disambiguate vendor hardware board platform mediatek arch chipname hardware_chipname)
            | _ => UB
            end
        end
  end.
