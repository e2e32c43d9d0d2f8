(** A reader of what cpu-info prints, and what it should find. *)
From Verif Require Import Base Text TopologySpec LinuxTextSpec ReportSpec.
Open Scope N_scope.

(** ** Names: the identifiers of the constants in include/cpuinfo.h behind cpuinfo_vendor_
    and cpuinfo_uarch_, with their values.  (cpuinfo_vendor_apm is spelled out, as in its
    comment.) *)
Definition vendor_constants : list (list N * N) :=
  [(text "unknown", 0); (text "intel", 1); (text "amd", 2); (text "arm", 3); (text "qualcomm", 4); (text "apple", 5);
   (text "samsung", 6); (text "nvidia", 7); (text "mips", 8); (text "ibm", 9); (text "ingenic", 10); (text "via", 11);
   (text "cavium", 12); (text "broadcom", 13); (text "applied_micro", 14); (text "huawei", 15); (text "hygon", 16); (text "sifive", 17);
   (text "texas_instruments", 30); (text "marvell", 31); (text "rdc", 32); (text "dmp", 33); (text "motorola", 34);
   (text "transmeta", 50); (text "cyrix", 51); (text "rise", 52); (text "nsc", 53); (text "sis", 54); (text "nexgen", 55);
   (text "umc", 56); (text "dec", 57)].
Definition uarch_constants : list (list N * N) :=
  [(text "unknown", 0x0); (text "p5", 0x100100); (text "quark", 0x100101); (text "p6", 0x100200); (text "dothan", 0x100201);
   (text "yonah", 0x100202); (text "conroe", 0x100203); (text "penryn", 0x100204); (text "nehalem", 0x100205);
   (text "sandy_bridge", 0x100206); (text "ivy_bridge", 0x100207); (text "haswell", 0x100208); (text "broadwell", 0x100209);
   (text "sky_lake", 0x10020A); (text "kaby_lake", 0x10020A); (text "palm_cove", 0x10020B); (text "sunny_cove", 0x10020C);
   (text "willamette", 0x100300); (text "prescott", 0x100301); (text "bonnell", 0x100400); (text "saltwell", 0x100401);
   (text "silvermont", 0x100402); (text "airmont", 0x100403); (text "goldmont", 0x100404); (text "goldmont_plus", 0x100405);
   (text "knights_ferry", 0x100500); (text "knights_corner", 0x100501); (text "knights_landing", 0x100502);
   (text "knights_hill", 0x100503); (text "knights_mill", 0x100504); (text "xscale", 0x100600); (text "k5", 0x200100);
   (text "k6", 0x200101); (text "k7", 0x200102); (text "k8", 0x200103); (text "k10", 0x200104); (text "bulldozer", 0x200105);
   (text "piledriver", 0x200106); (text "steamroller", 0x200107); (text "excavator", 0x200108); (text "zen", 0x200109);
   (text "zen2", 0x20010A); (text "zen3", 0x20010B); (text "zen4", 0x20010C); (text "zen5", 0x20010D); (text "geode", 0x200200);
   (text "bobcat", 0x200201); (text "jaguar", 0x200202); (text "puma", 0x200203); (text "arm7", 0x300100); (text "arm9", 0x300101);
   (text "arm11", 0x300102); (text "cortex_a5", 0x300205); (text "cortex_a7", 0x300207); (text "cortex_a8", 0x300208);
   (text "cortex_a9", 0x300209); (text "cortex_a12", 0x300212); (text "cortex_a15", 0x300215); (text "cortex_a17", 0x300217);
   (text "cortex_a32", 0x300332); (text "cortex_a35", 0x300335); (text "cortex_a53", 0x300353); (text "cortex_a55r0", 0x300354);
   (text "cortex_a55", 0x300355); (text "cortex_a57", 0x300357); (text "cortex_a65", 0x300365); (text "cortex_a72", 0x300372);
   (text "cortex_a73", 0x300373); (text "cortex_a75", 0x300375); (text "cortex_a76", 0x300376); (text "cortex_a77", 0x300377);
   (text "cortex_a78", 0x300378); (text "neoverse_n1", 0x300400); (text "neoverse_e1", 0x300401); (text "neoverse_v1", 0x300402);
   (text "neoverse_n2", 0x300403); (text "neoverse_v2", 0x300404); (text "cortex_x1", 0x300501); (text "cortex_x2", 0x300502);
   (text "cortex_x3", 0x300503); (text "cortex_x4", 0x300504); (text "cortex_a510", 0x300551); (text "cortex_a520", 0x300552);
   (text "cortex_a710", 0x300571); (text "cortex_a715", 0x300572); (text "cortex_a720", 0x300573); (text "scorpion", 0x400100);
   (text "krait", 0x400101); (text "kryo", 0x400102); (text "falkor", 0x400103); (text "saphira", 0x400104);
   (text "oryon", 0x400105); (text "denver", 0x500100); (text "denver2", 0x500101); (text "carmel", 0x500102);
   (text "exynos_m1", 0x600100); (text "exynos_m2", 0x600101); (text "exynos_m3", 0x600102); (text "exynos_m4", 0x600103);
   (text "exynos_m5", 0x600104); (text "cortex_a76ae", 0x300376); (text "mongoose_m1", 0x600100); (text "mongoose_m2", 0x600101);
   (text "meerkat_m3", 0x600102); (text "meerkat_m4", 0x600103); (text "swift", 0x700100); (text "cyclone", 0x700101);
   (text "typhoon", 0x700102); (text "twister", 0x700103); (text "hurricane", 0x700104); (text "monsoon", 0x700105);
   (text "mistral", 0x700106); (text "vortex", 0x700107); (text "tempest", 0x700108); (text "lightning", 0x700109);
   (text "thunder", 0x70010A); (text "firestorm", 0x70010B); (text "icestorm", 0x70010C); (text "avalanche", 0x70010D);
   (text "blizzard", 0x70010E); (text "thunderx", 0x800100); (text "thunderx2", 0x800200); (text "pj4", 0x900100);
   (text "brahma_b15", 0xA00100); (text "brahma_b53", 0xA00101); (text "xgene", 0xB00100); (text "dhyana", 0x1000100);
   (text "taishan_v110", 0xC00100)].

(** Letters in lower case and digits. *)
Definition plain_character (c : N) : list N :=
  if (65 <=? c) && (c <=? 90) then [c + 32]
  else if (97 <=? c) && (c <=? 122) || (48 <=? c) && (c <=? 57) then [c] else [].
Definition plain (s : list N) : list N := flat_map plain_character s.
Fixpoint same (a b : list N) : bool :=
  match a, b with
  | [], [] => true
  | x :: a', y :: b' => (x =? y) && same a' b'
  | _, _ => false
  end.
(** The value of the constant whose identifier a name spells. *)
Definition meaning (constants : list (list N * N)) (name : list N) : option N :=
  match find (fun c => same (plain (fst c)) (plain name)) constants with Some c => Some (snd c) | None => None end.

(** ** Reading *)
Local Notation "'let*' x := e 'in' f" := (match e with Some x => f | None => None end) (at level 200, x pattern, f at level 200).

(** Eight hexadecimal digits. *)
Definition hex8 (s : list N) : option (N * list N) :=
  if (length (firstn 8 s) =? 8)%nat then let* n := hex_read (firstn 8 s) 0 in Some (n, skipn 8 s) else None.
Definition the_end {A} (x : A * list N) : option A := match x with (a, []) => Some a | _ => None end.

(** "uarch 0x..." or a name. *)
Definition read_uarch (s : list N) : option N :=
  match after (text "uarch 0x") s with
  | Some r => let* x := hex8 r in the_end x
  | None => meaning uarch_constants s
  end.
(** "vendor 0x... uarch 0x...", or the name of a vendor, a blank and the microarchitecture. *)
Fixpoint read_named (front s : list N) : option (N * N) :=
  match s with
  | [] => None
  | c :: s' =>
      if c =? 32 then
        match meaning vendor_constants front with
        | Some v => let* u := read_uarch s' in Some (v, u)
        | None => read_named (front ++ [c]) s'
        end
      else read_named (front ++ [c]) s'
  end.
Definition read_kind (s : list N) : option (N * N) :=
  match after (text "vendor 0x") s with
  | Some r => let* (v, r) := hex8 r in let* r := after (text " ") r in let* u := read_uarch r in Some (v, u)
  | None => read_named [] s
  end.

(** "i: 1 thing (k)" or "i: n things (k-l)": the index, how many, the first and the last. *)
Record range := Range { r_index : N; r_count : N; r_first : N; r_last : N }.
Definition read_range (thing s : list N) : option (range * list N) :=
  let* (i, r) := number_then (text ": ") s in
  let* (n, r) := number_then (text " ") r in
  let* r := after thing r in
  match after (text " (") r with
  | Some r => let* (k, r) := number_then (text ")") r in if n =? 1 then Some (Range i 1 k k, r) else None
  | None => let* r := after (text "s (") r in
            let* (k, r) := number_then (text "-") r in
            let* (l, r) := number_then (text ")") r in Some (Range i n k l, r)
  end.

(** The lines, without the tab at their start. *)
Definition read_package (s : list N) : option (N * list N) := number_then (text ": ") s.
Definition read_count (s : list N) : option (N * N) :=
  let* (n, r) := number_then (text "x ") s in let* u := meaning uarch_constants r in Some (n, u).
Definition read_core (s : list N) : option (range * (N * N)) :=
  let* (g, r) := read_range (text "processor") s in
  let* r := after (text ", ") r in
  let* k := read_kind r in Some (g, k).
Definition read_cluster (s : list N) : option (range * range * (N * N)) :=
  let* (g, r) := read_range (text "processor") s in
  let* r := after [44; 9] r in
  let* (h, r) := read_range (text "core") r in
  let* r := after (text ", ") r in
  let* k := read_kind r in Some (g, h, k).
(** The index, the system's number and the APIC id. *)
Definition read_processor (on_linux on_x86 : bool) (s : list N) : option (N * option N * option N) :=
  let* (i, r) := a_number s in
  let* (id, r) := (if on_linux then let* r := after (text " (") r in let* (n, r) := number_then (text ")") r in Some (Some n, r) else Some (None, r)) in
  let* (apic, r) := (if on_x86 then let* r := after (text ": APIC ID 0x") r in let* (n, r) := hex8 r in Some (Some n, r) else Some (None, r)) in
  the_end ((i, id, apic), r).

Fixpoint all_of {A} (f : list N -> option A) (ls : list (list N)) : option (list A) :=
  match ls with
  | [] => Some []
  | l :: ls' => let* a := f l in let* r := all_of f ls' in Some (a :: r)
  end.

(** The report: five headings, each with its lines. *)
Record report := Report {
  rp_packages : list (N * list N); rp_uarchs : list (N * N); rp_cores : list (range * (N * N));
  rp_clusters : list (range * range * (N * N)); rp_processors : list (N * option N * option N) }.
Definition headed (h : list N) (s : section) : option (list (list N)) :=
  match after h (fst s) with Some [] => Some (snd s) | _ => None end.
Definition read_cpu_info (on_android on_linux on_x86 : bool) (s : list N) : option report :=
  let* ss := sections s in
  match ss with
  | [a; b; c; d; e] =>
      let* packages := (if on_android
                        then let* name := after (text "SoC name: ") (fst a) in match snd a with [] => Some [(0, name)] | _ => None end
                        else let* ls := headed (text "Packages:") a in all_of read_package ls) in
      let* ls := headed (text "Microarchitectures:") b in let* uarchs := all_of read_count ls in
      let* ls := headed (text "Cores:") c in let* cores := all_of read_core ls in
      let* ls := headed (text "Clusters:") d in let* clusters := all_of read_cluster ls in
      let* ls := headed (if on_linux then text "Logical processors (System ID):" else text "Logical processors:") e in
      let* processors := all_of (read_processor on_linux on_x86) ls in
      Some (Report packages uarchs cores clusters processors)
  | _ => None
  end.

(** ** What the reader should find *)
Definition numbered {A B} (f : N -> A -> B) (l : list A) : list B :=
  map (fun p => f (N.of_nat (fst p)) (snd p)) (combine (seq 0 (length l)) l).
Definition range_of (i : N) (start count : nat) : range :=
  Range i (N.of_nat count) (N.of_nat start) (N.of_nat (start + count - 1)).
Definition core_line (i : N) (c : core) : range * (N * N) :=
  (range_of i (c_processor_start c) (c_processor_count c), (c_vendor c, c_uarch c)).
Definition cluster_line (i : N) (c : cluster) : range * range * (N * N) :=
  (range_of i (cl_processor_start c) (cl_processor_count c), range_of i (cl_core_start c) (cl_core_count c), (cl_vendor c, cl_uarch c)).
Definition processor_line (on_linux on_x86 : bool) (i : N) (p : processor) : N * option N * option N :=
  (i, if on_linux then Some (p_linux_id p) else None, if on_x86 then Some (p_apic_id p) else None).
(** Non-empty, and no larger than 32-bit numbers can tell. *)
Definition told (start count : nat) : Prop := (0 < count)%nat /\ N.of_nat (start + count) <= two32.

(** The constants for which the tool has no name. *)
Definition without_name (constants : list (list N * N)) (ids : list (list N)) (n : N) : Prop := exists id, In id ids /\ In (id, n) constants.
Definition unnamed_uarchs : list (list N) := [text "cortex_x4"; text "cortex_a520"; text "cortex_a720"].
Definition unnamed_vendors : list (list N) :=
  [text "sifive"; text "texas_instruments"; text "marvell"; text "rdc"; text "dmp"; text "motorola"; text "transmeta"; text "cyrix";
   text "rise"; text "nsc"; text "sis"; text "nexgen"; text "umc"; text "dec"].

Definition two31 : N := 2147483648.
(** Names are single lines, numbers have 32 bits, and groups are not empty. *)
Record printable (names : list (list N)) (uarchs : list (N * nat)) (cores : list core) (clusters : list cluster) (processors : list processor) : Prop := {
  lines : Forall (fun name => ~ In 10 name) names /\ N.of_nat (length names) <= two32;
  counts : Forall (fun u => N.of_nat (snd u) < two32 /\ (exists id, In (id, fst u) uarch_constants) /\ ~ without_name uarch_constants unnamed_uarchs (fst u)) uarchs;
  core_ranges : Forall (fun c => told (c_processor_start c) (c_processor_count c) /\ N.of_nat (c_processor_count c) < two32 /\
    c_vendor c < two32 /\ c_uarch c < two32) cores /\ N.of_nat (length cores) <= two32;
  cluster_ranges : Forall (fun c => told (cl_processor_start c) (cl_processor_count c) /\ N.of_nat (cl_processor_count c) < two32 /\
    told (cl_core_start c) (cl_core_count c) /\ N.of_nat (cl_core_count c) < two32 /\ cl_vendor c < two32 /\ cl_uarch c < two32) clusters /\
    N.of_nat (length clusters) <= two32;
  ids : Forall (fun p => p_linux_id p < two31 /\ p_apic_id p < two32) processors /\ N.of_nat (length processors) <= two32
}.

(** The ranges of the lines are those of the groups that the elements point to: [owner]
    gives for each element the index of its group. *)
Definition ranges_right (owner : list (option nat)) (rs : list range) : Prop :=
  forall i j, nth_error owner i = Some (Some j) <-> exists r, nth_error rs j = Some r /\ r_index r = N.of_nat j /\ r_first r <= N.of_nat i <= r_last r.

(** A vendor and a microarchitecture given by names. *)
Definition in_words (v u : N) (s : list N) : Prop :=
  exists vs us, s = text ", " ++ vs ++ text " " ++ us /\ meaning vendor_constants vs = Some v /\ meaning uarch_constants us = Some u.
