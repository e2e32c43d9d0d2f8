(** What must be published on Windows for ARM, in terms of the sets of processors that Windows
    names.  Nothing here mentions the code. *)
From Verif Require Import Base Text TopologySpec ArmIsaModel ArmUarchModel ArmWindowsModel.
From Verif Require X86WindowsSpec X86WindowsModel ArmLinuxModel.
Import X86WindowsSpec(group_start, mask_processors, mask_valid, says, numbered).
Import X86WindowsModel(winfo, wi_expected, wi_groups).
Import ArmLinuxModel(arm_uarch, ArmUarch, au_uarch, au_midr, au_processors, au_cores).
Open Scope nat_scope.

(** ** The machine *)

(** Every processor is in exactly one set, and no set is empty. *)
Definition partition (n : nat) (sets : list (list nat)) : Prop :=
  Permutation (concat sets) (seq 0 n) /\ Forall (fun s => s <> []) sets.

(** Windows describes cores and packages: the masks are within the groups, each core is in one
    package, and the second answer about cores is like the first. *)
Record arm_windows_says (a : arm_windows_answers) (sizes : list nat) (cores packages : list (list nat)) : Prop := {
  aws_sizes : sizes = map (aw_group_size a) (seq 0 (aw_group_count a));
  aws_some : 0 < list_sum sizes;
  aws_packages : exists infos, aw_packages a = Some infos /\ says sizes infos packages;
  aws_cores : exists infos, aw_cores a = Some infos /\ says sizes infos cores;
  aws_cores2 : exists infos, aw_cores2 a = Some infos /\ says sizes infos cores;
  aws_cores_partition : partition (list_sum sizes) cores;
  aws_packages_partition : partition (list_sum sizes) packages;
  aws_nested : forall c, In c cores -> exists k, In k packages /\ incl c k
}.

(** ** Caches *)

(** A cache that is level 2 or 3, or a level-1 cache of instructions or data. *)
Definition of_level (info : cinfo) (k : kind) : Prop :=
  match k with
  | K1i => cc_level info = 1%N /\ cc_type info = 1%N
  | K1d => cc_level info = 1%N /\ cc_type info = 2%N
  | K2 => cc_level info = 2%N
  | K3 => cc_level info = 3%N
  end.
Definition of_levelb (k : kind) (info : cinfo) : bool :=
  match k with
  | K1i => (cc_level info =? 1) && (cc_type info =? 1)
  | K1d => (cc_level info =? 1) && (cc_type info =? 2)
  | K2 => cc_level info =? 2
  | K3 => cc_level info =? 3
  end%N.
Definition cache_set (sizes : list nat) (info : cinfo) : list nat := flat_map (mask_processors sizes) (cc_groups info).

(** Windows describes the caches, the same way twice. *)
Record caches_say (a : arm_windows_answers) (sizes : list nat) (infos : list cinfo) : Prop := {
  cas_first : exists all, aw_caches a = Some all /\ filter cc_expected all = infos;
  cas_second : exists all, aw_caches2 a = Some all /\ filter cc_expected all = infos;
  cas_some : infos <> [];
  cas_levels : Forall (fun i => exists k, of_level i k) infos;
  cas_masks : Forall (fun i => Forall (mask_valid sizes) (cc_groups i)) infos;
  cas_numbers : Forall (fun i => cc_line i <> 0%N /\ cc_associativity i <> 0%N) infos
}.

(** ** The tables *)

Definition least (i : nat) (s : list nat) : Prop := In i s /\ Forall (fun x => i <= x) s.

(** The cores with a processor in [q]. *)
Definition cores_in (cores : list (list nat)) (q : list nat) : list nat :=
  filter (fun j => existsb (fun i => existsb (Nat.eqb i) q) (nth j cores [])) (seq 0 (length cores)).

Record placed (sizes : list nat) (cores packages : list (list nat)) (t : arm_windows_tables) : Prop := {
  pl_processors : length (awt_processors t) = list_sum sizes;
  pl_core : forall i p, nth_error (awt_processors t) i = Some p ->
    exists j s, nth_error cores j = Some s /\ In i s /\ p_core p = Some j /\ p_cluster p = Some j;
  pl_package : forall i p, nth_error (awt_processors t) i = Some p ->
    exists k s, nth_error packages k = Some s /\ In i s /\ p_package p = Some k;
  pl_cores : Forall2 (fun c s => least (c_processor_start c) s /\ c_processor_count c = length s /\
    exists k q, c_package c = Some k /\ nth_error packages k = Some q /\ incl s q) (awt_cores t) cores;
  pl_core_ids : forall j c, nth_error (awt_cores t) j = Some c -> c_core_id c = j /\ c_cluster c = Some j;
  pl_clusters : Forall2 (fun l s => least (cl_processor_start l) s /\ cl_processor_count l = length s /\
    exists k q, cl_package l = Some k /\ nth_error packages k = Some q /\ incl s q) (awt_clusters t) cores;
  pl_cluster_cores : forall j l, nth_error (awt_clusters t) j = Some l -> cluster_cores l = (j, 1);
  pl_packages : Forall2 (fun k q => least (pk_processor_start k) q /\ pk_processor_count k = length q /\
    least (pk_core_start k) (cores_in cores q) /\ pk_core_count k = length (cores_in cores q) /\
    package_clusters k = package_cores k) (awt_packages t) packages;
  pl_ids : numbered sizes (awt_ids t) (list_sum sizes)
}.

(** The same vendor, microarchitecture, frequency and name everywhere. *)
Record uniform (n cores packages : nat) (vendor uarch frequency : N) (name : list N) (t : arm_windows_tables) : Prop := {
  un_cores : Forall (fun c => c_vendor c = vendor /\ c_uarch c = uarch) (awt_cores t);
  un_clusters : Forall (fun l => cl_vendor l = vendor /\ cl_uarch l = uarch) (awt_clusters t);
  un_core_frequencies : awt_core_frequencies t = repeat frequency cores;
  un_cluster_frequencies : awt_cluster_frequencies t = repeat frequency cores;
  un_names : awt_names t = repeat name packages;
  un_uarchs : (uarch = 0%N -> awt_uarchs t = []) /\
    (uarch <> 0%N -> exists u, awt_uarchs t = [u] /\ au_uarch u = uarch /\ au_processors u = n /\ au_cores u = cores)
}.

(** One cache: where it starts, unless no processor is named, and its numbers. *)
Record cache_described (sizes : list nat) (info : cinfo) (c : wcache) : Prop := {
  cd_size : g_size (wc_geometry c) = cc_size info;
  cd_associativity : g_associativity (wc_geometry c) = cc_associativity info;
  cd_line : g_line_size (wc_geometry c) = cc_line info;
  cd_partitions : g_partitions (wc_geometry c) = 1%N;
  cd_sets : g_sets (wc_geometry c) = (cc_size info / (cc_line info * cc_associativity info))%N;
  cd_flags : g_flags (wc_geometry c) = (if cc_type info =? 0 then 1 else 0)%N;
  cd_count : wc_count c = length (cache_set sizes info);
  cd_start : match wc_start c with Some i => least i (cache_set sizes info) | None => cache_set sizes info = [] end
}.

(** The caches of a kind, and the last one that names a processor is the one it points to. *)
Record level_described (sizes : list nat) (infos : list cinfo) (k : kind) (t : arm_windows_tables) : Prop := {
  ld_caches : Forall2 (cache_described sizes) (filter (of_levelb k) infos) (awt_caches t k);
  ld_pointers : length (awt_cache_of t k) = list_sum sizes;
  ld_points : forall i j, nth_error (awt_cache_of t k) i = Some (Some j) ->
    exists info, nth_error (filter (of_levelb k) infos) j = Some info /\ In i (cache_set sizes info) /\
      forall j' info', j < j' -> nth_error (filter (of_levelb k) infos) j' = Some info' -> ~ In i (cache_set sizes info');
  ld_null : forall i, nth_error (awt_cache_of t k) i = Some None ->
    forall info, In info (filter (of_levelb k) infos) -> ~ In i (cache_set sizes info)
}.

(** The size of the last-level cache of the first processor, or zero. *)
Definition pointed_size (t : arm_windows_tables) (k : kind) : option N :=
  match nth_error (awt_cache_of t k) 0 with
  | Some (Some j) => match nth_error (awt_caches t k) j with Some c => Some (g_size (wc_geometry c)) | None => None end
  | _ => None
  end.
Definition last_level (t : arm_windows_tables) : N :=
  match pointed_size t K3 with Some n => n | None =>
  match pointed_size t K2 with Some n => n | None =>
  match pointed_size t K1d with Some n => n | None => 0%N end end end.

(** ** The chip *)

(** The registry tells a name, the register MIDR and a frequency in MHz. *)
Record registry_says (r : registry) (name : list N) (midr mhz : N) : Prop := {
  rs_size : exists size, rg_name_size r = Some size /\ size <> 0%N;
  rs_name : exists rest, rg_name r = Some (name ++ 0%N :: rest);
  rs_units : Forall (fun c => 0 < c < 65536)%N name;
  rs_midr : exists value, rg_midr r = Some (8%N, value) /\ midr = (value mod two32)%N /\ midr <> 0%N;
  rs_mhz : rg_mhz r = Some (4%N, mhz) /\ mhz <> 0%N
}.

(** The characters of a text in UTF-16; [None] if a surrogate has no partner. *)
Fixpoint utf16_characters (units : list N) : option (list N) :=
  match units with
  | [] => Some []
  | u :: rest =>
      if ((0xD800 <=? u) && (u <=? 0xDBFF))%N then
        match rest with
        | v :: rest' =>
            if ((0xDC00 <=? v) && (v <=? 0xDFFF))%N then option_map (cons (0x10000 + (u mod 1024) * 1024 + v mod 1024)%N) (utf16_characters rest') else None
        | [] => None
        end
      else if ((0xDC00 <=? u) && (u <=? 0xDFFF))%N then None
      else option_map (cons u) (utf16_characters rest)
  end.
(** The characters of a text in UTF-8. *)
Definition continues (b : N) : bool := ((0x80 <=? b) && (b <=? 0xBF))%N.
Fixpoint utf8_characters (bytes : list N) : option (list N) :=
  match bytes with
  | [] => Some []
  | a :: rest =>
      if (a <=? 0x7F)%N then option_map (cons a) (utf8_characters rest)
      else if ((0xC0 <=? a) && (a <=? 0xDF))%N then
        match rest with
        | b :: rest => if continues b then option_map (cons (a mod 32 * 64 + b mod 64)%N) (utf8_characters rest) else None
        | _ => None
        end
      else if ((0xE0 <=? a) && (a <=? 0xEF))%N then
        match rest with
        | b :: c :: rest =>
            if continues b && continues c then option_map (cons (a mod 16 * 4096 + b mod 64 * 64 + c mod 64)%N) (utf8_characters rest) else None
        | _ => None
        end
      else if ((0xF0 <=? a) && (a <=? 0xF7))%N then
        match rest with
        | b :: c :: d :: rest =>
            if continues b && continues c && continues d then
              option_map (cons (a mod 8 * 262144 + b mod 64 * 4096 + c mod 64 * 64 + d mod 64)%N) (utf8_characters rest)
            else None
        | _ => None
        end
      else None
  end.
(** The bytes that characters take in UTF-8. *)
Definition utf8_size (characters : list N) : nat :=
  list_sum (map (fun c => if (c <=? 0x7F)%N then 1 else if (c <=? 0x7FF)%N then 2 else if (c <=? 0xFFFF)%N then 3 else 4) characters).

(** ** Memory *)

(** The tables, and three blocks that are never freed. *)
Definition kept_blocks : list hblock := [H_processors; H_packages; H_clusters; H_cores; H_caches; H_uarchs].
Definition leaked (b : hblock) : Prop := b = H_text \/ b = H_chip \/ b = H_name.

(** ** Instruction sets *)

(** What each question tells.  Windows has no question about half-precision arithmetic and rounding
    doubling multiply-accumulate. *)
Definition windows_extensions : list (getter * pf) :=
  [(Has_atomics, PF_atomic); (Has_neon_dot, PF_dot); (Has_aes, PF_crypto); (Has_sha1, PF_crypto); (Has_sha2, PF_crypto); (Has_pmull, PF_crypto);
   (Has_crc32, PF_crc32)].
Definition windows_assumed : list getter := [Has_fp16_arith; Has_neon_fp16_arith; Has_neon_rdm].
Definition windows_always : list getter :=
  [Has_v8; Has_idiv; Has_vfpv3; Has_vfpv3_d32; Has_vfpv3_fp16; Has_vfpv3_fp16_d32; Has_vfpv4; Has_vfpv4_d32; Has_neon; Has_neon_fp16;
   Has_neon_fma; Has_neon_v8].
