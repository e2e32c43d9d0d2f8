(** What the library should say about Apple processors, independent of the detection code. *)
From Verif Require Import Base Text LinuxTextSpec TopologySpec ArmIsaModel.
From Verif Require X86CountsModel X86CountsSpec ArmLinuxModel ArmMachModel.
Import X86CountsModel(mach_answers, ma_physicalcpu_max, ma_logicalcpu_max, ma_packages).
Import X86CountsSpec(level_shared).
Import ArmLinuxModel(arm_uarch, au_uarch, au_midr, au_processors, au_cores).
Import ArmMachModel(sys_answer, sa_size, sa_value, feature, LSE, RDM, FP16, FHM, FHM_legacy, BF16, FCMA, JSCVT, DotProd, I8MM, SME, SME2,
  apple_tables, at_tables, at_uarchs, at_name, mblock, M_processors, M_cores, M_clusters, M_packages, M_uarchs, M_l1i, M_l1d, M_l2, M_l3).
Open Scope nat_scope.

(** An answer tells a number if it is one of four bytes; one that does not counts as zero. *)
Definition tells (a : sys_answer) (v : N) : Prop :=
  sa_size a = Some 4%N /\ sa_value a = Some v \/ (sa_size a <> Some 4%N \/ sa_value a = None) /\ v = 0%N.

(** ** Cores *)

(** Families of equal cores: A7, A8, A9, A10. *)
Definition uniform : list (N * N) := [(0x37A09642, 0x700101); (0x2C91A47E, 0x700102); (0x92FB37C8, 0x700103); (0x67CEEE93, 0x700104)]%N.
(** Families of performance and efficiency cores: A12, A13, A14 and M1, A15 and M2. *)
Definition paired : list (N * (N * N)) :=
  [(0x07D34B9F, (0x700107, 0x700108)); (0x462504D2, (0x700109, 0x70010A)); (0x1B588BB3, (0x70010B, 0x70010C));
   (0xDA33D83D, (0x70010D, 0x70010E))]%N.
(** A11. *)
Definition monsoon_mistral : N := 0xE81E7EF6.
Definition known_family (family : N) : Prop := In family (map fst uniform) \/ In family (map fst paired) \/ family = monsoon_mistral.

(** The kinds of [n] cores: performance cores first, then four efficiency cores. *)
Record core_kinds (family : N) (n : nat) (kinds : list N) : Prop := {
  ck_uniform : forall u, In (family, u) uniform -> kinds = repeat u n;
  ck_paired : forall b l, In (family, (b, l)) paired -> kinds = repeat b (n - 4) ++ repeat l (Nat.min 4 n);
  ck_monsoon : family = monsoon_mistral -> kinds = repeat 0x700105%N (Nat.min 2 n) ++ repeat 0x700106%N (n - 2);
  ck_unknown : ~ known_family family -> kinds = repeat 0%N n
}.

Definition apple : N := 5.

(** One package of [n] cores with one thread each; neighbouring cores are in the same cluster
    exactly if they are of the same kind; the table of microarchitectures has one entry for
    each cluster. *)
Record apple_described (family : N) (n : nat) (p : apple_tables) : Prop := {
  ad_counts : (t_processors_count (at_tables p), t_cores_count (at_tables p), t_packages_count (at_tables p)) = (n, n, 1);
  ad_lengths : (length (t_processors (at_tables p)), length (t_cores (at_tables p)), length (t_packages (at_tables p))) = (n, n, 1);
  ad_clusters : t_clusters_count (at_tables p) = length (t_clusters (at_tables p)) /\ length (t_clusters (at_tables p)) <= 2;
  ad_consistent : consistent (t_processors (at_tables p)) (t_cores (at_tables p)) (t_clusters (at_tables p)) (t_packages (at_tables p));
  ad_ids : ids_are_offsets (t_processors (at_tables p)) (t_cores (at_tables p)) (t_clusters (at_tables p)) (t_packages (at_tables p));
  ad_own_core : forall i q, nth_error (t_processors (at_tables p)) i = Some q -> p_core q = Some i;
  ad_kinds : core_kinds family n (map c_uarch (t_cores (at_tables p)));
  ad_vendor : Forall (fun c => c_vendor c = apple) (t_cores (at_tables p)) /\ Forall (fun l => cl_vendor l = apple) (t_clusters (at_tables p));
  ad_cluster_kind : forall i c j l, nth_error (t_cores (at_tables p)) i = Some c -> c_cluster c = Some j ->
    nth_error (t_clusters (at_tables p)) j = Some l -> cl_uarch l = c_uarch c;
  ad_cluster_differs : forall i l m, nth_error (t_clusters (at_tables p)) i = Some l -> nth_error (t_clusters (at_tables p)) (S i) = Some m ->
    cl_uarch l <> cl_uarch m;
  ad_uarchs : map (fun u => (au_uarch u, au_midr u, au_processors u, au_cores u)) (at_uarchs p) =
              map (fun l => (cl_uarch l, 0%N, cl_processor_count l, cl_core_count l)) (t_clusters (at_tables p))
}.

(** As many logical processors as cores, and one package (iOS does not tell). *)
Definition one_each (a : mach_answers) (n : nat) : Prop :=
  ma_physicalcpu_max a = Some (Z.of_nat n) /\ ma_logicalcpu_max a = Some (Z.of_nat n) /\ (ma_packages a = Some 1%Z \/ ma_packages a = None).

(** ** Caches *)

Definition apple_cache (size associativity line : N) : geometry := Geometry size associativity (size / (associativity * line)) 1 line 0.
Definition first_nonzero (l : list N) : N := match find (fun n => negb (n =? 0)%N) l with Some n => n | None => 0%N end.

(** First-level caches of each processor's own, and second- and third-level ones of all. *)
Record apple_caches (line l1i l1d l2 l3 : N) (n : nat) (t : tables) : Prop := {
  ac_l1i : level_shared (apple_cache l1i 4 line) n 1 (t_l1i_of t) (t_l1i t) (t_l1i_count t);
  ac_l1d : level_shared (apple_cache l1d 4 line) n 1 (t_l1d_of t) (t_l1d t) (t_l1d_count t);
  ac_l2 : level_shared (apple_cache l2 8 line) n n (t_l2_of t) (t_l2 t) (t_l2_count t) /\ length (t_l2 t) <= 1;
  ac_l3 : level_shared (apple_cache l3 16 line) n n (t_l3_of t) (t_l3 t) (t_l3_count t) /\ length (t_l3 t) <= 1;
  ac_l4 : t_l4 t = [] /\ t_l4_count t = 0 /\ Forall (fun q => q = None) (t_l4_of t);
  ac_max : t_max_cache_size t = first_nonzero [l3; l2; l1d]
}.

(** The memory behind published pointers. *)
Definition apple_block (l1i l1d l2 l3 : N) (b : mblock) : Prop :=
  match b with
  | M_processors | M_cores | M_clusters | M_packages | M_uarchs => True
  | M_l1i => l1i <> 0%N | M_l1d => l1d <> 0%N | M_l2 => l2 <> 0%N | M_l3 => l3 <> 0%N
  end.

(** ** Instruction sets *)

(** What the cores since A11 and since A13 have, and cores before iOS 15 cannot be asked for. *)
Definition a11_to_a14 : list N := [0xE81E7EF6; 0x07D34B9F; 0x462504D2; 0x1B588BB3]%N.
Definition a13_to_a14 : list N := [0x462504D2; 0x1B588BB3]%N.
(** The getters, the names asked for, and the families known to have the extension. *)
Definition apple_extensions : list (getter * (list feature * list N)) :=
  [(Has_atomics, ([LSE], a11_to_a14)); (Has_neon_rdm, ([RDM], a11_to_a14));
   (Has_fp16_arith, ([FP16], a11_to_a14)); (Has_neon_fp16_arith, ([FP16], a11_to_a14));
   (Has_fhm, ([FHM; FHM_legacy], a13_to_a14)); (Has_fcma, ([FCMA], a13_to_a14)); (Has_jscvt, ([JSCVT], a13_to_a14));
   (Has_neon_dot, ([DotProd], a13_to_a14));
   (Has_bf16, ([BF16], [])); (Has_neon_bf16, ([BF16], [])); (Has_i8mm, ([I8MM], [])); (Has_sme, ([SME], [])); (Has_sme2, ([SME2], []))].
(** What all have that run 64-bit programs, and what the library never reports on them. *)
Definition apple_always : list getter := [Has_aes; Has_sha1; Has_sha2; Has_pmull; Has_crc32].
Definition apple_never : list getter :=
  [Has_sve; Has_sve_bf16; Has_sve2; Has_sme2p1; Has_sme_i16i32; Has_sme_bi32i32; Has_sme_b16b16; Has_sme_f16f16].

(** ** Names *)

(** A buffer holds a text if a zero ends it. *)
Definition holds (buffer : list N) (s : list N) : Prop := ~ In 0%N s /\ exists rest, buffer = s ++ 0%N :: rest.
(** All numbers in a text fit in 32 bits. *)
Definition small_numbers (s : list N) : Prop := forall a ds b, s = a ++ ds ++ b -> Forall is_digit ds -> (dec_value ds < two32)%N.
Definition strings_defined (brand machine : option (list N)) : Prop :=
  match brand with
  | Some buffer => exists s, holds buffer s
  | None => match machine with Some buffer => exists s, holds buffer s /\ small_numbers s | None => True end
  end.

(** A number without leading zeros. *)
Definition numeral (n : N) (ds : list N) : Prop := is_decimal ds /\ dec_value ds = n /\ (forall r, ds = 48%N :: r -> r = []).

(** The letters before the numbers of a device. *)
Definition device_name (name : list N) : Prop := 0 < length name <= 9 /\ Forall (fun c => c <> 44%N /\ ~ is_digit c) name.
(** The devices with a chip of each name: the first and last number of the second part. *)
Definition apple_devices : list (list N * N * (N * N) * list N) :=
  [(text "iPad", 2, (1, 7), text "Apple A5"); (text "iPad", 3, (1, 3), text "Apple A5X"); (text "iPad", 3, (4, 6), text "Apple A6X");
   (text "iPad", 4, (1, 9), text "Apple A7"); (text "iPad", 5, (1, 2), text "Apple A8"); (text "iPad", 5, (3, 4), text "Apple A8X");
   (text "iPad", 6, (3, 4), text "Apple A9X"); (text "iPad", 6, (7, 8), text "Apple A9X"); (text "iPad", 6, (11, 12), text "Apple A9"); (text "iPad", 7, (1, 4), text "Apple A10X");
   (text "iPad", 7, (5, 6), text "Apple A10"); (text "iPad", 7, (11, 12), text "Apple A10"); (text "iPod", 5, (1, 1), text "Apple A5"); (text "iPod", 7, (1, 1), text "Apple A8")]%N.
