(** Property C103: the caches that CPUID's leaf 2 names are found, in whatever order they are named. *)
From Verif Require Import Base TopologySpec X86LinuxModel X86DescriptorModel X86DecodeModel X86DecodeSpec Leaf2Spec Leaf2Proofs Leaf2Sample.
From Coq Require Import List Lia. Import ListNotations.
Open Scope N_scope.

(** An Intel processor without leaf 4: if one of its descriptors is for a cache, and no other is for the same, the cache is found as the
    manual gives it, wherever in the registers the descriptor is; a cache without a descriptor is not found.  (0x82 and 0xD2 are decoded
    wrongly, see C40.) *)
Theorem x86_leaf2_caches_found : forall b m fuel,
  decode_vendor b (ebx (cpuid m 0)) (ecx (cpuid m 0)) (edx (cpuid m 0)) = vendor_intel ->
  2 <= eax (cpuid m 0) < 4 -> eax (cpuid m 0x80000000) < 0x8000001D ->
  let family := mi_family (decode_model_info (eax (cpuid m 1))) in let model := mi_model (decode_model_info (eax (cpuid m 1))) in
  exists x, init_processor b m fuel = Ok x /\ forall s,
    (forall d kilobytes ways line, names m d -> intel_cache family model d = Some (s, kilobytes, ways, line) -> d <> 0x82 -> d <> 0xD2 ->
       (forall d', names m d' -> describes_cache family model d' s \/ unsourced d' -> d' = d) ->
       documented_geometry kilobytes ways line (xc_geometry (found x s))) /\
    ((forall d, names m d -> ~ describes_cache family model d s /\ ~ unsourced d) -> found x s = xcache0).
Proof. exact old_intel. Qed.
Print Assumptions x86_leaf2_caches_found.

(** The order of the descriptors, how often they are repeated and over how many readings they are spread does not matter on Intel
    processors, if no two of them are for the same cache. *)
Theorem x86_leaf2_order_intel : forall b m answers fuel,
  decode_vendor b (ebx (cpuid m 0)) (ecx (cpuid m 0)) (edx (cpuid m 0)) = vendor_intel ->
  (forall d, names (with_leaf2 m answers) d <-> names m d) -> (forall d, names m d -> ~ unsourced d) ->
  let family := mi_family (decode_model_info (eax (cpuid m 1))) in let model := mi_model (decode_model_info (eax (cpuid m 1))) in
  (forall d d' s, names m d -> names m d' -> describes_cache family model d s -> describes_cache family model d' s -> d = d') ->
  init_processor b (with_leaf2 m answers) fuel = init_processor b m fuel.
Proof. exact order_intel. Qed.
Print Assumptions x86_leaf2_order_intel.

(** The same for every vendor, with what the library knows of the descriptors. *)
Theorem x86_leaf2_order : forall b m answers fuel,
  (forall d, names (with_leaf2 m answers) d <-> names m d) ->
  (forall d d' s, names m d -> names m d' -> d <> d' -> silent_about b m d s \/ silent_about b m d' s) ->
  init_processor b (with_leaf2 m answers) fuel = init_processor b m fuel.
Proof. exact order_of_descriptors. Qed.
Print Assumptions x86_leaf2_order.

Example x86_leaf2_case :
  let m := pentium4 told in
  decode_vendor (Build true false) (ebx (cpuid m 0)) (ecx (cpuid m 0)) (edx (cpuid m 0)) = vendor_intel /\
  2 <= eax (cpuid m 0) < 4 /\ eax (cpuid m 0x80000000) < 0x8000001D /\
  (forall d, names (pentium4 shuffled) d <-> names m d) /\ (forall d, names m d -> ~ unsourced d) /\
  (forall d d' s, names m d -> names m d' -> describes_cache 15 0 d s -> describes_cache 15 0 d' s -> d = d') /\
  exists x, init_processor (Build true false) (pentium4 shuffled) 10 = Ok x /\ g_size (xc_geometry (xi_l2 x)) = 256 * 1024.
Proof.
  cbv zeta. split; [vm_compute; reflexivity|]. split; [vm_compute; split; congruence|]. split; [reflexivity|].
  split; [intros d; now rewrite names_told, names_shuffled|].
  split; [intros d; rewrite names_told; cbn [In]; unfold unsourced; lia|].
  split; [|eexists; split; vm_compute; reflexivity].
  intros d d' s. rewrite !names_told. intros I I' (k & w & l & E) (k' & w' & l' & E'). cbn [In] in I, I'.
  repeat (destruct I as [<-|I]; [vm_compute in E; try discriminate E; injection E as <- _ _ _;
    repeat (destruct I' as [<-|I']; [vm_compute in E'; first [reflexivity | discriminate E']|]); destruct I'|]). destruct I.
Qed.

(** Two descriptors for the same cache: the later one counts. *)
Example x86_leaf2_conflict_case :
  exists x x', init_processor (Build true false) (pentium4 (Regs 0x4E4801 0 0 0)) 10 = Ok x /\ init_processor (Build true false) (pentium4 (Regs 0x484E01 0 0 0)) 10 = Ok x' /\
    g_size (xc_geometry (xi_l2 x)) = 6144 * 1024 /\ g_size (xc_geometry (xi_l2 x')) = 3072 * 1024.
Proof. do 2 eexists. split; [vm_compute; reflexivity|]. split; [vm_compute; reflexivity|]. split; vm_compute; reflexivity. Qed.
