(** Processors that both 32-bit and 64-bit programs can run on; independent of the detection code. *)
From Verif Require Import Base X86DescriptorModel X86DecodeModel X86IsaModel X86IsaSpec ArmUarchModel.
Open Scope N_scope.

(** The features that x86-64 takes for granted: FPU, TSC, CMPXCHG8B, CMOV, MMX, FXSAVE, SSE and SSE2 in leaf 1, and denormals-are-zeros. *)
Record x86_64_processor (m : cpu) : Prop := {
  x64_announces : forall k, In k [0; 4; 8; 15; 23; 24; 25; 26] -> announces m (Place 1 0 edx k);
  x64_daz : N.testbit (mxcsr_mask m) 6 = true
}.
(** Android's ABI for x86-64 takes SSE3, SSSE3, SSE4.1, SSE4.2 and POPCNT for granted too. *)
Definition android_processor (m : cpu) : Prop := forall k, In k [0; 9; 19; 20; 23] -> announces m (Place 1 0 ecx k).

(** Questions whose answer is not about the processor alone: CMPXCHG16B can be used in 64-bit mode only, LAHF and SAHF are always there
    in 32-bit mode, and no processor with the Geode's instructions has a 64-bit mode. *)
Definition depends_on_mode (g : getter) : Prop := In g [Has_cmpxchg16b; Has_lahf_sahf; Has_3dnow_geode].

(** ARM cores that only 64-bit builds know: server cores. *)
Definition known_to_64_only : list N := [u_neoverse_e1; u_thunderx; u_thunderx2; u_taishan_v110; u_oryon; u_falkor; u_saphira].
