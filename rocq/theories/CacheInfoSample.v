(** Machines whose caches cache-info reports. *)
From Verif Require Import Base Text TopologySpec X86LinuxModel X86Sample ArmLinuxModel ArmLinuxSample CacheInfoModel CacheInfoSpec.
Open Scope N_scope.

(** A first-level cache and a third-level cache. *)
Definition sample_l1 : cache := Cache (Geometry 32768 8 64 1 64 0) 0 2.
Definition sample_l3 : cache := Cache (Geometry 8388608 16 8192 1 64 7) 0 8.
(** A cache of which the sets are not known. *)
Definition without_sets : cache := Cache (Geometry 32768 8 0 1 64 0) 0 1.

(** x86 caches in which the numbers agree. *)
Definition sample_xcache (size bits : N) : xcache := XCache (Geometry size 8 (size / 512) 1 64 0) bits.
Definition sound_info : xinfo :=
  XInfo 1 2 3 0 1 1 2 (sample_xcache 32768 1) (sample_xcache 32768 1) (sample_xcache 262144 1) (sample_xcache 8388608 3) (sample_xcache 0 0).

