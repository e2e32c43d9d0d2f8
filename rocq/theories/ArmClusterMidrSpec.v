(** What the main id registers and frequencies of ARM clusters should be, independent
    of the detection code. *)
From Verif Require Import Base ArmMidrSpec ArmClustersSpec.
From Verif Require ArmClustersModel.
Import ArmClustersModel(aproc, aproc0, a_flags, a_midr, a_max, a_min, a_leader, a_count, a_id, a_vendor, a_uarch, a_uarch_index,
  a_report, a_valid).
Open Scope nat_scope.

(** What /proc/cpuinfo said about a processor: bits 16 to 20 of the flags tell that
    the architecture, implementer, variant, part and revision are known, bit 21 that the
    processor was listed; bit 2 tells that the maximum frequency is known. *)
Definition reports (p : aproc) : bool := forallb (N.testbit (a_flags p)) [16; 17; 18; 19; 20; 21]%N.
Definition names_core (p : aproc) : bool := N.testbit (a_flags p) 17 && N.testbit (a_flags p) 19.
Definition in_cpuinfo (p : aproc) : bool := N.testbit (a_flags p) 21.
Definition knows_max (p : aproc) : bool := N.testbit (a_flags p) 2.
(** Kernels report all of it or nothing. *)
Definition all_or_nothing (p : aproc) : Prop :=
  reports p = true \/ forallb (fun b => negb (N.testbit (a_flags p) b)) [17; 18; 19; 20]%N = true.

(** The processors that lead their cluster, in order. *)
Definition leads (ps : list aproc) (i : nat) : bool := a_valid (entry ps i) && (leader ps i =? i).
Definition cluster_leaders (ps : list aproc) : list nat := filter (leads ps) (seq 0 (length ps)).

(** What was reported of a cluster: by its first processor with a report. *)
Definition cluster_midr (ps : list aproc) (l : nat) : option N :=
  option_map (fun i => a_midr (entry ps i)) (find (fun i => reports (entry ps i)) (cluster_members ps l)).
Definition cluster_max (ps : list aproc) (l : nat) : option N :=
  option_map (fun i => a_max (entry ps i)) (find (fun i => knows_max (entry ps i)) (cluster_members ps l)).

(** The number of usable processors whose implementer and part were reported. *)
Definition reporters (ps : list aproc) : nat :=
  length (filter (fun i => a_valid (entry ps i) && names_core (entry ps i)) (seq 0 (length ps))).
(** The only report is that of the last listed processor, although there are several
    clusters: it may be about any of them. *)
Definition unattributable (ps : list aproc) : Prop :=
  2 <= length (cluster_leaders ps) /\
  exists r, usable ps r /\ names_core (entry ps r) = true /\ in_cpuinfo (entry ps r) = true /\
    forall j, usable ps j -> (names_core (entry ps j) = true -> j = r) /\ (in_cpuinfo (entry ps j) = true -> j <= r).

(** Nothing but the MIDR, the maximum frequency, their flags, the vendor and the
    microarchitecture differs. *)
Record only_midr_differs (p q : aproc) : Prop := {
  om_flags : forall b, b <> 2%N -> ~ (16 <= b <= 21)%N -> N.testbit (a_flags q) b = N.testbit (a_flags p) b;
  om_flags_kept : forall b, N.testbit (a_flags p) b = true -> N.testbit (a_flags q) b = true;
  om_min : a_min q = a_min p;
  om_leader : a_leader q = a_leader p;
  om_count : a_count q = a_count p;
  om_id : a_id q = a_id p;
  om_uarch_index : a_uarch_index q = a_uarch_index p;
  om_report : a_report q = a_report p
}.

(** Of two processors with the same leader, what is decided is the same. *)
Record follows_leader (l p : aproc) : Prop := {
  fl_midr : a_midr p = a_midr l;
  fl_vendor : a_vendor p = a_vendor l;
  fl_uarch : a_uarch p = a_uarch l;
  fl_max : a_max p = a_max l;
  fl_knows_max : knows_max l = true -> knows_max p = true;
  fl_reports : reports l = true -> reports p = true
}.

(** [m] is [midr] except perhaps for the architecture, which then is that of ARMv7
    and later. *)
Definition same_core (midr m : N) : Prop :=
  (forall f, f <> Architecture -> field_of f m = field_of f midr) /\
  (field_of Architecture m = field_of Architecture midr \/ field_of Architecture m = 0xF%N).

(** The reports within a cluster agree. *)
Definition reports_agree (ps : list aproc) : Prop := forall i j, usable ps i -> usable ps j -> leader ps i = leader ps j ->
  reports (entry ps i) = true -> reports (entry ps j) = true -> a_midr (entry ps i) = a_midr (entry ps j).

(** The faster of two clusters: the one with the higher maximum frequency, and the
    second one if they are equal or unknown. *)
Definition slower_of (ps : list aproc) (first second : nat) : nat :=
  match cluster_max ps first, cluster_max ps second with
  | Some x, Some y => if (y <? x)%N then second else first
  | _, _ => first
  end.

(** The nearest cluster before [l] with a report has [m]. *)
Definition report_before (ps : list aproc) (l : nat) (m : N) : Prop :=
  exists k, k < l /\ leads ps k = true /\ cluster_midr ps k = Some m /\
    forall j, k < j < l -> leads ps j = true -> cluster_midr ps j = None.
(** The cluster of the last processor with a report has [m]. *)
Definition last_report (ps : list aproc) (m : N) : Prop :=
  exists r, usable ps r /\ names_core (entry ps r) = true /\ cluster_midr ps (leader ps r) = Some m /\
    forall j, usable ps j -> names_core (entry ps j) = true -> j <= r.
(** A cluster without a report takes the nearest one before it, or else the last one. *)
Definition filled_in (ps : list aproc) (l : nat) (m : N) : Prop :=
  match cluster_midr ps l with
  | Some r => m = r
  | None => report_before ps l m \/
            ((forall k, k < l -> leads ps k = true -> cluster_midr ps k = None) /\ last_report ps m)
  end.
