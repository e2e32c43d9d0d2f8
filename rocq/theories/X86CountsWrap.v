(** FreeBSD if the number of threads wraps to zero. *)
From Verif Require Import Base BaseProofs Loops Text Fill TopologySpec ApiModel ApiProofs X86CountsModel X86CountsSpec X86CountsProofs X86CountsInit X86CountsFinal.
From Verif Require X86LinuxModel.
Import X86LinuxModel(xinfo, xcache, xc_geometry, xi_l1i, xi_l1d, xi_l2, xi_l3, xi_l4).
Open Scope nat_scope.
Ltac Zify.zify_post_hook ::= idtac.

Lemma freebsd_detected_wrapped a P cores tpc spec : fa_spec a = Some spec -> package_groups spec P -> 0 < P ->
  fa_cores a = Some (Z.of_nat cores) -> fa_threads_per_core a = Some (Z.of_nat tpc) -> P <= cores -> 0 < tpc ->
  u32 (N.of_nat (cores * tpc)) = 0%N -> freebsd_detect_topology a = Ok (Some (P, cores, 0, tpc)).
Proof.
  intros ES G PP EC ET L TP B. unfold freebsd_detect_topology. rewrite ES.
  destruct (count_packages_ok spec) as (n2 & n1 & O2 & O1 & ->). cbn [bind].
  assert (E : (if n2 =? 0 then n1 else n2) = P).
  { destruct G as [(G & NZ)|(G2 & G1)].
    - rewrite (occurrences_unique _ _ _ _ O2 G). destruct (Nat.eqb_spec P 0); [contradiction|reflexivity].
    - rewrite (occurrences_unique _ _ _ _ O2 G2). cbn [Nat.eqb]. exact (occurrences_unique _ _ _ _ O1 G1). }
  rewrite E. destruct (Nat.eqb_spec P 0); [lia|]. rewrite EC, ET. unfold sysctl_int, checked.
  destruct (Z.leb_spec (Z.of_nat cores) 0); [lia|]. rewrite Nat2Z.id. destruct (Nat.eqb_spec cores 0); [lia|].
  destruct (Nat.ltb_spec cores P); [lia|]. destruct (Z.leb_spec (Z.of_nat tpc) 0); [lia|]. rewrite Nat2Z.id.
  destruct (Nat.eqb_spec tpc 0); [lia|].
  replace (N.of_nat tpc * N.of_nat cores)%N with (N.of_nat (cores * tpc)) by lia. now rewrite B.
Qed.

Lemma no_threads_objects x P cpp tpc : 0 < P -> 0 < cpp -> exists o, build_objects x P (P * cpp) 0 tpc = Ok o.
Proof.
  intros PP CP. unfold build_objects. rewrite divide_pos by exact PP. cbn [bind].
  rewrite (Nat.mul_comm P cpp), divide_mul by exact PP. cbn [bind]. rewrite (Nat.mul_comm cpp P).
  erewrite fill_all; [|intros i H; rewrite address_le by lia; reflexivity]. cbn [bind].
  erewrite fill_all by reflexivity. cbn [bind].
  erewrite fill_all.
  2: { intros i H. rewrite modulo_pos, divide_pos by exact CP. cbn [bind]. pose proof (div_lt i P cpp H). rewrite address_le by lia. reflexivity. }
  cbn [bind]. eexists. reflexivity.
Qed.

Lemma no_threads_widths x P cores : 0 < P -> 0 < cores ->
  (present (xi_l1i x) || present (xi_l1d x) || present (xi_l2 x) || present (xi_l3 x) || present (xi_l4 x) = true) ->
  freebsd_widths x P cores 0 = Ok None.
Proof.
  intros PP CP H. unfold freebsd_widths, freebsd_width. rewrite !divide_pos by assumption. rewrite !Nat.div_0_l by lia.
  destruct (present (xi_l1i x) || present (xi_l1d x)); cbn [bind Nat.eqb]; [reflexivity|].
  destruct (present (xi_l2 x)), (present (xi_l3 x)), (present (xi_l4 x)); cbn [bind Nat.eqb]; try reflexivity. discriminate.
Qed.

Lemma freebsd_wrapped calloc_ok x a P cpp tpc spec : 0 < P -> 0 < cpp -> 0 < tpc ->
  fa_spec a = Some spec -> package_groups spec P ->
  fa_cores a = Some (Z.of_nat (P * cpp)) -> fa_threads_per_core a = Some (Z.of_nat tpc) ->
  u32 (N.of_nat (P * cpp * tpc)) = 0%N ->
  (exists c, In c [xi_l1i x; xi_l1d x; xi_l2 x; xi_l3 x; xi_l4 x] /\ (0 < g_size (xc_geometry c))%N) ->
  x86_freebsd_init calloc_ok x a = Ok (Outcome None []).
Proof.
  intros PP CP TP ES G EC ET B (c & IC & SC). unfold x86_freebsd_init.
  rewrite (freebsd_detected_wrapped a P (P * cpp) tpc spec) by (auto; nia). cbn [bind].
  assert (H : present (xi_l1i x) || present (xi_l1d x) || present (xi_l2 x) || present (xi_l3 x) || present (xi_l4 x) = true).
  { assert (PC : present c = true). { unfold present. apply Bool.negb_true_iff. apply N.eqb_neq. intros E. rewrite E in SC. discriminate. }
    destruct IC as [<-|[<-|[<-|[<-|[<-|[]]]]]]; rewrite PC; rewrite ?Bool.orb_true_r; reflexivity. }
  destruct (no_threads_objects x P cpp tpc PP CP) as (o & EO).
  destruct (allocate_spec calloc_ok objects_blocks []) as [(E1 & _)|(got & E1 & _)]; rewrite E1; cbn [negb app].
  2: { f_equal. f_equal. apply cleanup_all. }
  rewrite EO. cbn [bind]. rewrite no_threads_widths by (auto; nia). cbn [bind]. reflexivity.
Qed.
