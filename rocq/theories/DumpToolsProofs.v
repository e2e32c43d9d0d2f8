(** Proofs about the dumps of /proc/cpuinfo and of the auxiliary vector. *)
From Coq Require Import Lia ZifyBool ZifyNat ZifyN Arith.
From Verif Require Import Base BaseProofs Text LinuxTextModel LinuxTextSpec CpuidDumpModel CpuidDumpSpec CpuidDumpTextProofs DumpToolsModel DumpToolsSpec.
Open Scope N_scope.

Lemma read_positive : forall w rest, rest <> [] ->
  exists n, read_call (Some w) dump_buffer_size rest = Some (S n) /\ (S n <= length rest)%nat.
Proof.
  intros w rest H. unfold read_call. assert (dump_buffer_size = N.to_nat 4096) by reflexivity.
  assert (E : (0 < length rest)%nat) by (destruct rest; [congruence|cbn; lia]).
  exists (Nat.min (Nat.max 1 w) (Nat.min dump_buffer_size (length rest)) - 1)%nat. split; [f_equal|]; lia.
Qed.

Lemma read_end : forall w, read_call (Some w) dump_buffer_size [] = Some O.
Proof. intros w. unfold read_call. cbn [length]. f_equal. lia. Qed.

Lemma copy_loop_any : forall fuel wants rest printed, (length rest < fuel)%nat ->
  exists more ok, copy_loop fuel wants rest printed = Ok (Outcome (printed ++ more) ok) /\
    (exists lost, rest = more ++ lost) /\ (ok = true -> more = rest) /\ (no_io_error wants -> ok = true).
Proof.
  induction fuel as [|fuel IH]; intros wants rest printed Hf; [lia|]. cbn [copy_loop].
  assert (T : forall l : list (option nat), no_io_error l -> no_io_error (tl l)) by (intros [|]; [auto|intros F; inversion F; assumption]).
  assert (Hw : no_io_error wants -> hd (Some dump_buffer_size) wants <> None).
  { intros F. destruct wants; cbn; [congruence|]. inversion F. assumption. }
  destruct (hd (Some dump_buffer_size) wants) as [w|].
  - destruct rest as [|c rest].
    + rewrite read_end. exists [], true. rewrite app_nil_r. split; [reflexivity|]. split; [exists []; reflexivity|]. split; reflexivity.
    + destruct (read_positive w (c :: rest)) as (n & E & L); [congruence|]. rewrite E.
      destruct (IH (tl wants) (skipn (S n) (c :: rest)) (printed ++ firstn (S n) (c :: rest))) as (more & ok & E1 & (lost & E2) & E3 & E4).
      { rewrite skipn_length. lia. }
      exists (firstn (S n) (c :: rest) ++ more), ok. rewrite E1, <- app_assoc. split; [reflexivity|]. split; [|split].
      * exists lost. rewrite <- app_assoc, <- E2, firstn_skipn. reflexivity.
      * intros K. rewrite (E3 K), firstn_skipn. reflexivity.
      * intros F. apply E4, T, F.
  - cbn [read_call]. exists [], false. rewrite app_nil_r. split; [reflexivity|]. split; [exists rest; reflexivity|]. split; [congruence|].
    intros F. exfalso. now apply Hw.
Qed.

Lemma dump_faithful : forall f, exists o, cpuinfo_dump f = Ok o /\ faithful_copy (f_contents f) o.
Proof.
  intros [[bytes|] wants]; unfold cpuinfo_dump; cbn [f_contents f_reads].
  - destruct (copy_loop_any (S (length bytes)) wants bytes []) as (more & ok & E & L & K & _); [lia|].
    eexists. split; [exact E|]. split; [exact L|exact K].
  - eexists. split; reflexivity.
Qed.

Lemma dump_complete : forall bytes wants, no_io_error wants -> cpuinfo_dump (File (Some bytes) wants) = Ok (Outcome bytes true).
Proof.
  intros bytes wants F. unfold cpuinfo_dump. cbn [f_contents f_reads].
  destruct (copy_loop_any (S (length bytes)) wants bytes []) as (more & ok & E & L & K & Z); [lia|].
  rewrite E. specialize (Z F). subst ok. rewrite (K eq_refl). reflexivity.
Qed.

Lemma hex_long_ok : forall n, n < 2 ^ 64 -> hex_text 8 n (hex_long n).
Proof.
  intros n Hn. unfold hex_long. cbv zeta.
  destruct (hex_from_spec 16 n []) as (ds & D1 & D2 & D3 & D4 & D5 & D6); [lia|exact Hn|].
  rewrite app_nil_r in D1. rewrite D1. split; [|split; [|split]].
  - apply Forall_app. split; [|exact D2]. apply Forall_forall. intros c Hc. apply repeat_spec in Hc. subst c. left. lia.
  - rewrite hex_zeros. exact D3.
  - rewrite app_length, repeat_length. lia.
  - rewrite app_length, repeat_length. intros Hlt. assert (E : (8 - length ds = 0)%nat) by lia. rewrite E. cbn [repeat app]. apply D5.
    intros Hz. specialize (D6 Hz). lia.
Qed.

Lemma auxv_lines : forall arm32 getauxval, getauxval 16 < 2 ^ 64 -> getauxval 26 < 2 ^ 64 ->
  exists line line2, auxv_dump arm32 (Has_getauxval getauxval) = Outcome (line ++ if arm32 then line2 else []) true /\
    says_word (text "AT_HWCAP") (getauxval 16) line /\ says_word (text "AT_HWCAP2") (getauxval 26) line2.
Proof.
  intros arm32 g H1 H2. exists (text "AT_HWCAP" ++ text " = 0x" ++ hex_long (g 16) ++ [10]), (text "AT_HWCAP2" ++ text " = 0x" ++ hex_long (g 26) ++ [10]).
  split; [|split; eexists; split; eauto using hex_long_ok].
  unfold auxv_dump, at_hwcap, at_hwcap2. f_equal. change (text "AT_HWCAP = 0x") with (text "AT_HWCAP" ++ text " = 0x").
  change (text "AT_HWCAP2 = 0x") with (text "AT_HWCAP2" ++ text " = 0x"). rewrite <- !app_assoc. reflexivity.
Qed.

(** ** A dump is read in one way only *)
Lemma digits_end : forall a b x y, Forall is_upper_hex a -> Forall is_upper_hex b -> a ++ 10 :: x = b ++ 10 :: y -> a = b /\ x = y.
Proof.
  induction a as [|c a IH]; intros [|d b] x y Ha Hb E; cbn in E; inversion E; subst.
  - split; reflexivity.
  - exfalso. inversion Hb as [|? ? K ?]. unfold is_upper_hex in K. lia.
  - exfalso. inversion Ha as [|? ? K ?]. unfold is_upper_hex in K. lia.
  - inversion Ha; inversion Hb; subst. destruct (IH b x y) as [-> ->]; auto.
Qed.

Lemma line_read : forall name v w l m x y, says_word name v l -> says_word name w m -> l ++ x = m ++ y -> v = w /\ x = y.
Proof.
  intros name v w l m x y (a & (A1 & A2 & _) & ->) (b & (B1 & B2 & _) & ->) E. rewrite <- !app_assoc in E.
  apply app_inv_head, app_inv_head in E. destruct (digits_end _ _ _ _ A1 B1 E) as [F G]. split; [congruence|exact G].
Qed.

Lemma auxv_read_back : forall arm32 d e, (forall g, d = Has_getauxval g \/ e = Has_getauxval g -> g 16 < 2 ^ 64 /\ g 26 < 2 ^ 64) ->
  auxv_dump arm32 d = auxv_dump arm32 e -> o_success (auxv_dump arm32 d) = true ->
  exists g h, d = Has_getauxval g /\ e = Has_getauxval h /\ g 16 = h 16 /\ (arm32 = true -> g 26 = h 26).
Proof.
  intros arm32 d e W E S. rewrite E in S. destruct e as [| |h]; try discriminate S. destruct d as [| |g]; try discriminate E.
  exists g, h. destruct (W g) as [G1 G2]; [now left|]. destruct (W h) as [H1 H2]; [now right|].
  destruct (auxv_lines arm32 g G1 G2) as (l & l2 & L & L1 & L2). destruct (auxv_lines arm32 h H1 H2) as (m & m2 & M & M1 & M2).
  rewrite L, M in E. injection E as E. destruct (line_read _ _ _ _ _ _ _ L1 M1 E) as [E1 E2].
  repeat split; [exact E1|]. intros ->. cbn in E2. rewrite <- (app_nil_r l2), <- (app_nil_r m2) in E2.
  exact (proj1 (line_read _ _ _ _ _ _ _ L2 M2 E2)).
Qed.
