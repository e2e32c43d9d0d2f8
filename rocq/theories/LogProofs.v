From Verif Require Import Base BaseProofs Text LogModel.
Open Scope nat_scope.

Lemma store_at (a m z : buffer) bytes : length m = length bytes ->
  store (a ++ m ++ z) (length a) bytes = Ok (a ++ map Some bytes ++ z).
Proof.
  intros H. unfold store. rewrite !app_length.
  destruct (Nat.leb_spec (length a + length bytes) (length a + (length m + length z))); [|lia].
  rewrite firstn_app, Nat.sub_diag, firstn_all, app_nil_r. do 3 f_equal.
  rewrite skipn_app, (skipn_all2 a) by lia. cbn [app].
  replace (length a + length bytes - length a) with (length m) by lia.
  rewrite skipn_app, Nat.sub_diag, skipn_all. reflexivity.
Qed.

Lemma store_repeat (a : buffer) n bytes : length bytes <= n ->
  store (a ++ repeat None n) (length a) bytes = Ok (a ++ map Some bytes ++ repeat None (n - length bytes)).
Proof.
  intros H. replace n with (length bytes + (n - length bytes)) at 1 by lia.
  rewrite repeat_app. apply store_at. apply repeat_length.
Qed.

Lemma removelast_firstn A (l : list A) : firstn (length l - 1) l = removelast l.
Proof. rewrite removelast_firstn_len. f_equal. lia. Qed.

(** What is written, for every message. *)
Definition log_output (newline prefix msg : list N) : list N :=
  if length prefix + length msg + length newline =? stack_buffer_size
  then prefix ++ removelast msg ++ [0%N] ++ newline
  else prefix ++ msg ++ newline.

Lemma vlog_exact newline prefix msg malloc_ok :
  length prefix + length newline < stack_buffer_size -> newline <> [] ->
  vlog newline prefix (Some msg) malloc_ok =
  Ok (if (stack_buffer_size <? length prefix + length msg + length newline) && negb malloc_ok then None
      else Some (map Some (log_output newline prefix msg))).
Proof.
  intros H Hn. assert (Hnl : 1 <= length newline) by (destruct newline; [congruence|cbn; lia]).
  unfold vlog. remember stack_buffer_size as size eqn:Hs.
  pose proof (store_repeat [] size prefix ltac:(lia)) as S0. cbn [app length] in S0. rewrite S0. cbn [bind]. clear S0.
  destruct (Nat.leb_spec (length prefix + length newline) size); [|lia]. cbn [negb].
  remember (size - (length prefix + length newline)) as room eqn:Hr. destruct room as [|room]; [lia|].
  assert (L : length (vsnprintf_bytes (S room) msg) = Nat.min room (length msg) + 1)
    by (cbn [vsnprintf_bytes]; rewrite app_length, firstn_length; reflexivity).
  pose proof (store_repeat (map Some prefix) (size - length prefix) (vsnprintf_bytes (S room) msg) ltac:(lia)) as S1.
  rewrite map_length in S1. rewrite S1. cbn [bind]. clear S1.
  destruct (Nat.ltb_spec size (length prefix + length msg + length newline)) as [Hbig|Hsmall].
  - destruct malloc_ok; cbn [andb negb]; [|reflexivity].
    pose proof (store_repeat [] (length prefix + length msg + length newline) prefix ltac:(lia)) as S0.
    cbn [app length] in S0. rewrite S0. cbn [bind]. clear S0.
    replace (length msg + length newline) with (S (length msg + (length newline - 1))) by lia.
    cbn [vsnprintf_bytes]. rewrite firstn_all2 by lia.
    pose proof (store_repeat (map Some prefix) (length prefix + length msg + length newline - length prefix) (msg ++ [0%N])) as S1.
    rewrite map_length, app_length in S1. cbn [length] in S1. specialize (S1 ltac:(lia)). rewrite S1. cbn [bind]. clear S1.
    set (rest := repeat None _).
    replace (map Some prefix ++ map Some (msg ++ [0%N]) ++ rest)
      with ((map Some prefix ++ map Some msg) ++ (Some 0%N :: rest) ++ [])
      by (rewrite map_app, <- !app_assoc, app_nil_r; reflexivity).
    pose proof (store_at (map Some prefix ++ map Some msg) (Some 0%N :: rest) [] newline) as S2.
    rewrite app_length, !map_length in S2. rewrite S2.
    2:{ cbn [length]. unfold rest. rewrite repeat_length. lia. }
    cbn [bind]. rewrite app_nil_r, !app_length, !map_length.
    rewrite Nat.leb_refl. rewrite firstn_all2 by (rewrite !app_length, !map_length; lia).
    unfold log_output. rewrite <- Hs. destruct (Nat.eqb_spec (length prefix + length msg + length newline) size); [lia|].
    rewrite !map_app, <- app_assoc. reflexivity.
  - cbn [andb bind].
    remember (vsnprintf_bytes (S room) msg) as stored eqn:Est. cbn [vsnprintf_bytes] in Est.
    set (rest := repeat None _).
    assert (Hsplit : exists body m z, map Some stored ++ rest = map Some body ++ m ++ z /\ length body = length msg /\
              length m = length newline /\
              body = (if length prefix + length msg + length newline =? size then removelast msg ++ [0%N] else msg)).
    { destruct (Nat.eqb_spec (length prefix + length msg + length newline) size) as [He|He].
      - assert (room = length msg - 1) by lia. subst room. rewrite removelast_firstn in Est.
        exists stored, rest, []. assert (length stored = length msg) by (rewrite L; lia).
        rewrite app_nil_r. repeat split; auto. unfold rest. rewrite repeat_length. lia.
      - assert (room >= length msg) by lia. rewrite firstn_all2 in Est by lia. subst stored.
        exists msg, (firstn (length newline) (Some 0%N :: rest)), (skipn (length newline) (Some 0%N :: rest)).
        rewrite firstn_skipn, map_app, <- app_assoc. repeat split; auto.
        rewrite firstn_length. cbn [length]. unfold rest. rewrite repeat_length, app_length. cbn [length]. lia. }
    destruct Hsplit as (body & m & z & E1 & E2 & E3 & E4). rewrite E1.
    replace (map Some prefix ++ map Some body ++ m ++ z) with ((map Some prefix ++ map Some body) ++ m ++ z)
      by (now rewrite <- app_assoc).
    pose proof (store_at (map Some prefix ++ map Some body) m z newline E3) as S2.
    rewrite app_length, !map_length, E2 in S2. rewrite S2. cbn [bind].
    rewrite !app_length, !map_length, E2.
    destruct (Nat.leb_spec (length prefix + length msg + length newline)
                (length prefix + length msg + (length newline + length z))); [|lia].
    do 2 f_equal. replace (length prefix + length msg + length newline)
      with (length ((map Some prefix ++ map Some body) ++ map Some newline) + 0)
      by (rewrite !app_length, !map_length; lia).
    rewrite app_assoc, firstn_app_2, firstn_O, app_nil_r.
    unfold log_output. rewrite <- Hs.
    destruct (Nat.eqb_spec (length prefix + length msg + length newline) size); subst body;
      rewrite !map_app, <- ?app_assoc; reflexivity.
Qed.

Lemma vlog_none newline prefix malloc_ok :
  length prefix + length newline < stack_buffer_size -> vlog newline prefix None malloc_ok = Ok None.
Proof.
  intros H. unfold vlog. remember stack_buffer_size as size eqn:Hs.
  pose proof (store_repeat [] size prefix ltac:(lia)) as S0. cbn [app length] in S0. rewrite S0. cbn [bind].
  destruct (Nat.leb_spec (length prefix + length newline) size); [reflexivity|lia].
Qed.

Definition prefixes : list (list N) := [debug_prefix; info_prefix; warning_prefix; error_prefix; fatal_prefix].
Definition newlines : list (list N) := [[10%N]; [13%N; 10%N]].

Lemma prefixes_fit prefix newline : In prefix prefixes -> In newline newlines ->
  length prefix + length newline < stack_buffer_size /\ newline <> [].
Proof.
  intros Hp Hn. assert (length prefix <= 24) by (cbn in Hp; repeat destruct Hp as [<-|Hp]; cbn; lia || destruct Hp).
  assert (1 <= length newline <= 2) by (cbn in Hn; repeat destruct Hn as [<-|Hn]; cbn; lia || destruct Hn).
  change stack_buffer_size with 1024. split; [lia|]. destruct newline; [cbn in *; lia|discriminate].
Qed.

Lemma log_complete prefix newline msg malloc_ok : In prefix prefixes -> In newline newlines ->
  let total := length prefix + length msg + length newline in
  total <> 1024 -> (total < 1024 \/ malloc_ok = true) ->
  vlog newline prefix (Some msg) malloc_ok = Ok (Some (map Some (prefix ++ msg ++ newline))).
Proof.
  intros Hp Hn total Ht Hm. destruct (prefixes_fit _ _ Hp Hn) as (H1 & H2). rewrite vlog_exact by assumption.
  unfold log_output. change stack_buffer_size with 1024 in *. fold total.
  destruct (Nat.eqb_spec total 1024); [contradiction|].
  destruct (Nat.ltb_spec 1024 total), malloc_ok; cbn [andb negb]; try reflexivity.
  destruct Hm; [lia|discriminate].
Qed.

Lemma log_at_limit prefix newline msg malloc_ok : In prefix prefixes -> In newline newlines ->
  length prefix + length msg + length newline = 1024 ->
  vlog newline prefix (Some msg) malloc_ok = Ok (Some (map Some (prefix ++ removelast msg ++ [0%N] ++ newline))).
Proof.
  intros Hp Hn Ht. destruct (prefixes_fit _ _ Hp Hn) as (H1 & H2). rewrite vlog_exact by assumption.
  unfold log_output. change stack_buffer_size with 1024 in *. rewrite Ht. reflexivity.
Qed.

Lemma log_dropped prefix newline msg : In prefix prefixes -> In newline newlines ->
  1024 < length prefix + length msg + length newline ->
  vlog newline prefix (Some msg) false = Ok None.
Proof.
  intros Hp Hn Ht. destruct (prefixes_fit _ _ Hp Hn) as (H1 & H2). rewrite vlog_exact by assumption.
  change stack_buffer_size with 1024 in *. destruct (Nat.ltb_spec 1024 (length prefix + length msg + length newline)); [reflexivity|lia].
Qed.

Lemma log_safe prefix newline formatted malloc_ok : In prefix prefixes -> In newline newlines ->
  exists w, vlog newline prefix formatted malloc_ok = Ok w.
Proof.
  intros Hp Hn. destruct (prefixes_fit _ _ Hp Hn) as (H1 & H2).
  destruct formatted as [msg|]; [rewrite vlog_exact by assumption|rewrite vlog_none by assumption]; eauto.
Qed.
