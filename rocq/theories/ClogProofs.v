(** What clog writes. *)
From Verif Require Import Base BaseProofs Text LogModel LogProofs ClogModel ClogSpec.
Open Scope nat_scope.

Lemma vsnprintf_short n msg : length msg < n -> vsnprintf_bytes n msg = msg ++ [0%N].
Proof. destruct n as [|n]; [lia|]. intros H. cbn [vsnprintf_bytes]. now rewrite firstn_all2 by lia. Qed.
Lemma store_start n bytes : length bytes <= n -> store (repeat None n) 0 bytes = Ok (map Some bytes ++ repeat None (n - length bytes)).
Proof. intros H. exact (store_repeat [] n bytes H). Qed.

(** The end of the function: what is in the buffer is written with a newline. *)
Lemma finish_value (text : list N) x rest :
  store (map Some text ++ x :: rest) (length text) [10%N] = Ok (map Some (text ++ [10%N]) ++ rest).
Proof.
  pose proof (store_at (map Some text) [x] rest [10%N] eq_refl) as H. rewrite map_length in H. cbn [app] in H. rewrite H.
  now rewrite map_app, <- app_assoc.
Qed.
Lemma firstn_exact (A : Type) (l r : list A) n : n = length l -> firstn n (l ++ r) = l.
Proof. intros ->. rewrite firstn_app, Nat.sub_diag, firstn_all, app_nil_r. reflexivity. Qed.

(** The message in a buffer that has room for it behind the prefix. *)
Lemma store_message (p msg : list N) (rest : buffer) : length msg + 1 <= length rest ->
  store (map Some p ++ rest) (length p) (msg ++ [0%N]) = Ok (map Some (p ++ msg) ++ Some 0%N :: skipn (length msg + 1) rest).
Proof.
  intros H. assert (E : rest = firstn (length msg + 1) rest ++ skipn (length msg + 1) rest) by (symmetry; apply firstn_skipn).
  rewrite E at 1. pose proof (store_at (map Some p) (firstn (length msg + 1) rest) (skipn (length msg + 1) rest) (msg ++ [0%N])) as S.
  rewrite map_length in S. rewrite S.
  - f_equal. rewrite !map_app, <- !app_assoc. reflexivity.
  - rewrite firstn_length, app_length. cbn [length]. lia.
Qed.

(** The whole in terms of the prefix that is used. *)
Definition body (p msg : list N) : list N :=
  if length p =? clog_buffer_size then removelast p ++ [0%N] ++ msg
  else match msg with
       | [] => p
       | _ => if length p + length msg + 1 =? clog_buffer_size then p ++ removelast msg ++ [0%N] else p ++ msg
       end.
Lemma removelast_length (A : Type) (l : list A) : length (removelast l) = length l - 1.
Proof. rewrite removelast_firstn_len, firstn_length. lia. Qed.
Lemma body_length p msg : length (body p msg) = length p + length msg.
Proof.
  unfold body. destruct (Nat.eqb_spec (length p) clog_buffer_size) as [E|_].
  - rewrite !app_length, removelast_length. cbn [length]. unfold clog_buffer_size in E. lia.
  - destruct msg as [|c m]; [cbn; lia|]. destruct (_ =? _); rewrite !app_length; [|reflexivity]. rewrite removelast_length. cbn [length]. lia.
Qed.

(** What the stack buffer holds of the prefix. *)
Definition holds_prefix (sb : buffer) (p : list N) : Prop :=
  length sb = clog_buffer_size /\ (length p < clog_buffer_size -> firstn (length p) sb = map Some p) /\
  (length p = clog_buffer_size -> sb = map Some (removelast p ++ [0%N])).

Definition rest_of_vlog (l : severity) (whole : list N) (sb0 : buffer) (np : nat) (formatted : option (list N)) (malloc_ok : bool) : res (option (stream * buffer)) :=
  if (int_max <? N.of_nat (np + 1))%N then UB else
  do sb <- (if clog_buffer_size <=? np + 1 then Ok sb0
            else match formatted with
                 | Some msg => store sb0 np (vsnprintf_bytes (clog_buffer_size - np - 1) msg)
                 | None => Ok sb0
                 end);
  match formatted with
  | None => Ok None
  | Some msg =>
      let nf := length msg in
      if (int_max <? N.of_nat nf)%N then Ok None else
      if (int_max <? N.of_nat (np + nf + 1))%N then UB else
      do out <- (if clog_buffer_size <? np + nf + 1 then
                   if malloc_ok then
                     let heap := repeat None (np + nf + 1) in
                     do hb <- (if clog_buffer_size <? np then store heap 0 (vsnprintf_bytes (np + 1) whole) else copy heap sb np);
                     do hb <- store hb np (vsnprintf_bytes (nf + 1) msg);
                     Ok (Some hb)
                   else Ok None
                 else Ok (Some sb));
      match out with
      | None => Ok None
      | Some buf =>
          do buf <- store buf (np + nf) [10%N];
          if np + nf + 1 <=? length buf then Ok (Some (clog_stream l, firstn (np + nf + 1) buf)) else UB
      end
  end.

Lemma finish l p msg x rest n : n = length p + length msg ->
  (do buf <- store (map Some (body p msg) ++ x :: rest) n [10%N];
   if n + 1 <=? length buf then Ok (Some (clog_stream l, firstn (n + 1) buf)) else UB) =
  Ok (Some (clog_stream l, map Some (body p msg ++ [10%N]))).
Proof.
  intros ->. rewrite <- body_length at 1. rewrite finish_value. cbn [bind].
  assert (L : length (map Some (body p msg ++ [10%N])) = length p + length msg + 1) by (rewrite map_length, app_length, body_length; reflexivity).
  destruct (Nat.leb_spec (length p + length msg + 1) (length (map Some (body p msg ++ [10%N]) ++ rest))) as [_|H]; [|rewrite app_length in H; lia].
  now rewrite firstn_exact by lia.
Qed.

Lemma rest_value l whole sb0 p msg malloc_ok : holds_prefix sb0 p -> (clog_buffer_size < length p -> whole = p) ->
  countable (length p + length msg + 1) ->
  rest_of_vlog l whole sb0 (length p) (Some msg) malloc_ok =
  Ok (if (clog_buffer_size <? length p + length msg + 1) && negb malloc_ok then None else Some (clog_stream l, map Some (body p msg ++ [10%N]))).
Proof.
  intros (L0 & H1 & H2) HW C. unfold countable in C. unfold rest_of_vlog. remember clog_buffer_size as size eqn:ES.
  assert (S1 : 1 < size) by (subst; unfold clog_buffer_size; lia).
  destruct (N.ltb_spec int_max (N.of_nat (length p + 1))); [lia|]. cbv zeta.
  destruct (N.ltb_spec int_max (N.of_nat (length msg))); [lia|]. destruct (N.ltb_spec int_max (N.of_nat (length p + length msg + 1))); [lia|].
  (* after formatting on the stack, the prefix is still there, and the message if it fits *)
  assert (SB : exists sb, (if size <=? length p + 1 then Ok sb0 else store sb0 (length p) (vsnprintf_bytes (size - length p - 1) msg)) = Ok sb /\
    length sb = size /\ (length p < size -> firstn (length p) sb = map Some p) /\ (length p = size -> sb = map Some (removelast p ++ [0%N])) /\
    (length p + length msg + 1 <= size -> exists x rest, sb = map Some (body p msg) ++ x :: rest)).
  { destruct (Nat.leb_spec size (length p + 1)) as [Hb|Hb].
    - exists sb0. split; [reflexivity|]. split; [exact L0|]. split; [exact H1|]. split; [exact H2|]. intros T.
      assert (msg = []) as -> by (destruct msg; [reflexivity|cbn in T; lia]). cbn [length] in T. unfold body. rewrite <- ES.
      destruct (Nat.eqb_spec (length p) size); [lia|]. assert (Hp : length p < size) by lia. specialize (H1 Hp).
      destruct (skipn (length p) sb0) as [|x rest] eqn:E; [apply (f_equal (@length _)) in E; rewrite skipn_length in E; cbn in E; lia|].
      exists x, rest. rewrite <- H1, <- E. symmetry. apply firstn_skipn.
    - assert (Hp : length p < size) by lia. specialize (H1 Hp).
      assert (Esb : sb0 = map Some p ++ skipn (length p) sb0) by (rewrite <- H1; symmetry; apply firstn_skipn).
      set (tail := skipn (length p) sb0) in *. assert (Lt : length tail = size - length p) by (unfold tail; rewrite skipn_length; lia).
      remember (size - length p - 1) as room eqn:Er. destruct room as [|room]; [lia|]. cbn [vsnprintf_bytes].
      pose proof (store_message p (firstn room msg) tail ltac:(rewrite firstn_length; lia)) as ST. rewrite <- Esb in ST.
      set (rest := skipn _ tail) in ST. assert (LR : length rest = length tail - (Nat.min room (length msg) + 1)) by (unfold rest; now rewrite skipn_length, firstn_length).
      exists (map Some (p ++ firstn room msg) ++ Some 0%N :: rest). split; [exact ST|].
      split; [rewrite app_length, map_length, app_length, firstn_length; cbn [length]; lia|].
      split; [intros _; rewrite map_app, <- app_assoc; apply firstn_exact; now rewrite map_length|]. split; [lia|].
      intros T. unfold body. rewrite <- ES. destruct (Nat.eqb_spec (length p) size); [lia|]. destruct msg as [|c m].
      + exists (Some 0%N), rest. rewrite firstn_nil, app_nil_r. reflexivity.
      + set (msg := c :: m) in *. assert (0 < length msg) by (cbn; lia). destruct (Nat.eqb_spec (length p + length msg + 1) size) as [EE|NE].
        * assert (R : firstn room msg = removelast msg) by (rewrite <- removelast_firstn; f_equal; lia). rewrite R.
          assert (LR1 : length rest = 1) by lia. destruct rest as [|y [|]]; try discriminate LR1. exists y, []. rewrite !map_app, <- !app_assoc. reflexivity.
        * exists (Some 0%N), rest. now rewrite firstn_all2 by lia. }
  destruct SB as (sb & -> & LS & P1 & P2 & P3). cbn [bind].
  destruct (Nat.ltb_spec size (length p + length msg + 1)) as [Big|Small].
  - destruct malloc_ok; cbn [andb negb bind]; [|reflexivity].
    (* the prefix on the heap *)
    set (p' := if length p =? size then removelast p ++ [0%N] else p).
    assert (LP : length p' = length p) by (unfold p'; destruct (Nat.eqb_spec (length p) size); [rewrite app_length, removelast_length; cbn [length]; lia|reflexivity]).
    assert (HP : exists rest, (if size <? length p then store (repeat None (length p + length msg + 1)) 0 (vsnprintf_bytes (length p + 1) whole)
        else copy (repeat None (length p + length msg + 1)) sb (length p)) = Ok (map Some p' ++ rest) /\ length rest = length msg + 1).
    { destruct (Nat.ltb_spec size (length p)) as [X|X].
      - rewrite (HW X), vsnprintf_short by lia. rewrite store_start by (rewrite app_length; cbn; lia).
        unfold p'. destruct (Nat.eqb_spec (length p) size); [lia|]. eexists. split; [rewrite map_app, <- app_assoc; reflexivity|].
        rewrite app_length, repeat_length, app_length. cbn [length map]. lia.
      - unfold copy. rewrite repeat_length, LS. destruct (Nat.leb_spec (length p) (length p + length msg + 1)); [|lia].
        destruct (Nat.leb_spec (length p) size); [|lia]. cbn [andb].
        exists (skipn (length p) (repeat None (length p + length msg + 1))). split; [|rewrite skipn_length, repeat_length; lia]. do 2 f_equal.
        unfold p'. destruct (Nat.eqb_spec (length p) size) as [Y|Y]; [|apply P1; lia].
        rewrite (P2 Y). rewrite firstn_all2; [reflexivity|]. rewrite map_length, app_length, removelast_length. cbn [length]. lia. }
    destruct HP as (rest & -> & LR). cbn [bind]. rewrite vsnprintf_short by lia. rewrite <- LP at 1. rewrite store_message by lia. cbn [bind].
    assert (EB : p' ++ msg = body p msg).
    { unfold p', body. rewrite <- ES. destruct (Nat.eqb_spec (length p) size); [now rewrite <- app_assoc|]. destruct msg as [|c m]; [apply app_nil_r|].
      destruct (Nat.eqb_spec (length p + length (c :: m) + 1) size); [lia|reflexivity]. }
    rewrite EB. now apply finish.
  - cbn [andb bind]. destruct (P3 Small) as (x & rest & ->). now apply finish.
Qed.

Definition whole_prefix (l : severity) (module : option (list N)) : list N := match module with None => plain_prefix l | Some m => module_prefix l m end.
Lemma whole_head l module : whole_prefix l module = head l module.
Proof. destruct l, module; reflexivity. Qed.
Lemma plain_short l : length (plain_prefix l) < 14.
Proof. destruct l; cbn; lia. Qed.

(** The prefix that is used: none if it cannot be formatted. *)
Definition prefix_formats (l : severity) (module : option (list N)) (prefix_ok : bool) : bool :=
  match module with None => true | Some _ => prefix_ok && (N.of_nat (length (whole_prefix l module)) <=? int_max)%N end.
Definition used_prefix (l : severity) (module : option (list N)) (prefix_ok : bool) : list N :=
  if prefix_formats l module prefix_ok then whole_prefix l module else [].

Lemma prefix_stored p : exists sb, store (repeat None clog_buffer_size) 0 (vsnprintf_bytes clog_buffer_size p) = Ok sb /\ holds_prefix sb p.
Proof.
  unfold holds_prefix. remember clog_buffer_size as size eqn:ES. assert (S1 : 1 < size) by (subst; unfold clog_buffer_size; lia).
  destruct size as [|n]; [lia|]. cbn [vsnprintf_bytes]. rewrite store_start by (rewrite app_length, firstn_length; cbn [length]; lia).
  eexists. split; [reflexivity|]. split; [rewrite app_length, map_length, repeat_length, app_length, firstn_length; cbn [length]; lia|]. split.
  - intros L. rewrite (firstn_all2 p) by lia. rewrite map_app, <- !app_assoc. apply firstn_exact. now rewrite map_length.
  - intros L. rewrite app_length, firstn_length. cbn [length]. rewrite Nat.min_l by lia. replace (S n - (n + 1)) with 0 by lia. cbn [repeat]. rewrite app_nil_r.
    do 2 f_equal. rewrite <- removelast_firstn. f_equal. lia.
Qed.
Lemma vlog_rest l module prefix_ok formatted malloc_ok : exists sb0,
  holds_prefix sb0 (used_prefix l module prefix_ok) /\
  (clog_buffer_size < length (used_prefix l module prefix_ok) -> whole_prefix l module = used_prefix l module prefix_ok) /\
  clog_vlog l module prefix_ok formatted malloc_ok =
  rest_of_vlog l (whole_prefix l module) sb0 (length (used_prefix l module prefix_ok)) formatted malloc_ok.
Proof.
  unfold clog_vlog, used_prefix, prefix_formats. destruct module as [m|]; cbn [whole_prefix].
  - destruct (prefix_ok && (N.of_nat (length (module_prefix l m)) <=? int_max)%N).
    + destruct (prefix_stored (module_prefix l m)) as (sb & -> & H). exists sb. split; [exact H|]. split; reflexivity.
    + eexists. split; [|split; [cbn; unfold clog_buffer_size; lia|reflexivity]]. split; [apply repeat_length|]. split; [reflexivity|cbn; unfold clog_buffer_size; lia].
  - pose proof (plain_short l) as L. rewrite store_start by (unfold clog_buffer_size; lia). eexists. split; [|split; [reflexivity|reflexivity]].
    split; [rewrite app_length, map_length, repeat_length; unfold clog_buffer_size; lia|].
    split; [intros _; apply firstn_exact; now rewrite map_length|unfold clog_buffer_size; lia].
Qed.

Lemma vlog_value l module prefix_ok msg malloc_ok : let p := used_prefix l module prefix_ok in countable (length p + length msg + 1) ->
  clog_vlog l module prefix_ok (Some msg) malloc_ok =
  Ok (if (clog_buffer_size <? length p + length msg + 1) && negb malloc_ok then None else Some (clog_stream l, map Some (body p msg ++ [10%N]))).
Proof. intros p C. destruct (vlog_rest l module prefix_ok (Some msg) malloc_ok) as (sb0 & H & W & ->). now apply rest_value. Qed.

(** ** The cases *)

Lemma stream_right l : clog_stream l = stream_of l.
Proof. now destruct l. Qed.
Lemma size_value l module msg : size l module msg = length (head l module) + length msg + 1.
Proof. unfold size, line. rewrite !app_length. cbn [length]. lia. Qed.
Lemma used_head l module msg : countable (size l module msg) -> used_prefix l module true = head l module.
Proof.
  intros C. unfold used_prefix, prefix_formats. rewrite whole_head. destruct module as [m|]; [|reflexivity]. cbn [andb].
  rewrite size_value in C. unfold countable in C. destruct (N.leb_spec (N.of_nat (length (head l (Some m)))) int_max); [reflexivity|lia].
Qed.

Lemma clog_value l module msg malloc_ok : countable (size l module msg) ->
  clog_vlog l module true (Some msg) malloc_ok =
  Ok (if (1024 <? size l module msg) && negb malloc_ok then None else Some (stream_of l, map Some (body (head l module) msg ++ [10%N]))).
Proof.
  intros C. pose proof (used_head l module msg C) as U. rewrite size_value in *. rewrite <- stream_right.
  pose proof (vlog_value l module true msg malloc_ok) as V. cbv zeta in V. rewrite U in V. exact (V C).
Qed.

Lemma clog_complete l module msg malloc_ok : countable (size l module msg) -> length (head l module) <> 1024 -> (size l module msg <> 1024 \/ msg = []) ->
  (size l module msg <= 1024 \/ malloc_ok = true) ->
  clog_vlog l module true (Some msg) malloc_ok = Ok (Some (stream_of l, map Some (line l module msg))).
Proof.
  intros C H1 H2 H3. rewrite clog_value by exact C. rewrite size_value in *.
  assert (E : (1024 <? length (head l module) + length msg + 1) && negb malloc_ok = false)
    by (destruct H3 as [H3| ->]; [destruct (Nat.ltb_spec 1024 (length (head l module) + length msg + 1)); [lia|reflexivity]|apply andb_false_r]).
  rewrite E. unfold line, body. change clog_buffer_size with 1024. destruct (Nat.eqb_spec (length (head l module)) 1024); [contradiction|].
  destruct msg as [|c m]; [reflexivity|]. destruct H2 as [H2|H2]; [|discriminate]. destruct (Nat.eqb_spec (length (head l module) + length (c :: m) + 1) 1024); [contradiction|].
  now rewrite <- app_assoc.
Qed.
Lemma clog_at_limit l module msg malloc_ok : size l module msg = 1024 -> msg <> [] ->
  clog_vlog l module true (Some msg) malloc_ok = Ok (Some (stream_of l, map Some (head l module ++ removelast msg ++ [0%N; 10%N]))).
Proof.
  intros H N0. rewrite clog_value by (rewrite H; unfold countable, int_max; lia). rewrite H. cbn [Nat.ltb Nat.leb andb]. rewrite size_value in H.
  unfold body. change clog_buffer_size with 1024. assert (0 < length msg) by (destruct msg; [congruence|cbn; lia]). destruct (Nat.eqb_spec (length (head l module)) 1024); [lia|].
  destruct msg as [|c m]; [congruence|]. destruct (Nat.eqb_spec (length (head l module) + length (c :: m) + 1) 1024); [|contradiction].
  now rewrite <- !app_assoc.
Qed.
Lemma clog_head_at_limit l module msg : countable (size l module msg) -> length (head l module) = 1024 ->
  clog_vlog l module true (Some msg) true = Ok (Some (stream_of l, map Some (removelast (head l module) ++ [0%N] ++ msg ++ [10%N]))).
Proof.
  intros C H. rewrite clog_value by exact C. rewrite andb_false_r. unfold body. change clog_buffer_size with 1024. rewrite H, Nat.eqb_refl. now rewrite <- !app_assoc.
Qed.
Lemma clog_dropped l module msg : countable (size l module msg) -> 1024 < size l module msg -> clog_vlog l module true (Some msg) false = Ok None.
Proof. intros C H. rewrite clog_value by exact C. destruct (Nat.ltb_spec 1024 (size l module msg)); [reflexivity|lia]. Qed.
Lemma clog_no_prefix l m msg malloc_ok : length msg < 1023 ->
  clog_vlog l (Some m) false (Some msg) malloc_ok = Ok (Some (stream_of l, map Some (msg ++ [10%N]))).
Proof.
  intros H. pose proof (vlog_value l (Some m) false msg malloc_ok) as V. cbv zeta in V. cbn [used_prefix prefix_formats andb] in V.
  unfold used_prefix, prefix_formats in V. cbn [andb length] in V. rewrite V by (unfold countable, int_max; cbn [length]; lia). rewrite <- stream_right.
  change clog_buffer_size with 1024. destruct (Nat.ltb_spec 1024 (0 + length msg + 1)); [lia|]. cbn [andb]. unfold body. change clog_buffer_size with 1024. cbn [length Nat.eqb app].
  destruct msg as [|c m']; [reflexivity|]. destruct (Nat.eqb_spec (0 + length (c :: m') + 1) 1024); [cbn [length] in *; lia|reflexivity].
Qed.

(** Never out of bounds. *)
Lemma clog_safe l module prefix_ok formatted malloc_ok :
  countable (length (head l module) + match formatted with Some msg => length msg | None => 0 end + 1) ->
  exists out, clog_vlog l module prefix_ok formatted malloc_ok = Ok out /\ forall s b, out = Some (s, b) -> exists bytes, b = map Some bytes.
Proof.
  intros C. assert (LU : length (used_prefix l module prefix_ok) <= length (head l module))
    by (unfold used_prefix; rewrite whole_head; destruct (prefix_formats _ _ _); cbn [length]; lia).
  destruct formatted as [msg|].
  - eexists. split; [apply vlog_value; unfold countable in *; lia|]. intros s b E. destruct (_ && _); [discriminate|]. injection E as _ <-. eauto.
  - destruct (vlog_rest l module prefix_ok None malloc_ok) as (sb0 & _ & _ & ->). unfold rest_of_vlog. unfold countable in C.
    destruct (N.ltb_spec int_max (N.of_nat (length (used_prefix l module prefix_ok) + 1))); [lia|]. exists None. split; [|discriminate]. now destruct (_ <=? _).
Qed.
Lemma clog_format_error l module prefix_ok malloc_ok : countable (length (head l module) + 1) -> clog_vlog l module prefix_ok None malloc_ok = Ok None.
Proof.
  intros C. assert (LU : length (used_prefix l module prefix_ok) <= length (head l module))
    by (unfold used_prefix; rewrite whole_head; destruct (prefix_formats _ _ _); cbn [length]; lia).
  destruct (vlog_rest l module prefix_ok None malloc_ok) as (sb0 & _ & _ & ->). unfold rest_of_vlog. unfold countable in C.
  destruct (N.ltb_spec int_max (N.of_nat (length (used_prefix l module prefix_ok) + 1))); [lia|]. now destruct (_ <=? _).
Qed.

Lemma complete_refuted :
  ~ (forall l module msg, countable (size l module msg) -> clog_vlog l module true (Some msg) true = Ok (Some (stream_of l, map Some (line l module msg)))).
Proof.
  intros H. specialize (H Error None (repeat 65%N 1016)). assert (C : countable (size Error None (repeat 65%N 1016))) by (unfold countable; vm_compute; discriminate).
  specialize (H C). rewrite clog_at_limit in H; [vm_compute in H; discriminate H|vm_compute; reflexivity|discriminate].
Qed.

(** A message of INT_MAX bytes. *)
Lemma clog_huge_refuted : ~ (forall l module msg malloc_ok, countable (length (head l module)) -> countable (length msg) ->
  exists out, clog_vlog l module true (Some msg) malloc_ok = Ok out).
Proof.
  intros H. set (msg := repeat 65%N (N.to_nat int_max)).
  assert (L : N.of_nat (length msg) = int_max) by (unfold msg; rewrite repeat_length; apply N2Nat.id).
  destruct (H Error None msg true) as (out & E); [unfold countable, int_max; cbn; lia|unfold countable; lia|].
  clearbody msg. clear H.
  destruct (vlog_rest Error None true (Some msg) true) as (sb0 & HP & _ & E'). rewrite E' in E. clear E'.
  change (used_prefix Error None true) with (text "Error: ") in *. change (length (text "Error: ")) with 7 in *. unfold rest_of_vlog in E.
  change (int_max <? N.of_nat (7 + 1))%N with false in E. cbv iota in E. cbv zeta in E.
  destruct (N.ltb_spec int_max (N.of_nat (length msg))); [lia|]. destruct (N.ltb_spec int_max (N.of_nat (7 + length msg + 1))); [|lia].
  destruct (if clog_buffer_size <=? 7 + 1 then _ else _); discriminate E.
Qed.

(** ** The functions with a level *)

Lemma enabled_number l level : enabled level l <-> severity_number l <= level.
Proof.
  unfold enabled. split.
  - intros (i & H & E). destruct i as [|[|[|[|[|i]]]]]; cbn in E; try (injection E as <-; cbn; lia). destruct i; discriminate.
  - intros H. exists (severity_number l - 1). split; [destruct l; cbn in *; lia|now destruct l].
Qed.
Lemma log_level l level module prefix_ok formatted malloc_ok :
  countable (length (head l module) + match formatted with Some msg => length msg | None => 0 end + 1) ->
  exists out aborts, clog_log l level module prefix_ok formatted malloc_ok = Ok (out, aborts) /\ (aborts = true <-> l = Fatal) /\
    (~ enabled level l -> out = None) /\ (enabled level l -> clog_vlog l module prefix_ok formatted malloc_ok = Ok out).
Proof.
  intros C. destruct (clog_safe l module prefix_ok formatted malloc_ok C) as (out & E & _). unfold clog_log. rewrite E.
  exists (if severity_number l <=? level then out else None), (match l with Fatal => true | _ => false end). rewrite enabled_number.
  destruct (Nat.leb_spec (severity_number l) level); (split; [reflexivity|]); (split; [destruct l; split; congruence|]); split; intros; try lia; reflexivity.
Qed.
