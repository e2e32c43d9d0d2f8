(** Files are closed. *)
From Verif Require Import Base LinuxTextModel FileDescriptorModel FileDescriptorSpec.
From Verif Require ArmIsaModel.
From Coq Require Import ZArith.
Open Scope nat_scope.

Definition reads_of (size : nat) (fd : Z) (t : list event) : Prop :=
  exists reads last, t = reads ++ [last] /\ Forall (read_of size fd) (reads ++ [last]) /\ Forall goes_on reads.

Lemma reads_one size fd offset space got : offset + space <= size -> reads_of size fd [Read fd offset space got].
Proof. intros H. exists [], (Read fd offset space got). split; [reflexivity|]. split; [|constructor]. constructor; [|constructor]. now exists offset, space, got. Qed.
Lemma reads_more size fd offset space n t : offset + space <= size -> reads_of size fd t -> reads_of size fd (Read fd offset space (Some (S n)) :: t).
Proof.
  intros H (reads & last & -> & F & G). exists (Read fd offset space (Some (S n)) :: reads), last. split; [reflexivity|]. split.
  - constructor; [|exact F]. now exists offset, space, (Some (S n)).
  - constructor; [|exact G]. now exists fd, offset, space, n.
Qed.

Lemma wrapped {A} size fd (failure : A) body r t : (forall r t, body = Ok (r, t) -> reads_of size fd t) ->
  with_file fd failure body = Ok (r, t) -> one_file size fd t.
Proof.
  intros H. unfold with_file, cleanup. destruct (Z.eqb_spec fd (-1)) as [E|E].
  - intros Q. injection Q as <- <-. left. now split.
  - destruct body as [(r', t')| |]; cbn [bind fst snd]; try discriminate. intros Q. injection Q as <- <-. destruct (H r' t' eq_refl) as (reads & last & -> & F & G).
    right. split; [exact E|]. exists reads, last. split; [now rewrite <- app_assoc|now split].
Qed.

Lemma result_wrapped {A} fd (failure : A) body : result (with_file fd failure body) = if (fd =? -1)%Z then Ok failure else result body.
Proof. unfold with_file, result. destruct (fd =? -1)%Z; [reflexivity|]. now destruct body as [(r & t)| |]. Qed.

Section READERS.
Context {S : Type}.
Variable fd : Z.

Lemma multiline_reads callback size : forall fuel wants partial rest (ctx : S) r t,
  multiline_calls fd callback fuel size wants partial rest ctx = Ok (r, t) -> reads_of size fd t.
Proof.
  induction fuel as [|fuel IH]; intros wants partial rest ctx r t; cbn [multiline_calls]; [discriminate|].
  destruct (Nat.ltb_spec size (length partial)) as [L|L]; [discriminate|]. cbv zeta.
  destruct (read_call _ _ _) as [[|n]|].
  - intros E. injection E as <- <-. apply reads_one. lia.
  - destruct (scan_entries _ _ _) as (lines & partial'). destruct (feed_lines _ _ _) as ([|] & ctx').
    + destruct (multiline_calls _ _ _ _ _ _ _ _) as [(r' & t')| |] eqn:E; cbn [bind fst snd]; try discriminate. intros Q. injection Q as <- <-.
      apply reads_more; [lia|]. exact (IH _ _ _ _ _ _ E).
    + intros E. injection E as <- <-. apply reads_one. lia.
  - intros E. injection E as <- <-. apply reads_one. lia.
Qed.
Lemma multiline_result callback size : forall fuel wants partial rest (ctx : S),
  result (multiline_calls fd callback fuel size wants partial rest ctx) = multiline_loop callback fuel size wants partial rest ctx.
Proof.
  unfold result. induction fuel as [|fuel IH]; intros wants partial rest ctx; cbn [multiline_calls multiline_loop]; [reflexivity|].
  destruct (size <? length partial); [reflexivity|]. cbv zeta. destruct (read_call _ _ _) as [[|n]|]; try reflexivity.
  destruct (scan_entries _ _ _) as (lines & partial'). destruct (feed_lines _ _ _) as ([|] & ctx'); [|reflexivity].
  rewrite <- IH. now destruct (multiline_calls _ _ _ _ _ _ _ _) as [(r' & t')| |].
Qed.

Lemma cpulist_reads sg callback size : forall fuel wants status partial rest (ctx : S) r t,
  cpulist_calls fd sg callback fuel size wants status partial rest ctx = Ok (r, t) -> reads_of size fd t.
Proof.
  induction fuel as [|fuel IH]; intros wants status partial rest ctx r t; cbn [cpulist_calls]; [discriminate|].
  destruct (Nat.ltb_spec size (length partial)) as [L|L]; [discriminate|]. cbv zeta.
  destruct (read_call _ _ _) as [[|n]|].
  - destruct (_ && _); [discriminate|]. intros E. injection E as <- <-. apply reads_one. lia.
  - destruct (scan_entries _ _ _) as (es & partial'). destruct (feed_entries _ _ _ _ _) as (status' & ctx').
    destruct (cpulist_calls _ _ _ _ _ _ _ _ _ _) as [(r' & t')| |] eqn:E; cbn [bind fst snd]; try discriminate. intros Q. injection Q as <- <-.
    apply reads_more; [lia|]. exact (IH _ _ _ _ _ _ _ E).
  - intros E. injection E as <- <-. apply reads_one. lia.
Qed.
Lemma cpulist_result sg callback size : forall fuel wants status partial rest (ctx : S),
  result (cpulist_calls fd sg callback fuel size wants status partial rest ctx) = cpulist_loop callback sg fuel size wants status partial rest ctx.
Proof.
  unfold result. induction fuel as [|fuel IH]; intros wants status partial rest ctx; cbn [cpulist_calls cpulist_loop]; [reflexivity|].
  destruct (size <? length partial); [reflexivity|]. cbv zeta. destruct (read_call _ _ _) as [[|n]|]; try reflexivity.
  - destruct (_ && _); reflexivity.
  - destruct (scan_entries _ _ _) as (es & partial'). destruct (feed_entries _ _ _ _ _) as (status' & ctx').
    rewrite <- IH. now destruct (cpulist_calls _ _ _ _ _ _ _ _ _ _) as [(r' & t')| |].
Qed.

Lemma smallfile_reads callback size : forall fuel wants buf rest (ctx : S) r t,
  smallfile_calls fd callback fuel size wants buf rest ctx = Ok (r, t) -> reads_of size fd t.
Proof.
  induction fuel as [|fuel IH]; intros wants buf rest ctx r t; cbn [smallfile_calls]; [discriminate|].
  destruct (Nat.ltb_spec size (length buf)) as [L|L]; [discriminate|]. cbv zeta.
  destruct (read_call _ _ _) as [n|].
  - destruct (_ <=? _); [intros E; injection E as <- <-; apply reads_one; lia|]. destruct n as [|n].
    + intros E. injection E as <- <-. apply reads_one. lia.
    + destruct (smallfile_calls _ _ _ _ _ _ _ _) as [(r' & t')| |] eqn:E; cbn [bind fst snd]; try discriminate. intros Q. injection Q as <- <-.
      apply reads_more; [lia|]. exact (IH _ _ _ _ _ _ E).
  - intros E. injection E as <- <-. apply reads_one. lia.
Qed.
Lemma smallfile_result callback size : forall fuel wants buf rest (ctx : S),
  result (smallfile_calls fd callback fuel size wants buf rest ctx) = smallfile_loop callback fuel size wants buf rest ctx.
Proof.
  unfold result. induction fuel as [|fuel IH]; intros wants buf rest ctx; cbn [smallfile_calls smallfile_loop]; [reflexivity|].
  destruct (size <? length buf); [reflexivity|]. cbv zeta. destruct (read_call _ _ _) as [n|]; [|reflexivity].
  destruct (_ <=? _); [reflexivity|]. destruct n as [|n]; [reflexivity|]. rewrite <- IH. now destruct (smallfile_calls _ _ _ _ _ _ _ _) as [(r' & t')| |].
Qed.

Lemma multiline_closed callback size contents wants (ctx : S) :
  result (multiline_traced fd callback size contents wants ctx) = parse_multiline_file callback size (opened_file fd contents) wants ctx /\
  forall r t, multiline_traced fd callback size contents wants ctx = Ok (r, t) -> one_file size fd t.
Proof.
  unfold multiline_traced. split.
  - rewrite result_wrapped, multiline_result. unfold opened_file. now destruct (fd =? -1)%Z.
  - intros r t. apply wrapped. intros r' t'. apply multiline_reads.
Qed.
Lemma cpulist_closed sg callback contents wants (ctx : S) :
  result (cpulist_traced fd sg callback contents wants ctx) = parse_cpulist callback sg (opened_file fd contents) wants ctx /\
  forall r t, cpulist_traced fd sg callback contents wants ctx = Ok (r, t) -> one_file 256 fd t.
Proof.
  unfold cpulist_traced. split.
  - rewrite result_wrapped, cpulist_result. unfold opened_file. now destruct (fd =? -1)%Z.
  - intros r t. apply wrapped. intros r' t'. apply cpulist_reads.
Qed.
Lemma smallfile_closed callback size contents wants (ctx : S) :
  result (smallfile_traced fd callback size contents wants ctx) = parse_small_file callback size (opened_file fd contents) wants ctx /\
  forall r t, smallfile_traced fd callback size contents wants ctx = Ok (r, t) -> one_file size fd t.
Proof.
  unfold smallfile_traced. split.
  - rewrite result_wrapped, smallfile_result. unfold opened_file. now destruct (fd =? -1)%Z.
  - intros r t. apply wrapped. intros r' t'. apply smallfile_reads.
Qed.
End READERS.

Lemma auxv_reads fd : forall reads h h2, reads_of 8 fd (snd (auxv_calls fd reads h h2)).
Proof.
  induction reads as [|r reads IH]; intros h h2; cbn [auxv_calls]; [apply reads_one; lia|].
  destruct r as [type value|[|n]|]; cbn [auxv_got]; try (apply reads_one; cbn; lia).
  destruct (if (type =? 16)%N then _ else _) as (h', h2'). specialize (IH h' h2'). destruct (auxv_calls _ _ _ _) as (result & calls). cbn [snd] in *.
  apply reads_more; [lia|exact IH].
Qed.
Lemma auxv_result fd : forall reads h h2, fst (auxv_calls fd reads h h2) = ArmIsaModel.read_auxv reads h h2.
Proof.
  induction reads as [|r reads IH]; intros h h2; cbn [auxv_calls ArmIsaModel.read_auxv]; [reflexivity|].
  destruct r as [type value|[|n]|]; try reflexivity. destruct (type =? 16)%N; [|destruct (type =? 26)%N]; rewrite <- IH; now destruct (auxv_calls _ _ _ _).
Qed.
Lemma auxv_closed fd reads :
  result (auxv_traced fd reads) = Ok (if (fd =? -1)%Z then None else ArmIsaModel.read_auxv reads 0%N 0%N) /\
  forall r t, auxv_traced fd reads = Ok (r, t) -> one_file 8 fd t.
Proof.
  unfold auxv_traced. split.
  - rewrite result_wrapped. destruct (fd =? -1)%Z; [reflexivity|]. unfold result. cbn [bind]. now rewrite auxv_result.
  - intros r t. apply wrapped. intros r' t' E. injection E as E. pose proof (auxv_reads fd reads 0%N 0%N) as H. now rewrite E in H.
Qed.

(** ** Whole programs *)
Lemma existsb_in fd opened : existsb (Z.eqb fd) opened = true <-> In fd opened.
Proof.
  rewrite existsb_exists. split; [intros (x & Hx & E); apply Z.eqb_eq in E; now subst x|]. intros H. exists fd. split; [exact H|apply Z.eqb_refl].
Qed.
Lemma run_app : forall t u opened, run opened (t ++ u) = match run opened t with Some o => run o u | None => None end.
Proof.
  induction t as [|e t IH]; intros u opened; [reflexivity|]. cbn [app run]. destruct e as [r|fd o s g|fd].
  - destruct (r =? -1)%Z; apply IH.
  - destruct (existsb _ _); [apply IH|reflexivity].
  - destruct (existsb _ _); [apply IH|reflexivity].
Qed.
Lemma run_reads size fd : forall t opened, In fd opened -> Forall (read_of size fd) t -> run opened t = Some opened.
Proof.
  induction t as [|e t IH]; intros opened H F; [reflexivity|]. inversion F as [|? ? (o & s & g & -> & _) F']; subst. cbn [run].
  rewrite (proj2 (existsb_in fd opened) H). now apply IH.
Qed.
Lemma filter_out fd opened : ~ In fd opened -> filter (fun x => negb (x =? fd)%Z) opened = opened.
Proof.
  induction opened as [|x l IH]; intros H; [reflexivity|]. cbn [filter]. destruct (Z.eqb_spec x fd) as [->|E]; [destruct H; now left|].
  cbn [negb]. f_equal. apply IH. intros Q. apply H. now right.
Qed.
Lemma run_one size fd opened t : one_file size fd t -> ~ In fd opened -> run opened t = Some opened.
Proof.
  intros [(-> & ->)|(NE & reads & last & -> & F & _)] H; [reflexivity|]. cbn [run]. destruct (Z.eqb_spec fd (-1)) as [E|_]; [now destruct NE|].
  replace (reads ++ [last; Closed fd]) with ((reads ++ [last]) ++ [Closed fd]) by now rewrite <- app_assoc.
  rewrite run_app, (run_reads size fd) by (try exact F; now left). cbn [run]. rewrite (proj2 (existsb_in fd _)) by now left. cbn [filter].
  rewrite Z.eqb_refl. cbn [negb]. now rewrite filter_out.
Qed.
Lemma run_all opened : forall traces, Forall (fun t => exists size fd, one_file size fd t /\ ~ In fd opened) traces -> run opened (concat traces) = Some opened.
Proof.
  induction traces as [|t traces IH]; intros F; [reflexivity|]. inversion F as [|? ? (size & fd & O & NI) F']; subst. cbn [concat].
  rewrite run_app, (run_one size fd opened t O NI). now apply IH.
Qed.
