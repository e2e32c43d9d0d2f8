(** Lemmas about mocked files. *)
From Verif Require Import Base BaseProofs LinuxTextModel MockFileModel MockFileSpec.
Open Scope nat_scope.

Lemma strings_equal_spec a : forall b, strings_equal a b = true <-> a = b.
Proof.
  induction a as [|x a IH]; intros [|y b]; cbn [strings_equal]; split; intros H; try reflexivity; try discriminate.
  - apply andb_true_iff in H as [H1 H2]. apply N.eqb_eq in H1. apply IH in H2. now subst.
  - injection H as -> ->. rewrite N.eqb_refl. now apply IH.
Qed.

(** ** The invariant *)
Record inv (files fs : list mock_file) (events : list event) : Prop := {
  inv_length : length fs = length files;
  inv_files : forall i f, nth_error files i = Some f ->
    nth_error fs i = Some (with_offset (position events (Z.of_nat i)) f) /\
    forall p, position events (Z.of_nat i) = Some p -> p <= mf_size f;
  inv_others : forall fd, (fd < 0 \/ Z.of_nat (length files) <= fd)%Z -> position events fd = None
}.
Lemma with_offset_twice o o' f : with_offset o (with_offset o' f) = with_offset o f.
Proof. reflexivity. Qed.
Lemma inv_start files : inv files (mock_filesystem files) [].
Proof.
  constructor.
  - apply map_length.
  - intros i f H. unfold mock_filesystem. rewrite nth_error_map, H. split; [reflexivity|discriminate].
  - reflexivity.
Qed.
Lemma position_snoc events e fd : position (events ++ [e]) fd = follow fd (position events fd) e.
Proof. unfold position. now rewrite fold_left_app. Qed.
Lemma follow_error fd p c n : follow fd p (c, Error n) = p.
Proof. now destruct c. Qed.
Lemma inv_error files fs events c n : inv files fs events -> inv files fs (events ++ [(c, Error n)]).
Proof.
  intros [L F O]. constructor; [exact L| |].
  - intros i f H. rewrite position_snoc, follow_error. now apply F.
  - intros fd H. rewrite position_snoc, follow_error. now apply O.
Qed.

Lemma number_of_spec fd fs :
  (exists i, number_of fd fs = Some i /\ fd = Z.of_nat i /\ i < length fs) \/
  (number_of fd fs = None /\ (fd < 0 \/ Z.of_nat (length fs) <= fd)%Z).
Proof.
  unfold number_of. destruct (Z.leb_spec 0 fd), (Z.ltb_spec fd (Z.of_nat (length fs))); cbn [andb]; try (right; split; [reflexivity|lia]).
  left. exists (Z.to_nat fd). split; [reflexivity|]. lia.
Qed.
Lemma same_fd i : (Z.of_nat i =? Z.of_nat i)%Z = true.
Proof. apply Z.eqb_refl. Qed.
Lemma other_fd i j : i <> j -> (Z.of_nat i =? Z.of_nat j)%Z = false.
Proof. intros H. apply Z.eqb_neq. lia. Qed.

(** A change of the offset of one file. *)
Lemma inv_update files fs events e i f o : inv files fs events -> nth_error files i = Some f ->
  (forall fd, follow fd (position events fd) e = if (fd =? Z.of_nat i)%Z then o else position events fd) ->
  (forall p, o = Some p -> p <= mf_size f) ->
  inv files (upd fs i (with_offset o f)) (events ++ [e]).
Proof.
  intros [L F O] H E B. assert (LI : i < length files) by (apply nth_error_Some; congruence). constructor.
  - now rewrite upd_length.
  - intros j g J. rewrite position_snoc, E. destruct (Nat.eq_dec j i) as [->|N].
    + rewrite same_fd. assert (g = f) as -> by congruence. split; [|exact B]. apply nth_error_upd_eq. lia.
    + rewrite other_fd by exact N. rewrite nth_error_upd_neq by congruence. now apply F.
  - intros fd R. rewrite position_snoc, E. destruct (Z.eqb_spec fd (Z.of_nat i)); [lia|]. now apply O.
Qed.

(** ** Opening *)
Lemma open_from_spec path oflag fs : forall i,
  (exists k f, nth_error fs k = Some f /\ mf_path f = path /\ (forall j g, j < k -> nth_error fs j = Some g -> mf_path g <> path) /\
     open_from i path oflag fs =
       if negb (oflag =? 0)%N then (fs, Error eacces)
       else match mf_offset f with Some _ => (fs, Error enfile) | None => (upd fs k (with_offset (Some 0) f), Fd (Z.of_nat (i + k))) end) \/
  ((forall k f, nth_error fs k = Some f -> mf_path f <> path) /\ open_from i path oflag fs = (fs, Error enoent)).
Proof.
  induction fs as [|f fs IH]; intros i.
  - right. split; [|reflexivity]. intros [|k] f; discriminate.
  - cbn [open_from]. destruct (strings_equal (mf_path f) path) eqn:E.
    + apply strings_equal_spec in E. left. exists 0, f. split; [reflexivity|]. split; [exact E|]. split; [intros j g J; lia|].
      destruct (negb _); [reflexivity|]. destruct (mf_offset f); [reflexivity|]. rewrite Nat.add_0_r. reflexivity.
    + assert (N : mf_path f <> path) by (intros N; apply strings_equal_spec in N; congruence).
      destruct (IH (S i)) as [(k & g & G & P & U & R)|(A & R)].
      * left. exists (S k), g. split; [exact G|]. split; [exact P|]. split.
        -- intros [|j] h J J'; [cbn in J'; congruence|]. apply (U j h); [lia|exact J'].
        -- rewrite R. destruct (negb _); [reflexivity|]. destruct (mf_offset g); [reflexivity|]. cbn [upd]. now rewrite Nat.add_succ_r.
      * right. rewrite R. split; [|reflexivity]. intros [|k] g G; [cbn in G; congruence|]. now apply (A k).
Qed.
Lemma path_kept files fs events i f : inv files fs events -> nth_error fs i = Some f ->
  exists g, nth_error files i = Some g /\ mf_path f = mf_path g /\ mf_offset f = position events (Z.of_nat i) /\ (forall o, with_offset o f = with_offset o g).
Proof.
  intros [L F O] H. assert (LI : i < length files) by (rewrite <- L; apply nth_error_Some; congruence).
  destruct (nth_error files i) as [g|] eqn:G; [|apply nth_error_None in G; lia]. destruct (F i g G) as [E _]. rewrite E in H. injection H as <-.
  exists g. repeat split.
Qed.
Lemma path_index files i path : nth_error (map mf_path files) i = Some path <-> exists g, nth_error files i = Some g /\ mf_path g = path.
Proof.
  rewrite nth_error_map. destruct (nth_error files i) as [g|]; cbn; split.
  - intros E. injection E as <-. now exists g.
  - intros (h & E & <-). now injection E as ->.
  - discriminate.
  - intros (h & E & _). discriminate.
Qed.

Definition same_name (files fs : list mock_file) : Prop := map mf_path fs = map mf_path files.

Lemma step_ok files fs events c : Forall backed files -> inv files fs events ->
  exists fs' a, step fs c = Ok (fs', a) /\ expected files events c a /\ inv files fs' (events ++ [(c, a)]).
Proof.
  intros B I. pose proof I as [L F O]. destruct c as [path oflag|fd capacity|fd]; cbn [step].
  - unfold mock_open. destruct (open_from_spec path oflag fs 0) as [(k & f & K & P & U & R)|(A & R)]; rewrite R; clear R.
    + destruct (path_kept files fs events k f I K) as (g & G & PG & OG & WG).
      assert (NM : named path files k).
      { split; [apply path_index; exists g; split; congruence|]. intros j J E. apply path_index in E as (h & H & PH).
        destruct (F j h H) as [Fj _]. apply (U j _ J Fj). exact PH. }
      destruct (N.eqb_spec oflag 0) as [->|NZ]; cbn [negb].
      * rewrite OG, WG. destruct (position events (Z.of_nat k)) as [p|] eqn:PO.
        -- exists fs, (Error enfile). split; [reflexivity|]. split; [|now apply inv_error]. left. exists k. split; [exact NM|].
           cbn. now rewrite PO.
        -- exists (upd fs k (with_offset (Some 0) g)), (Fd (Z.of_nat k)). split; [reflexivity|]. split.
           ++ left. exists k. split; [exact NM|]. cbn. now rewrite PO.
           ++ apply inv_update; [exact I|exact G| |intros p E; injection E as <-; lia].
              intros fd. cbn [follow]. reflexivity.
      * exists fs, (Error eacces). split; [reflexivity|]. split; [|now apply inv_error]. left. exists k. split; [exact NM|].
        apply N.eqb_neq in NZ. now rewrite NZ.
    + exists fs, (Error enoent). split; [reflexivity|]. split; [|now apply inv_error]. right. split; [|reflexivity].
      intros i [N _]. apply path_index in N as (g & G & PG). destruct (F i g G) as [Fi _]. now apply (A _ _ Fi).
  - unfold mock_read. destruct (number_of_spec fd fs) as [(i & -> & -> & LI)|(-> & R)].
    + destruct (nth_error fs i) as [f|] eqn:K; [|apply nth_error_None in K; lia].
      destruct (path_kept files fs events i f I K) as (g & G & PG & OG & WG). unfold rd. rewrite K. cbn [bind]. rewrite OG.
      destruct (F i g G) as [Fi Bi]. assert (f = with_offset (position events (Z.of_nat i)) g) as Ef by congruence.
      destruct (position events (Z.of_nat i)) as [p|] eqn:PO.
      * specialize (Bi p eq_refl). assert (Bg : backed g) by (rewrite Forall_forall in B; apply B; now apply nth_error_In in G).
        unfold backed in Bg. subst f. cbn [mf_size mf_content with_offset].
        destruct (Nat.ltb_spec (mf_size g) p); [lia|].
        set (count := if capacity <? mf_size g - p then capacity else mf_size g - p).
        assert (C : count = Nat.min capacity (mf_size g - p)) by (unfold count; destruct (Nat.ltb_spec capacity (mf_size g - p)); lia).
        clearbody count. destruct (Nat.ltb_spec (length (mf_content g)) (p + count)); [lia|].
        unfold wr. destruct (Nat.ltb_spec i (length fs)); [|lia]. cbn [bind].
        assert (EC : firstn count (skipn p (mf_content g)) = firstn capacity (skipn p (contents g))).
        { unfold contents. rewrite skipn_firstn_comm, firstn_firstn, C. reflexivity. }
        assert (LC : length (firstn count (skipn p (mf_content g))) = count) by (rewrite firstn_length, skipn_length; lia).
        eexists _, _. split; [reflexivity|]. split.
        -- cbn [expected]. rewrite PO, Nat2Z.id. exists g. split; [lia|]. split; [exact G|]. now rewrite EC.
        -- rewrite with_offset_twice. apply inv_update; [exact I|exact G| |intros q E; injection E as <-; lia].
           intros fd'. cbn [follow]. destruct (Z.eqb_spec fd' (Z.of_nat i)) as [->|]; [|reflexivity]. rewrite PO. cbn [option_map]. now rewrite LC.
      * exists fs, (Error ebadf). split; [reflexivity|]. split; [cbn; now rewrite PO|now apply inv_error].
    + exists fs, (Error ebadf). split; [reflexivity|]. split; [cbn; rewrite O by (rewrite <- L; exact R); reflexivity|now apply inv_error].
  - unfold mock_close. destruct (number_of_spec fd fs) as [(i & -> & -> & LI)|(-> & R)].
    + destruct (nth_error fs i) as [f|] eqn:K; [|apply nth_error_None in K; lia].
      destruct (path_kept files fs events i f I K) as (g & G & PG & OG & WG). unfold rd. rewrite K. cbn [bind]. rewrite OG.
      destruct (position events (Z.of_nat i)) as [p|] eqn:PO.
      * unfold wr. destruct (Nat.ltb_spec i (length fs)); [|lia]. cbn [bind]. rewrite WG. eexists _, _. split; [reflexivity|]. split; [cbn; now rewrite PO|].
        apply inv_update; [exact I|exact G|intros fd'; reflexivity|discriminate].
      * exists fs, (Error ebadf). split; [reflexivity|]. split; [cbn; now rewrite PO|now apply inv_error].
    + exists fs, (Error ebadf). split; [reflexivity|]. split; [cbn; rewrite O by (rewrite <- L; exact R); reflexivity|now apply inv_error].
Qed.

Lemma run_ok files : Forall backed files -> forall calls fs events, inv files fs events ->
  exists fs' answers, run fs calls = Ok (fs', answers) /\ length answers = length calls /\
  forall i c a, nth_error (combine calls answers) i = Some (c, a) -> expected files (events ++ firstn i (combine calls answers)) c a.
Proof.
  intros B calls. induction calls as [|c calls IH]; intros fs events I.
  - exists fs, []. split; [reflexivity|]. split; [reflexivity|]. intros [|i] c a; discriminate.
  - destruct (step_ok files fs events c B I) as (fs1 & a & S & E & I1). destruct (IH fs1 _ I1) as (fs2 & answers & R & L & H).
    exists fs2, (a :: answers). cbn [run]. rewrite S. cbn [bind]. rewrite R. cbn [bind]. split; [reflexivity|]. split; [cbn; now rewrite L|].
    intros [|i] c' a' N; cbn [combine nth_error firstn] in *.
    + injection N as <- <-. now rewrite app_nil_r.
    + specialize (H i c' a' N). now rewrite <- app_assoc in H.
Qed.
Lemma mock_exact files calls : Forall backed files ->
  exists fs answers, run (mock_filesystem files) calls = Ok (fs, answers) /\ length answers = length calls /\
  forall i c a, nth_error (combine calls answers) i = Some (c, a) -> expected files (firstn i (combine calls answers)) c a.
Proof. intros B. apply (run_ok files B calls _ [] (inv_start files)). Qed.

(** ** What the reads of a descriptor give *)
Lemma read_from_snoc fd events e : read_from fd (events ++ [e]) = read_from fd events ++ given fd e.
Proof. unfold read_from. rewrite flat_map_app. cbn [flat_map]. now rewrite app_nil_r. Qed.

Lemma firstn_grow {A} (l : list A) k n : firstn k l ++ firstn n (skipn k l) = firstn (k + n) l.
Proof. revert l. induction k as [|k IH]; intros l; [reflexivity|]. destruct l as [|x l]; [now destruct n|]. cbn. now rewrite IH. Qed.

Lemma later_events {A} (l1 l2 : list A) x i y : nth_error l2 i = Some y ->
  nth_error (l1 ++ x :: l2) (length l1 + S i) = Some y /\ firstn (length l1 + S i) (l1 ++ x :: l2) = l1 ++ x :: firstn i l2.
Proof.
  intros H. split.
  - rewrite nth_error_app2 by lia. replace (length l1 + S i - length l1) with (S i) by lia. exact H.
  - rewrite firstn_app. replace (length l1 + S i - length l1) with (S i) by lia. rewrite firstn_all2 by lia. reflexivity.
Qed.

(** After the file has been opened, and while it is not closed. *)
Lemma reading files before during path fd f : Forall backed files ->
  (forall i c a, nth_error (before ++ (Open path 0%N, Fd fd) :: during) i = Some (c, a) ->
     expected files (firstn i (before ++ (Open path 0%N, Fd fd) :: during)) c a) ->
  (forall a, ~ In (Close fd, a) during) -> (0 <= fd)%Z -> nth_error files (Z.to_nat fd) = Some f ->
  forall k, k <= length during ->
    exists n, n <= mf_size f /\ position (before ++ (Open path 0%N, Fd fd) :: firstn k during) fd = Some n /\
      read_from fd (firstn k during) = firstn n (contents f).
Proof.
  intros B X NC P G k. assert (Bf : backed f) by (rewrite Forall_forall in B; apply B; now apply nth_error_In in G).
  assert (LC : length (contents f) = mf_size f) by (unfold contents; rewrite firstn_length; unfold backed in Bf; lia).
  induction k as [|k IH]; intros K.
  - exists 0. split; [lia|]. split; [|reflexivity]. cbn [firstn]. rewrite position_snoc. cbn [follow]. now rewrite Z.eqb_refl.
  - destruct IH as (n & N & PO & R); [lia|]. destruct (nth_error during k) as [[c a]|] eqn:E; [|apply nth_error_None in E; lia].
    assert (SN : firstn (S k) during = firstn k during ++ [(c, a)]).
    { clear - E. revert during E. induction k as [|k IH]; intros [|x l] E; try discriminate; cbn in *; [now injection E as ->|]. now rewrite <- IH. }
    rewrite SN. assert (NI : forall z, (c, a) <> (Close fd, z)) by (intros z Q; apply (NC z); rewrite <- Q; now apply nth_error_In in E).
    change (before ++ (Open path 0%N, Fd fd) :: firstn k during ++ [(c, a)]) with (before ++ ((Open path 0%N, Fd fd) :: firstn k during) ++ [(c, a)]).
    rewrite app_assoc, position_snoc, read_from_snoc, R.
    destruct (later_events before during (Open path 0%N, Fd fd) k (c, a) E) as [E1 E2].
    specialize (X _ _ _ E1). rewrite E2 in X.
    rewrite PO. destruct c as [path' oflag|fd' capacity|fd']; cbn [expected] in X.
    + exists n. split; [exact N|]. cbn [given]. rewrite app_nil_r. split; [|reflexivity].
      destruct X as [(i & NM & ->)|(_ & ->)]; [|reflexivity]. destruct (oflag =? 0)%N; [|reflexivity].
      destruct (position _ (Z.of_nat i)) eqn:Q; [reflexivity|]. cbn [follow]. destruct (Z.eqb_spec fd (Z.of_nat i)) as [->|]; [|reflexivity].
      rewrite PO in Q. discriminate.
    + destruct (Z.eqb_spec fd fd') as [<-|D].
      * rewrite PO in X. destruct X as (g & _ & G' & ->). assert (g = f) as -> by congruence.
        cbn [follow given]. rewrite Z.eqb_refl. cbn [option_map]. rewrite firstn_length, skipn_length, LC. rewrite firstn_grow.
        exists (n + Nat.min capacity (mf_size f - n)). split; [lia|]. split; [reflexivity|].
        destruct (Nat.le_gt_cases capacity (mf_size f - n)); [now rewrite Nat.min_l by lia|].
        rewrite Nat.min_r by lia. rewrite !firstn_all2 by lia. reflexivity.
      * exists n. split; [exact N|]. apply Z.eqb_neq in D. assert (GV : given fd (Read fd' capacity, a) = []) by (cbn; destruct a; try reflexivity; now rewrite D).
        rewrite GV, app_nil_r. split; [|reflexivity]. cbn [follow]. destruct a; try reflexivity. now rewrite D.
    + exists n. split; [exact N|]. cbn [given]. rewrite app_nil_r. split; [|reflexivity].
      cbn [follow]. destruct a; try reflexivity. destruct (Z.eqb_spec fd fd') as [<-|]; [|reflexivity]. now destruct (NI Done).
Qed.

Lemma run_events fs calls fs' answers : run fs calls = Ok (fs', answers) -> length answers = length calls.
Proof.
  revert fs fs' answers. induction calls as [|c calls IH]; intros fs fs' answers H; cbn [run] in H; [now injection H as <- <-|].
  destruct (step fs c) as [[fs1 a]| |]; try discriminate. cbn [bind] in H. destruct (run fs1 calls) as [[fs2 as2]| |] eqn:R; try discriminate.
  cbn [bind] in H. injection H as <- <-. cbn. now rewrite (IH _ _ _ R).
Qed.
Lemma combine_split {A B} (a1 a2 : list A) (b1 b2 : list B) x y : length b1 = length a1 ->
  combine (a1 ++ x :: a2) (b1 ++ y :: b2) = combine a1 b1 ++ (x, y) :: combine a2 b2.
Proof. revert b1. induction a1 as [|z a1 IH]; intros [|w b1] H; try discriminate; [reflexivity|]. cbn in *. now rewrite IH by lia. Qed.

Lemma mock_reading files calls path during fs answers fd answers' : Forall backed files ->
  run (mock_filesystem files) (calls ++ Open path 0%N :: during) = Ok (fs, answers ++ Fd fd :: answers') -> length answers = length calls ->
  ~ In (Close fd) during ->
  let events := combine during answers' in
  exists i f, fd = Z.of_nat i /\ named path files i /\ nth_error files i = Some f /\
    (forall k capacity a, nth_error events k = Some (Read fd capacity, a) ->
       exists rest, contents f = read_from fd (firstn k events) ++ rest /\ a = Bytes (firstn capacity rest) /\
                    read_call (Some capacity) capacity rest = Some (length (firstn capacity rest))) /\
    (forall capacity, In (Read fd capacity, Bytes []) events -> 0 < capacity -> read_from fd events = contents f).
Proof.
  intros B R L NC events. destruct (mock_exact files (calls ++ Open path 0%N :: during) B) as (fs1 & as1 & R1 & L1 & X). rewrite R in R1. injection R1 as <- <-.
  rewrite combine_split in X by exact L. fold events in X.
  assert (NC' : forall a, ~ In (Close fd, a) events) by (intros a I; apply NC; exact (in_combine_l _ _ _ _ I)).
  assert (O : expected files (combine calls answers) (Open path 0%N) (Fd fd)).
  { specialize (X (length (combine calls answers)) (Open path 0%N) (Fd fd)). rewrite nth_error_app2, Nat.sub_diag in X by lia. specialize (X eq_refl).
    rewrite firstn_app, Nat.sub_diag, firstn_all in X. cbn [firstn] in X. now rewrite app_nil_r in X. }
  cbn [expected] in O. destruct O as [(i & NM & E)|[_ E]]; [|discriminate]. cbn in E.
  destruct (position (combine calls answers) (Z.of_nat i)); [discriminate|]. injection E as ->.
  pose proof NM as [NM1 _]. apply path_index in NM1 as (f & F & _). exists i, f. split; [reflexivity|]. split; [exact NM|]. split; [exact F|].
  pose proof (reading files (combine calls answers) events path (Z.of_nat i) f B X NC' ltac:(lia) ltac:(now rewrite Nat2Z.id)) as RD.
  assert (RC : forall k capacity a, nth_error events k = Some (Read (Z.of_nat i) capacity, a) ->
       exists rest, contents f = read_from (Z.of_nat i) (firstn k events) ++ rest /\ a = Bytes (firstn capacity rest) /\
                    read_call (Some capacity) capacity rest = Some (length (firstn capacity rest))).
  { intros k capacity a K. destruct (RD k) as (n & N & PO & RF). { apply Nat.lt_le_incl, nth_error_Some. congruence. }
    destruct (later_events (combine calls answers) events (Open path 0%N, Fd (Z.of_nat i)) k _ K) as [E1 E2]. specialize (X _ _ _ E1). rewrite E2 in X.
    cbn [expected] in X. rewrite PO, Nat2Z.id in X. destruct X as (g & _ & G & ->). assert (g = f) as -> by congruence.
    exists (skipn n (contents f)). rewrite RF, firstn_skipn. split; [reflexivity|]. split; [reflexivity|].
    cbn [hd read_call]. rewrite firstn_length. f_equal. destruct capacity; lia. }
  split; [exact RC|]. intros capacity I C. apply In_nth_error in I as (k & K). destruct (RC k capacity _ K) as (rest & E & A & _).
  assert (rest = []) as ->. { destruct rest; [reflexivity|]. destruct capacity; [lia|]. discriminate A. }
  rewrite app_nil_r in E. destruct (RD (length events) (le_n _)) as (n & LN & PO & RF). rewrite firstn_all in RF.
  assert (PR : exists tl, read_from (Z.of_nat i) events = read_from (Z.of_nat i) (firstn k events) ++ tl).
  { exists (read_from (Z.of_nat i) (skipn k events)). unfold read_from. rewrite <- flat_map_app. now rewrite firstn_skipn. }
  destruct PR as (tl & PR). rewrite <- E in PR. rewrite RF in PR. rewrite RF.
  pose proof (f_equal (fun l => length l) PR) as LL. cbn beta in LL. rewrite app_length, firstn_length in LL. rewrite firstn_all2 by lia. reflexivity.
Qed.
