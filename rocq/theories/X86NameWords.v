(** Lemmas about brand strings: what one token does. *)
From Verif Require Import Base BaseProofs Text X86NameModel X86NameSpec X86NameProofs.
Open Scope nat_scope.

Definition some {A} (o : option A) : bool := match o with Some _ => true | None => false end.

(** The contexts of the parser are those of the tag. *)
Record contexts (st : parser) (s : state) : Prop := Contexts {
  cx_model : some (ps_model st) = match st_tag s with Model_ => true | _ => false end;
  cx_letter : some (ps_letter st) = match st_tag s with Letter _ => true | _ => false end;
  cx_dual : some (ps_dual st) = match st_tag s with Dual_ => true | _ => false end;
  cx_core : some (ps_core st) = match st_tag s with Core_ => true | _ => false end;
  cx_engineering : some (ps_engineering st) = st_engineering s }.

Definition zeros (v : word) : bool := forallb (fun c => c =? 48)%N v.
Definition inert (v : word) : Prop := zeros v = false /\ forallb digit v = false /\ two_digits v = false /\ frequency v = false.
Definition kept_plain (s : state) (after : bool) (v : word) (t : tag) (engineering : bool) : state :=
  State (st_kept s ++ [(after, v)]) t (st_engineering s || engineering) (st_sample s) (st_number s) (st_frequency s).

Definition classified (has_at after : bool) (s : state) (v : word) (a : option action) : Prop :=
  match a with
  | Some (Erase result) => settle has_at after s v = (set_tag s Plain, result)
  | Some Erase_core => settle has_at after s v = (set_tag s Core_, true)
  | Some (Erase_since C_dual true) =>
      st_tag s = Dual_ /\ settle has_at after s v = (set_tag (forget_last s) Core_, true)
  | Some (Erase_since C_model false) =>
      st_tag s = Model_ /\ settle has_at after s v = (set_tag (forget_last s) Plain, true)
  | Some (Note C_dual None) => v = text "Dual" /\ inert v /\ settle has_at after s v = (kept_plain s after v Dual_ false, true)
  | Some (Note C_model (Some true)) => v = text "model" /\ settle has_at after s v = (kept_plain s after v Model_ false, true)
  | Some (Note C_engineering None) => inert v /\ settle has_at after s v = (kept_plain s after v Plain true, true)
  | Some (Note C_engineering (Some true)) => settle has_at after s v = (kept_plain s after v Plain true, true)
  | Some Xeon => inert v /\ settle has_at after s v = (kept_plain s after v Plain false, true)
  | Some Sample => settle has_at after s v =
      (State (st_kept s) Plain (st_engineering s) true (st_number s) (st_frequency s), false)
  | Some (Return false) => settle has_at after s v = (kept_plain s after v Plain false, false)
  | None => v <> text "Dual" /\ v <> text "model" /\ one_of v ["Eng"; "Engineering"]%string = false /\
      settle has_at after s v = if zeros v then (set_tag s Plain, true) else (keep has_at after s v, true)
  | _ => False
  end.

Lemma applies_eq : forall st v r, applies st v r =
  match r_when r with None => true | Some c => some (context_of st c) end && is_word v (r_word r).
Proof. intros. unfold applies, asked. destruct (r_when r) as [c|]; [|reflexivity]. now destruct (context_of st c). Qed.

Lemma keep_plain : forall has_at after s v,
  forallb digit v = false -> lower_v v = v -> two_digits v = false -> frequency v = false ->
  keep has_at after s v = State (st_kept s ++ [(after, v)]) (tag_of v) (st_engineering s || one_of v ["Eng"; "Engineering"]%string)
                            (st_sample s) (st_number s) (st_frequency s).
Proof.
  intros h a s v D L T F. unfold keep. replace (merges s v) with (@None word).
  - rewrite L, T, F, andb_false_r, !orb_false_r. reflexivity.
  - unfold merges. destruct (st_tag s); try reflexivity. now rewrite D.
Qed.

Lemma classify : forall has_at after st s v, contexts st s -> classified has_at after s v (rule_for st v).
Proof.
  intros h a st s v [X1 X2 X3 X4 X5]. unfold rule_for.
  replace (find (applies st v) all_rules) with
    (find (fun r => match r_when r with None => true | Some C_model => some (ps_model st) | Some C_dual => some (ps_dual st)
                    | Some C_core => some (ps_core st) | Some C_engineering => some (ps_engineering st) end && is_word v (r_word r)) all_rules).
  2: { induction all_rules as [|r l IH]; [reflexivity|]. cbn [find]. rewrite IH, applies_eq. destruct (r_when r) as [[]|]; reflexivity. }
  rewrite X1, X3, X4, X5. clear X1 X2 X3 X4 X5 st.
  assert (G : forall w, v = text w ->
    In w (map r_word all_rules) -> classified h a s v (option_map r_action (find (fun r => match r_when r with None => true | Some C_model => match st_tag s with Model_ => true | _ => false end
        | Some C_dual => match st_tag s with Dual_ => true | _ => false end
        | Some C_core => match st_tag s with Core_ => true | _ => false end | Some C_engineering => st_engineering s end && is_word v (r_word r)) all_rules))).
  { intros w -> Hw. unfold settle. cbn in Hw. destruct s as [kept tag eng sample number freq]. cbn [st_tag st_engineering].
    repeat (destruct Hw as [<-|Hw]; [destruct tag, eng; vm_compute; repeat split; try reflexivity; try discriminate|]).
    all: first [destruct Hw | destruct number, freq, h; reflexivity]. }
  destruct (in_dec word_dec v (map text (map r_word all_rules))) as [I|I].
  { apply in_map_iff in I. destruct I as (w & E & I). apply (G w); auto. }
  clear G.
  assert (N : forall w, In w (map r_word all_rules) -> is_word v w = false).
  { intros w Hw. unfold is_word. destruct (word_dec v (text w)) as [->|]; [|reflexivity]. destruct I. now apply in_map. }
  clear I.
  replace (find _ all_rules) with (@None rule).
  2: { symmetry. induction all_rules as [|r l IH]; [reflexivity|]. cbn [find]. rewrite (N (r_word r)) by now left. rewrite andb_false_r.
       apply IH. intros w Hw. apply N. now right. }
  assert (N' : forall w, v = text w -> In w (map r_word all_rules) -> False).
  { intros w -> Hw. specialize (N w Hw). unfold is_word in N. destruct (word_dec (text w) (text w)); congruence. }
  cbn [option_map classified]. split; [intros X; apply (N' _ X); cbn; tauto|]. split; [intros X; apply (N' _ X); cbn; tauto|].
  clear N'. assert (M : forall l, (forall w, In w l -> In w (map r_word all_rules)) -> one_of v l = false).
  { intros l Hl. unfold one_of. induction l as [|w l IH]; [reflexivity|]. cbn. rewrite (N w), IH; auto; [intros; apply Hl; now right|apply Hl; now left]. }
  split; [apply M; cbn; intros w Hw; tauto|].
  unfold settle. rewrite (M ending), (M dropped), (M cores) by (cbn; intros w Hw; tauto).
  rewrite (M ["Sample"; "Sample,"; "Sample:"]%string) by (cbn; intros w Hw; tauto).
  rewrite (N "Geode"%string), (N "Core"%string), (N "Mobile"%string), (N "unknown"%string) by (cbn; tauto).
  rewrite andb_false_r. unfold zeros. destruct (st_tag s); reflexivity.
Qed.

(** ** The array behind the current token *)

Section TOKEN.
Variable sep : option nat.

Definition far (p : nat) : bool := match sep with Some k => k <=? p | None => false end.
Definition mark (x : nat * word) : bool * word := (far (fst x), snd x).

Definition at_word (q : list N) (v : word) (p : option nat) : Prop :=
  exists a b, q = a ++ v ++ b /\ p = Some (length a) /\ ended a /\ blanks b.

Record inv (q : list N) (st : parser) (s : state) : Prop := Inv {
  i_kept : st_kept s = map mark (placed 0 [] q);
  i_contexts : contexts st s;
  i_at : match st_tag s with
         | Letter c => at_word q [c] (ps_letter st) /\ c <> 32%N
         | Dual_ => at_word q (text "Dual") (ps_dual st)
         | Model_ => at_word q (text "model") (ps_model st)
         | _ => True
         end;
  i_separator : ps_separator st = sep;
  i_sample : ps_sample st = st_sample s;
  i_number : ps_number st = st_number s;
  i_frequency : ps_frequency st = st_frequency s }.

Lemma blanks_app : forall a b, blanks a -> blanks b -> blanks (a ++ b).
Proof. intros. apply Forall_app. now split. Qed.

Lemma inv_blanks : forall q st s b, inv q st s -> blanks b -> inv (q ++ b) st s.
Proof.
  intros q st s b [I1 I2 I3 I4 I5 I6 I7] B. split; auto.
  - now rewrite placed_more.
  - assert (W : forall v p, at_word q v p -> at_word (q ++ b) v p).
    { intros v p (x & y & -> & E & H1 & H2). exists x, (y ++ b). rewrite <- !app_assoc. split; [reflexivity|]. split; [assumption|]. split; [assumption|].
      now apply blanks_app. }
    destruct (st_tag s); auto. destruct I3. auto.
Qed.

(** The kept words without the last one, which the context points to. *)
Lemma forget_word : forall q v p s, st_kept s = map mark (placed 0 [] q) -> at_word q v p -> no_blank v -> v <> [] ->
  exists a b, q = a ++ v ++ b /\ p = Some (length a) /\ ended a /\ blanks b /\ removelast (st_kept s) = map mark (placed 0 [] a).
Proof.
  intros q v p s K (a & b & -> & E & A & B) N D. exists a, b. do 4 (split; [assumption || reflexivity|]).
  rewrite K, placed_ended by assumption. rewrite placed_more by assumption. rewrite (placed_word v) by assumption. rewrite map_app. cbn [map]. now rewrite removelast_last.
Qed.

Lemma placed_kept : forall p v, ended p -> no_blank v -> v <> [] -> map mark (placed 0 [] (p ++ v)) = map mark (placed 0 [] p) ++ [(far (length p), v)].
Proof. intros p v E N D. rewrite placed_ended, (placed_word v) by assumption. now rewrite map_app. Qed.

Lemma is_digit_eq : forall c, is_digit c = digit c.
Proof. intros c. unfold is_digit, digit. f_equal. lia. Qed.
Lemma digit_pair_eq : forall v, digit_pair v = two_digits v.
Proof.
  induction v as [|a [|b v] IH]; [reflexivity|reflexivity|]. cbn [digit_pair two_digits]. cbn [digit_pair two_digits] in IH. now rewrite IH, !is_digit_eq.
Qed.

Lemma sub_length : forall (p v : list N), length p + length v - length p = length v.
Proof. intros. lia. Qed.

Lemma is_frequency_exact : forall p v r, is_frequency (p ++ v ++ r) (length p) (length p + length v) = Ok (frequency v).
Proof.
  intros p v r. unfold is_frequency, frequency. rewrite sub_length.
  rewrite <- (rev_involutive v). set (x := rev v). rewrite rev_involutive, rev_length. clearbody x. clear v.
  destruct x as [|z [|h [|u [|e x]]]]; cbn [length Nat.ltb Nat.leb]; try reflexivity.
  cbn [rev].
  replace (length p + S (S (S (S (length x)))) - 2) with (length (p ++ (rev x ++ [e]) ++ [u])) by (rewrite !app_length, rev_length; cbn; lia).
  replace (length p + S (S (S (S (length x)))) - 1) with (length (p ++ (rev x ++ [e]) ++ [u; h])) by (rewrite !app_length, rev_length; cbn; lia).
  replace (length p + S (S (S (S (length x)))) - 3) with (length (p ++ (rev x ++ [e]))) by (rewrite !app_length, rev_length; cbn; lia).
  replace (p ++ ((((rev x ++ [e]) ++ [u]) ++ [h]) ++ [z]) ++ r) with ((p ++ (rev x ++ [e]) ++ [u]) ++ h :: z :: r) at 1 by (rewrite <- !app_assoc; reflexivity).
  rewrite rd_app. cbn [bind].
  replace (p ++ ((((rev x ++ [e]) ++ [u]) ++ [h]) ++ [z]) ++ r) with ((p ++ (rev x ++ [e]) ++ [u; h]) ++ z :: r) at 1 by (rewrite <- !app_assoc; reflexivity).
  rewrite rd_app. cbn [bind].
  replace (p ++ ((((rev x ++ [e]) ++ [u]) ++ [h]) ++ [z]) ++ r) with ((p ++ (rev x ++ [e])) ++ u :: h :: z :: r) at 1 by (rewrite <- !app_assoc; reflexivity).
  rewrite rd_app. cbn [bind]. rewrite (andb_comm (h =? 72)%N).
  destruct ((z =? 122)%N && (h =? 72)%N); [|reflexivity]. f_equal.
Qed.

Lemma token_is_exact : forall f p v r, token_is f (p ++ v ++ r) (length p) (length p + length v) = Ok (forallb f v).
Proof. intros. unfold token_is. now rewrite sub_length, read_app. Qed.

Lemma is_model_number_exact : forall p v r, is_model_number (p ++ v ++ r) (length p) (length p + length v) = Ok (two_digits v).
Proof. intros. unfold is_model_number. rewrite sub_length, read_app. cbn [bind]. now rewrite digit_pair_eq. Qed.

(** What follows the switch if the token does not merge with a letter. *)
Lemma rest_plain : forall p v r previous st,
  zeros v = false -> ps_letter previous = None \/ forallb digit v && (2 <=? length v) && (length v <=? 5) = false ->
  token_rest (p ++ v ++ r) (length p) (length p + length v) previous st =
  Ok (p ++ v ++ r, set_flags st (frequency v) false (some (ps_separator st) && two_digits v) false, true).
Proof.
  intros p v r previous st Z M. unfold token_rest, is_zero_number. rewrite token_is_exact. cbn [bind]. unfold zeros in Z. rewrite Z.
  assert (E : match ps_letter previous with
          | Some letter_at =>
              if (2 <=? length p + length v - length p) && (length p + length v - length p <=? 5) then
                do number <- is_number (p ++ v ++ r) (length p) (length p + length v);
                if number then
                  do letter <- rd (p ++ v ++ r) letter_at;
                  do m <- wr (p ++ v ++ r) letter_at 32%N;
                  match length p with
                  | O => UB
                  | S start' =>
                      do p <- move_token m (S start') (S start' + length v) m start';
                      do m <- wr (fst p) (S start' + length v - 1) letter; Ok (m, start')
                  end
                else Ok (p ++ v ++ r, length p)
              else Ok (p ++ v ++ r, length p)
          | None => Ok (p ++ v ++ r, length p)
          end = Ok (p ++ v ++ r, length p)).
  { destruct M as [->|M]; [reflexivity|]. destruct (ps_letter previous); [|reflexivity]. rewrite sub_length.
    destruct ((2 <=? length v) && (length v <=? 5)) eqn:L; [|reflexivity]. unfold is_number. rewrite token_is_exact. cbn [bind].
    replace (forallb is_digit v) with (forallb digit v) by (clear; induction v as [|c v IH]; [reflexivity|]; cbn; now rewrite IH, is_digit_eq).
    rewrite <- andb_assoc, L, andb_true_r in M. rewrite M. reflexivity. }
  destruct (length p) as [|n] eqn:Lp; rewrite E; cbn [bind]; rewrite <- Lp.
  all: destruct (ps_separator st); cbn [some andb].
  all: rewrite ?is_model_number_exact; cbn [bind]; rewrite is_frequency_exact; reflexivity.
Qed.

(** The merge with a letter. *)
Lemma rest_merge : forall a c b v r previous st,
  ps_letter previous = Some (length a) -> c <> 32%N -> zeros v = false -> forallb digit v = true -> 2 <= length v <= 5 ->
  token_rest (((a ++ c :: b) ++ [32%N]) ++ v ++ r) (length ((a ++ c :: b) ++ [32%N])) (length ((a ++ c :: b) ++ [32%N]) + length v) previous st =
  Ok ((a ++ 32%N :: b) ++ (v ++ [c]) ++ r, set_flags st (frequency (v ++ [c])) false (some (ps_separator st) && two_digits (v ++ [c])) false, true).
Proof.
  intros a c b v r previous st L C Z D V. unfold token_rest, is_zero_number. rewrite token_is_exact. cbn [bind]. unfold zeros in Z. rewrite Z, L.
  rewrite sub_length. replace ((2 <=? length v) && (length v <=? 5)) with true by lia. unfold is_number. rewrite token_is_exact. cbn [bind].
  replace (forallb is_digit v) with (forallb digit v) by (clear; induction v as [|x v IH]; [reflexivity|]; cbn; now rewrite IH, is_digit_eq).
  rewrite D.
  replace (((a ++ c :: b) ++ [32%N]) ++ v ++ r) with (a ++ c :: (b ++ [32%N]) ++ v ++ r) by (rewrite <- !app_assoc; reflexivity).
  rewrite rd_app. cbn [bind]. rewrite wr_app. cbn [bind].
  assert (Lp : length ((a ++ c :: b) ++ [32%N]) = S (length (a ++ 32%N :: b))) by (rewrite !app_length; cbn; lia).
  rewrite Lp. unfold move_token. replace (S (length (a ++ 32%N :: b)) + length v - S (length (a ++ 32%N :: b))) with (length v) by lia.
  replace (S (length (a ++ 32%N :: b))) with (length ((a ++ 32%N :: b) ++ [32%N])) at 1 by (rewrite app_length; cbn; lia).
  replace (a ++ 32%N :: (b ++ [32%N]) ++ v ++ r) with (((a ++ 32%N :: b) ++ [32%N]) ++ v ++ r) at 1 by (rewrite <- !app_assoc; reflexivity).
  rewrite read_app. cbn [bind].
  destruct v as [|x v] using rev_ind; [cbn in V; lia|]. clear IHv.
  replace (a ++ 32%N :: (b ++ [32%N]) ++ (v ++ [x]) ++ r) with ((a ++ 32%N :: b) ++ (32%N :: v) ++ x :: r) by (rewrite <- !app_assoc; reflexivity).
  rewrite write_app by (rewrite app_length; cbn; lia). cbn [bind fst snd].
  replace (S (length (a ++ 32%N :: b)) + length (v ++ [x]) - 1) with (length ((a ++ 32%N :: b) ++ v ++ [x])) by (rewrite !app_length; cbn; lia).
  replace ((a ++ 32%N :: b) ++ (v ++ [x]) ++ x :: r) with (((a ++ 32%N :: b) ++ v ++ [x]) ++ x :: r) by (rewrite <- !app_assoc; reflexivity).
  rewrite wr_app. cbn [bind].
  replace (((a ++ 32%N :: b) ++ v ++ [x]) ++ c :: r) with ((a ++ 32%N :: b) ++ ((v ++ [x]) ++ [c]) ++ r) by (rewrite <- !app_assoc; reflexivity).
  replace (S (length (a ++ 32%N :: b)) + length (v ++ [x])) with (length (a ++ 32%N :: b) + length ((v ++ [x]) ++ [c])) by (rewrite !app_length; cbn; lia).
  destruct (ps_separator st); cbn [some andb]; rewrite ?is_model_number_exact; cbn [bind]; rewrite is_frequency_exact; reflexivity.
Qed.

Lemma switch_exact : forall p v r previous st, v <> [] ->
  token_switch (p ++ v ++ r) (length p) (length p + length v) previous st =
  match rule_for previous v with
  | Some x => act (p ++ v ++ r) (length p) (length p + length v) previous st x
  | None =>
      if match v with [c] => capital c | _ => false end then Ok (p ++ v ++ r, set_letter st (length p), Some true)
      else if match v with [c; d] => (c =? 86)%N && digit d | _ => false end then Ok (p ++ lower_v v ++ r, st, Some true)
      else Ok (p ++ v ++ r, st, None)
  end.
Proof.
  intros p v r previous st D. unfold token_switch. rewrite sub_length.
  destruct v as [|c [|d [|e v]]]; [contradiction| | |].
  - change (rule_for previous [c]) with (option_map r_action (find (applies previous [c]) all_rules)).
    rewrite <- find_all. cbn [length token_rules find option_map app]. rewrite rd_app. cbn [bind]. unfold is_upper_letter, capital.
    destruct ((65 <=? c)%N && (c <=? 90)%N); reflexivity.
  - assert (R := run_rules_exact p [c; d] r previous st). cbn [length] in R. cbn [length]. rewrite R.
    assert (E : rule_for previous [c; d] = None \/ rule_for previous [c; d] = Some (Erase false)).
    { unfold rule_for. rewrite <- find_all. cbn [length token_rules find]. destruct (applies _ _ _); [now right|now left]. }
    destruct E as [->|E].
    + cbn [bind]. assert (H := rd_app p c (d :: r)). cbn [app]. rewrite H. cbn [bind].
      replace (p ++ c :: d :: r) with ((p ++ [c]) ++ d :: r) at 1 by (rewrite <- app_assoc; reflexivity).
      replace (length p + 1) with (length (p ++ [c])) by (rewrite app_length; reflexivity). rewrite rd_app. cbn [bind].
      rewrite is_digit_eq. unfold lower_v. destruct ((c =? 86)%N && digit d); [|reflexivity]. rewrite wr_app. reflexivity.
    + rewrite E. cbn [act]. destruct (memset _ _ _ _); reflexivity.
  - cbn [length]. assert (R := run_rules_exact p (c :: d :: e :: v) r previous st). cbn [length] in R. rewrite R.
    destruct (rule_for previous (c :: d :: e :: v)); reflexivity.
Qed.

Lemma contexts_reset : forall st s, contexts st s -> contexts (reset_context st) (set_tag s Plain).
Proof. intros st s [H1 H2 H3 H4 H5]. split; cbn; auto. Qed.

Lemma inv_plain : forall q st s kept, inv q st s -> forall q', kept = map mark (placed 0 [] q') ->
  inv q' (reset_context st) (State kept Plain (st_engineering s) (st_sample s) (st_number s) (st_frequency s)).
Proof.
  intros q st s kept [I1 I2 I3 I4 I5 I6 I7] q' E. split; cbn; auto. apply contexts_reset in I2. destruct I2. split; cbn in *; auto.
Qed.

Ltac inv_fields I := destruct I as [I1 [X1 X2 X3 X4 X5] I3 I4 I5 I6 I7]; split; cbn; rewrite ?orb_false_r, ?orb_true_r; auto; try (split; cbn; rewrite ?orb_false_r, ?orb_true_r; auto).

Lemma body : forall p v r st s a,
  inv p st s -> ended p -> no_blank v -> v <> [] -> far (length p) = a -> (forall n, length p = S n -> far n = a) ->
  exists q' st',
    (do o <- token_switch (p ++ v ++ r) (length p) (length p + length v) st (reset_context st);
     match o with
     | (m, st', Some result) => Ok (m, st', result)
     | (m, st', None) => token_rest m (length p) (length p + length v) st st'
     end) = Ok (q' ++ r, st', snd (settle (some sep) a s v)) /\
    length q' = length p + length v /\
    (inv q' st' (fst (settle (some sep) a s v)) \/
     ps_sample st' = true /\ st_sample (fst (settle (some sep) a s v)) = true /\ snd (settle (some sep) a s v) = false).
Proof.
  intros p v r st s a I En Nb Ne Fa Fb.
  assert (C := classify (some sep) a st s v (i_contexts _ _ _ I)).
  assert (K : forall t eng, st_kept (kept_plain s a v t eng) = map mark (placed 0 [] (p ++ v))).
  { intros t eng. rewrite placed_kept, Fa by assumption. cbn. now rewrite (i_kept _ _ _ I). }
  assert (B : forall x : list N, length (p ++ repeat 32%N (length x)) = length p + length x) by (intros x; now rewrite app_length, repeat_length).
  assert (PB : forall n, map mark (placed 0 [] (p ++ repeat 32%N n)) = st_kept s) by (intros n; now rewrite placed_more, (i_kept _ _ _ I) by apply blanks_repeat).
  assert (Inert : inert v -> forall st', token_rest (p ++ v ++ r) (length p) (length p + length v) st st' = Ok (p ++ v ++ r, set_flags st' false false false false, true)).
  { intros (Z & D & T & F) st'. rewrite rest_plain; [|assumption|right; now rewrite D]. now rewrite T, F, andb_false_r. }
  rewrite switch_exact by assumption.
  destruct (rule_for st v) as [[result| |c core|c result| | |result]|] eqn:R; cbn [classified] in C.
  - (* erased *)
    rewrite C. cbn [act]. rewrite sub_length, memset_app. cbn [bind fst snd].
    exists (p ++ repeat 32%N (length v)), (reset_context st). rewrite app_assoc. split; [reflexivity|]. split; [apply B|].
    left. apply (inv_plain _ _ _ _ I). now rewrite PB.
  - rewrite C. cbn [act]. rewrite sub_length, memset_app. cbn [bind fst snd].
    exists (p ++ repeat 32%N (length v)), (set_context (reset_context st) C_core (length p + length v)). rewrite app_assoc. split; [reflexivity|]. split; [apply B|].
    specialize (PB (length v)). left. inv_fields I.
  - (* erased with the word before *)
    destruct c; try (destruct core; contradiction); destruct core; try contradiction.
    + destruct C as [Tg C]. rewrite C. cbn [fst snd act context_of].
      destruct (forget_word p (text "model") (ps_model st) s) as (x & y & Ep & Pp & Ex & By & Kx);
        [apply (i_kept _ _ _ I)|assert (H := i_at _ _ _ I); now rewrite Tg in H|cbn; intros H; repeat (destruct H as [H|H]; [discriminate H|]); exact H|discriminate|].
      rewrite Pp. exists (x ++ repeat 32%N (length (text "model" ++ y ++ v))), (reset_context st).
      replace (p ++ v ++ r) with (x ++ (text "model" ++ y ++ v) ++ r) by (rewrite Ep; now rewrite <- !app_assoc).
      replace (length p + length v - length x) with (length (text "model" ++ y ++ v)) by (rewrite Ep, !app_length; lia).
      rewrite memset_app. cbn [bind]. rewrite app_assoc. split; [reflexivity|]. split; [rewrite Ep, ?app_length, repeat_length, ?app_length; lia|].
      left. apply (inv_plain _ _ _ _ I). cbn [forget_last st_kept]. rewrite placed_more by apply blanks_repeat. assumption.
    + destruct C as [Tg C]. rewrite C. cbn [fst snd act context_of].
      destruct (forget_word p (text "Dual") (ps_dual st) s) as (x & y & Ep & Pp & Ex & By & Kx);
        [apply (i_kept _ _ _ I)|assert (H := i_at _ _ _ I); now rewrite Tg in H|cbn; intros H; repeat (destruct H as [H|H]; [discriminate H|]); exact H|discriminate|].
      rewrite Pp. exists (x ++ repeat 32%N (length (text "Dual" ++ y ++ v))), (set_context (reset_context st) C_core (length p + length v)).
      replace (p ++ v ++ r) with (x ++ (text "Dual" ++ y ++ v) ++ r) by (rewrite Ep; now rewrite <- !app_assoc).
      replace (length p + length v - length x) with (length (text "Dual" ++ y ++ v)) by (rewrite Ep, !app_length; lia).
      rewrite memset_app. cbn [bind]. rewrite app_assoc. split; [reflexivity|]. split; [rewrite Ep, ?app_length, repeat_length, ?app_length; lia|].
      assert (PX : map mark (placed 0 [] (x ++ repeat 32%N (length (text "Dual" ++ y ++ v)))) = removelast (st_kept s)) by (rewrite placed_more by apply blanks_repeat; now symmetry).
      left. inv_fields I.
  - (* kept, with a context *)
    assert (W : at_word (p ++ v) v (Some (length p))) by (exists p, []; rewrite app_nil_r; repeat split; auto; constructor).
    destruct c, result as [[]|]; try contradiction; cbn [act].
    + destruct C as [Ev C]. rewrite C. cbn [bind fst snd]. exists (p ++ v), (set_context (reset_context st) C_model (length p)). rewrite app_assoc. split; [reflexivity|].
      split; [apply app_length|]. specialize (K Model_ false). assert (W' : at_word (p ++ v) (text "model") (Some (length p))) by (rewrite <- Ev; exact W). left. inv_fields I.
    + destruct C as (Ev & In & C). rewrite C. cbn [bind fst snd]. rewrite Inert by assumption.
      exists (p ++ v), (set_flags (set_context (reset_context st) C_dual (length p)) false false false false). rewrite app_assoc. split; [reflexivity|].
      split; [apply app_length|]. specialize (K Dual_ false). assert (W' : at_word (p ++ v) (text "Dual") (Some (length p))) by (rewrite <- Ev; exact W). left. inv_fields I.
    + rewrite C. cbn [bind fst snd]. exists (p ++ v), (set_context (reset_context st) C_engineering (length p)). rewrite app_assoc. split; [reflexivity|].
      split; [apply app_length|]. specialize (K Plain true). left. inv_fields I.
    + destruct C as (In & C). rewrite C. cbn [bind fst snd]. rewrite Inert by assumption.
      exists (p ++ v), (set_flags (set_context (reset_context st) C_engineering (length p)) false false false false). rewrite app_assoc. split; [reflexivity|].
      split; [apply app_length|]. specialize (K Plain true). left. inv_fields I.
  - destruct C as (In & C). rewrite C. cbn [bind fst snd act]. rewrite Inert by assumption.
    exists (p ++ v), (set_flags (set_flags (reset_context st) false true false false) false false false false). rewrite app_assoc. split; [reflexivity|].
    split; [apply app_length|]. specialize (K Plain false). left. inv_fields I.
  - (* an engineering sample *)
    rewrite C. cbn [bind fst snd act]. exists (p ++ v), (set_flags (reset_context st) false false false true). rewrite app_assoc. split; [reflexivity|].
    split; [apply app_length|]. right. cbn. now rewrite orb_true_r.
  - destruct result; [contradiction|]. rewrite C. cbn [bind fst snd act]. exists (p ++ v), (reset_context st). rewrite app_assoc. split; [reflexivity|].
    split; [apply app_length|]. specialize (K Plain false). left. inv_fields I.
  - (* not in the tables *)
    destruct C as (D1 & D2 & D3 & C). rewrite C.
    destruct (match v with [c] => capital c | _ => false end) eqn:L.
    { destruct v as [|c [|d v]]; try discriminate L. replace (zeros [c]) with false by (unfold zeros, capital in *; cbn; lia).
      cbn [bind fst snd]. rewrite keep_plain by (reflexivity || unfold capital, digit in *; cbn; lia). rewrite D3. cbn [tag_of]. rewrite L.
      exists (p ++ [c]), (set_letter (reset_context st) (length p)). rewrite app_assoc. split; [reflexivity|]. split; [apply app_length|].
      specialize (K (Letter c) false). left.
      assert (W : at_word (p ++ [c]) [c] (Some (length p))) by (exists p, []; rewrite app_nil_r; repeat split; auto; constructor).
      assert (c <> 32%N) by (unfold capital in L; lia). inv_fields I. }
    destruct (match v with [c; d] => (c =? 86)%N && digit d | _ => false end) eqn:V.
    { destruct v as [|c [|d [|e v]]]; try discriminate V. replace (zeros [c; d]) with false by (unfold zeros, capital in *; cbn; lia).
      cbn [bind fst snd].
      assert (KE : keep (some sep) a s [c; d] = kept_plain s a (lower_v [c; d]) Plain false).
      { unfold keep, kept_plain. replace (merges s [c; d]) with (@None word).
        - rewrite D3. cbn [lower_v]. rewrite V. replace (two_digits [118%N; d]) with false by reflexivity.
          replace (frequency [118%N; d]) with false by reflexivity. rewrite andb_false_r, !orb_false_r. f_equal.
          unfold tag_of, is_word. destruct (word_dec [c; d] (text "Dual")); [discriminate|]. destruct (word_dec [c; d] (text "model")); [discriminate|]. reflexivity.
        - unfold merges. destruct (st_tag s); try reflexivity. cbn. replace (digit c) with false by (unfold digit; lia). reflexivity. }
      rewrite KE. exists (p ++ lower_v [c; d]), (reset_context st). rewrite app_assoc. split; [reflexivity|].
      assert (NB : no_blank (lower_v [c; d])).
      { cbn. rewrite V. intros [X|[X|[]]]; [discriminate X|]. apply Nb. right. now left. }
      split; [rewrite app_length; cbn; now rewrite V|]. left.
      assert (K' : st_kept s ++ [(a, lower_v [c; d])] = map mark (placed 0 [] (p ++ lower_v [c; d]))).
      { rewrite placed_kept, Fa, (i_kept _ _ _ I) by (auto; cbn; rewrite V; discriminate). reflexivity. }
      clear K KE. inv_fields I. }
    cbn [bind].
    destruct (zeros v) eqn:Z.
    { unfold token_rest, is_zero_number. rewrite token_is_exact. cbn [bind]. unfold zeros in Z. rewrite Z, sub_length, memset_app. cbn [bind fst snd].
      exists (p ++ repeat 32%N (length v)), (reset_context st). rewrite app_assoc. split; [reflexivity|]. split; [apply B|].
      left. apply (inv_plain _ _ _ _ I). now rewrite PB. }
    cbn [fst snd].
    assert (LV : lower_v v = v) by (unfold lower_v; destruct v as [|c [|d [|e v]]]; try reflexivity; now rewrite V).
    assert (TP : tag_of v = Plain).
    { unfold tag_of, is_word. destruct v as [|c [|d v]]; [contradiction|now rewrite L|].
      destruct (word_dec (c :: d :: v) (text "Dual")); [contradiction|]. destruct (word_dec (c :: d :: v) (text "model")); [contradiction|]. reflexivity. }
    unfold keep. destruct (merges s v) as [w|] eqn:M.
    + (* merged with the letter before *)
      unfold merges in M. destruct (st_tag s) as [|c| | |] eqn:Tg; try discriminate M.
      destruct (forallb digit v && (2 <=? length v) && (length v <=? 5)) eqn:MM; [|discriminate M]. injection M as <-.
      assert (H := i_at _ _ _ I). rewrite Tg in H. destruct H as [H Hc].
      destruct (forget_word p [c] (ps_letter st) s) as (x & y & Ep & Pp & Ex & By & Kx); [apply (i_kept _ _ _ I)|assumption|intros [X|[]]; now apply Hc|discriminate|].
      assert (Y : exists y', y = y' ++ [32%N]).
      { destruct y as [|z y] using rev_ind.
        - exfalso. rewrite app_nil_r in Ep. rewrite Ep in En. destruct En as [X|(t & X)]; [now destruct x|]. apply app_inj_tail in X. destruct X. now apply Hc.
        - apply Forall_app in By. destruct By as [_ By]. inversion By; subst. now exists y. }
      destruct Y as (y' & ->).
      assert (Ep' : p = (x ++ c :: y') ++ [32%N]) by (rewrite Ep, <- !app_assoc; reflexivity).
      rewrite Ep'. rewrite rest_merge by (auto; lia).
      exists ((x ++ 32%N :: y') ++ v ++ [c]), (set_flags (reset_context st) (frequency (v ++ [c])) false (some (ps_separator (reset_context st)) && two_digits (v ++ [c])) false).
      rewrite <- !app_assoc. split; [reflexivity|]. split; [repeat (rewrite app_length || cbn [length]); lia|]. left.
      assert (By' : blanks y') by (apply Forall_app in By; tauto).
      assert (E' : ended (x ++ 32%N :: y')) by (apply ended_cons; [constructor; auto|discriminate]).
      assert (F' : far (length (x ++ 32%N :: y')) = a).
      { apply Fb. rewrite Ep', !app_length. cbn. lia. }
      assert (K' : removelast (st_kept s) ++ [(a, v ++ [c])] = map mark (placed 0 [] ((x ++ 32%N :: y') ++ v ++ [c]))).
      { rewrite placed_kept, F'; auto.
        - f_equal. rewrite placed_more by (constructor; auto). assumption.
        - intros X. apply in_app_iff in X. destruct X as [X|[X|[]]]; [now apply Nb|now apply Hc].
        - now destruct v. }
      rewrite <- !app_assoc in K'. cbn [app] in K'. clear K. rewrite TP, D3. inv_fields I; rewrite ?I4, ?I6, ?I7; reflexivity.
    + rewrite rest_plain; [|assumption|].
      * exists (p ++ v), (set_flags (reset_context st) (frequency v) false (some (ps_separator (reset_context st)) && two_digits v) false).
        rewrite app_assoc. split; [reflexivity|]. split; [apply app_length|]. left. specialize (K Plain false). rewrite LV, TP, D3.
        inv_fields I; rewrite ?I4, ?I6, ?I7; reflexivity.
      * destruct (i_contexts _ _ _ I) as [_ X _ _ _]. unfold merges in M. destruct (st_tag s).
        2: { right. destruct (forallb digit v && (2 <=? length v) && (length v <=? 5)); [discriminate M|reflexivity]. }
        all: left; now destruct (ps_letter st).
Qed.


(** ** Prefix and suffix *)

Lemma tm_exact : forall q w r,
  exists b, blanks b /\ length w = length (without_tm w) + length b /\ (w <> [] -> without_tm w <> []) /\ (no_blank w -> no_blank (without_tm w)) /\
  (if 2 <? length q + length w - length q then
     do c <- rd (q ++ w ++ r) (length q + length w - 3);
     if is_digit c || is_upper_letter c then
       do e <- erase_matching (q ++ w ++ r) (length q + length w - 2) 2 "tm"%string;
       Ok (fst e, if snd e then length q + length w - 2 else length q + length w)
     else Ok (q ++ w ++ r, length q + length w)
   else Ok (q ++ w ++ r, length q + length w)) =
  Ok (q ++ without_tm w ++ b ++ r, length q + length (without_tm w)).
Proof.
  intros q w r. rewrite sub_length.
  assert (E : (if 2 <? length w then true else false) = true \/ length w <= 2) by (destruct (2 <? length w) eqn:E; [now left|right; lia]).
  assert (Plain : without_tm w = w -> exists b : list N, blanks b /\ length w = length (without_tm w) + length b /\ (w <> [] -> without_tm w <> []) /\ (no_blank w -> no_blank (without_tm w)) /\
     Ok (q ++ w ++ r, length q + length w) = Ok (q ++ without_tm w ++ b ++ r, length q + length (without_tm w))).
  { intros ->. exists []. cbn. repeat split; auto. constructor. }
  destruct w as [|m x _] using rev_ind; [now apply Plain|].
  destruct x as [|t x _] using rev_ind; [now apply Plain|].
  destruct x as [|c x _] using rev_ind; [now apply Plain|].
  replace (2 <? length (((x ++ [c]) ++ [t]) ++ [m])) with true by (symmetry; apply Nat.ltb_lt; rewrite !app_length; cbn [length]; lia).
  replace (length q + length (((x ++ [c]) ++ [t]) ++ [m]) - 3) with (length (q ++ x)) by (rewrite !app_length; cbn; lia).
  replace (length q + length (((x ++ [c]) ++ [t]) ++ [m]) - 2) with (length (q ++ x ++ [c])) by (rewrite !app_length; cbn; lia).
  assert (RD : rd (q ++ (((x ++ [c]) ++ [t]) ++ [m]) ++ r) (length (q ++ x)) = Ok c).
  { replace (q ++ (((x ++ [c]) ++ [t]) ++ [m]) ++ r) with ((q ++ x) ++ c :: t :: m :: r) by (rewrite <- !app_assoc; reflexivity). apply rd_app. }
  rewrite RD. cbn [bind]. rewrite is_digit_eq. change (is_upper_letter c) with (capital c).
  assert (U : without_tm (((x ++ [c]) ++ [t]) ++ [m]) = if (m =? 109)%N && (t =? 116)%N && (digit c || capital c) then x ++ [c] else ((x ++ [c]) ++ [t]) ++ [m]).
  { unfold without_tm. rewrite !rev_app_distr. cbn [rev app]. destruct ((m =? 109)%N && (t =? 116)%N && (digit c || capital c)); [|reflexivity].
    now rewrite rev_involutive. }
  destruct (digit c || capital c) eqn:D; [|apply Plain; rewrite U; now rewrite andb_false_r].
  rewrite andb_true_r in U. unfold erase_matching.
  replace (q ++ (((x ++ [c]) ++ [t]) ++ [m]) ++ r) with ((q ++ x ++ [c]) ++ [t; m] ++ r) by (rewrite <- !app_assoc; reflexivity).
  assert (M := memequal_word (q ++ x ++ [c]) [t; m] r "tm" eq_refl). cbn [length] in M. rewrite M. cbn [bind]. clear M.
  unfold is_word. destruct (word_dec [t; m] (text "tm")) as [E'|E'].
  - injection E' as -> ->. cbn [N.eqb Pos.eqb andb] in U. rewrite U.
    assert (M := memset_app [116%N; 109%N] (q ++ x ++ [c]) r). cbn [length] in M. rewrite M. cbn [bind fst snd].
    exists (repeat 32%N 2). split; [apply blanks_repeat|]. split; [rewrite !app_length; cbn; lia|]. split; [intros _; now destruct x|].
    split; [intros NB X; apply NB; rewrite !in_app_iff in *; tauto|].
    rewrite <- !app_assoc. do 2 f_equal. rewrite !app_length. cbn. lia.
  - replace ((m =? 109)%N && (t =? 116)%N) with false in U.
    + destruct (Plain U) as (b & P1 & P2 & P3 & P4 & P5). exists b. do 4 (split; [assumption|]). cbn [bind fst snd].
      rewrite <- P5. rewrite <- !app_assoc. reflexivity.
    + symmetry. destruct (N.eqb_spec m 109) as [->|]; [|reflexivity]. destruct (N.eqb_spec t 116) as [->|]; [|reflexivity]. now destruct E'.
Qed.

Lemma amd_exact : forall q w r,
  exists a, blanks a /\ length w = length a + length (without_amd w) /\ (w <> [] -> without_amd w <> []) /\ (no_blank w -> no_blank (without_amd w)) /\
  (if 4 <? length q + length w - length q then
     do e <- erase_matching (q ++ w ++ r) (length q) 4 "AMD-"%string;
     Ok (fst e, if snd e then length q + 4 else length q)
   else Ok (q ++ w ++ r, length q)) =
  Ok ((q ++ a) ++ without_amd w ++ r, length (q ++ a)).
Proof.
  intros q w r. rewrite sub_length. unfold without_amd.
  assert (Plain : exists a : list N, blanks a /\ length w = length a + length w /\ (w <> [] -> w <> []) /\ (no_blank w -> no_blank w) /\
     Ok (q ++ w ++ r, length q) = Ok ((q ++ a) ++ w ++ r, length (q ++ a))).
  { exists []. rewrite app_nil_r. repeat split; auto. constructor. }
  destruct (4 <? length w) eqn:L; [|rewrite andb_false_r; exact Plain]. rewrite andb_true_r.
  assert (X : length (firstn 4 w) = 4) by (rewrite firstn_length; lia).
  unfold erase_matching.
  assert (W : q ++ w ++ r = q ++ firstn 4 w ++ skipn 4 w ++ r) by (rewrite (app_assoc (firstn 4 w)), firstn_skipn; reflexivity).
  rewrite W.
  assert (M := memequal_word q (firstn 4 w) (skipn 4 w ++ r) "AMD-" ltac:(now rewrite X)). rewrite X in M. rewrite M. cbn [bind].
  destruct (is_word (firstn 4 w) "AMD-") eqn:I.
  - assert (S := memset_app (firstn 4 w) q (skipn 4 w ++ r)). rewrite X in S. rewrite S. cbn [bind fst snd].
    exists (repeat 32%N 4). split; [apply blanks_repeat|]. rewrite skipn_length, repeat_length. split; [lia|].
    split; [intros _ E; apply (f_equal (@length N)) in E; rewrite skipn_length in E; cbn in E; lia|].
    split; [intros NB Y; apply NB; rewrite <- (firstn_skipn 4 w); apply in_app_iff; now right|].
    rewrite <- app_assoc. do 2 f_equal. rewrite app_length, repeat_length. lia.
  - cbn [bind fst snd]. destruct Plain as (a & P1 & P2 & P3 & P4 & P5). exists a. do 4 (split; [assumption|]). rewrite <- P5.
    now rewrite W.
Qed.

(** ** A token that is erased *)

Lemma blank_word : forall n w, is_word (repeat 32%N (S n)) w = true -> match text w with c :: _ => c = 32%N | [] => False end.
Proof. intros n w H. unfold is_word in H. destruct (word_dec _ _) as [E|]; [|discriminate]. rewrite <- E. reflexivity. Qed.

Lemma blank_rule : forall st n, rule_for st (repeat 32%N (S n)) = None.
Proof.
  intros st n. unfold rule_for. destruct (find _ all_rules) as [r|] eqn:F; [|reflexivity]. apply find_some in F. destruct F as [F1 F2]. exfalso.
  rewrite applies_eq in F2. apply andb_true_iff in F2. destruct F2 as [_ F2]. apply blank_word in F2.
  cbn in F1. repeat (destruct F1 as [<-|F1]; [discriminate F2|]). exact F1.
Qed.

Lemma rd_blank : forall q n r i, i < n -> rd (q ++ repeat 32%N n ++ r) (length q + i) = Ok 32%N.
Proof.
  intros q n r i H. unfold rd. rewrite nth_error_app2 by lia. replace (length q + i - length q) with i by lia.
  rewrite nth_error_app1 by (rewrite repeat_length; lia). now rewrite (nth_error_repeat 32%N) by lia.
Qed.

Lemma erased_token : forall q n r st,
  (let v := repeat 32%N (S n) in
   do o <- token_switch (q ++ v ++ r) (length q) (length q + length v) st (reset_context st);
   match o with
   | (m, st', Some result) => Ok (m, st', result)
   | (m, st', None) => token_rest m (length q) (length q + length v) st st'
   end) = Ok (q ++ repeat 32%N (S n) ++ r, set_flags (reset_context st) false false false false, true).
Proof.
  intros q n r st. cbv zeta. rewrite switch_exact by discriminate. rewrite blank_rule.
  replace (match repeat 32%N (S n) with [c] => capital c | _ => false end) with false by (destruct n; reflexivity).
  replace (match repeat 32%N (S n) with [c; d] => (c =? 86)%N && digit d | _ => false end) with false by (destruct n as [|[|n]]; reflexivity).
  cbn [bind]. rewrite rest_plain; [|reflexivity|right; reflexivity].
  replace (frequency (repeat 32%N (S n))) with false.
  - replace (two_digits (repeat 32%N (S n))) with false; [now rewrite andb_false_r|]. induction n as [|n IH]; [reflexivity|exact IH].
  - unfold frequency. assert (B : blanks (rev (repeat 32%N (S n)))) by (apply Forall_rev, blanks_repeat).
    destruct (rev (repeat 32%N (S n))) as [|z [|h [|u [|e l]]]]; try reflexivity. inversion B; subst. reflexivity.
Qed.

(** ** One token *)

Lemma transform_exact : forall q w r st s,
  inv q st s -> ended q -> no_blank w -> w <> [] ->
  match sep with Some k => k < length q \/ length q + length w <= k | None => True end ->
  let result := after_word (some sep) (match sep with Some k => k <? length q | None => false end) s w in
  exists q' st',
    transform_token (q ++ w ++ r) (length q) (length q + length w) st = Ok (q' ++ r, st', snd result) /\
    length q' = length q + length w /\
    (inv q' st' (fst result) \/ ps_sample st' = true /\ st_sample (fst result) = true /\ snd result = false).
Proof.
  intros q w r st s I En Nb Ne Ap result. unfold transform_token.
  change (ps_separator (reset_context st)) with (ps_separator st). change (ps_number (reset_context st)) with (ps_number st).
  rewrite (i_separator _ _ _ I), (i_number _ _ _ I), sub_length. unfold result, after_word. clear result.
  set (after := match sep with Some k => k <? length q | None => false end).
  replace (match sep with Some k => if (k <? length q) && st_number s then memset (q ++ w ++ r) (length q) 32%N (length w) else Ok (q ++ w ++ r) | None => Ok (q ++ w ++ r) end)
    with (if after && st_number s then Ok (q ++ repeat 32%N (length w) ++ r) else Ok (q ++ w ++ r))
    by (unfold after; destruct sep; [|reflexivity]; now rewrite memset_app).
  destruct (after && st_number s) eqn:Er; cbn [bind].
  - (* erased *)
    destruct w as [|c0 w]; [contradiction|]. cbn [length]. set (n := length w). clearbody n.
    assert (T := tm_exact q (repeat 32%N (S n)) r). rewrite repeat_length in T. destruct T as (b & Bb & Lb & _ & _ & T).
    assert (W : without_tm (repeat 32%N (S n)) = repeat 32%N (S n)).
    { unfold without_tm. assert (B : blanks (rev (repeat 32%N (S n)))) by (apply Forall_rev, blanks_repeat).
      destruct (rev (repeat 32%N (S n))) as [|z [|h [|u l]]]; try reflexivity. inversion B; subst. reflexivity. }
    rewrite W, repeat_length in *. assert (b = []) by (destruct b; [reflexivity|cbn in Lb; lia]). subst b.
    replace (length q + S n - length q) with (S n) by lia. replace (length q + S n - length q) with (S n) in T by lia. rewrite T. cbn [bind]. clear T.
    cbn [app].
    assert (A := amd_exact q (repeat 32%N (S n)) r). rewrite repeat_length in A. destruct A as (a & Ba & La & _ & _ & A).
    assert (W' : without_amd (repeat 32%N (S n)) = repeat 32%N (S n)).
    { unfold without_amd. replace (is_word (firstn 4 (repeat 32%N (S n))) "AMD-") with false; [reflexivity|].
      unfold is_word. destruct (word_dec _ _) as [E|]; [|reflexivity]. discriminate E. }
    rewrite W', repeat_length in *. assert (a = []) by (destruct a; [reflexivity|cbn in La; lia]). subst a. rewrite app_nil_r in A.
    replace (length q + S n - length q) with (S n) in A |- * by lia. rewrite A. cbn [bind].
    assert (E := erased_token q n r st). cbv zeta in E. rewrite repeat_length in E. rewrite E.
    exists (q ++ repeat 32%N (S n)), (set_flags (reset_context st) false false false false). rewrite <- app_assoc. cbn [fst snd]. split; [reflexivity|].
    split; [now rewrite app_length, repeat_length|]. left. apply (inv_blanks q); [|apply blanks_repeat]. inv_fields I.
  - destruct (tm_exact q w r) as (b & Bb & Lb & Ne1 & Nb1 & T). rewrite sub_length in T. rewrite T. cbn [bind]. clear T.
    set (u := without_tm w) in *. rewrite sub_length.
    destruct (amd_exact q u (b ++ r)) as (a & Ba & La & Ne2 & Nb2 & A). rewrite sub_length in A. rewrite A. cbn [bind]. clear A.
    set (v := without_amd u) in *.
    assert (F : forall n, length q <= S n -> n < length q + length w -> far n = after).
    { intros n H1 H2. unfold far, after. destruct sep as [k|]; [|reflexivity]. lia. }
    destruct (body (q ++ a) v (b ++ r) st s after) as (q' & st' & B1 & B2 & B3); auto.
    { now apply inv_blanks. } { now apply ended_blanks. }
    { apply F; rewrite app_length; [lia|]. assert (v <> []) by auto. destruct v; [contradiction|cbn [length] in *; lia]. }
    { intros n En'. rewrite app_length in En'. apply F; lia. }
    replace (length q + length u) with (length (q ++ a) + length v) by (rewrite app_length; lia).
    cbv zeta. rewrite B1. exists (q' ++ b), st'. rewrite <- app_assoc. split; [reflexivity|]. split; [rewrite app_length, B2, app_length; lia|].
    destruct B3 as [B3|B3]; [left; now apply inv_blanks|now right].
Qed.

End TOKEN.
