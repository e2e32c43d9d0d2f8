(** Each matching function accepts exactly the texts with its signature. *)
From Verif Require Import Base BaseProofs Text LinuxTextSpec ArmClusterMidrModel ArmCpuinfoModel ArmChipsetModel ArmChipsetSpec ArmChipsetFitProofs.
Open Scope N_scope.

(** ** Characters *)

Lemma by_byte (P : N -> bool) c : c < 256 -> forallb P (map N.of_nat (seq 0 256)) = true -> P c = true.
Proof.
  intros B F. rewrite forallb_forall in F. apply F. apply in_map_iff. exists (N.to_nat c). split; [lia|]. apply in_seq. lia.
Qed.
Lemma alphabetic_iff c : c < 256 -> is_alphabetic c = true <-> is_letter c.
Proof.
  intros B. pose proof (by_byte (fun c => Bool.eqb (is_alphabetic c) ((65 <=? c) && (c <=? 90) || (97 <=? c) && (c <=? 122))) c B) as H.
  specialize (H ltac:(vm_compute; reflexivity)). apply Bool.eqb_prop in H. rewrite H. rewrite Bool.orb_true_iff, !Bool.andb_true_iff, !N.leb_le. reflexivity.
Qed.
Lemma upper_capital c : c < 256 -> is_letter c -> to_upper c = capital c.
Proof.
  intros B L. pose proof (by_byte (fun c => negb (is_alphabetic c) || (to_upper c =? capital c)) c B) as H.
  specialize (H ltac:(vm_compute; reflexivity)). cbn beta in H. apply alphabetic_iff in L; [|exact B]. rewrite L in H. now apply N.eqb_eq in H.
Qed.

(** ** What follows *)

Definition is_extra (x : option N) (c : N) : bool := match x with Some x => c =? x | None => false end.
Fixpoint take (x : option N) (n : nat) (s : list N) : list N :=
  match n, s with
  | S n', c :: r => if is_alphabetic c then to_upper c :: take x n' r else if is_extra x c then c :: take x n' r else []
  | _, _ => []
  end.
Fixpoint take_all (x : option N) (n : nat) (s : list N) : option (list N) :=
  match n, s with
  | S n', c :: r => if is_alphabetic c then option_map (cons (to_upper c)) (take_all x n' r)
                    else if is_extra x c then option_map (cons c) (take_all x n' r) else None
  | _, _ => Some []
  end.
Lemma skipn_cons {A} : forall (s : list A) k c r, skipn k s = c :: r -> nth_error s k = Some c /\ skipn (S k) s = r.
Proof.
  induction s as [|x s IH]; intros k c r E; [destruct k; discriminate|]. destruct k as [|k]; cbn in E.
  - injection E as -> ->. split; reflexivity.
  - apply IH in E. exact E.
Qed.
Lemma skipn_nil {A} : forall (s : list A) k, (k <= length s)%nat -> skipn k s = [] -> k = length s.
Proof. intros s k L E. apply (f_equal (@length A)) in E. rewrite skipn_length in E. cbn in E. lia. Qed.
Lemma rd_some {A} (s : list A) k c : nth_error s k = Some c -> rd s k = Ok c.
Proof. unfold rd. now intros ->. Qed.
Lemma suffix_letters_take x : forall n s k, (k <= length s)%nat -> suffix_letters x n s k = Ok (take x n (skipn k s)).
Proof.
  induction n as [|n IH]; intros s k L; [reflexivity|]. cbn [suffix_letters]. destruct (skipn k s) as [|c r] eqn:E.
  - rewrite (skipn_nil s k L E), Nat.eqb_refl. reflexivity.
  - destruct (skipn_cons _ _ _ _ E) as [E1 E2]. pose proof (nth_error_some_lt _ _ _ _ E1) as L'.
    destruct (Nat.eqb_spec k (length s)); [lia|]. rewrite (rd_some _ _ _ E1). cbn [bind take]. fold (is_extra x c).
    rewrite IH by lia. rewrite E2. cbn [bind]. destruct (is_alphabetic c); [reflexivity|]. now destruct (is_extra x c).
Qed.
Lemma all_letters_take x : forall n s k, (k <= length s)%nat -> all_letters x n s k = Ok (take_all x n (skipn k s)).
Proof.
  induction n as [|n IH]; intros s k L; [reflexivity|]. cbn [all_letters]. destruct (skipn k s) as [|c r] eqn:E.
  - rewrite (skipn_nil s k L E), Nat.eqb_refl. reflexivity.
  - destruct (skipn_cons _ _ _ _ E) as [E1 E2]. pose proof (nth_error_some_lt _ _ _ _ E1) as L'.
    destruct (Nat.eqb_spec k (length s)); [lia|]. rewrite (rd_some _ _ _ E1). cbn [bind take_all]. fold (is_extra x c).
    rewrite IH by lia. rewrite E2. cbn [bind]. destruct (is_alphabetic c); [reflexivity|]. now destruct (is_extra x c).
Qed.

(** ** Relations as functions *)

Definition tail_is (tail : list N -> list N -> Prop) (f : list N -> option (list N)) : Prop :=
  forall rest suffix, bytes rest -> (tail rest suffix <-> f rest = Some suffix).
Definition empty (rest : list N) : option (list N) := match rest with [] => Some [] | _ => None end.
Lemma nothing_is : tail_is nothing empty.
Proof. intros rest suffix _. unfold nothing, empty. destruct rest; split; [intros [_ ->]; reflexivity|intros [= <-]; split; reflexivity|intros [E _]; discriminate|discriminate]. Qed.
Lemma anything_is : tail_is anything (fun _ => Some []).
Proof. intros rest suffix _. unfold anything. split; congruence. Qed.
Lemma in_suffix_test x c : c < 256 -> is_alphabetic c || is_extra (Some x) c = true <-> in_suffix x c.
Proof. intros B. unfold in_suffix. rewrite Bool.orb_true_iff, (alphabetic_iff c B). cbn [is_extra]. now rewrite N.eqb_eq. Qed.
Lemma take_capital x : x < 97 -> forall n s, bytes s ->
  exists p r, s = p ++ r /\ Forall (in_suffix x) p /\ take (Some x) n s = map capital p /\
    (length p = n \/ (length p < n)%nat /\ forall c r', r = c :: r' -> ~ in_suffix x c).
Proof.
  intros X. induction n as [|n IH]; intros s B.
  - exists [], s. split; [reflexivity|]. split; [constructor|]. split; [reflexivity|now left].
  - destruct s as [|c s].
    + exists [], []. split; [reflexivity|]. split; [constructor|]. split; [reflexivity|]. right. split; [cbn; lia|discriminate].
    + inversion B as [|? ? Bc Bs]; subst. cbn [take]. pose proof (in_suffix_test x c Bc) as T.
      destruct (IH s Bs) as (p & r & -> & F & E & K).
      destruct (is_alphabetic c) eqn:A; [|destruct (is_extra (Some x) c) eqn:A'].
      * exists (c :: p), r. split; [reflexivity|]. split; [constructor; [now apply T|exact F]|]. split.
        { cbn [map]. rewrite E. f_equal. apply upper_capital; [exact Bc|]. now apply alphabetic_iff. }
        cbn [length]. destruct K as [K|[K K']]; [left; congruence|right; split; [lia|exact K']].
      * exists (c :: p), r. split; [reflexivity|]. split; [constructor; [now apply T|exact F]|]. split.
        { cbn [map]. rewrite E. f_equal. cbn [is_extra] in A'. apply N.eqb_eq in A'. subst c. unfold capital. destruct (N.leb_spec 97 x); [lia|reflexivity]. }
        cbn [length]. destruct K as [K|[K K']]; [left; congruence|right; split; [lia|exact K']].
      * exists [], (c :: p ++ r). split; [reflexivity|]. split; [constructor|]. split; [reflexivity|]. right. split; [cbn; lia|].
        intros c' r' E' I. injection E' as <- _. apply T in I. discriminate.
Qed.
Lemma longest_unique {A} (P : A -> Prop) n : forall p r p' r', p ++ r = p' ++ r' -> Forall P p -> Forall P p' ->
  (length p = n \/ (length p < n)%nat /\ forall c t, r = c :: t -> ~ P c) ->
  (length p' = n \/ (length p' < n)%nat /\ forall c t, r' = c :: t -> ~ P c) -> p = p'.
Proof.
  intros p. revert n. induction p as [|x p IH]; intros n r p' r' E F F' K K'.
  - destruct p' as [|y p']; [reflexivity|]. cbn in E. subst r. inversion F'; subst. destruct K as [K|[_ K]]; [cbn in K; subst; cbn in K'; lia|].
    now destruct (K y _ eq_refl).
  - destruct p' as [|y p'].
    + cbn in E. subst r'. inversion F; subst. destruct K' as [K'|[_ K']]; [cbn in K'; subst; cbn in K; lia|]. now destruct (K' x _ eq_refl).
    + cbn in E. injection E as <- E. inversion F; inversion F'; subst. f_equal. destruct n as [|n]; [cbn in *; lia|].
      apply (IH n r p' r' E); try assumption; cbn in *; [destruct K as [K|[K K2]]; [left; lia|right; split; [lia|exact K2]]|
        destruct K' as [K'|[K' K2]]; [left; lia|right; split; [lia|exact K2]]].
Qed.
Lemma as_suffix_is x : x < 97 -> tail_is (as_suffix x) (fun rest => Some (take (Some x) 8 rest)).
Proof.
  intros X rest suffix B. destruct (take_capital x X 8 rest B) as (p & r & -> & F & E & K). unfold as_suffix. split.
  - intros (p' & r' & E' & F' & -> & K'). rewrite E. do 2 f_equal. eapply longest_unique; eassumption.
  - intros [= <-]. exists p, r. split; [reflexivity|]. split; [exact F|]. split; [exact E|exact K].
Qed.
Lemma take_all_iff x : x < 97 -> forall n s suffix, bytes s -> (take_all (Some x) n s = Some suffix <-> Forall (in_suffix x) (firstn n s) /\ suffix = map capital (firstn n s)).
Proof.
  intros X. induction n as [|n IH]; intros s suffix B.
  - cbn. split; [intros [= <-]; split; [constructor|reflexivity]|]. intros [_ ->]. reflexivity.
  - destruct s as [|c s]; [cbn; split; [intros [= <-]; split; [constructor|reflexivity]|intros [_ ->]; reflexivity]|].
    inversion B as [|? ? Bc Bs]; subst. cbn [take_all firstn map]. pose proof (in_suffix_test x c Bc) as T.
    assert (C : forall y, is_alphabetic c || is_extra (Some x) c = true -> y = capital c ->
      (option_map (cons y) (take_all (Some x) n s) = Some suffix <-> Forall (in_suffix x) (c :: firstn n s) /\ suffix = capital c :: map capital (firstn n s))).
    { intros y A ->. specialize (IH s). destruct (take_all (Some x) n s) as [t|]; cbn [option_map].
      - split.
        + intros [= <-]. destruct (proj1 (IH t Bs) eq_refl) as [F ->]. split; [constructor; [now apply T|exact F]|reflexivity].
        + intros [F ->]. inversion F; subst. specialize (proj2 (IH _ Bs) (conj H2 eq_refl)). now intros [= ->].
      - split; [discriminate|]. intros [F ->]. inversion F; subst. now specialize (proj2 (IH _ Bs) (conj H2 eq_refl)). }
    destruct (is_alphabetic c) eqn:A; [|destruct (is_extra (Some x) c) eqn:A'].
    + apply C; [reflexivity|]. apply upper_capital; [exact Bc|now apply alphabetic_iff].
    + apply C; [reflexivity|]. cbn [is_extra] in A'. apply N.eqb_eq in A'. subst c. unfold capital. destruct (N.leb_spec 97 x); [lia|reflexivity].
    + split; [discriminate|]. intros [F _]. inversion F; subst. apply T in H1. discriminate.
Qed.
Lemma all_suffix_is x : x < 97 -> tail_is (all_suffix x) (fun rest => if (8 <? length rest)%nat then None else take_all (Some x) (length rest) rest).
Proof.
  intros X rest suffix B. unfold all_suffix. destruct (Nat.ltb_spec 8 (length rest)); [split; [lia|discriminate]|].
  rewrite (take_all_iff x X (length rest) rest suffix B), firstn_all. split; intros K; decompose [and] K; repeat split; assumption.
Qed.
Lemma take_none n s : bytes s -> take_all None n s = take_all (Some 65) n s.
Proof.
  revert s. induction n as [|n IH]; intros s B; [reflexivity|]. destruct s as [|c s]; [reflexivity|]. inversion B; subst. cbn [take_all is_extra].
  rewrite IH by assumption. destruct (is_alphabetic c) eqn:A; [reflexivity|]. destruct (N.eqb_spec c 65); [|reflexivity]. subst. discriminate.
Qed.
Lemma eight_letters_is : tail_is eight_letters (take_all None 8).
Proof.
  intros rest suffix B. rewrite take_none by exact B. rewrite (take_all_iff 65 ltac:(lia) 8 rest suffix B). unfold eight_letters.
  assert (Q : Forall is_letter (firstn 8 rest) <-> Forall (in_suffix 65) (firstn 8 rest)); [|tauto].
  rewrite !Forall_forall. split; intros F c I; specialize (F c I); unfold in_suffix, is_letter in *; [now left|lia].
Qed.
Definition one (rest : list N) : option (list N) :=
  match rest with [] => Some [] | [c] => if is_alphabetic c then Some [to_upper c] else None | _ => None end.
Lemma one_letter_is : tail_is one_letter one.
Proof.
  intros rest suffix B. unfold one_letter, one. destruct rest as [|c [|d rest]].
  - split; [intros [[_ ->]|(c & _ & E & _)]; [reflexivity|discriminate]|]. intros [= <-]. left. split; reflexivity.
  - inversion B as [|? ? Bc _]; subst. destruct (is_alphabetic c) eqn:A.
    + apply alphabetic_iff in A; [|exact Bc]. rewrite (upper_capital c Bc A). split.
      * intros [[E _]|(c' & _ & E & ->)]; [discriminate|]. injection E as <-. reflexivity.
      * intros [= <-]. right. exists c. repeat split; assumption.
    + split; [|discriminate]. intros [[E _]|(c' & L & E & ->)]; [discriminate|]. injection E as <-. apply alphabetic_iff in L; [congruence|exact Bc].
  - split; [|discriminate]. intros [[E _]|(c' & L & E & ->)]; discriminate.
Qed.
Definition lost (rest : list N) : option (list N) := match rest with [] => Some [] | [c] => if is_alphabetic c then Some [] else None | _ => None end.
Lemma lost_letter_is : tail_is lost_letter lost.
Proof.
  intros rest suffix B. unfold lost_letter, lost. destruct rest as [|c [|d rest]].
  - split; [intros [_ ->]; reflexivity|]. intros [= <-]. split; [now left|reflexivity].
  - inversion B as [|? ? Bc _]; subst. destruct (is_alphabetic c) eqn:A.
    + apply alphabetic_iff in A; [|exact Bc]. split; [intros [_ ->]; reflexivity|]. intros [= <-]. split; [right; now exists c|reflexivity].
    + split; [|discriminate]. intros [[E|(c' & L & E)] _]; [discriminate|]. injection E as <-. apply alphabetic_iff in L; [congruence|exact Bc].
  - split; [|discriminate]. intros [[E|(c' & L & E)] _]; discriminate.
Qed.
Lemma letter_x_is : tail_is (fun rest suffix => rest = [] /\ suffix = text "X") (fun rest => match rest with [] => Some [88] | _ => None end).
Proof. intros rest suffix _. destruct rest; split; [intros [_ ->]; reflexivity|intros [= <-]; split; reflexivity|intros [E _]; discriminate|discriminate]. Qed.

Definition attempt (tail : list N -> option (list N)) (vendor series : N) (model : option N) (s : list N) (p : list piece) : option chip :=
  match fit p s with
  | Some (m, rest) =>
      match tail rest with Some suffix => Some (Chip vendor series (match model with Some m => m | None => m end) (padded suffix)) | None => None end
  | None => None
  end.
Fixpoint any_of (l : list (option chip)) (c : chip) : Prop := match l with [] => False | o :: r => o = Some c \/ any_of r c end.
Lemma any_of_map forms tail v se model s c : any_of (map (attempt tail v se model s) forms) c <-> exists p, In p forms /\ attempt tail v se model s p = Some c.
Proof.
  induction forms as [|p forms IH]; cbn [map any_of].
  - split; [tauto|]. intros (p & [] & _).
  - rewrite IH. split.
    + intros [E|(p' & I & E)]; [exists p; split; [now left|exact E]|exists p'; split; [now right|exact E]].
    + intros (p' & [<-|I] & E); [now left|right; now exists p'].
Qed.
Lemma fits_bytes : forall p s m rest, fits p s m rest -> bytes s -> bytes rest.
Proof. induction 1; intros B; [assumption| | | |]; [now inversion B; auto..|]. apply bytes_app in B. tauto. Qed.
Lemma attempt_iff tail f v se model s p c : tail_is tail f -> wf p = true -> bytes s ->
  (attempt f v se model s p = Some c <->
   exists m rest suffix, fits p s m rest /\ tail rest suffix /\ c = chip_of v se (match model with Some m => m | None => m end) suffix).
Proof.
  intros T W B. unfold attempt. split.
  - destruct (fit p s) as [[m rest]|] eqn:E; [|discriminate]. apply fit_iff in E; [|exact W|exact B].
    destruct (f rest) as [suffix|] eqn:E'; [|discriminate]. intros [= <-]. exists m, rest, suffix. split; [exact E|]. split; [|reflexivity].
    apply T; [eapply fits_bytes; eassumption|exact E'].
  - intros (m & rest & suffix & F & Tl & ->). pose proof (fits_bytes _ _ _ _ F B) as Br. apply fit_iff in F; [|exact W|exact B]. rewrite F.
    apply T in Tl; [|exact Br]. rewrite Tl. reflexivity.
Qed.
Lemma pattern_any forms tail f v se s c : tail_is tail f -> forallb wf forms = true -> bytes s ->
  (pattern forms tail v se s c <-> any_of (map (attempt f v se None s) forms) c).
Proof.
  intros T W B. rewrite any_of_map. rewrite forallb_forall in W. unfold pattern. split.
  - intros (p & m & rest & suffix & I & R). exists p. split; [exact I|]. apply (attempt_iff tail f); auto. exists m, rest, suffix. exact R.
  - intros (p & I & E). apply (attempt_iff tail f) in E; auto. destruct E as (m & rest & suffix & R). exists p, m, rest, suffix. split; [exact I|exact R].
Qed.
Lemma keyword_any forms tail f v se model s c : tail_is tail f -> forallb wf forms = true -> bytes s ->
  (keyword forms tail v se model s c <-> any_of (map (attempt f v se (Some model) s) forms) c).
Proof.
  intros T W B. rewrite any_of_map. rewrite forallb_forall in W. unfold keyword. split.
  - intros (p & m & rest & suffix & I & R). exists p. split; [exact I|]. apply (attempt_iff tail f); auto. exists m, rest, suffix. exact R.
  - intros (p & I & E). apply (attempt_iff tail f) in E; auto. destruct E as (m & rest & suffix & R). exists p, m, rest, suffix. split; [exact I|exact R].
Qed.

(** ** Matching functions *)

(** The function gives an answer for every text: what the relation says. *)
Definition reads (f : list N -> res (option chip)) (R : reading) : Prop :=
  forall s, bytes s -> match f s with Ok r => forall c, r = Some c <-> R s c | _ => False end.
Lemma reads_as f R R' : (forall s c, bytes s -> (R s c <-> R' s c)) -> reads f R' -> reads f R.
Proof.
  intros E H s B. specialize (H s B). destruct (f s) as [r| |]; [|exact H..]. intros c. rewrite (H c). symmetry. now apply E.
Qed.

Lemma bytes_cons x s : bytes (x :: s) -> x < 256 /\ bytes s.
Proof. intros B. inversion B. split; assumption. Qed.
Ltac hyps B := repeat match type of B with bytes (_ :: _) => apply bytes_cons in B; let B1 := fresh "B" in destruct B as [B1 B] end.
