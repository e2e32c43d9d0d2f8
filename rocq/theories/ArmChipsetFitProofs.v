(** Patterns as functions, and the words that the code loads. *)
From Verif Require Import Base BaseProofs Text LinuxTextSpec ArmClusterMidrModel ArmCpuinfoModel ArmChipsetModel ArmChipsetSpec.
Open Scope N_scope.

Fixpoint digits (n : nat) (s : list N) (m : N) : option (N * list N) :=
  match n with
  | O => Some (m, s)
  | S n' => match s with [] => None | x :: s' => if 10 <=? sub32 x 48 then None else digits n' s' (u32 (m * 10 + sub32 x 48)) end
  end.
Fixpoint fit (p : list piece) (s : list N) : option (N * list N) :=
  match p with
  | [] => Some (0, s)
  | Is c :: p' => match s with [] => None | x :: s' => if x =? c then fit p' s' else None end
  | Letter c :: p' => match s with [] => None | x :: s' => if N.lor 32 x =? c then fit p' s' else None end
  | Any :: p' => match s with [] => None | x :: s' => fit p' s' end
  | Number n :: p' =>
      match digits n s 0 with
      | Some (m, s') => match fit p' s' with Some (k, rest) => if k =? 0 then Some (m, rest) else None | None => None end
      | None => None
      end
  end.
Fixpoint wf (p : list piece) : bool :=
  match p with
  | [] => true
  | Letter c :: p' => (97 <=? c) && (c <=? 122) && wf p'
  | Number n :: p' => (n <=? 9)%nat && wf p'
  | _ :: p' => wf p'
  end.

Lemma lor_letter c x : 97 <= c <= 122 -> N.lor 32 x = c <-> x = c \/ x + 32 = c.
Proof.
  intros H. assert (F : forallb (fun c => forallb (fun x => Bool.eqb (N.lor 32 x =? c) ((x =? c) || (x + 32 =? c)))
    (map N.of_nat (seq 0 123))) (map N.of_nat (seq 97 26)) = true) by (vm_compute; reflexivity).
  rewrite forallb_forall in F. assert (I : In c (map N.of_nat (seq 97 26))).
  { apply in_map_iff. exists (N.to_nat c). split; [lia|]. apply in_seq. lia. }
  specialize (F c I). rewrite forallb_forall in F. destruct (N.le_gt_cases x 122) as [L|L].
  - assert (J : In x (map N.of_nat (seq 0 123))). { apply in_map_iff. exists (N.to_nat x). split; [lia|]. apply in_seq. lia. }
    specialize (F x J). apply Bool.eqb_prop in F. rewrite <- N.eqb_eq, F, Bool.orb_true_iff, !N.eqb_eq. reflexivity.
  - assert (Q : x <= N.lor 32 x).
    { replace (N.lor 32 x) with (N.ldiff 32 x + x); [lia|]. rewrite N.add_nocarry_lxor.
      - apply N.bits_inj. intros i. rewrite N.lxor_spec, N.ldiff_spec, N.lor_spec. destruct (N.testbit 32 i), (N.testbit x i); reflexivity.
      - apply N.bits_inj. intros i. rewrite N.land_spec, N.ldiff_spec, N.bits_0. destruct (N.testbit 32 i), (N.testbit x i); reflexivity. }
    split; intros E; lia.
Qed.

Lemma sub32_digit x : x < 256 -> (10 <=? sub32 x 48) = negb ((48 <=? x) && (x <=? 57)).
Proof.
  intros B. unfold sub32, u32. destruct (N.leb_spec 48 x) as [L|L], (N.leb_spec x 57) as [L'|L']; cbn [andb negb].
  - replace (x + (two32 - 48)) with (x - 48 + 1 * two32) by (unfold two32; lia). rewrite N.mod_add by (unfold two32; lia). rewrite N.mod_small by (unfold two32; lia). apply N.leb_gt. lia.
  - replace (x + (two32 - 48)) with (x - 48 + 1 * two32) by (unfold two32; lia). rewrite N.mod_add by (unfold two32; lia). rewrite N.mod_small by (unfold two32; lia). apply N.leb_le. lia.
  - rewrite N.mod_small by (unfold two32; lia). apply N.leb_le. unfold two32; lia.
  - lia.
Qed.
Lemma sub32_value x : 48 <= x <= 57 -> sub32 x 48 = x - 48.
Proof. intros B. unfold sub32, u32. replace (x + (two32 - 48)) with (x - 48 + 1 * two32) by (unfold two32; lia). rewrite N.mod_add by (unfold two32; lia). apply N.mod_small. unfold two32; lia. Qed.

Definition from (m : N) (ds : list N) : N := fold_left (fun acc c => acc * 10 + (c - 48)) ds m.
Lemma digits_iff : forall n s m r rest, bytes s -> (m + 1) * 10 ^ N.of_nat n <= two32 ->
  (digits n s m = Some (r, rest) <-> exists ds, s = ds ++ rest /\ length ds = n /\ Forall is_digit ds /\ from m ds = r).
Proof.
  induction n as [|n IH]; intros s m r rest B L; cbn [digits].
  - split.
    + intros E. injection E as <- <-. exists []. repeat split; constructor.
    + intros (ds & -> & E & _ & <-). destruct ds; [reflexivity|discriminate].
  - destruct s as [|x s].
    + split; [discriminate|]. intros (ds & E & E' & _). destruct ds; discriminate.
    + inversion B as [|? ? Bx Bs]; subst. rewrite sub32_digit by exact Bx.
      assert (P : 10 ^ N.of_nat (S n) = 10 * 10 ^ N.of_nat n) by (rewrite Nat2N.inj_succ, N.pow_succ_r'; reflexivity).
      assert (Q : 1 <= 10 ^ N.of_nat n) by (pose proof (N.pow_nonzero 10 (N.of_nat n)); lia).
      rewrite P in L.
      destruct (N.leb_spec 48 x) as [L1|L1], (N.leb_spec x 57) as [L2|L2]; cbn [andb negb].
      2-4: split; [discriminate|]; intros (ds & E & E' & F & _); destruct ds as [|y ds]; [discriminate|]; injection E as <- _;
        inversion F; subst; unfold is_digit in *; lia.
      rewrite sub32_value by lia. rewrite u32_small.
      2: { unfold two32 in *. nia. }
      rewrite IH by (try exact Bs; nia). split.
      * intros (ds & -> & E & F & <-). exists (x :: ds). split; [reflexivity|]. split; [cbn; congruence|]. split; [constructor; [unfold is_digit; lia|exact F]|reflexivity].
      * intros (ds & E & E' & F & <-). destruct ds as [|y ds]; [discriminate|]. injection E as <- ->. exists ds. inversion F; subst.
        split; [reflexivity|]. split; [now injection E'|]. split; [assumption|reflexivity].
Qed.

Lemma bytes_app a b : bytes (a ++ b) <-> bytes a /\ bytes b.
Proof. apply Forall_app. Qed.

Lemma fit_iff : forall p s m rest, wf p = true -> bytes s -> (fit p s = Some (m, rest) <-> fits p s m rest).
Proof.
  induction p as [|q p IH]; intros s m rest W B.
  - cbn [fit]. split; [intros E; injection E as <- <-; constructor|]. intros F. inversion F. reflexivity.
  - destruct q as [c|c| |n]; cbn [fit wf] in *.
    + destruct s as [|x s]; [split; [discriminate|intros F; inversion F]|]. inversion B as [|? ? Bx Bs]; subst. destruct (N.eqb_spec x c) as [->|D].
      * rewrite IH by assumption. split; [constructor; assumption|]. intros F. now inversion F.
      * split; [discriminate|]. intros F. inversion F. congruence.
    + apply andb_prop in W. destruct W as [W1 W]. apply andb_prop in W1. destruct W1 as [W1 W2]. apply N.leb_le in W1, W2.
      destruct s as [|x s]; [split; [discriminate|intros F; inversion F]|]. inversion B as [|? ? Bx Bs]; subst. destruct (N.eqb_spec (N.lor 32 x) c) as [E|D].
      * rewrite IH by assumption. split; [constructor; [now apply lor_letter|assumption]|]. intros F. now inversion F.
      * split; [discriminate|]. intros F. inversion F. subst. destruct D. now apply lor_letter.
    + destruct s as [|x s]; [split; [discriminate|intros F; inversion F]|]. inversion B as [|? ? Bx Bs]; subst.
      rewrite IH by assumption. split; [constructor; assumption|]. intros F. now inversion F.
    + apply andb_prop in W. destruct W as [W1 W]. apply Nat.leb_le in W1.
      assert (L : (0 + 1) * 10 ^ N.of_nat n <= two32).
      { transitivity (10 ^ 9); [|unfold two32; lia]. rewrite N.mul_1_l. apply N.pow_le_mono_r; lia. }
      split.
      * destruct (digits n s 0) as [[m' s']|] eqn:D; [|discriminate]. apply digits_iff in D; [|exact B|exact L].
        destruct D as (ds & -> & E & F & V). apply bytes_app in B. destruct B as [B1 B2].
        destruct (fit p s') as [[k rest']|] eqn:T; [|discriminate]. apply IH in T; [|exact W|exact B2]. destruct (N.eqb_spec k 0) as [->|]; [|discriminate].
        intros X. injection X as <- <-. constructor; [|exact T]. split; [exact E|]. split; [exact F|exact V].
      * intros X. inversion X as [| | | |? ds ? s' ? ? Nu T]; subst. destruct Nu as (E & F & V).
        assert (D : digits n (ds ++ s') 0 = Some (m, s')) by (apply digits_iff; [exact B|exact L|]; exists ds; repeat split; assumption).
        rewrite D. apply bytes_app in B. destruct B as [B1 B2]. apply IH in T; [|exact W|exact B2]. now rewrite T.
Qed.

(** ** Words *)

Lemma lor_word m a k : a < 256 -> N.lor m (a + 256 * k) = N.lor (m mod 256) a + 256 * N.lor (m / 256) k.
Proof.
  intros B. change 256 with (2 ^ 8) in *. assert (J : forall x y, x < 2 ^ 8 -> x + 2 ^ 8 * y = N.lor x (N.shiftl y 8)).
  { intros x y L. rewrite N.shiftl_mul_pow2, (N.mul_comm y). rewrite N.add_nocarry_lxor, N.lxor_lor; [reflexivity| |]; apply N.bits_inj; intros i;
      rewrite N.land_spec, N.bits_0; destruct (N.lt_ge_cases i 8).
    1,3: rewrite (N.mul_comm _ y), <- N.shiftl_mul_pow2, N.shiftl_spec_low by assumption; apply Bool.andb_false_r.
    1,2: replace (N.testbit x i) with false; [reflexivity|]; symmetry; destruct (N.eq_dec x 0) as [->|]; [apply N.bits_0|]; apply N.bits_above_log2;
      eapply N.lt_le_trans; [apply (proj1 (N.log2_lt_pow2 x 8 ltac:(lia))); exact L|assumption]. }
  assert (Lt : N.lor (m mod 2 ^ 8) a < 2 ^ 8).
  { destruct (N.eq_dec (N.lor (m mod 2 ^ 8) a) 0) as [->|Z]; [reflexivity|]. apply N.log2_lt_pow2; [lia|]. rewrite N.log2_lor.
    assert (Hm : m mod 2 ^ 8 < 2 ^ 8) by (apply N.mod_lt; discriminate).
    apply N.max_lub_lt; [destruct (N.eq_dec (m mod 2 ^ 8) 0) as [->|]|destruct (N.eq_dec a 0) as [->|]]; try reflexivity; apply N.log2_lt_pow2; (assumption || lia). }
  rewrite (J a k B), (J _ (N.lor (m / 2 ^ 8) k) Lt). rewrite (N.div_mod m (2 ^ 8)) at 1 by lia. rewrite (N.add_comm (_ * _)).
  rewrite J by (apply N.mod_lt; discriminate). rewrite N.shiftl_lor. apply N.bits_inj. intros i. rewrite !N.lor_spec.
  destruct (N.testbit (m mod 2 ^ 8) i), (N.testbit (N.shiftl (m / 2 ^ 8) 8) i), (N.testbit a i); reflexivity.
Qed.
Lemma word_eqb p q w : p < 256 -> (p + 256 * q =? w) = (p =? w mod 256) && (q =? w / 256).
Proof.
  intros B. apply Bool.eq_true_iff_eq. rewrite Bool.andb_true_iff, !N.eqb_eq. split.
  - intros <-. rewrite (N.mul_comm 256), N.mod_add, N.mod_small, N.div_add, N.div_small by lia. split; [reflexivity|lia].
  - intros [-> ->]. rewrite (N.add_comm). symmetry. apply N.div_mod. lia.
Qed.
Lemma masked_eqb m a k w : a < 256 -> (N.lor m (a + 256 * k) =? w) = (N.lor (m mod 256) a =? w mod 256) && (N.lor (m / 256) k =? w / 256).
Proof.
  intros B. rewrite lor_word by exact B. apply word_eqb. change 256 with (2 ^ 8).
  destruct (N.eq_dec (N.lor (m mod 2 ^ 8) a) 0) as [->|Z]; [reflexivity|]. apply N.log2_lt_pow2; [lia|]. rewrite N.log2_lor.
  assert (Hm : m mod 2 ^ 8 < 2 ^ 8) by (apply N.mod_lt; discriminate).
  apply N.max_lub_lt; [destruct (N.eq_dec (m mod 2 ^ 8) 0) as [->|]|destruct (N.eq_dec a 0) as [->|]]; try reflexivity; apply N.log2_lt_pow2; (assumption || lia).
Qed.
