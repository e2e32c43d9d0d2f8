(** Lemmas about reading reports. *)
From Verif Require Import Base Text LinuxTextSpec ToolsModel ReportSpec.
From Verif Require ArmMachModel ArmMachSpec ArmMachNameProofs.
Import ArmMachModel(decimal).
Import ArmMachSpec(numeral).
Import ArmMachNameProofs(decimal_numeral).
Open Scope N_scope.

(** ** Reading *)
Lemma after_app p r : after p (p ++ r) = Some r.
Proof. induction p as [|c p IH]; [reflexivity|]. cbn [app after]. now rewrite N.eqb_refl. Qed.

Lemma leading_all ds r : Forall is_digit ds -> ~ starts_with_digit r -> leading_digits (ds ++ r) = (ds, r).
Proof.
  intros F H. induction F as [|c ds D F IH]; cbn [app].
  - destruct r as [|c r]; [reflexivity|]. cbn [leading_digits]. destruct (N.leb_spec 48 c); [|reflexivity].
    destruct (N.leb_spec c 57); [|reflexivity]. destruct H. exists c, r. split; [reflexivity|split; assumption].
  - cbn [leading_digits]. rewrite IH. unfold is_digit in D. now rewrite (proj2 (N.leb_le 48 c)), (proj2 (N.leb_le c 57)) by tauto.
Qed.

Lemma a_number_read n r : n < two32 -> ~ starts_with_digit r -> a_number (number n ++ r) = Some (n, r).
Proof.
  intros B H. destruct (decimal_numeral n B) as ((NE & F) & V & _). unfold a_number, number. rewrite leading_all by assumption.
  destruct (decimal 10 n) eqn:E; [now destruct NE|]. now rewrite V.
Qed.
Lemma number_then_read n p r : n < two32 -> ~ starts_with_digit (p ++ r) -> number_then p (number n ++ p ++ r) = Some (n, r).
Proof. intros B H. unfold number_then. rewrite a_number_read by assumption. now rewrite after_app. Qed.

Lemma no_digit c r : (c <? 48) || (57 <? c) = true -> ~ starts_with_digit (c :: r).
Proof.
  intros H (x & y & E & D). injection E as <- _. unfold is_digit in D. apply Bool.orb_true_iff in H.
  destruct H as [H|H]; apply N.ltb_lt in H; lia.
Qed.
Lemma no_digit_nil : ~ starts_with_digit [].
Proof. intros (x & y & E & D). discriminate. Qed.

Lemma number_plain n : Forall (fun c => c <> 10) (number n).
Proof.
  eapply Forall_impl; [|apply (ArmMachNameProofs.decimal_digits 10 n)]. intros c D E. unfold is_digit in D. lia.
Qed.
Lemma text_plain s : forallb (fun c => negb (c =? 10)) (text s) = true -> Forall (fun c => c <> 10) (text s).
Proof. intros H. rewrite forallb_forall in H. apply Forall_forall. intros c I E. apply H in I. subst c. discriminate. Qed.
Ltac not_digit := apply no_digit; reflexivity.

Lemma number_head n : exists d r, number n = d :: r /\ is_digit d.
Proof.
  pose proof (ArmMachNameProofs.decimal_digits 10 n) as F. unfold number. destruct (decimal 10 n) as [|d r] eqn:E.
  - exfalso. cbn [decimal] in E. destruct (n <? 10)%N; [discriminate|]. now apply app_eq_nil in E as [_ E].
  - exists d, r. split; [reflexivity|]. now inversion F.
Qed.

Lemma lines_one l ls r : Forall (fun c => c <> 10) l -> forall current, lines_from [] r = Some ls ->
  lines_from current (l ++ [10] ++ r) = Some ((current ++ l) :: ls).
Proof.
  intros F. induction F as [|c l N F IH]; intros current E; cbn [app lines_from].
  - rewrite N.eqb_refl, E, app_nil_r. reflexivity.
  - destruct (N.eqb_spec c 10); [contradiction|]. cbn [app] in IH. rewrite IH by exact E. now rewrite <- app_assoc.
Qed.
Lemma lines_all ls : Forall (Forall (fun c => c <> 10)) ls -> lines_from [] (flat_map (fun l => l ++ [10]) ls) = Some ls.
Proof.
  intros F. induction F as [|l ls N F IH]; [reflexivity|]. cbn [flat_map]. rewrite <- app_assoc.
  now rewrite (lines_one l ls _ N [] IH).
Qed.


(** A text made of sections. *)
Definition one_line (l : list N) : Prop := Forall (fun c => c <> 10) l.
Definition print_section (s : section) : list (list N) := fst s :: map (cons 9) (snd s).
Definition heading (h : list N) : Prop := exists c r, h = c :: r /\ c <> 9.
Lemma sections_items items ls : sections_of (map (cons 9) items ++ ls) = (items ++ fst (sections_of ls), snd (sections_of ls)).
Proof.
  induction items as [|x items IH]; cbn [map app sections_of]; [now destruct (sections_of ls)|]. rewrite IH. reflexivity.
Qed.
Lemma sections_of_print ss : Forall (fun s => heading (fst s)) ss -> sections_of (flat_map print_section ss) = ([], ss).
Proof.
  intros F. induction F as [|[h items] ss (c & r & E & NE) F IH]; [reflexivity|]. cbn [fst] in E. subst h. cbn [flat_map print_section fst snd app sections_of].
  rewrite sections_items, IH. cbn [fst snd]. rewrite app_nil_r. destruct (N.eqb_spec c 9); [contradiction|reflexivity].
Qed.
Lemma sections_read ss : Forall (fun s => heading (fst s) /\ one_line (fst s) /\ Forall one_line (snd s)) ss ->
  sections (flat_map (fun l => l ++ [10]) (flat_map print_section ss)) = Some ss.
Proof.
  intros F. unfold sections. rewrite lines_all.
  - rewrite sections_of_print; [reflexivity|]. eapply Forall_impl; [|exact F]. cbn. tauto.
  - apply Forall_forall. intros l I. apply in_flat_map in I as (s & IS & I). rewrite Forall_forall in F. destruct (F s IS) as (_ & A & B).
    destruct I as [<-|I]; [exact A|]. apply in_map_iff in I as (x & <- & I). rewrite Forall_forall in B. constructor; [discriminate|]. now apply B.
Qed.
