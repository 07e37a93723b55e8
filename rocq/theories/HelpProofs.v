From Coq Require Import List Lia ZifyBool.
From Verif Require Import Float Base HelpModel HelpSpec.
Import ListNotations. Local Open Scope Z_scope.

Lemma joined_listed sep l : l <> [] -> listed sep l (joined sep l).
Proof.
  induction l as [|x l IH]; [congruence|]. intros _. destruct l as [|y l]; [constructor|]. cbn [joined]. constructor. apply IH. discriminate.
Qed.
Lemma on_last_text l args : l <> [] -> joined [44; 32] (on_last l args) = joined [44; 32] l ++ 32 :: args.
Proof.
  induction l as [|x l IH]; [congruence|]. intros _. destruct l as [|y l]; [reflexivity|].
  assert (E : on_last (y :: l) args <> []) by (destruct l; discriminate). specialize (IH ltac:(discriminate)).
  change (on_last (x :: y :: l) args) with (x :: on_last (y :: l) args). destruct (on_last (y :: l) args) as [|z r] eqn:O; [congruence|].
  change (joined [44; 32] (x :: z :: r)) with (x ++ [44; 32] ++ joined [44; 32] (z :: r)). rewrite IH. cbn [joined]. now rewrite <- !app_assoc.
Qed.
Lemma upper_capital s : Forall2 capital s (upper s).
Proof. induction s as [|c s IH]; constructor; [|exact IH]. unfold capital. destruct ((97 <=? c) && (c <=? 122)) eqn:E; lia. Qed.
Lemma meta_stands a : choices a <> Some [] -> stands (dest a) (metavar a) (choices a) (meta a (upper (dest a))).
Proof.
  intros N. unfold meta. destruct (metavar a) as [m|]; [constructor|]. destruct (choices a) as [cs|]; constructor; [apply joined_listed; congruence|apply upper_capital].
Qed.
Lemma c172 shown a : names a <> [] -> exists ns, listed comma (names a) ns /\
  (flag a = true -> invocation shown a = ([], ns)) /\
  (flag a = false -> choices a <> Some [] -> exists v, stands (dest a) (metavar a) (choices a) v /\ invocation shown a = ([], ns ++ 32 :: v)).
Proof.
  intros N. exists (joined comma (names a)). split; [now apply joined_listed|]. unfold invocation. destruct (names a) as [|x l] eqn:E; [congruence|]. split.
  - intros ->. reflexivity.
  - intros -> C. exists (meta a (upper (dest a))). split; [now apply meta_stands|]. rewrite on_last_text by congruence. reflexivity.
Qed.
Lemma in_line_end c : in_line c <-> line_end c = false.
Proof. unfold in_line, line_end. cbn [existsb]. lia. Qed.
Lemma split_one l : forall cur rest, Forall in_line l -> splitlines (l ++ rest) cur = splitlines rest (rev l ++ cur).
Proof.
  induction l as [|c l IH]; intros cur rest F; [reflexivity|]. inv F. cbn [app splitlines]. match goal with H : in_line c |- _ => apply in_line_end in H; rewrite H end.
  rewrite IH by assumption. cbn [rev]. now rewrite <- app_assoc.
Qed.
Lemma split_has text lines : has_lines text lines -> splitlines text [] = lines.
Proof.
  induction 1 as [|l N F|l e text lines F B H IH]; [reflexivity| |].
  - rewrite <- (app_nil_r l) at 1. rewrite split_one by assumption. cbn [splitlines]. rewrite app_nil_r. destruct (rev l) as [|x r] eqn:E; [apply (f_equal (@rev Z)) in E; rewrite rev_involutive in E; subst l; now cbn in N|]. rewrite <- E. now rewrite rev_involutive.
  - rewrite split_one by assumption. rewrite app_nil_r. destruct B as [->|(c & -> & NC & CR)].
    + cbn [app splitlines]. change (line_end 13) with true. cbv iota. now rewrite rev_involutive, IH.
    + cbn [app splitlines]. assert (E : line_end c = true) by (destruct (line_end c) eqn:E; [reflexivity|destruct NC; now apply in_line_end]). rewrite E, rev_involutive. f_equal.
      destruct (Z.eq_dec c 13) as [->|X].
      * destruct text as [|d r]; [exact IH|]. specialize (CR eq_refl). destruct (Z.eq_dec d 10) as [->|Y]; [now destruct (CR r)|].
        replace (match d with 10 => splitlines r [] | _ => splitlines (d :: r) [] end) with (splitlines (d :: r) []); [exact IH|]. destruct d as [|d|d]; try reflexivity. do 4 (destruct d as [d|d|]; try reflexivity). congruence.
      * transitivity (splitlines text []); [|exact IH]. destruct c as [|c|c]; try reflexivity. do 4 (destruct c as [c|c|]; try reflexivity). congruence.
Qed.
Lemma after_app m r : after m (m ++ r) = Some r.
Proof. induction m as [|c m IH]; [reflexivity|]. cbn [after app]. now rewrite Z.eqb_refl. Qed.
Lemma after_some m : forall t r, after m t = Some r -> t = m ++ r.
Proof.
  induction m as [|c m IH]; intros t r H; [now injection H as ->|]. destruct t as [|d t]; [discriminate|]. cbn [after] in H. destruct (c =? d) eqn:E; [|discriminate].
  apply Z.eqb_eq in E as ->. cbn [app]. now rewrite (IH t r H).
Qed.
Lemma c173 wrap text lines width : has_lines text lines -> split_lines wrap (RAW_INDICATOR ++ text) width = lines.
Proof. intros H. unfold split_lines. rewrite after_app. now apply split_has. Qed.
Lemma c173_other wrap text width : (forall r, text <> RAW_INDICATOR ++ r) -> split_lines wrap text width = wrap text width.
Proof. intros H. unfold split_lines. destruct (after RAW_INDICATOR text) as [r|] eqn:E; [|reflexivity]. apply after_some in E. now destruct (H r). Qed.
