(** Proof of C190. *)
From Coq Require Import QArith String ZifyBool.
From Verif Require Import Base TimestampsModel CdRunModel ArgModel FpCliSpec CliSpec TsCliModel TsCliSpec GenCliModel GenCliSpec GenCliProofs GenCliProofs2 GenCliProofs3 GenRefuseSpec.
Import ListNotations.
Local Open Scope Z_scope.

Lemma scan_numeral : forall k s P acc n v m, (length s <= k)%nat -> numeral P acc -> 0 < n -> scan_digits s acc n = (v, m, []) -> numeral (P ++ s) v.
Proof.
  induction k as [|k IH]; intros s P acc n v m L N N0 E.
  { destruct s; [|cbn in L; lia]. injection E as <- <-. now rewrite app_nil_r. }
  destruct s as [|c r]; [injection E as <- <-; now rewrite app_nil_r|]. cbn [scan_digits] in E. cbn [length] in L. destruct (digit c) eqn:D.
  - change (c :: r) with ([c] ++ r). rewrite app_assoc. apply (IH r _ (10 * acc + (c - 48)) (n + 1) v m); [lia| |lia|exact E]. apply N_next; [exact N|]. unfold digit in D. unfold is_digit. lia.
  - destruct (c =? 95) eqn:C95; [|discriminate E]. assert (c = 95) by lia. subst c. destruct (0 <? n); [|discriminate E]. cbn [andb] in E. destruct r as [|d r]; [discriminate E|]. destruct (digit d) eqn:DD; [|discriminate E].
    cbn [scan_digits] in E. rewrite DD in E. change (95 :: d :: r) with ([95; d] ++ r). rewrite app_assoc. cbn [length] in L.
    apply (IH r _ (10 * acc + (d - 48)) (n + 1) v m); [lia| |lia|exact E]. apply N_under; [exact N|]. unfold digit in DD. unfold is_digit. lia.
Qed.
Lemma scan_first s v m : scan_digits s 0 0 = (v, m, []) -> 0 < m -> numeral s v.
Proof.
  destruct s as [|c r]; cbn [scan_digits]; intros E M; [injection E as <- <-; lia|]. destruct (digit c) eqn:D.
  - apply (scan_numeral (length r) r [c] (10 * 0 + (c - 48)) (0 + 1) v m); [lia| |lia|exact E]. apply N_digit. unfold digit in D. unfold is_digit. lia.
  - change (0 <? 0) with false in E. rewrite andb_false_r in E. discriminate E.
Qed.
Lemma lstrip_blanks s : exists b, s = b ++ lstrip s /\ Forall is_blank b.
Proof.
  induction s as [|c r [b [E F]]]; [exists []; split; [reflexivity|constructor]|]. cbn [lstrip]. destruct (space c) eqn:S; [|exists []; split; [reflexivity|constructor]].
  exists (c :: b). split; [cbn [app]; now rewrite <- E|]. constructor; [|exact F]. unfold space in S. unfold is_blank. lia.
Qed.
Lemma strip_blanks s : exists b1 b2, s = b1 ++ strip s ++ b2 /\ Forall is_blank b1 /\ Forall is_blank b2.
Proof.
  destruct (lstrip_blanks s) as (b1 & E1 & F1). destruct (lstrip_blanks (rev (lstrip s))) as (b2 & E2 & F2). exists b1, (rev b2). split.
  - unfold strip. rewrite <- rev_app_distr, <- E2, rev_involutive. exact E1.
  - split; [exact F1|]. apply Forall_rev. exact F2.
Qed.
Lemma signed_cases s : (exists r, s = 43 :: r /\ signed s = (false, r)) \/ (exists r, s = 45 :: r /\ signed s = (true, r)) \/ signed s = (false, s).
Proof.
  destruct s as [|x r]; [right; now right|]. destruct (Z.eq_dec x 43) as [->|N1]; [left; now exists r|]. destruct (Z.eq_dec x 45) as [->|N2]; [right; left; now exists r|]. right. right.
  destruct x as [|q|q]; try reflexivity. do 6 (destruct q as [q|q|]; try reflexivity; try congruence).
Qed.
Lemma int_of_word w z : int_of w = Some z -> int_word w z.
Proof.
  unfold int_of. destruct (strip_blanks w) as (b1 & b2 & E & F1 & F2). intros H. destruct (signed_cases (strip w)) as [(r & SE & S)|[(r & SE & S)|S]]; rewrite S in H; destruct (scan_digits _ 0 0) as [[v m] [|? ?]] eqn:SC; try discriminate H;
    destruct (0 <? m) eqn:M; try discriminate H; injection H as <-; apply scan_first in SC; try lia.
  - exists b1, [43], r, b2, v. split; [rewrite SE in E; exact E|]. split; [exact F1|]. split; [exact F2|]. split; [exact SC|]. left. split; [now right|reflexivity].
  - exists b1, [45], r, b2, v. split; [rewrite SE in E; exact E|]. split; [exact F1|]. split; [exact F2|]. split; [exact SC|]. right. split; reflexivity.
  - exists b1, [], (strip w), b2, v. split; [exact E|]. split; [exact F1|]. split; [exact F2|]. split; [exact SC|]. left. split; [now left|reflexivity].
Qed.
Lemma no_number_int w : no_number w -> int_of w = None.
Proof. intros N. destruct (int_of w) as [z|] eqn:E; [|reflexivity]. exfalso. exact (N z (int_of_word w z E)). Qed.
Lemma numeral_chars ds v : numeral ds v -> Forall (fun c => is_digit c \/ c = 95) ds.
Proof.
  induction 1 as [c D|l v c N IH D|l v c N IH D]; [constructor; [now left|constructor]| |]; apply Forall_app; split; try exact IH; [constructor; [now left|constructor]|].
  constructor; [now right|]. constructor; [now left|constructor].
Qed.
(** the converse: [int_word] is what int_of reads *)
Lemma numeral_scan ds v : numeral ds v -> forall r, exists n, 0 < n /\ scan_digits (ds ++ r) 0 0 = scan_digits r v n.
Proof.
  assert (DG : forall c, is_digit c -> digit c = true) by (intros c D; unfold is_digit in D; unfold digit; lia).
  induction 1 as [c D|l v c N IH D|l v c N IH D]; intros r.
  - exists 1. split; [lia|]. cbn [app scan_digits]. rewrite (DG c D). replace (10 * 0 + (c - 48)) with (c - 48) by lia. reflexivity.
  - destruct (IH (c :: r)) as (n & N0 & E). exists (n + 1). split; [lia|]. rewrite <- app_assoc. cbn [app]. rewrite E. cbn [scan_digits]. now rewrite (DG c D).
  - destruct (IH (95 :: c :: r)) as (n & N0 & E). exists (n + 1). split; [lia|]. rewrite <- app_assoc. cbn [app]. rewrite E. cbn [scan_digits]. rewrite (DG c D). change (digit 95) with false. change (95 =? 95) with true.
    replace (0 <? n) with true by lia. reflexivity.
Qed.
Lemma lstrip_blank b s : Forall is_blank b -> lstrip (b ++ s) = lstrip s.
Proof. induction 1 as [|c b B F IH]; [reflexivity|]. cbn [app lstrip]. replace (space c) with true by (unfold is_blank in B; unfold space; lia). exact IH. Qed.
Lemma lstrip_none s : Forall (fun c => ~ is_blank c) s -> forall r, s <> [] -> lstrip (s ++ r) = s ++ r.
Proof. intros F r NE. destruct s as [|c s]; [congruence|]. apply Forall_inv in F. cbn [app lstrip]. replace (space c) with false by (unfold is_blank in F; unfold space; lia). reflexivity. Qed.
Lemma strip_core b1 c b2 : Forall is_blank b1 -> Forall is_blank b2 -> Forall (fun c => ~ is_blank c) c -> c <> [] -> strip (b1 ++ c ++ b2) = c.
Proof.
  intros F1 F2 F NE. unfold strip. rewrite (lstrip_blank b1) by assumption. rewrite (lstrip_none c F b2 NE), rev_app_distr, lstrip_blank by (now apply Forall_rev).
  rewrite <- (app_nil_r (rev c)), lstrip_none, app_nil_r; [apply rev_involutive|now apply Forall_rev|]. intros E. apply NE. rewrite <- (rev_involutive c), E. reflexivity.
Qed.
Lemma word_int_of w z : int_word w z -> int_of w = Some z.
Proof.
  intros (b1 & s & ds & b2 & v & -> & F1 & F2 & N & S). pose proof (numeral_chars ds v N) as NC. destruct (numeral_scan ds v N []) as (n & N0 & E). rewrite app_nil_r in E. cbn [scan_digits] in E.
  assert (ND : ds <> []) by (intros ->; cbn [scan_digits] in E; injection E as E1 E2; lia).
  assert (NB : Forall (fun c => ~ is_blank c) ds) by (eapply Forall_impl; [|exact NC]; cbv beta; unfold is_blank, is_digit; lia).
  assert (SB : Forall (fun c => ~ is_blank c) s) by (destruct S as [[[->| ->] _]|[-> _]]; repeat constructor; unfold is_blank; lia).
  unfold int_of. rewrite (app_assoc s), strip_core; [|exact F1|exact F2|now apply Forall_app|destruct s; [exact ND|discriminate]].
  assert (SG : signed (s ++ ds) = (match s with [45] => true | _ => false end, ds)).
  { destruct S as [[[->| ->] _]|[-> _]]; try reflexivity. cbn [app]. destruct ds as [|c ds]; [congruence|]. destruct (signed_cases (c :: ds)) as [(r & X & _)|[(r & X & _)|X]]; [| |exact X]; injection X as X _; apply Forall_inv in NC; unfold is_digit in NC; lia. }
  rewrite SG, E. replace (0 <? n) with true by lia. destruct S as [[[->| ->] ->]|[-> ->]]; reflexivity.
Qed.
(** a letter in the word is enough *)
Lemma letter_no_number w c : In c w -> ~ is_digit c -> ~ is_blank c -> c <> 43 -> c <> 45 -> c <> 95 -> no_number w.
Proof.
  intros I D B P M U z (b1 & s & ds & b2 & v & -> & F1 & F2 & N & S). apply numeral_chars in N. rewrite Forall_forall in F1, F2, N. apply in_app_iff in I as [I|I]; [now apply F1 in I|].
  apply in_app_iff in I as [I|I].
  - destruct S as [[[->| ->] _]|[-> _]]; [destruct I| |]; (destruct I as [I|[]]; congruence).
  - apply in_app_iff in I as [I|I]; [apply N in I as [I|I]; [now apply D|congruence]|now apply F2 in I].
Qed.
Lemma ints_none ws w : In w ws -> int_of w = None -> ints ws = None.
Proof. intros I N. induction ws as [|x ws IH]; [destruct I|]. cbn [ints]. destruct I as [->|I]; [now rewrite N|]. rewrite (IH I). now destruct (int_of x). Qed.
Lemma c190 p tmp args ss fs stdin : gcommand args ss -> asks_no_number ss -> said (grun p tmp args fs stdin) 2 fs [].
Proof.
  intros C (s1 & ws & w & s2 & -> & G & H & I & N). destruct (gparse args _ C) as [U P]. unfold grun. destruct args as [|a args].
  - exfalso. remember (@nil (list Z)) as e eqn:E in P. clear - P E. subst e. assert (Q : fst (parse gtable gpos []) = map ggiven' (s1 ++ GTimes ws :: s2) ++ [Placed 0 []]) by now rewrite P.
    rewrite map_app in Q. cbn [map ggiven'] in Q. vm_compute fst in Q. destruct (map ggiven' s1) as [|x [|y r]]; discriminate Q.
  - rewrite U, P, map_app, <- app_assoc, gact_all by assumption. cbn [map ggiven' app gact]. rewrite (ints_none ws w I (no_number_int w N)).
    eexists. split; [reflexivity|]. cbn [code stdout files]. split; [reflexivity|]. split; [reflexivity|]. reflexivity.
Qed.
