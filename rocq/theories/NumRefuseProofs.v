(** Proof of C193. *)
From Coq Require Import QArith String.
From Coq Require Import ZifyBool.
From Verif Require Import Float Base TimestampsModel CdRunModel ArgModel FpCliModel FpCliSpec FpCliProofs CliSpec TsCliModel TsCliSpec TsCliProofs TsCliProofs2 TsCliProofs3 GenRefuseSpec GenRefuseProofs NumRefuseSpec.
Import ListNotations. Local Open Scope string_scope. Local Open Scope list_scope. Local Open Scope Z_scope.

Lemma scan_more : forall k s P pv acc n v m r, (length s <= k)%nat -> numeral P pv -> 0 < n -> scan_digits s acc n = (v, m, r) -> 0 < m /\ exists l v', numeral (P ++ l) v' /\ s = l ++ r.
Proof.
  induction k as [|k IH]; intros s P pv acc n v m r L N N0 E.
  { destruct s; [|cbn in L; lia]. injection E as <- <- <-. split; [exact N0|]. exists [], pv. now rewrite app_nil_r. }
  assert (STOP : (acc, n, s) = (v, m, r) -> 0 < m /\ exists l v', numeral (P ++ l) v' /\ s = l ++ r) by (intros X; injection X as <- <- <-; split; [exact N0|]; exists [], pv; now rewrite app_nil_r).
  destruct s as [|c s]; [exact (STOP E)|]. cbn [scan_digits] in E. cbn [length] in L. destruct (digit c) eqn:D.
  - destruct (IH s (P ++ [c]) (10 * pv + (c - 48)) (10 * acc + (c - 48)) (n + 1) v m r ltac:(lia) (N_next P pv c N ltac:(unfold digit in D; unfold is_digit; lia)) ltac:(lia) E) as (M & l & v' & NL & ->). split; [exact M|].
    exists (c :: l), v'. split; [|reflexivity]. rewrite <- app_assoc in NL. exact NL.
  - destruct (c =? 95) eqn:C95; [|exact (STOP E)]. assert (c = 95) by lia. subst c. destruct (0 <? n) eqn:NN; [|exact (STOP E)]. cbn [andb] in E. destruct s as [|d s]; [exact (STOP E)|]. destruct (digit d) eqn:DD; [|exact (STOP E)].
    cbn [scan_digits] in E. rewrite DD in E. cbn [length] in L.
    destruct (IH s (P ++ [95; d]) (10 * pv + (d - 48)) (10 * acc + (d - 48)) (n + 1) v m r ltac:(lia) (N_under P pv d N ltac:(unfold digit in DD; unfold is_digit; lia)) ltac:(lia) E) as (M & l & v' & NL & ->). split; [exact M|].
    exists (95 :: d :: l), v'. split; [|reflexivity]. rewrite <- app_assoc in NL. exact NL.
Qed.
Lemma scan_part s acc v n r : scan_digits s acc 0 = (v, n, r) -> (n = 0 /\ r = s) \/ (0 < n /\ exists l, ds_word l /\ s = l ++ r).
Proof.
  destruct s as [|c s]; cbn [scan_digits]; intros E; [injection E as <- <- <-; now left|]. destruct (digit c) eqn:D.
  - right. destruct (scan_more (length s) s [c] (c - 48) (10 * acc + (c - 48)) (0 + 1) v n r ltac:(lia) (N_digit c ltac:(unfold digit in D; unfold is_digit; lia)) ltac:(lia) E) as (M & l & v' & NL & ->). split; [exact M|].
    exists (c :: l). split; [now exists v'|reflexivity].
  - change (0 <? 0) with false in E. rewrite andb_false_r in E. cbn [andb] in E. injection E as <- <- <-. now left.
Qed.
Lemma dot_cases {A} (r : list Z) (F : list Z -> A) (d : A) : (exists f, r = 46 :: f /\ match r with 46 :: f => F f | _ => d end = F f) \/ match r with 46 :: f => F f | _ => d end = d.
Proof.
  destruct r as [|x r]; [now right|]. destruct (Z.eq_dec x 46) as [->|N]; [left; now exists r|]. right. destruct x as [|q|q]; try reflexivity. do 6 (destruct q as [q|q|]; try reflexivity; try congruence).
Qed.
Lemma signed_sign s neg r : signed s = (neg, r) -> exists g, sign_word g /\ s = g ++ r.
Proof.
  intros E. destruct (signed_cases s) as [(q & -> & S)|[(q & -> & S)|S]]; rewrite S in E; injection E as _ <-; [exists [43]|exists [45]|exists []]; (split; [unfold sign_word; tauto|reflexivity]).
Qed.
Lemma same_lower : forall s w, same (map lower s) w = true -> Forall2 (fun a b => a = b \/ a + 32 = b /\ 65 <= a <= 90) s w.
Proof.
  induction s as [|c s IH]; intros [|d w] H; try discriminate H; [constructor|]. cbn [map] in H. apply same_iff in H. injection H as H1 H2. constructor; [|apply IH; now apply same_iff].
  unfold lower in H1. destruct ((65 <=? c) && (c <=? 90)) eqn:E; [right; lia|now left].
Qed.
Lemma special_ok s : special_name s = true -> special_word s.
Proof.
  unfold special_name. cbn [existsb]. rewrite !orb_true_iff. intros [H|[H|[H|H]]]; [| | |discriminate H]; apply same_lower in H.
  - exists (codes "inf"). split; [now left|exact H].
  - exists (codes "infinity"). split; [right; now left|exact H].
  - exists (codes "nan"). split; [right; right; now left|exact H].
Qed.
Lemma float_of_word w x : float_of w = Some x -> float_word w.
Proof.
  unfold float_of. destruct (strip_blanks w) as (b1 & b2 & E & F1 & F2). intros H. destruct (signed (strip w)) as [neg s] eqn:SG. destruct (signed_sign _ _ _ SG) as (g & G & ES). cbv zeta in H. rewrite ES in E.
  destruct (special_name s) eqn:SN.
  { exists b1, g, s, [], b2. split; [rewrite E, <- app_assoc; reflexivity|]. split; [exact F1|]. split; [exact F2|]. split; [exact G|]. left. split; [now apply special_ok|reflexivity]. }
  assert (ALL : exists m ex, s = m ++ ex /\ mantissa_word m /\ exponent_word ex).
  2: { destruct ALL as (m & ex & -> & MW & EW). exists b1, g, m, ex, b2. split; [rewrite E, <- !app_assoc; reflexivity|]. split; [exact F1|]. split; [exact F2|]. split; [exact G|]. right. now split. }
  destruct (scan_digits s 0 0) as [[v1 n1] r1] eqn:SC1. apply scan_part in SC1.
  assert (MANT : forall v2 n2 r2, match r1 with 46 :: f => scan_digits f v1 0 | _ => (v1, 0, r1) end = (v2, n2, r2) -> 0 < n1 + n2 -> exists m, mantissa_word m /\ s = m ++ r2).
  { intros v2 n2 r2 M N. destruct (dot_cases r1 (fun f => scan_digits f v1 0) (v1, 0, r1)) as [(f & ER & EM)|EM]; rewrite EM in M.
    - apply scan_part in M. destruct SC1 as [[-> ES1]|(N1 & l1 & D1 & ES1)]; destruct M as [[-> EM2]|(N2 & l2 & D2 & EM2)].
      + lia.
      + exists (46 :: l2). split; [now apply M_fraction|]. rewrite <- ES1, ER, EM2. reflexivity.
      + exists (l1 ++ [46]). split; [now apply M_point|]. rewrite ES1, ER, EM2, <- app_assoc. reflexivity.
      + exists (l1 ++ 46 :: l2). split; [now apply M_both|]. rewrite ES1, ER, EM2, <- app_assoc. reflexivity.
    - injection M as <- <- <-. destruct SC1 as [[-> _]|(N1 & l1 & D1 & ES1)]; [lia|]. exists l1. split; [now apply M_whole|exact ES1]. }
  destruct (match r1 with 46 :: f => scan_digits f v1 0 | _ => (v1, 0, r1) end) as [[v2 n2] r2]. destruct (n1 + n2 <=? 0) eqn:NN; [discriminate H|].
  destruct (MANT v2 n2 r2 eq_refl ltac:(lia)) as (m & MW & EM). exists m, r2. split; [exact EM|]. split; [exact MW|].
  destruct r2 as [|c r3]; [now left|]. destruct ((c =? 101) || (c =? 69)) eqn:CE; [|discriminate H]. destruct (signed r3) as [nege r4] eqn:S4. destruct (signed_sign _ _ _ S4) as (g' & G' & E3).
  destruct (scan_digits r4 0 0) as [[x4 n4] [|? ?]] eqn:SC4; [|discriminate H]. destruct (0 <? n4) eqn:N4; [|discriminate H]. apply scan_part in SC4 as [[-> _]|(_ & l & D & E4)]; [lia|]. rewrite app_nil_r in E4. subst r4.
  right. exists c, g', l. split; [lia|]. split; [exact G'|]. split; [exact D|]. now rewrite E3.
Qed.
Lemma no_float w : ~ float_word w -> float_of w = None.
Proof. intros N. destruct (float_of w) as [x|] eqn:E; [|reflexivity]. exfalso. exact (N (float_of_word w x E)). Qed.
(** ** fpfind *)
Lemma bad_convert a : bad_number a -> convert (dst_of a) (args_of a) = None.
Proof.
  destruct a; cbn [bad_number]; intros B; try contradiction; unfold args_of; cbn [argument dst_of convert]; try (rewrite (no_number_int t B); reflexivity); try (rewrite (no_float t B); reflexivity).
  destruct (int_of t) as [z|] eqn:E; [|reflexivity]. apply int_of_word in E. specialize (B z E). destruct ((0 <=? z) && (z <? 16)) eqn:R; [exfalso; apply B; lia|reflexivity].
Qed.
Lemma converted_none a ss : In a ss -> convert (dst_of a) (args_of a) = None -> converted (map act_of ss) = None.
Proof.
  intros I N. induction ss as [|b ss IH]; [destruct I|]. cbn [map]. unfold act_of at 1. cbn [converted]. destruct I as [->|I]; [now rewrite N|]. rewrite (IH I). now destruct (convert (dst_of b) (args_of b)).
Qed.
Lemma c193 fuel fuel2 M p repr args ss a fs dirs : writes args ss -> In a ss -> bad_number a -> run fuel fuel2 M p repr args fs dirs = Exit 2 [].
Proof.
  intros W I B. destruct (split_writes args ss W) as [S E]. destruct (parse_spelled _ ss S) as (P & O & N). unfold run. rewrite E. unfold run_words. rewrite O, N, P. cbn [orb]. now rewrite (converted_none a ss I (bad_convert a B)).
Qed.
(** ** parse_timestamps *)
Lemma c193_timestamps lg p path args ss i o fs a : command args ss i o -> ~ In WHelp ss -> In a ss -> bad_want a -> said (trun lg p path args fs) 2 fs [].
Proof.
  intros C H I B. rewrite (trun_refused lg p path args ss i o fs C H); [apply said_ends|]. intros A. rewrite Forall_forall in A. specialize (A a I). destruct a; cbn [bad_want accepted] in *; try contradiction.
  - now rewrite (no_number_int t B) in A.
  - now rewrite (no_float t B) in A.
  - now rewrite (no_float t B) in A.
Qed.
Lemma ds_chars l : ds_word l -> Forall (fun c => is_digit c \/ c = 95) l. Proof. intros [v N]. exact (numeral_chars l v N). Qed.
Lemma x_no_float w : In 120 w -> ~ float_word w.
Proof.
  intros I (b1 & s & m & ex & b2 & -> & F1 & F2 & S & H).
  assert (DS : forall l, ds_word l -> ~ In 120 l) by (intros l D J; apply ds_chars in D; rewrite Forall_forall in D; apply D in J; unfold is_digit in J; lia).
  assert (BL : forall l, Forall is_blank l -> ~ In 120 l) by (intros l D J; rewrite Forall_forall in D; apply D in J; unfold is_blank in J; lia).
  assert (SG : forall l, sign_word l -> ~ In 120 l) by (intros l [->|[->| ->]] J; cbn in J; lia).
  repeat (apply in_app_iff in I as [I|I]); [exact (BL _ F1 I)|exact (SG _ S I)| | |exact (BL _ F2 I)].
  - destruct H as [[(w & W & F) _]|[M _]].
    + assert (NW : ~ In 120 w) by (cbn in W; destruct W as [<-|[<-|[<-|[]]]]; cbn; lia). apply NW. clear - I F. induction F as [|a b l k R F IH]; [destruct I|]. destruct I as [->|I]; [left; lia|right; now apply IH].
    + destruct M as [ds D|ds D|ds fs D D'|fs D]; try (apply in_app_iff in I as [I|I]); try (now apply DS in I); cbn [In] in I; destruct I as [I|I]; try lia; try contradiction; now apply (DS fs).
  - destruct H as [[_ ->]|[_ [->|(c & g & ds & C & G & D & ->)]]]; [destruct I|destruct I|]. destruct I as [I|I]; [lia|]. apply in_app_iff in I as [I|I]; [exact (SG _ G I)|exact (DS _ D I)].
Qed.
