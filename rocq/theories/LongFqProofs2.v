(** Frequency files of any length: what is read with each block. *)
From Verif Require Import Base FreqcdModel FreqcdSpec FreqcdStatements FreqcdProofs FreqcdProofs2 FreqcdProofs6 CdRunModel CdRunSpec CdRunProofs CdRunProofs2 FqPipeSpec FqPipeProofs LongFqSpec LongFqProofs.
Import ListNotations.
Local Open Scope Z_scope.

(** every read takes what fits beside the unfinished line [p] *)
Fixpoint strictly (p R : list Z) (os : list obs) : Prop :=
  match os with
  | [] => True
  | o :: r => len p <= 98 /\ rx_freq o = take (99 - len p) R /\ strictly (last_line (p ++ rx_freq o)) (drop (99 - len p) R) r
  end.
Lemma strictly_greedy : forall os p R, strictly p R os -> greedy p R os.
Proof. induction os as [|o os IH]; intros p R H; [exact I|]. destruct H as (_ & E & H). right. split; [exact E|now apply IH]. Qed.
Lemma feed_line p f d : has_newline p = false -> d = [] \/ has_newline d = true -> fst (feed (p, f) d) = last_line (p ++ d).
Proof.
  intros NP [->|H]; unfold feed, last_line.
  - cbn [has_newline existsb fst]. rewrite app_nil_r, split_lines_none by exact NP. reflexivity.
  - rewrite H. cbn [fst]. destruct (split_lines [] (p ++ d)); reflexivity.
Qed.
Lemma drop_len_take n (R : list Z) : 0 <= n -> drop (len (take n R)) R = drop n R.
Proof.
  intros N. destruct (Z.le_ge_cases n (len R)); [rewrite len_take by lia; f_equal; lia|]. rewrite len_take by lia. rewrite !drop_all; [reflexivity|lia|lia].
Qed.
Lemma drop_nil_text p n : text_of_lines n (p ++ []) -> has_newline p = false -> p = [].
Proof. intros [LL _] NP. unfold last_line in LL. rewrite app_nil_r, split_lines_none in LL by exact NP. exact LL. Qed.
(** what a step leaves of the handle *)
Lemma open_kept strict lg s l q s' o : step strict lg s (Tick (Some (RdBytes l)) (Some (RdBytes q)) None) = Ok (s', o, Running) -> rx_freq o <> [] -> freqopen s' = true.
Proof.
  intros H N. unfold step in H. destruct (copy_loop _ _ _ _) as [ib|]; cbn [bind] in H; [|discriminate].
  destruct (take _ l) as [|x c]; [injection H as <- <-; cbn in N; congruence|].
  destruct (digest_input strict lg _ _ _) as [s1|] eqn:DI; cbn [bind] in H; [|discriminate]. unfold freq_phase in H.
  assert (WR : forall s0 got gotf s1 o1 st1, write_phase s0 None got gotf = Ok (s1, o1, st1) -> rx_freq o1 = gotf /\ freqopen s1 = freqopen s0).
  { intros s0 got gotf s2 o1 st1 W. unfold write_phase in W. destruct (load _ _ _) as [data|]; cbn [bind] in W; [|discriminate]. rewrite Z.eqb_refl in W. injection W as <- <- <-. split; reflexivity. }
  destruct (freqopen s1) eqn:FO; [|apply WR in H as [E _]; congruence].
  destruct (digest_freq s1 _) as [s2|] eqn:DF; cbn [bind] in H; [|discriminate]. apply WR in H as [E ->]. rewrite E in N.
  unfold digest_freq in DF. destruct (store _ _ _) as [fb|]; cbn [bind] in DF; [|discriminate].
  destruct (freq_scan _ _ _ _ _) as [[[fb1 idx] fc]|]; cbn [bind] in DF; [|discriminate].
  destruct (take (FREQBUFSIZE - freqpartial s1 - 1) q) as [|y d]; [congruence|].
  destruct (0 <? idx); [|injection DF as <-; exact FO].
  destruct (copy_loop _ _ _ _) as [fb2|]; cbn [bind] in DF; [|discriminate]. injection DF as <-. exact FO.
Qed.
Lemma strict_reads strict lg X Zf : forall ts n ioff s pend pf foff s' os, Inv s pend pf -> Forall tick_ok ts -> reads X n ioff ts -> 0 <= foff -> Forall (fun o => rx o <> []) os ->
  run strict lg s ts = Ok (s', os, Running) -> fticks Zf foff ts os -> text_of_lines 98 (pf ++ drop foff Zf) -> freqopen s = true \/ drop foff Zf = [] -> strictly pf (drop foff Zf) os.
Proof.
  induction ts as [|t ts IH]; intros n ioff s pend pf foff s' os IV TO RD F0 NX RU FT TX OP.
  { destruct os; [exact I|destruct FT]. }
  destruct os as [|o os]; [destruct t as [|? [[|]|] ?]; destruct FT|]. pose proof (Forall_inv TO) as T1. pose proof (Forall_inv_tail TO) as T2. pose proof (Forall_inv NX) as NX1. pose proof (Forall_inv_tail NX) as NX2. cbn beta in NX1.
  destruct t as [|ir fr wr]; [destruct FT|]. cbn [reads] in RD. destruct ir as [[|l]|]; try contradiction. destruct wr; try contradiction. destruct RD as (EL & _ & RD).
  cbn [fticks] in FT. destruct fr as [[|q]|]; try contradiction. destruct FT as [EQ FT]. subst q.
  cbn [run] in RU. pose proof (step_spec strict lg s pend pf _ IV T1) as SS. destruct (step strict lg s _) as [[[s1 o1] st1]|e] eqn:ST; cbn [bind] in RU; [|discriminate].
  destruct st1; [|discriminate].
  destruct (run strict lg s1 ts) as [[[s2 os2] st2]|e] eqn:R2; cbn [bind] in RU; [|discriminate]. injection RU as E1 E2 E3 E4. subst s2 o1 os2 st2.
  destruct SS as (_ & _ & _ & _ & _ & IV1 & _ & _). specialize (IV1 eq_refl).
  pose proof (I_f _ _ _ IV) as FI. destruct FI as [_ _ FP _ FS FN].
  pose proof (step_shape _ _ _ _ _ _ _ _ ST) as SH. destruct (take (INBUFSIZE - inbytesread s mod SIZEOF_RAWEVENT) l) as [|x c]; [destruct SH as [SH _]; discriminate SH|]. destruct SH as (_ & _ & _ & RF).
  assert (ER : rx_freq o = take (99 - len pf) (drop foff Zf)).
  { rewrite RF, FP. replace (FREQBUFSIZE - len pf - 1) with (99 - len pf) by (unfold FREQBUFSIZE; lia). destruct OP as [->| ->]; [reflexivity|]. destruct (freqopen s); [reflexivity|]. unfold take. now rewrite firstn_nil. }
  cbn [strictly]. split; [exact FS|]. split; [exact ER|].
  pose proof (piece pf (drop foff Zf) TX FN) as PC. rewrite <- ER in PC. rewrite (feed_line pf (fcorr s) _ FN PC) in IV1.
  destruct (keep pf (drop foff Zf) 98 TX FN (99 - len pf)) as [TX' _]. rewrite <- ER in TX'.
  assert (DD : drop (99 - len pf) (drop foff Zf) = drop (foff + len (rx_freq o)) Zf).
  { rewrite <- (drop_len_take (99 - len pf)) by lia. rewrite <- ER. rewrite drop_drop by (try apply len_nonneg; lia). f_equal. lia. }
  rewrite DD in TX' |- *. eapply IH; [exact IV1|exact T2|exact RD|pose proof (len_nonneg (rx_freq o)); lia|exact NX2|exact R2|exact FT|exact TX'|].
  destruct (rx_freq o) as [|y d] eqn:ED; [right|left; apply (open_kept _ _ _ _ _ _ _ ST); rewrite ED; discriminate].
  rewrite len_nil, Z.add_0_r. symmetry in ER. destruct (drop foff Zf) as [|z R]; [reflexivity|]. rewrite take_cons in ER by lia. discriminate ER.
Qed.
Lemma take_plus {A} a b (l : list A) : 0 <= a -> 0 <= b -> take (a + b) l = take a l ++ take b (drop a l).
Proof.
  intros. unfold take, drop. rewrite Z2Nat.inj_add by lia. generalize (Z.to_nat a) as n. generalize (Z.to_nat b) as m. intros m n. clear. revert l.
  induction n as [|n IH]; intros [|x l]; cbn; try reflexivity; [now rewrite firstn_nil|]. now rewrite IH.
Qed.
Lemma feed_all f D d : d = [] \/ has_newline d = true -> feed (last_line D, told f D) d = (last_line (D ++ d), told f (D ++ d)).
Proof.
  intros [->|H]; [rewrite app_nil_r; reflexivity|]. unfold feed, told, last_line, lines. rewrite H. cbn [fst snd]. rewrite (split_app D [] d).
  assert (NR : has_newline (snd (split_lines [] D)) = false) by (apply split_lines_rest; reflexivity).
  destruct (split_lines [] D) as [l1 r1]. cbn [fst snd] in *. rewrite (split_lines_app r1 [] d NR). cbn [app]. destruct (split_lines r1 d) as [l2 r2]. cbn [fst snd]. now rewrite fold_left_app.
Qed.
Lemma strict_corrections f Zf : forall os k, let D := take (consumed Zf k) Zf in 0 <= consumed Zf k -> strictly (last_line D) (drop (consumed Zf k) Zf) os ->
  Forall (fun o => rx_freq o = [] \/ has_newline (rx_freq o) = true) os -> Forall (fun o => rx o <> []) os ->
  corrections (last_line D, told f D) os = map (fun k => told f (take (consumed Zf k) Zf)) (seq k (length os)) /\
  forall n, (n <= length os)%nat -> D ++ concat (map rx_freq (firstn n os)) = take (consumed Zf (k + n)) Zf.
Proof.
  induction os as [|o os IH]; intros k D C0 ST NL NX.
  - split; [reflexivity|]. intros n N. cbn in N. replace n with 0%nat by lia. cbn. rewrite app_nil_r, Nat.add_0_r. reflexivity.
  - destruct ST as (L & E & ST). pose proof (Forall_inv NL) as NL1. pose proof (Forall_inv NX) as NX1. cbn beta in NL1, NX1.
    assert (CS : consumed Zf (S k) = consumed Zf k + (99 - len (last_line D))) by reflexivity.
    assert (DS : D ++ rx_freq o = take (consumed Zf (S k)) Zf) by (rewrite CS, E; symmetry; apply take_plus; lia).
    assert (LS : last_line (last_line D ++ rx_freq o) = last_line (D ++ rx_freq o)).
    { pose proof (feed_all f D (rx_freq o) NL1) as FA. rewrite <- (feed_line (last_line D) (told f D)); [now rewrite FA|unfold last_line; now apply split_lines_rest|exact NL1]. }
    rewrite LS, DS in ST. rewrite drop_drop in ST by lia. replace (99 - len (last_line D) + consumed Zf k) with (consumed Zf (S k)) in ST by lia.
    destruct (IH (S k) ltac:(lia) ST (Forall_inv_tail NL) (Forall_inv_tail NX)) as [IH1 IH2]. split.
    + cbn [corrections length seq map]. rewrite (feed_all f D _ NL1), DS, IH1. destruct (rx o); [congruence|reflexivity].
    + intros [|n] N; [cbn; rewrite app_nil_r, Nat.add_0_r; reflexivity|]. cbn [firstn map concat]. rewrite app_assoc, DS. rewrite IH2 by (cbn in N; lia). f_equal. f_equal. lia.
Qed.
