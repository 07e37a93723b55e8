(** Proof of C192. *)
From Verif Require Import Base FreqcdModel FreqcdSpec FreqcdStatements FreqcdProofs FreqcdProofs2 FreqcdProofs3 FreqcdProofs4 FreqcdProofs5 FreqcdProofs6 FreqcdProofs7 FreqcdProofs8 FreqcdProofs9 FreqcdCli FreqcdCliSpec FreqcdCliStatements FreqcdCliProofs CdRunModel CdRunSpec CdRunStatements CdRunProofs CdRunProofs2 CdRunProofs3 FqPipeSpec FqPipeProofs CdExactSpec CdExactProofs FqExactSpec FqExactProofs LongFqSpec LongFqProofs LongFqProofs2 AnyFqSpec.
From Coq Require Import ZifyBool.
Import ListNotations.
Local Open Scope Z_scope.
Ltac Zify.zify_post_hook ::= Z.div_mod_to_equations.

Fixpoint fills (p R : list Z) (os : list obs) : Prop :=
  match os with
  | [] => True
  | o :: r => len p <= 98 /\ has_newline p = false /\ rx_freq o = take (99 - len p) R /\ fills (fst (feed (p, 0) (rx_freq o))) (drop (99 - len p) R) r
  end.
Lemma feed_fst p f g d : fst (feed (p, f) d) = fst (feed (p, g) d).
Proof. unfold feed. cbn [fst snd]. destruct (has_newline d); [|reflexivity]. now destruct (split_lines [] (p ++ d)). Qed.
Lemma fills_reads strict lg X Zf : forall ts n ioff s pend pf foff s' os, Inv s pend pf -> Forall tick_ok ts -> reads X n ioff ts -> 0 <= foff -> Forall (fun o => rx o <> []) os ->
  run strict lg s ts = Ok (s', os, Running) -> fticks Zf foff ts os -> freqopen s = true \/ drop foff Zf = [] -> fills pf (drop foff Zf) os.
Proof.
  induction ts as [|t ts IH]; intros n ioff s pend pf foff s' os IV TO RD F0 NX RU FT OP.
  { destruct os; [exact I|destruct FT]. }
  destruct os as [|o os]; [destruct t as [|? [[|]|] ?]; destruct FT|]. pose proof (Forall_inv TO) as T1. pose proof (Forall_inv_tail TO) as T2. pose proof (Forall_inv NX) as NX1. pose proof (Forall_inv_tail NX) as NX2. cbn beta in NX1.
  destruct t as [|ir fr wr]; [destruct FT|]. cbn [reads] in RD. destruct ir as [[|l]|]; try contradiction. destruct wr; try contradiction. destruct RD as (EL & _ & RD).
  cbn [fticks] in FT. destruct fr as [[|q]|]; try contradiction. destruct FT as [EQ FT]. subst q.
  cbn [run] in RU. pose proof (step_spec strict lg s pend pf _ IV T1) as SS. destruct (step strict lg s _) as [[[s1 o1] st1]|e] eqn:ST; cbn [bind] in RU; [|discriminate].
  destruct st1; [|discriminate].
  destruct (run strict lg s1 ts) as [[[s2 os2] st2]|e] eqn:R2; cbn [bind] in RU; [|discriminate]. injection RU as E1 E2 E3 E4. subst s2 o1 os2 st2.
  destruct SS as (_ & _ & _ & _ & _ & IV1 & _ & _). specialize (IV1 eq_refl).
  pose proof (I_f _ _ _ IV) as FI. destruct FI as [_ _ FP _ FS FN].
  pose proof (step_shape _ _ _ _ _ _ _ _ ST) as SH. destruct (take (INBUFSIZE - inbytesread s mod SIZEOF_RAWEVENT) l) as [|x c]; [destruct SH as [SH _]; discriminate SH|]. destruct SH as (_ & _ & _ & RF).
  assert (ER : rx_freq o = take (99 - len pf) (drop foff Zf)).
  { rewrite RF, FP. replace (FREQBUFSIZE - len pf - 1) with (99 - len pf) by (unfold FREQBUFSIZE; lia). destruct OP as [->| ->]; [reflexivity|]. destruct (freqopen s); [reflexivity|]. unfold take. now rewrite firstn_nil. }
  cbn [fills]. split; [exact FS|]. split; [exact FN|]. split; [exact ER|].
  rewrite (feed_fst pf (fcorr s) 0) in IV1.
  assert (DD : drop (99 - len pf) (drop foff Zf) = drop (foff + len (rx_freq o)) Zf).
  { rewrite <- (drop_len_take (99 - len pf)) by lia. rewrite <- ER. rewrite drop_drop by (try apply len_nonneg; lia). f_equal. lia. }
  rewrite DD. eapply IH; [exact IV1|exact T2|exact RD|pose proof (len_nonneg (rx_freq o)); lia|exact NX2|exact R2|exact FT|].
  destruct (rx_freq o) as [|y d] eqn:ED; [right|left; apply (open_kept _ _ _ _ _ _ _ ST); rewrite ED; discriminate].
  rewrite len_nil, Z.add_0_r. symmetry in ER. destruct (drop foff Zf) as [|z R]; [reflexivity|]. rewrite take_cons in ER by lia. discriminate ER.
Qed.
Lemma lines_newline d : has_newline d = match lines d with [] => false | _ => true end.
Proof.
  unfold lines. generalize (@nil Z) at 1. induction d as [|c d IH]; intros cur; [reflexivity|]. cbn [has_newline existsb split_lines].
  fold (has_newline d). destruct (newline =? c); [destruct (split_lines [] d); reflexivity|]. apply IH.
Qed.
Lemma seen_S p R k : seen p R (S k) = let d := take (99 - len p) R in (if has_newline d then d else []) ++ seen (fst (feed (p, 0) d)) (drop (99 - len p) R) k.
Proof.
  cbn [seen]. cbv zeta. set (d := take (99 - len p) R). rewrite lines_newline. unfold feed. rewrite lines_newline. destruct (lines d); [reflexivity|].
  cbn [fst snd]. unfold last_line. destruct (split_lines [] (p ++ d)); reflexivity.
Qed.
Definition SZ (v : Z) (p R : list Z) (k : nat) : Z := fold_left line_update (lines (p ++ seen p R k)) v.
Lemma feed_snd p R v k : has_newline p = false -> let d := take (99 - len p) R in SZ v p R (S k) = SZ (snd (feed (p, v) d)) (fst (feed (p, 0) d)) (drop (99 - len p) R) k.
Proof.
  intros NP d. unfold SZ. rewrite seen_S. cbv zeta. fold d. unfold feed. cbn [fst snd]. destruct (has_newline d); [|reflexivity].
  rewrite app_assoc. unfold lines at 1. rewrite split_app. pose proof (split_lines_rest (p ++ d) [] eq_refl) as NR. destruct (split_lines [] (p ++ d)) as [l1 r1]. cbn [fst snd] in *.
  set (q := seen r1 _ k). unfold lines. rewrite (split_lines_app r1 [] q NR). cbn [app]. destruct (split_lines r1 q) as [l2 r2]. cbn [fst]. now rewrite fold_left_app.
Qed.
Lemma fills_corrections : forall os p R v, fills p R os -> Forall (fun o => rx o <> []) os -> corrections (p, v) os = map (SZ v p R) (seq 0 (length os)).
Proof.
  induction os as [|o os IH]; intros p R v FL NX; [reflexivity|]. destruct FL as (L & NP & E & FL). pose proof (Forall_inv NX) as NX1. cbn beta in NX1.
  cbn [corrections length seq map snd]. destruct (rx o); [congruence|]. f_equal.
  - unfold SZ. cbn [seen]. rewrite app_nil_r. unfold lines. rewrite split_lines_none by exact NP. reflexivity.
  - rewrite <- seq_shift, map_map. rewrite (surjective_pairing (feed (p, v) (rx_freq o))). rewrite (feed_fst p v 0). rewrite (IH _ _ _ FL (Forall_inv_tail NX)).
    apply map_ext. intros k. rewrite feed_snd by exact NP. now rewrite <- E.
Qed.
Lemma fills_seen : forall os p R n, fills p R os -> (n <= length os)%nat -> concat (filter has_newline (map rx_freq (firstn n os))) = seen p R n.
Proof.
  induction os as [|o os IH]; intros p R [|n] FL N; try reflexivity; [cbn in N; lia|]. destruct FL as (L & NP & E & FL). rewrite seen_S. cbv zeta. rewrite <- E. cbn [firstn map filter].
  cbn [length] in N. pose proof (IH _ _ n FL ltac:(lia)) as H. destruct (has_newline (rx_freq o)); cbn [concat app]; now rewrite H.
Qed.
Lemma seen_value_SZ f Zf : (forall k, Forall plain_line (lines (seen [] Zf k))) -> seen_value f Zf (SZ f [] Zf).
Proof. intros PL k. apply after_lines_fold. apply PL. Qed.
Lemma main_run3 junk ib ob fb prog args ss f fs stdin X t Zf :
  alloc_ok ib ob fb -> asks args ss f -> input_of fs stdin ss = Some X -> event_file (legacy_of ss) X ->
  last_of freq_of ss = Some t -> fs t = Some Zf -> bytes_ok Zf -> (small f -> forall k, small (SZ f [] Zf k)) ->
  separate (last_of in_of ss) (last_of out_of ss) -> separate (last_of freq_of ss) (last_of out_of ss) ->
  small f /\
  exists e bs, freqcd_main true junk ib ob fb (prog :: args) fs stdin = Some (Ok e) /\ code e = 0 /\ blocks 8192 X bs /\ concat bs = X /\
    left_behind fs (files e) (stdout e) ss (concat (concat (corrected_stream (legacy_of ss) start (map (SZ f [] Zf) (seq 0 (length bs))) (map groups bs)))).
Proof.
  intros A K IN EV FN FQ BZ SK S1 S2. set (lg := legacy_of ss) in *.
  destruct (main_start2 true junk ib ob fb prog args ss f fs stdin X t Zf K IN FN FQ BZ S1 S2) as (SM & ts & s' & os & R & FR & FT & NX & G). fold lg in FR, G.
  split; [exact SM|]. destruct EV as (BX & MX8 & NDX). pose proof (reads_ok X BX _ _ _ R) as TO.
  assert (FL : fills [] Zf os).
  { pose proof (fills_reads true lg X Zf ts 0 0 _ [] [] 0 s' os (init_inv junk ib ob fb true f A) TO R ltac:(lia) NX FR FT) as H. rewrite drop_0 in H by lia. apply H. now left. }
  pose proof (fills_corrections os [] Zf f FL NX) as CR.
  assert (SMALL : forall pre s1 os1 st1, prefix pre ts -> freqcd true lg junk ib ob fb true f pre = Ok (s1, os1, st1) -> small (fcorr s1)).
  { intros pre s1 os1 st1 [q EP] F1. rewrite EP in TO, FR. apply Forall_app in TO as [TO' _]. rewrite (freqcd_fcorr _ _ _ _ _ _ _ _ _ _ _ _ A TO' F1).
    destruct (freqcd_monotone _ _ _ _ _ _ _ _ _ _ _ _ _ _ _ _ F1 FR) as [[q' EO] _].
    assert (E1 : os1 = firstn (length os1) os) by (rewrite EO, firstn_app, Nat.sub_diag, firstn_all, app_nil_r; reflexivity).
    rewrite E1, (fills_seen os [] Zf) by (first [exact FL|rewrite EO, app_length; lia]). exact (SK SM (length os1)). }
  assert (ND : forall ts', reads X 0 0 ts' -> nondecr (map (ev_time lg) (groups (concat (delivered 0 ts'))))).
  { intros ts' R'. destruct (reads_blocks X ts' 0 ltac:(lia) R') as [_ [q P]]. rewrite drop_0 in P by lia. rewrite P, groups_split, map_app in NDX. now apply nondecr_app_l in NDX. }
  destruct G as [(e & ME & CE & DR & LB)|(tk & e & RT & RE)].
  2: { exfalso. destruct (freqcd_no_ub' lg junk ib ob fb true f (ts ++ [tk]) A (reads_ok X BX _ _ _ RT) (first_reads X _ MX8 RT) (ND _ RT)) as (s1 & os1 & st1 & F1).
    - intros pre s1 os1 st1 P F1. destruct P as [q P]. destruct q as [|y q].
      + rewrite app_nil_r in P. subst pre. congruence.
      + apply (SMALL pre s1 os1 st1); [|exact F1]. assert (E : ts = pre ++ removelast (y :: q)).
        { rewrite <- removelast_app by discriminate. rewrite <- P. now rewrite removelast_last. }
        now exists (removelast (y :: q)).
    - congruence. }
  destruct (freqcd_delivered _ _ _ _ _ _ _ _ _ _ _ _ A TO FR) as [_ CD]. specialize (CD eq_refl).
  destruct (reads_blocks X ts 0 ltac:(lia) R) as [BL _]. rewrite <- CD in BL. rewrite concat_chunks, <- DR in BL. destruct (blocks_groups _ _ BL) as [BG CX].
  destruct (freqcd_exact _ _ _ _ _ _ _ _ _ _ _ A TO FR) as [_ W]. specialize (W eq_refl). rewrite BG, CR in W. rewrite <- (chunks_all os NX) in W.
  assert (EQ : corrected_stream lg (clock0 junk) (map (SZ f [] Zf) (seq 0 (length (chunks os)))) (map groups (chunks os)) = corrected_stream lg start (map (SZ f [] Zf) (seq 0 (length (chunks os)))) (map groups (chunks os))).
  { unfold corrected_stream. f_equal. pose proof (blocks_complete _ _ BL MX8) as CO. destruct (chunks os) as [|b bs]; [reflexivity|]. cbn [map].
    apply corrected_start. cbn [every_read_completes app] in CO. destruct CO as [CO _]. destruct (groups b); [congruence|discriminate]. }
  rewrite EQ in W. rewrite W in LB. exists e, (chunks os). split; [exact ME|]. split; [exact CE|]. split; [exact BL|]. split; [exact CX|]. exact LB.
Qed.
Lemma retimed_exactly junk ib ob fb prog args ss f fs stdin X t Zf : alloc_ok ib ob fb -> asks args ss f -> input_of fs stdin ss = Some X -> event_file (legacy_of ss) X ->
  last_of freq_of ss = Some t -> fs t = Some Zf -> bytes_ok Zf -> (small f -> forall k, small (SZ f [] Zf k)) ->
  separate (last_of in_of ss) (last_of out_of ss) -> separate (last_of freq_of ss) (last_of out_of ss) ->
  let ts := map (ev_time (legacy_of ss)) (groups X) in
  exists e, freqcd_main true junk ib ob fb (prog :: args) fs stdin = Some (Ok e) /\ code e = 0 /\
    retimed_file fs (files e) (stdout e) ss X (map (exact_time_by (SZ f [] Zf) ts) (seq 0 (length ts))).
Proof.
  intros A K IN EV FN FQ BZ SK S1 S2 ts. destruct (main_run3 junk ib ob fb prog args ss f fs stdin X t Zf A K IN EV FN FQ BZ SK S1 S2) as (SM & e & bs & ME & CE & BL & CX & LB).
  set (G := SZ f [] Zf) in *. exists e. split; [exact ME|]. split; [exact CE|].
  destruct EV as (BX & MX & ND). set (lg := legacy_of ss) in *. destruct (blocks_good lg X bs BX BL MX) as (C & TR & NE & CG). pose proof (blocks_sized lg _ _ BL) as SI.
  set (tss := map (map (ev_time lg)) (map groups bs)) in *. fold ts in C, ND. assert (LT : length tss = length bs) by (unfold tss; now rewrite !map_length).
  set (fl := map G (seq 0 (length tss))). assert (LF : length fl = length tss) by (unfold fl; now rewrite map_length, seq_length).
  rewrite C in TR. pose proof (exact_allF G ts ND TR tss (eq_sym C) SI NE) as EA. fold fl in EA.
  assert (LC : length (concat (corrected start fl tss)) = length ts) by (rewrite times_length by exact LF; now rewrite C).
  assert (EQ : map (exact_time_by G ts) (seq 0 (length ts)) = concat (corrected start fl tss)).
  { symmetry. apply nth_ext with (d := 0) (d' := exact_time_by G ts 0).
    - now rewrite map_length, seq_length.
    - intros n N. rewrite LC in N. rewrite map_nth, seq_nth by assumption. apply nth_error_nth. apply EA. exact N. }
  rewrite EQ. split; [|split].
  - rewrite LC. unfold ts. apply map_length.
  - destruct tss as [|[|t0 tl] tss'] eqn:ET; [unfold fl; exact I|inv NE; congruence|]. rewrite <- ET in *.
    apply (nondecr_tl (t0 + 0)). assert (CS : corrected start fl tss = corrected (mkClock (Some t0) 0 0) fl tss) by (rewrite ET; destruct fl; reflexivity). rewrite CS.
    assert (E0 : exists r, ts = t0 :: r) by (rewrite <- C, ET; cbn [concat app]; eexists; reflexivity). destruct E0 as [r E0].
    apply corrected_order; [exact LF| |exact NE| | |].
    + unfold fl. apply Forall_forall. intros x J. apply in_map_iff in J as (k & <- & _). exact (SK SM k).
    + rewrite E0 in TR. apply Forall_inv in TR. lia.
    + rewrite C, E0. apply nondecr_cons; [lia|]. rewrite <- E0. exact ND.
    + rewrite C. eapply Forall_impl; [|exact TR]. cbn beta. lia.
  - fold lg. rewrite <- CG. rewrite <- LT in LB. fold fl in LB. rewrite corrected_stream_times in LB by (rewrite LF, LT; symmetry; apply map_length). exact LB.
Qed.
Lemma c192 junk ib ob fb prog args ss f fs stdin X t Zf : alloc_ok ib ob fb -> asks args ss f -> input_of fs stdin ss = Some X -> event_file (legacy_of ss) X ->
  last_of freq_of ss = Some t -> fs t = Some Zf -> bytes_ok Zf -> (forall k, Forall plain_line (lines (seen [] Zf k))) ->
  separate (last_of in_of ss) (last_of out_of ss) -> separate (last_of freq_of ss) (last_of out_of ss) ->
  let ts := map (ev_time (legacy_of ss)) (groups X) in
  exists e F, seen_value f Zf F /\ freqcd_main true junk ib ob fb (prog :: args) fs stdin = Some (Ok e) /\ code e = 0 /\
    retimed_file fs (files e) (stdout e) ss X (map (exact_time_by F ts) (seq 0 (length ts))).
Proof.
  intros A K IN EV FN FQ BZ PL S1 S2 ts. pose proof (seen_value_SZ f Zf PL) as SV.
  destruct (retimed_exactly junk ib ob fb prog args ss f fs stdin X t Zf A K IN EV FN FQ BZ (fun SM k => after_lines_small f _ _ SM (SV k)) S1 S2) as (e & ME & CE & RF).
  exists e, (SZ f [] Zf). split; [exact SV|]. split; [exact ME|]. split; [exact CE|exact RF].
Qed.
Lemma seen_nil : forall k p, seen p [] k = [].
Proof. induction k as [|k IH]; intros p; [reflexivity|]. rewrite seen_S. cbv zeta. unfold take, drop. rewrite firstn_nil, skipn_nil. cbn [has_newline existsb app]. apply IH. Qed.
Lemma seen_once R k : len R <= 99 -> seen [] R (S k) = seen [] R 1.
Proof. intros L. rewrite !seen_S. cbv zeta. rewrite len_nil, Z.sub_0_r, drop_all by lia. now rewrite !seen_nil. Qed.
Lemma after_lines_actual_small ls f f' : after_lines_actual f ls f' -> Forall (fun line => ~ taken line (- 2 ^ 31)) ls -> small f -> small f'.
Proof.
  induction 1 as [|f l f1 ls f2 H _ IH]; intros N S; [exact S|]. inv N. apply IH; [assumption|].
  destruct H as [H|[_ ->]]; [|exact S]. pose proof H as H'. destruct H as (v & _ & _ & [B|B]); [exact B|]. subst f1. contradiction.
Qed.
Lemma c195 junk ib ob fb prog args ss f fs stdin X t Zf : alloc_ok ib ob fb -> asks args ss f -> input_of fs stdin ss = Some X -> event_file (legacy_of ss) X ->
  last_of freq_of ss = Some t -> fs t = Some Zf -> bytes_ok Zf -> no_extreme Zf ->
  separate (last_of in_of ss) (last_of out_of ss) -> separate (last_of freq_of ss) (last_of out_of ss) ->
  let ts := map (ev_time (legacy_of ss)) (groups X) in
  exists e F, seen_value_actual f Zf F /\ freqcd_main true junk ib ob fb (prog :: args) fs stdin = Some (Ok e) /\ code e = 0 /\
    retimed_file fs (files e) (stdout e) ss X (map (exact_time_by F ts) (seq 0 (length ts))).
Proof.
  intros A K IN EV FN FQ BZ NE S1 S2 ts.
  assert (SV : seen_value_actual f Zf (SZ f [] Zf)) by (intros k; apply after_lines_actual_fold).
  destruct (retimed_exactly junk ib ob fb prog args ss f fs stdin X t Zf A K IN EV FN FQ BZ (fun SM k => after_lines_actual_small _ _ _ (SV k) (NE k) SM) S1 S2) as (e & ME & CE & RF).
  exists e, (SZ f [] Zf). split; [exact SV|]. split; [exact ME|]. split; [exact CE|exact RF].
Qed.
(** The rule leaves one value only. *)
Lemma taken_fun line v w : taken line v -> taken line w -> v = w.
Proof. intros (a & D & -> & _) (b & E & -> & _). f_equal. exact (denotes_fun _ _ _ D E). Qed.
Lemma after_lines_actual_fun ls f f1 : after_lines_actual f ls f1 -> forall f2, after_lines_actual f ls f2 -> f1 = f2.
Proof.
  induction 1 as [|f l g ls f1 H _ IH]; intros f2 A; inversion A as [|a b g' c d H' A']; subst; [reflexivity|]. apply IH.
  assert (g' = g) as <-; [|exact A']. destruct H' as [H'|[H' ->]], H as [H|[H ->]]; try reflexivity.
  - eapply taken_fun; eassumption.
  - exfalso. eapply H. eassumption.
  - exfalso. eapply H'. eassumption.
Qed.
Lemma seen_value_actual_fun f Zf F G : seen_value_actual f Zf F -> seen_value_actual f Zf G -> forall k, F k = G k.
Proof. intros HF HG k. exact (after_lines_actual_fun _ _ _ (HF k) _ (HG k)). Qed.
Definition mildb (line : list Z) : bool := negb (s32 (snd (fst (strtol (upto0 line)))) =? - 2 ^ 31).
Lemma mild_byb ls : forallb mildb ls = true -> Forall (fun line => ~ taken line (- 2 ^ 31)) ls.
Proof.
  intros H. apply Forall_forall. intros l J (v & D & E & _). rewrite forallb_forall in H. specialize (H l J). unfold mildb in H. apply strtol_denotes in D. rewrite D in H. cbn [fst snd] in H.
  change (Z.max (- 2 ^ 63) (Z.min (2 ^ 63 - 1) v)) with (clampl v) in E. rewrite <- E in H. discriminate H.
Qed.
