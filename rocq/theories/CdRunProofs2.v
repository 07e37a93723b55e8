From Verif Require Import Base FreqcdModel FreqcdSpec FreqcdStatements FreqcdProofs FreqcdProofs2 FreqcdProofs3 FreqcdProofs4 FreqcdProofs5 FreqcdProofs6 FreqcdProofs7 FreqcdProofs8 FreqcdProofs9 FreqcdCli FreqcdCliSpec FreqcdCliStatements FreqcdCliProofs CdRunModel CdRunSpec CdRunProofs.
From Coq Require Import ZifyBool.
Local Open Scope Z_scope.
Ltac Zify.zify_post_hook ::= Z.div_mod_to_equations.

(** ** The correction after a short frequency file *)
Definition told (f : Z) (Zf : list Z) : Z := fold_left line_update (lines Zf) f.
Definition short (Zf : list Z) (os : list obs) : Prop := match os with [] => True | o :: r => rx_freq o = Zf /\ Forall (fun o => rx_freq o = []) r end.
Lemma short_prefix Zf os os' : prefix os os' -> short Zf os' -> short Zf os.
Proof.
  intros [q ->] H. destruct os as [|o os]; [exact I|]. cbn [app short] in *. destruct H as [A B]. split; [exact A|]. now apply Forall_app in B as [B _].
Qed.
Lemma filter_empty r : Forall (fun o => rx_freq o = []) r -> filter has_newline (map rx_freq r) = [].
Proof. induction 1 as [|o r E _ IH]; [reflexivity|]. cbn [map filter]. rewrite E. exact IH. Qed.
Lemma no_newline_lines l : has_newline l = false -> lines l = [].
Proof.
  unfold lines. generalize (@nil Z). induction l as [|c l IH]; intros cur H; [reflexivity|]. cbn [split_lines]. cbn [has_newline existsb] in H. apply Bool.orb_false_elim in H as [H1 H2]. rewrite H1. now apply IH.
Qed.
Lemma told_lines f Zf r : Forall (fun o => rx_freq o = []) r -> fold_left line_update (lines (concat (filter has_newline (Zf :: map rx_freq r)))) f = told f Zf.
Proof.
  intros H. cbn [filter]. rewrite (filter_empty _ H). unfold told. destruct (has_newline Zf) eqn:E; cbn [concat app]; [now rewrite app_nil_r|]. now rewrite (no_newline_lines _ E).
Qed.
Lemma short_fcorr f Zf os : short Zf os -> (fold_left line_update (lines (concat (filter has_newline (map rx_freq os)))) f) = match os with [] => f | _ => told f Zf end.
Proof. destruct os as [|o r]; [reflexivity|]. intros [E H]. cbn [map]. rewrite E. now apply told_lines. Qed.
Lemma feed_told f Zf : snd (feed ([], f) Zf) = told f Zf.
Proof.
  pose proof (freq_after_spec f [mkObs [] Zf []]) as H. unfold freq_after in H. cbn [map fold_left rx_freq] in H. rewrite H. exact (told_lines f Zf [] (Forall_nil _)).
Qed.
Lemma short_corrections f Zf os : short Zf os -> Forall (fun o => rx o <> []) os -> corrections ([], f) os = match os with [] => [] | _ :: r => f :: repeat (told f Zf) (length r) end.
Proof.
  destruct os as [|o r]; [reflexivity|]. intros [E H] NX. pose proof (Forall_inv NX) as NX1. pose proof (Forall_inv_tail NX) as NX2. cbn beta in NX1. cbn [corrections]. rewrite E. destruct (rx o) eqn:RX; [congruence|]. cbn [snd]. f_equal.
  pose proof (feed_told f Zf) as FT. destruct (feed ([], f) Zf) as [p g]. cbn [snd] in FT. subst g. rewrite corrections_fixed by exact H. f_equal.
  clear - NX2. induction NX2 as [|o r N _ IH]; [reflexivity|]. unfold chunks, rxs in *. cbn [map filter]. destruct (rx o) eqn:RX; [congruence|]. cbn [nonempty length]. now rewrite IH.
Qed.
Lemma after_lines_small f ls g : small f -> after_lines f ls g -> small g.
Proof. intros SM H. induction H as [f|f l f1 ls f2 A _ IH]; [exact SM|]. apply IH. destruct A as [[_ A]|[_ ->]]; [exact A|exact SM]. Qed.
Lemma short_of Zf os : len Zf <= 99 -> freads Zf 0 os -> (match os with o :: _ => rx_freq o = take 99 (drop 0 Zf) | [] => True end) -> short Zf os.
Proof.
  intros L FD H. destruct os as [|o r]; [exact I|]. rewrite drop_0, take_all in H by lia. split; [exact H|]. destruct FD as [_ FD]. rewrite H in FD. apply (freads_done Zf r (0 + len Zf)); [pose proof (len_nonneg Zf); lia|lia|exact FD].
Qed.

(** ** A run *)
Lemma chunks_all os : Forall (fun o => rx o <> []) os -> length (chunks os) = length os.
Proof. induction 1 as [|o r N _ IH]; [reflexivity|]. unfold chunks, rxs in *. cbn [map filter]. destruct (rx o) eqn:RX; [congruence|]. cbn [nonempty length]. now rewrite IH. Qed.
Lemma main_start strict junk ib ob fb prog args ss f fs stdin X Zf :
  asks args ss f -> input_of fs stdin ss = Some X -> match last_of freq_of ss with Some t => fs t = Some Zf | None => Zf = [] end -> bytes_ok Zf -> len Zf <= 99 ->
  separate (last_of in_of ss) (last_of out_of ss) -> separate (last_of freq_of ss) (last_of out_of ss) ->
  small f /\ exists fg ts s' os, (last_of freq_of ss = None -> fg = false) /\
    reads X 0 0 ts /\ freqcd strict (legacy_of ss) junk ib ob fb fg f ts = Ok (s', os, Running) /\ short Zf os /\ Forall (fun o => rx o <> []) os /\
    ((exists e, freqcd_main strict junk ib ob fb (prog :: args) fs stdin = Some (Ok e) /\ code e = 0 /\ X = received os /\ left_behind fs (files e) (stdout e) ss (written os)) \/
     exists t e, reads X 0 0 (ts ++ [t]) /\ freqcd strict (legacy_of ss) junk ib ob fb fg f (ts ++ [t]) = Err e).
Proof.
  intros K IN FQ BZ LZ S1 S2. set (lg := legacy_of ss) in *.
  destruct (asks_start prog args ss f K) as (c & C & CF & CL & SM & N1 & N2 & N3). split; [exact SM|].
  destruct K as (_ & GD & _).
  set (iname := name_of (last_of in_of ss)) in *. set (oname := name_of (last_of out_of ss)) in *. set (fname := name_of (last_of freq_of ss)) in *.
  assert (NI : forall t, last_of in_of ss = Some t -> t <> []) by (intros t; apply name_nonempty; [|exact GD]; intros [] w; cbn; intros E; inv E; auto).
  assert (NO : forall t, last_of out_of ss = Some t -> t <> []) by (intros t; apply name_nonempty; [|exact GD]; intros [] w; cbn; intros E; inv E; auto).
  assert (NF : forall t, last_of freq_of ss = Some t -> t <> []) by (intros t; apply name_nonempty; [|exact GD]; intros [] w; cbn; intros E; inv E; auto).
  assert (IO : iname = [] \/ iname <> oname).
  { unfold iname, oname, separate in *. destruct (last_of in_of ss) as [t|]; [|now left]. cbn [name_of]. right. destruct (last_of out_of ss) as [u|]; cbn [name_of]; [destruct S1; congruence|now apply NI]. }
  assert (FO : fname = [] \/ fname <> oname).
  { unfold fname, oname, separate in *. destruct (last_of freq_of ss) as [t|]; [|now left]. cbn [name_of]. right. destruct (last_of out_of ss) as [u|]; cbn [name_of]; [destruct S2; congruence|now apply NF]. }
  assert (FZ : fname = [] -> Zf = []). { unfold fname. destruct (last_of freq_of ss) as [t|]; [|now rewrite FQ]. intros E. now apply NF in E. }
  assert (SX : source fs stdin iname = X /\ missing fs iname = false).
  { unfold iname, input_of in *. destruct (last_of in_of ss) as [t|]; cbn [name_of source missing]; [|split; congruence]. destruct t; [now specialize (NI [] eq_refl)|]. cbn [source missing]. rewrite IN. split; reflexivity. }
  destruct SX as [SX MX].
  assert (SZ : fname <> [] -> source fs stdin fname = Zf /\ missing fs fname = false).
  { unfold fname. destruct (last_of freq_of ss) as [t|]; cbn [name_of]; [|congruence]. intros NE. destruct t; [congruence|]. cbn [source missing]. rewrite FQ. split; reflexivity. }
  unfold freqcd_main. rewrite C, N1, N2, N3, MX. fold (with_out fs oname []). set (fs1 := with_out fs oname []).
  assert (SX1 : source fs1 stdin iname = X) by (unfold fs1; now rewrite with_out_source).
  assert (SZ1 : fname <> [] -> source fs1 stdin fname = Zf) by (intros NE; unfold fs1; rewrite with_out_source by exact FO; now apply SZ).
  assert (M1 : missing fs1 fname = false).
  { unfold missing. destruct fname as [|x fn] eqn:EF; [reflexivity|]. destruct (SZ ltac:(discriminate)) as [_ M]. cbn [missing] in M. unfold fs1, with_out. destruct oname as [|y on] eqn:EO; [exact M|]. rewrite put_other by (destruct FO; congruence). exact M. }
  rewrite M1. cbv zeta. set (fg := match fname with [] => false | _ => true end). set (s0 := init_state junk ib ob fb fg (c_fcorr c)).
  pose proof (loop_fuel strict lg iname oname fname stdin X IO (S (length X)) fs1 [] 0 0 s0 ltac:(lia) SX1 ltac:(unfold len; lia)) as FU. rewrite SX1, CL. fold lg.
  destruct (main_loop (S (length X)) strict lg iname oname fname stdin fs1 [] 0 0 s0) as [r|] eqn:ML; [|congruence]. clear FU.
  apply (loop_run strict lg iname oname fname stdin X Zf IO FO FZ BZ) in ML as (ts & s' & os & R & RU & FD & NX & HD & G); [|lia|lia|exact SX1|exact SZ1].
  change (inbytesread s0 mod SIZEOF_RAWEVENT) with 0 in *.
  assert (SH : short Zf os).
  { apply short_of; [exact LZ|exact FD|]. destruct os as [|o os']; [exact I|]. change (freqopen s0) with fg in HD. change (FREQBUFSIZE - freqpartial s0 - 1) with 99 in HD. unfold fg in HD.
    destruct fname; [|now apply HD]. rewrite (FZ eq_refl) in *. destruct FD as [[k FD] _]. rewrite FD. unfold take, drop. now rewrite !skipn_nil, !firstn_nil. }
  exists fg, ts, s', os. split; [intros E; unfold fg, fname; rewrite E; reflexivity|]. split; [exact R|]. split; [unfold freqcd; rewrite <- CF; exact RU|]. split; [exact SH|]. split; [exact NX|].
  destruct r as [[fs2 out]|e].
  2: { right. destruct G as (t & RT & RE). exists t, e. split; [exact RT|]. unfold freqcd. rewrite <- CF. exact RE. }
  left. destruct G as (-> & DR & O1 & O2 & O3). rewrite drop_0 in DR by lia. cbn [app] in *.
  eexists. split; [reflexivity|]. cbn [code files stdout]. split; [reflexivity|]. split; [exact DR|].
  unfold left_behind. unfold fs1, with_out, oname in O1, O2, O3 |- *. destruct (last_of out_of ss) as [t|]; cbn [name_of] in *.
  - destruct t as [|x t]; [now specialize (NO [] eq_refl)|]. split; [now apply O2|]. split; [reflexivity|]. intros m M. rewrite O1 by exact M. now apply put_other.
  - split; [reflexivity|]. intros m. now rewrite (O3 eq_refl).
Qed.
Lemma main_run junk ib ob fb prog args ss f fs stdin X Zf :
  alloc_ok ib ob fb -> asks args ss f -> input_of fs stdin ss = Some X -> event_file (legacy_of ss) X ->
  match last_of freq_of ss with Some t => fs t = Some Zf | None => Zf = [] end -> bytes_ok Zf -> len Zf <= 99 -> Forall plain_line (lines Zf) ->
  separate (last_of in_of ss) (last_of out_of ss) -> separate (last_of freq_of ss) (last_of out_of ss) ->
  let g := told f Zf in after_lines f (lines Zf) g /\ small f /\ small g /\
  exists e bs, freqcd_main true junk ib ob fb (prog :: args) fs stdin = Some (Ok e) /\ code e = 0 /\ blocks 8192 X bs /\ concat bs = X /\
    left_behind fs (files e) (stdout e) ss (concat (concat (corrected_stream (legacy_of ss) start (f :: repeat g (length bs)) (map groups bs)))).
Proof.
  intros A K IN EV FQ BZ LZ PL S1 S2 g. set (lg := legacy_of ss) in *. assert (AL : after_lines f (lines Zf) g) by (now apply after_lines_fold).
  destruct (main_start true junk ib ob fb prog args ss f fs stdin X Zf K IN FQ BZ LZ S1 S2) as (SM & fg & ts & s' & os & _ & R & FR & SH & NX & G). fold lg in FR, G.
  assert (SG : small g) by (now apply (after_lines_small f (lines Zf))).
  split; [exact AL|]. split; [exact SM|]. split; [exact SG|]. destruct EV as (BX & MX8 & NDX).
  assert (SMALL : forall pre s1 os1 st1, prefix pre ts -> freqcd true lg junk ib ob fb fg f pre = Ok (s1, os1, st1) -> small (fcorr s1)).
  { intros pre s1 os1 st1 [q ->] F1. pose proof (reads_ok X BX _ _ _ R) as TO. apply Forall_app in TO as [TO _]. rewrite (freqcd_fcorr _ _ _ _ _ _ _ _ _ _ _ _ A TO F1).
    destruct (freqcd_monotone _ _ _ _ _ _ _ _ _ _ _ _ _ _ _ _ F1 FR) as [PO _]. rewrite (short_fcorr f Zf os1) by (now apply (short_prefix Zf os1 os)). destruct os1; assumption. }
  assert (ND : forall ts', reads X 0 0 ts' -> nondecr (map (ev_time lg) (groups (concat (delivered 0 ts'))))).
  { intros ts' R'. destruct (reads_blocks X ts' 0 ltac:(lia) R') as [_ [q P]]. rewrite drop_0 in P by lia. rewrite P, groups_split, map_app in NDX. now apply nondecr_app_l in NDX. }
  destruct G as [(e & ME & CE & DR & LB)|(t & e & RT & RE)].
  2: { exfalso. destruct (freqcd_no_ub' lg junk ib ob fb fg f (ts ++ [t]) A (reads_ok X BX _ _ _ RT) (first_reads X _ MX8 RT) (ND _ RT)) as (s1 & os1 & st1 & F1).
    - intros pre s1 os1 st1 P F1. destruct P as [q P]. destruct q as [|y q].
      + rewrite app_nil_r in P. subst pre. congruence.
      + apply (SMALL pre s1 os1 st1); [|exact F1]. assert (E : ts = pre ++ removelast (y :: q)).
        { rewrite <- removelast_app by discriminate. rewrite <- P. now rewrite removelast_last. }
        now exists (removelast (y :: q)).
    - congruence. }
  pose proof (reads_ok X BX _ _ _ R) as TO. destruct (freqcd_delivered _ _ _ _ _ _ _ _ _ _ _ _ A TO FR) as [_ CD]. specialize (CD eq_refl).
  destruct (reads_blocks X ts 0 ltac:(lia) R) as [BL _]. rewrite <- CD in BL. rewrite concat_chunks, <- DR in BL. destruct (blocks_groups _ _ BL) as [BG CX].
  destruct (freqcd_exact _ _ _ _ _ _ _ _ _ _ _ A TO FR) as [_ W]. specialize (W eq_refl). rewrite BG in W. rewrite (short_corrections f Zf os SH NX) in W. fold g in W.
  assert (EQ : corrected_stream lg (clock0 junk) (match os with [] => [] | _ :: r => f :: repeat g (length r) end) (map groups (chunks os)) = corrected_stream lg start (f :: repeat g (length (chunks os))) (map groups (chunks os))).
  { unfold corrected_stream. f_equal. pose proof (blocks_complete _ _ BL MX8) as CO. pose proof (chunks_all os NX) as LC. destruct os as [|o r]; [reflexivity|]. destruct (chunks (o :: r)) as [|b bs] eqn:EC; [discriminate|].
    cbn [map]. rewrite corrected_start by (cbn [every_read_completes app] in CO; destruct CO as [CO _]; destruct (groups b); [congruence|discriminate]).
    cbn [length] in LC |- *. replace (S (length bs)) with (length r + 1)%nat by lia. rewrite repeat_app. change (f :: repeat g (length r) ++ repeat g 1) with ((f :: repeat g (length r)) ++ repeat g 1). symmetry. apply corrected_extra. cbn [length]. rewrite repeat_length, !map_length. lia. }
  rewrite EQ in W. rewrite W in LB. exists e, (chunks os). split; [exact ME|]. split; [exact CE|]. split; [exact BL|]. split; [exact CX|]. exact LB.
Qed.

(** ** No correction *)
Lemma main_copy strict junk ib ob fb prog args ss fs stdin X :
  alloc_ok ib ob fb -> asks args ss 0 -> input_of fs stdin ss = Some X -> bytes_ok X -> X = [] \/ 8 <= len X -> last_of freq_of ss = None -> separate (last_of in_of ss) (last_of out_of ss) ->
  exists e, freqcd_main strict junk ib ob fb (prog :: args) fs stdin = Some (Ok e) /\ code e = 0 /\ left_behind fs (files e) (stdout e) ss (take (len X / 8 * 8) X).
Proof.
  intros A K IN BX L8 NF S1. destruct (main_start strict junk ib ob fb prog args ss 0 fs stdin X [] K IN) as (_ & fg & ts & s' & os & FG & R & FR & _ & NX & G); [now rewrite NF|exact (Forall_nil _)|rewrite len_nil; lia|exact S1|now left|].
  specialize (FG NF). subst fg.
  assert (FC : forall ts', reads X 0 0 ts' -> first_complete (delivered 0 ts')).
  { intros ts' R'. destruct ts' as [|[|[[|l]|] fr [w|]] ts']; cbn [reads] in R'; try contradiction; [exact I|]. destruct R' as (-> & _). cbn [delivered].
    rewrite drop_0 by lia. change (INBUFSIZE - 0) with 8192. destruct (take 8192 X) eqn:E; [exact I|]. rewrite <- E. cbn [first_complete]. rewrite len_take by lia. destruct L8 as [->|]; [discriminate|lia]. }
  destruct G as [(e & ME & CE & DR & LB)|(t & e & RT & RE)].
  2: { destruct (freqcd_zero_total strict (legacy_of ss) junk ib ob fb (ts ++ [t]) A (reads_ok X BX _ _ _ RT) (FC _ RT)) as (s1 & os1 & st1 & F1). congruence. }
  exists e. split; [exact ME|]. split; [exact CE|].
  destruct (freqcd_zero strict (legacy_of ss) junk ib ob fb ts A (reads_ok X BX _ _ _ R) (FC _ R)) as (s1 & os1 & st1 & F1 & _ & W). rewrite FR in F1. injection F1 as <- <- <-. rewrite (W eq_refl), <- DR in LB.
  replace (take (len X / 8 * 8) X) with (concat (groups X)); [exact LB|].
  rewrite <- (groups_leftover X) at 3. rewrite take_app_le; [symmetry; apply take_all|]; pose proof (groups_leftover X) as GL; apply (f_equal len) in GL; rewrite len_app, len_leftover in GL; lia.
Qed.
