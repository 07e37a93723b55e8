From Verif Require Import Base FreqcdModel FreqcdSpec FreqcdStatements FreqcdProofs FreqcdProofs2 FreqcdProofs3 FreqcdProofs4 FreqcdProofs5 FreqcdProofs6 FreqcdProofs7 FreqcdProofs8 FreqcdProofs9 FreqcdCli FreqcdCliSpec FreqcdCliStatements FreqcdCliProofs CdRunModel CdRunSpec CdRunProofs CdRunProofs2.
From Coq Require Import ZifyBool.
Local Open Scope Z_scope.
Ltac Zify.zify_post_hook ::= Z.div_mod_to_equations.

Lemma blocks_good lg X bs : bytes_ok X -> blocks 8192 X bs -> len X mod 8 = 0 -> let tss := map (map (ev_time lg)) (map groups bs) in
  concat tss = map (ev_time lg) (groups X) /\ Forall (fun t => 0 <= t < 2 ^ 54) (concat tss) /\ Forall (fun b => b <> []) tss /\ concat (map groups bs) = groups X.
Proof.
  intros BX BL M tss. pose proof (blocks_groups _ _ BL) as [BG CX]. assert (CG : concat (map groups bs) = groups X).
  { clear - BL. induction BL as [|b l bs P H B IH]; [reflexivity|]. cbn [map concat]. rewrite IH. rewrite groups_split. f_equal. destruct H as [H|[H ->]].
    - assert (leftover b = []) as -> by (apply len_0_nil; rewrite len_leftover, H; reflexivity). reflexivity.
    - rewrite app_nil_r. rewrite (groups_short (leftover b)); [reflexivity|]. rewrite len_leftover. lia. }
  assert (C : concat tss = map (ev_time lg) (groups X)) by (unfold tss; now rewrite times_concat, CG). split; [exact C|]. split; [|split; [|exact CG]].
  - rewrite C. apply Forall_forall. intros t I. apply in_map_iff in I as (ev & <- & I). apply ev_time_range; [|pose proof (groups_8 X) as G8; rewrite Forall_forall in G8; now apply G8].
    pose proof (Forall_groups is_byte X BX) as FG. rewrite Forall_forall in FG. now apply FG.
  - unfold tss. apply map_nonempty. rewrite <- BG. apply erc_batches. now apply (blocks_complete X).
Qed.
Lemma in_order tss f g : Forall (fun b => b <> []) tss -> nondecr (concat tss) -> Forall (fun t => 0 <= t < 2 ^ 54) (concat tss) -> small f -> small g ->
  nondecr (concat (corrected start (f :: repeat g (length tss)) tss)).
Proof.
  intros NE N TR SF SG. destruct tss as [|[|t0 tl] tss]; [exact I|inv NE; congruence|]. apply (nondecr_tl (t0 + 0)).
  replace (corrected start (f :: repeat g (length ((t0 :: tl) :: tss))) ((t0 :: tl) :: tss)) with (corrected (mkClock (Some t0) 0 0) (f :: repeat g (length tss)) ((t0 :: tl) :: tss)).
  - change (concat ((t0 :: tl) :: tss)) with (t0 :: tl ++ concat tss) in N, TR. apply corrected_order; auto.
    + cbn [length]. now rewrite repeat_length.
    + constructor; [exact SF|]. apply Forall_forall. intros x I. apply repeat_spec in I. now subst.
    + inv TR. lia.
    + change (concat ((t0 :: tl) :: tss)) with (t0 :: tl ++ concat tss). apply nondecr_cons; [lia|assumption].
    + eapply Forall_impl; [|exact TR]. cbn beta. lia.
  - change (corrected start (f :: repeat g (length ((t0 :: tl) :: tss))) ((t0 :: tl) :: tss)) with (corrected (mkClock (Some t0) 0 0) (f :: repeat g (S (length tss))) ((t0 :: tl) :: tss)).
    symmetry. replace (S (length tss)) with (length tss + 1)%nat by lia. rewrite repeat_app. apply (corrected_extra (f :: repeat g (length tss))). cbn [length]. now rewrite repeat_length.
Qed.
Lemma times_length K fs tss : length fs = length tss -> length (concat (corrected K fs tss)) = length (concat tss).
Proof. intros L. pose proof (corrected_lengths fs tss K L) as CL. clear L. induction CL; cbn [concat]; [reflexivity|]. now rewrite !app_length, IHCL, H. Qed.
Lemma on_file_exact junk ib ob fb prog args ss f fs stdin X Zf :
  alloc_ok ib ob fb -> asks args ss f -> input_of fs stdin ss = Some X -> event_file (legacy_of ss) X ->
  match last_of freq_of ss with Some t => fs t = Some Zf | None => Zf = [] end -> bytes_ok Zf -> len Zf <= 99 -> Forall plain_line (lines Zf) ->
  separate (last_of in_of ss) (last_of out_of ss) -> separate (last_of freq_of ss) (last_of out_of ss) ->
  let lg := legacy_of ss in
  exists e bs g, let tss := map (map (ev_time lg)) (map groups bs) in let times := concat (corrected start (f :: repeat g (length tss)) tss) in
    freqcd_main true junk ib ob fb (prog :: args) fs stdin = Some (Ok e) /\ code e = 0 /\ blocks 8192 X bs /\ after_lines f (lines Zf) g /\ small f /\ small g /\
    concat tss = map (ev_time lg) (groups X) /\ Forall (fun t => 0 <= t < 2 ^ 54) (concat tss) /\ Forall (fun b => b <> []) tss /\
    retimed_file fs (files e) (stdout e) ss X times.
Proof.
  intros A K IN EV FQ BZ LZ PL S1 S2 lg. destruct (main_run junk ib ob fb prog args ss f fs stdin X Zf A K IN EV FQ BZ LZ PL S1 S2) as (AL & SF & SG & e & bs & ME & CE & BL & CX & LB).
  destruct EV as (BX & MX & ND). destruct (blocks_good lg X bs BX BL MX) as (C & TR & NE & CG). exists e, bs, (told f Zf). cbv zeta. set (tss := map (map (ev_time lg)) (map groups bs)) in *. split; [exact ME|]. split; [exact CE|]. split; [exact BL|].
  split; [exact AL|]. split; [exact SF|]. split; [exact SG|]. split; [exact C|]. split; [exact TR|]. split; [exact NE|].
  assert (LT : length tss = length bs) by (unfold tss; now rewrite !map_length).
  assert (EX : corrected start (f :: repeat (told f Zf) (length tss)) tss = match tss with [] => [] | _ :: r => corrected start (f :: repeat (told f Zf) (length r)) tss end).
  { destruct tss as [|b r]; [reflexivity|]. cbn [length]. replace (S (length r)) with (length r + 1)%nat by lia. rewrite repeat_app. apply (corrected_extra (f :: repeat (told f Zf) (length r))). cbn [length]. now rewrite repeat_length. }
  split; [|split].
  - rewrite EX. destruct tss as [|b r] eqn:ET; [cbn [concat length]; rewrite <- (map_length (ev_time lg)), <- C; reflexivity|]. rewrite <- ET in *. rewrite times_length by (rewrite ET; cbn [length]; now rewrite repeat_length). rewrite C. now rewrite map_length.
  - apply in_order; [exact NE|rewrite C; exact ND|exact TR|exact SF|exact SG].
  - fold lg in LB |- *. rewrite <- CG. replace (retime lg (concat (map groups bs)) (concat (corrected start (f :: repeat (told f Zf) (length tss)) tss))) with (concat (corrected_stream lg start (f :: repeat (told f Zf) (length bs)) (map groups bs))); [exact LB|].
    unfold corrected_stream. fold tss. rewrite <- LT, EX. assert (LM : length (map groups bs) = length tss) by (rewrite LT; apply map_length). destruct tss as [|b r] eqn:ET; [destruct (map groups bs); [reflexivity|discriminate LM]|].
    change (map (map (ev_time lg)) (map groups bs)) with tss in ET. rewrite <- ET. pose proof (corrected_stream_times lg start (f :: repeat (told f Zf) (length r)) (map groups bs)) as CT. unfold corrected_stream in CT. fold tss in CT. apply CT. cbn [length]. rewrite repeat_length. rewrite LM. reflexivity.
Qed.
(** ** Accuracy *)
Lemma repeat_trim tss f g : corrected start (f :: repeat g (length tss)) tss = match tss with [] => [] | _ :: r => corrected start (f :: repeat g (length r)) tss end.
Proof.
  destruct tss as [|b r]; [reflexivity|]. cbn [length]. replace (S (length r)) with (length r + 1)%nat by lia. rewrite repeat_app. apply (corrected_extra (f :: repeat g (length r))). cbn [length]. now rewrite repeat_length.
Qed.
Lemma accurate_index tss f : Forall (fun b => b <> []) tss -> nondecr (concat tss) -> Forall (fun t => 0 <= t < 2 ^ 54) (concat tss) -> small f -> sized 1024 tss ->
  forall i t0 t t', nth_error (concat tss) 0 = Some t0 -> nth_error (concat tss) i = Some t -> nth_error (concat (corrected start (f :: repeat f (length tss)) tss)) i = Some t' ->
  accurate f t0 (Z.of_nat i / 1024 + 1) t t'.
Proof.
  intros NE N TR SF SZ i t0 t t' H0 H H'. rewrite repeat_trim in H'. destruct tss as [|[|t1 tl] tss]; [discriminate|inv NE; congruence|]. injection H0 as ->. change (f :: repeat f (length tss)) with (repeat f (S (length tss))) in H'.
  rewrite Z.add_comm. apply (by_index 1024 (fun n => accurate f t0 n) ltac:(lia) ((t0 :: tl) :: tss) (corrected start (repeat f (S (length tss))) ((t0 :: tl) :: tss)) 1 SZ); [| |exact H|exact H'].
  - pose proof (corrected_lengths (repeat f (S (length tss))) ((t0 :: tl) :: tss) start) as CL. rewrite repeat_length in CL. specialize (CL eq_refl). now apply Forall2_length' in CL.
  - intros j. change (concat ((t0 :: tl) :: tss)) with (t0 :: tl ++ concat tss) in N, TR. replace (1 + Z.of_nat j) with (0 + Z.of_nat j + 1) by lia.
    change (corrected start (repeat f (S (length tss))) ((t0 :: tl) :: tss)) with (corrected (mkClock (Some t0) 0 0) (repeat f (S (length tss))) ((t0 :: tl) :: tss)). apply corrected_accurate; auto.
    + rewrite repeat_length. reflexivity.
    + apply Forall_forall. intros x I. apply repeat_spec in I. now subst.
    + inv TR. lia.
    + change (concat ((t0 :: tl) :: tss)) with (t0 :: tl ++ concat tss). apply nondecr_cons; [lia|assumption].
    + eapply Forall_impl; [|exact TR]. cbn beta. lia.
    + lia.
Qed.
Lemma on_file junk ib ob fb prog args ss f fs stdin X :
  alloc_ok ib ob fb -> asks args ss f -> input_of fs stdin ss = Some X -> event_file (legacy_of ss) X -> last_of freq_of ss = None ->
  separate (last_of in_of ss) (last_of out_of ss) ->
  exists e times, freqcd_main true junk ib ob fb (prog :: args) fs stdin = Some (Ok e) /\ code e = 0 /\ retimed_file fs (files e) (stdout e) ss X times /\
    forall i t0 t t', event_time (legacy_of ss) X 0 t0 -> event_time (legacy_of ss) X i t -> nth_error times i = Some t' -> accurate f t0 (Z.of_nat i / 1024 + 1) t t'.
Proof.
  intros A K IN EV NF S1. destruct (on_file_exact junk ib ob fb prog args ss f fs stdin X [] A K IN EV) as (e & bs & g & ME & CE & BL & AL & SF & _ & C & TR & NE & RF); [now rewrite NF|exact (Forall_nil _)|rewrite len_nil; lia|exact (Forall_nil _)|exact S1|left; exact NF|].
  change (lines []) with (@nil (list Z)) in AL. assert (EG : g = f) by (inversion AL; congruence). clear AL. subst g. exists e. eexists. split; [exact ME|]. split; [exact CE|]. split; [exact RF|].
  unfold event_time. rewrite <- C. destruct EV as (_ & _ & ND). rewrite <- C in ND. apply (accurate_index _ f NE ND TR SF (blocks_sized _ _ _ BL)).
Qed.
(** ** With a frequency file *)
Lemma concat_map_map {A B} (h : A -> B) l : concat (map (map h) l) = map h (concat l).
Proof. induction l as [|x l IH]; [reflexivity|]. cbn [map concat]. now rewrite IH, map_app. Qed.
Lemma first_block_index tss f g : Forall (fun b => b <> []) tss -> nondecr (concat tss) -> Forall (fun t => 0 <= t < 2 ^ 54) (concat tss) -> small f -> small g -> sized 1024 tss ->
  let times := concat (corrected start (f :: repeat g (length tss)) tss) in
  forall i t0 t t', nth_error (concat tss) 0 = Some t0 -> nth_error (concat tss) i = Some t -> nth_error times i = Some t' ->
  (Z.of_nat i < 1024 -> accurate f t0 1 t t') /\
  (1024 <= Z.of_nat i -> forall t1 t1', nth_error (concat tss) (Z.to_nat 1023) = Some t1 -> nth_error times (Z.to_nat 1023) = Some t1' -> accurate g t1 (Z.of_nat i / 1024) t (t' - (t1' - t1))).
Proof.
  intros NE N TR SF SG SZ times i t0 t t' H0 H H'. unfold times in *. clear times. rewrite repeat_trim in *. destruct tss as [|[|t1 tl] tss]; [discriminate|inv NE; congruence|]. injection H0 as ->.
  set (b := t0 :: tl) in *. change (concat (b :: tss)) with (b ++ concat tss) in *.
  assert (CB : corrected start (f :: repeat g (length tss)) (b :: tss) = batch_times f start b :: corrected (batch_clock f start b) (repeat g (length tss)) tss) by reflexivity.
  rewrite CB in *. clear CB. cbn [concat] in *. set (bt := batch_times f start b) in *. assert (LB : length bt = length b) by (unfold bt, batch_times, b; now rewrite map_length).
  destruct SZ as [SB SZ]. pose proof (Forall_inv_tail NE) as NE2.
  split.
  - intros I. assert (IB : (i < length b)%nat).
    { destruct (Nat.lt_ge_cases i (length b)) as [|G]; [assumption|]. exfalso. destruct SB as [SB|[_ SB]]; [unfold len in SB; lia|]. subst tss. cbn [concat] in H. rewrite app_nil_r in H. pose proof (proj1 (nth_error_Some b i) ltac:(congruence)). lia. }
    rewrite nth_error_app1 in H, H' by lia. pose proof (nondecr_app_l _ _ N) as NB. apply Forall_app in TR as [TB _].
    pose proof (corrected_accurate f t0 SF [f] [b] t0 0 0 0 0 eq_refl ltac:(constructor; [reflexivity|constructor]) ltac:(constructor; [discriminate|constructor])) as CA.
    cbn [concat] in CA. rewrite app_nil_r in CA. specialize (CA ltac:(inv TB; lia) (nondecr_cons t0 t0 tl (Z.le_refl _) NB) ltac:(eapply Forall_impl; [|exact TB]; cbn beta; lia) ltac:(lia)).
    change (nth 0 [b] []) with b in CA. change (nth 0 (corrected (mkClock (Some t0) 0 0) [f] [b]) []) with bt in CA. change (0 + Z.of_nat 0 + 1) with 1 in CA.
    clear - CA H H'. revert i H H'. induction CA; intros [|i] E E'; cbn in E, E'; try discriminate; [now injection E as <-; injection E' as <-|]. now apply (IHCA i).
  - intros I t1 t1' H1 H1'. assert (IB : length b = Z.to_nat 1024).
    { destruct SB as [SB|[SB E]]; [unfold len in SB; lia|]. exfalso. subst tss. cbn [concat] in H. rewrite app_nil_r in H. pose proof (proj1 (nth_error_Some b i) ltac:(congruence)). unfold len in SB. lia. }
    rewrite nth_error_app1 in H1, H1' by lia. rewrite nth_error_app2 in H, H' by lia. rewrite LB in H'. rewrite IB in *.
    assert (LT : List.last b t0 = t1).
    { assert (EB : b = removelast b ++ [List.last b t0]) by (apply app_removelast_last; discriminate). rewrite EB in H1. rewrite EB in IB. rewrite app_length in IB. cbn [length] in IB. rewrite nth_error_app2 in H1 by lia. replace (Z.to_nat 1023 - length (removelast b))%nat with O in H1 by lia. now injection H1. }
    assert (LT' : t1' = t1 + shift f (elapsed t0 t1)).
    { unfold bt, batch_times, b in H1'. fold b in H1'. rewrite nth_error_map, H1 in H1'. cbn [option_map ref_of c_ref start c_acc] in H1'. injection H1' as <-. lia. }
    assert (CK : batch_clock f start b = mkClock (Some t1) (0 + shift f (elapsed t0 t1)) (shift f (elapsed t0 t1))).
    { unfold batch_clock, b. fold b. cbv zeta. rewrite LT. reflexivity. }
    rewrite CK, corrected_shift, concat_map_map in H' by exact NE2.
    assert (S1 : forall l d, nth_error (map (fun t : Z => t + d) l) (i - Z.to_nat 1024) = Some t' -> nth_error l (i - Z.to_nat 1024) = Some (t' - d)).
    { intros l d E. rewrite nth_error_map in E. destruct (nth_error l (i - Z.to_nat 1024)) as [x|]; [|discriminate]. cbn [option_map] in E. injection E as <-. f_equal. lia. }
    apply S1 in H'. replace (t' - (t1' - t1)) with (t' - shift f (elapsed t0 t1)) by lia. clear S1.
    apply Forall_app in TR as [TB TR].
    replace (Z.of_nat i / 1024) with (1 + Z.of_nat (i - Z.to_nat 1024) / 1024).
    2: { replace (Z.of_nat i) with (Z.of_nat (i - Z.to_nat 1024) + 1 * 1024) by lia. rewrite Z.div_add by lia. lia. }
    apply (by_index 1024 (fun n => accurate g t1 n) ltac:(lia) tss (corrected (mkClock (Some t1) 0 (shift f (elapsed t0 t1))) (repeat g (length tss)) tss) 1 SZ); [| |exact H|exact H'].
    + pose proof (corrected_lengths (repeat g (length tss)) tss (mkClock (Some t1) 0 (shift f (elapsed t0 t1)))) as CL. rewrite repeat_length in CL. specialize (CL eq_refl). now apply Forall2_length' in CL.
    + intros j. replace (1 + Z.of_nat j) with (0 + Z.of_nat j + 1) by lia. apply corrected_accurate; auto.
      * rewrite repeat_length. reflexivity.
      * apply Forall_forall. intros x J. apply repeat_spec in J. now subst.
      * apply nth_error_In in H1. rewrite Forall_forall in TB. specialize (TB t1 H1). lia.
      * rewrite <- LT. apply nondecr_last. apply nondecr_cons; [lia|exact N].
      * eapply Forall_impl; [|exact TR]. cbn beta. lia.
      * lia.
Qed.
Lemma on_file_freq junk ib ob fb prog args ss f fs stdin X t Zf :
  alloc_ok ib ob fb -> asks args ss f -> input_of fs stdin ss = Some X -> event_file (legacy_of ss) X ->
  last_of freq_of ss = Some t -> fs t = Some Zf -> bytes_ok Zf -> len Zf <= 99 -> Forall plain_line (lines Zf) ->
  separate (last_of in_of ss) (last_of out_of ss) -> separate (last_of freq_of ss) (last_of out_of ss) ->
  exists e times g, after_lines f (lines Zf) g /\ freqcd_main true junk ib ob fb (prog :: args) fs stdin = Some (Ok e) /\ code e = 0 /\ retimed_file fs (files e) (stdout e) ss X times /\
    forall i t0 t t', event_time (legacy_of ss) X 0 t0 -> event_time (legacy_of ss) X i t -> nth_error times i = Some t' ->
      (Z.of_nat i < 1024 -> accurate f t0 1 t t') /\
      (1024 <= Z.of_nat i -> forall t1 t1', event_time (legacy_of ss) X (Z.to_nat 1023) t1 -> nth_error times (Z.to_nat 1023) = Some t1' -> accurate g t1 (Z.of_nat i / 1024) t (t' - (t1' - t1))).
Proof.
  intros A K IN EV FN FZ BZ LZ PL S1 S2. destruct (on_file_exact junk ib ob fb prog args ss f fs stdin X Zf A K IN EV) as (e & bs & g & ME & CE & BL & AL & SF & SG & C & TR & NE & RF); [now rewrite FN|exact BZ|exact LZ|exact PL|exact S1|exact S2|].
  exists e. eexists. exists g. split; [exact AL|]. split; [exact ME|]. split; [exact CE|]. split; [exact RF|].
  unfold event_time. rewrite <- C. destruct EV as (_ & _ & ND). rewrite <- C in ND. apply (first_block_index _ f g NE ND TR SF SG (blocks_sized _ _ _ BL)).
Qed.

(** ** Other files *)
Lemma loop_frame strict lg iname oname fname stdin : forall fuel fs out ioff foff s fs' out', main_loop fuel strict lg iname oname fname stdin fs out ioff foff s = Some (Ok (fs', out')) ->
  forall m, oname = [] \/ m <> oname -> fs' m = fs m.
Proof.
  induction fuel as [|k IH]; intros fs out ioff foff s fs' out' H m M; [discriminate|]. cbn [main_loop] in H. destruct (step _ _ _ _) as [[[s1 o] st]|]; [|discriminate].
  assert (P : (match oname with [] => fs | _ => put fs oname (out ++ tx o) end) m = fs m).
  { destruct oname as [|x on]; [reflexivity|]. apply put_other. now destruct M. }
  destruct st.
  - rewrite <- P. now apply (IH _ _ _ _ _ _ _ H m).
  - injection H as <- _. exact P.
Qed.
Lemma main_frame strict junk ib ob fb prog args ss f fs stdin e : asks args ss f -> freqcd_main strict junk ib ob fb (prog :: args) fs stdin = Some (Ok e) ->
  forall m, last_of out_of ss <> Some m -> files e m = fs m.
Proof.
  intros K H m M. destruct (asks_start prog args ss f K) as (c & C & _ & _ & _ & N1 & N2 & N3). unfold freqcd_main in H. rewrite C, N1, N2, N3 in H.
  set (on := name_of (last_of out_of ss)) in *. assert (MO : on = [] \/ m <> on) by (unfold on; destruct (last_of out_of ss) as [u|]; [right; cbn [name_of]; congruence|now left]).
  assert (P : (match on with [] => fs | _ => put fs on [] end) m = fs m) by (destruct on; [reflexivity|]; apply put_other; now destruct MO).
  destruct (missing fs _); [injection H as <-; reflexivity|]. cbv zeta in H. destruct (missing _ _); [injection H as <-; exact P|].
  destruct (main_loop _ _ _ _ _ _ _ _ _ _ _ _) as [[[fs2 out]|]|] eqn:ML; try discriminate. injection H as <-. cbn [files]. rewrite (loop_frame _ _ _ _ _ _ _ _ _ _ _ _ _ _ ML m MO). exact P.
Qed.
(** the output of a run is its input file *)
Lemma main_same strict junk ib ob fb prog args ss f fs stdin t X : alloc_ok ib ob fb -> asks args ss f -> last_of in_of ss = Some t -> last_of out_of ss = Some t -> last_of freq_of ss = None -> fs t = Some X ->
  exists e, freqcd_main strict junk ib ob fb (prog :: args) fs stdin = Some (Ok e) /\ code e = 0 /\ stdout e = [] /\ files e t = Some [] /\ forall m, m <> t -> files e m = fs m.
Proof.
  intros A K I O F FX. pose proof (main_frame strict junk ib ob fb prog args ss f fs stdin) as FR. destruct (asks_start prog args ss f K) as (c & C & _ & _ & _ & N1 & N2 & N3).
  assert (NE : t <> []) by (destruct K as (_ & GD & _); revert I; apply name_nonempty; [|exact GD]; intros [] w; cbn; intros E; inv E; auto).
  rewrite I, O, F in *. cbn [name_of] in *. unfold freqcd_main in *. rewrite C, N1, N2, N3 in *. destruct t as [|x t]; [congruence|]. cbn [missing] in *. rewrite FX in *. cbv zeta in *.
  assert (SO : source (put fs (x :: t) []) stdin (x :: t) = []) by (cbn [source]; now rewrite put_same). rewrite SO in *. cbn [length main_loop] in *. rewrite SO in *.
  assert (ST : exists s', step strict (c_legacy c) (init_state junk ib ob fb false (c_fcorr c)) (Tick (Some (RdBytes (drop 0 []))) None None) = Ok (s', mkObs [] [] [], Stopped)).
  { unfold step. change (inbytesread (init_state junk ib ob fb false (c_fcorr c)) mod SIZEOF_RAWEVENT) with 0. cbn [Z.to_nat copy_loop bind]. change (take (INBUFSIZE - 0) (drop 0 [])) with (@nil Z). eexists. reflexivity. }
  destruct ST as [s' ST]. rewrite ST in *. cbn [app tx] in *. eexists. split; [reflexivity|]. cbn [code stdout files]. split; [reflexivity|]. split; [reflexivity|]. split; [apply put_same|]. intros m M. rewrite put_other by exact M. now apply put_other.
Qed.
Lemma main_fails strict junk ib ob fb argv fs stdin e : freqcd_main strict junk ib ob fb argv fs stdin = Some (Ok e) -> code e <> 0 ->
  stdout e = [] /\ ((forall m, files e m = fs m) \/ code e = -11 /\ exists t, files e t = Some [] /\ forall m, m <> t -> files e m = fs m).
Proof.
  intros H NZ. unfold freqcd_main in H. destruct (cli argv) as [[[k|c]|]|]; try discriminate; [injection H as <-; split; [reflexivity|left; reflexivity]|].
  destruct (cstring (c_in c)) as [iname|]; [|discriminate]. destruct (cstring (c_out c)) as [oname|]; [|discriminate]. destruct (cstring (c_freq c)) as [fname|]; [|discriminate].
  destruct (missing fs iname); [injection H as <-; split; [reflexivity|left; reflexivity]|]. cbv zeta in H. destruct (missing _ fname).
  - injection H as <-. split; [reflexivity|]. cbn [files code]. destruct oname as [|x on]; [left; reflexivity|]. right. split; [reflexivity|]. exists (x :: on). split; [apply put_same|]. intros m M. now apply put_other.
  - destruct (main_loop _ _ _ _ _ _ _ _ _ _ _ _) as [[[fs2 out]|]|]; try discriminate. injection H as <-. exfalso. apply NZ. reflexivity.
Qed.
Lemma main_missing strict junk ib ob fb prog args ss f fs stdin : asks args ss f ->
  (input_of fs stdin ss = None -> exists e, freqcd_main strict junk ib ob fb (prog :: args) fs stdin = Some (Ok e) /\ code e = -3 /\ stdout e = [] /\ forall m, files e m = fs m) /\
  (input_of fs stdin ss <> None -> forall t, last_of freq_of ss = Some t -> fs t = None -> last_of out_of ss <> Some t ->
     exists e, freqcd_main strict junk ib ob fb (prog :: args) fs stdin = Some (Ok e) /\ code e = -11 /\ left_behind fs (files e) (stdout e) ss []).
Proof.
  intros K. destruct (asks_start prog args ss f K) as (c & C & _ & _ & _ & N1 & N2 & N3). destruct K as (_ & GD & _).
  assert (NI : forall t, last_of in_of ss = Some t -> t <> []) by (intros t; apply name_nonempty; [|exact GD]; intros [] w; cbn; intros E; inv E; auto).
  assert (NO : forall t, last_of out_of ss = Some t -> t <> []) by (intros t; apply name_nonempty; [|exact GD]; intros [] w; cbn; intros E; inv E; auto).
  assert (NF : forall t, last_of freq_of ss = Some t -> t <> []) by (intros t; apply name_nonempty; [|exact GD]; intros [] w; cbn; intros E; inv E; auto).
  unfold freqcd_main, input_of. rewrite C, N1, N2, N3. split.
  - destruct (last_of in_of ss) as [t|]; [|discriminate]. specialize (NI t eq_refl). cbn [name_of]. destruct t as [|x t]; [congruence|]. cbn [missing]. intros ->. eexists. split; [reflexivity|]. repeat split.
  - intros IN t FN FX OT. assert (missing fs (name_of (last_of in_of ss)) = false) as ->.
    { destruct (last_of in_of ss) as [u|]; [|reflexivity]. cbn [name_of missing]. destruct u; [reflexivity|]. unfold missing. destruct (fs (z :: u)); [reflexivity|congruence]. }
    rewrite FN in *. specialize (NF t eq_refl). cbn [name_of]. destruct t as [|x t]; [congruence|]. cbv zeta. unfold left_behind. destruct (last_of out_of ss) as [u|]; cbn [name_of].
    + specialize (NO u eq_refl). destruct u as [|y u]; [congruence|]. assert (M : missing (put fs (y :: u) []) (x :: t) = true) by (cbn [missing]; rewrite put_other by congruence; now rewrite FX).
      rewrite M. eexists. split; [reflexivity|]. cbn [code files stdout]. split; [reflexivity|]. split; [apply put_same|]. split; [reflexivity|]. intros m MO. now apply put_other.
    + assert (M : missing fs (x :: t) = true) by (cbn [missing]; now rewrite FX). rewrite M. eexists. split; [reflexivity|]. repeat split.
Qed.
