(** Property-level lemmas about freqcd runs. *)
From Verif Require Import Base FreqcdModel FreqcdSpec FreqcdProofs FreqcdProofs2 FreqcdProofs3.
From Coq Require Import ZifyBool.
Ltac Zify.zify_post_hook ::= Z.div_mod_to_equations.

(** ** C01 / C03 / C17 in any mode *)
Lemma freqcd_retime strict lg junk ib ob fb fg fc ts s' os st :
  alloc_ok ib ob fb -> Forall tick_ok ts ->
  freqcd strict lg junk ib ob fb fg fc ts = Ok (s', os, st) ->
  exists times, length times = length (groups (received os)) /\
    prefix (written os) (concat (retime lg (groups (received os)) times)) /\
    (st = Running -> written os = concat (retime lg (groups (received os)) times)).
Proof.
  intros A T E. pose proof (freqcd_spec strict lg junk ib ob fb fg fc ts A T) as S. rewrite E in S.
  destruct S as ((outs & CR & P & W) & _ & _ & _ & _ & _ & _ & L & G & CB).
  destruct (clock_run_retime _ _ _ _ _ _ _ L G CR) as (times & LT & EO).
  rewrite CB in LT, EO. exists times. rewrite <- EO. auto.
Qed.

(** Strict mode: exactly the specified stream. *)
Lemma freqcd_exact lg junk ib ob fb fg fc ts s' os st :
  alloc_ok ib ob fb -> Forall tick_ok ts ->
  freqcd true lg junk ib ob fb fg fc ts = Ok (s', os, st) ->
  let out := corrected_stream lg (clock0 junk) (corrections ([], fc) os) (batches [] (chunks os)) in
  prefix (written os) (concat (concat out)) /\
  (st = Running -> written os = concat (concat out)).
Proof.
  intros A T E. pose proof (freqcd_spec true lg junk ib ob fb fg fc ts A T) as S. rewrite E in S.
  destruct S as ((outs & CR & P & W) & _ & _ & _ & _ & _ & _ & L & G & CB).
  apply (clock_run_strict _ _ _ _ (clock0 junk)) in CR as [-> _]; [auto| |assumption].
  apply (init_Rk junk ib ob fb fg fc).
Qed.

Lemma freqcd_memory_safe strict lg junk ib ob fb fg fc ts :
  alloc_ok ib ob fb -> Forall tick_ok ts ->
  freqcd strict lg junk ib ob fb fg fc ts <> Err OutOfBounds.
Proof.
  intros A T E. pose proof (freqcd_spec strict lg junk ib ob fb fg fc ts A T) as S. rewrite E in S.
  destruct S as [[S _]|[S _]]; discriminate.
Qed.
Lemma freqcd_total lg j ib ob fb fg fc ts : alloc_ok ib ob fb -> Forall tick_ok ts ->
  exists r, freqcd false lg (Some j) ib ob fb fg fc ts = Ok r.
Proof.
  intros A T. pose proof (freqcd_spec false lg (Some j) ib ob fb fg fc ts A T) as S.
  destruct (freqcd _ _ _ _ _ _ _ _ _); [now eexists|]. destruct S as [[_ S]|[_ S]]; discriminate.
Qed.

(** ** Zero correction *)
Lemma corrections_nofreq f p : forall os, Forall (fun o => rx_freq o = []) os ->
  Forall (eq f) (corrections (p, f) os).
Proof.
  induction os as [|o r IH]; intros H; cbn [corrections]; [constructor|]. inv H.
  rewrite H2. change (feed (p, f) []) with (p, f). destruct (rx o); [auto|]. constructor; auto.
Qed.
Lemma shift_f0 d : shift 0 d = 0.
Proof. unfold shift. now rewrite Z.mul_0_r. Qed.

Lemma batches_first cs : first_complete cs -> Forall (fun c => c <> []) cs ->
  match batches [] cs with b :: _ => b <> [] | [] => True end.
Proof.
  destruct cs as [|c r]; cbn; [auto|]. intros H _ E. apply (f_equal len) in E.
  rewrite len_groups in E. change (@len (list Z) []) with 0 in E. lia.
Qed.

Lemma correct_all_zero strict lg ref : forall evs lst, Forall good_ev evs ->
  exists lst', correct_all strict lg 0 ref 0 evs lst = Ok (evs, lst') /\
  match evs with [] => lst' = lst | _ => exists m, lst' = Some (m, 0) end.
Proof.
  induction evs as [|ev r IH]; intros lst G; [now exists lst|]. inv G. destruct H1 as [B L].
  cbn [correct_all]. rewrite correct_event_spec by assumption. rewrite Z.mul_0_r.
  change (signed64 strict 0) with (@Ok trap Z 0). cbn [bind]. change (0 / 2 ^ 22) with 0.
  fold (correct_all strict lg 0 ref 0). destruct (IH (Some (ev_time lg ev, 0)) H2) as (l' & -> & E).
  cbn [bind]. replace (ev_time lg ev + 0 + 0) with (ev_time lg ev) by lia. rewrite mk_event_id by assumption.
  exists l'. split; [reflexivity|]. destruct r; [subst; now eexists|assumption].
Qed.
Lemma clock_run_zero strict lg : forall fs bs ref isset m,
  length fs = length bs -> Forall (eq 0) fs -> Forall (Forall good_ev) bs ->
  exists k', clock_run strict lg fs (ref, isset, 0, Some (m, 0)) bs = Ok (bs, k').
Proof.
  induction fs as [|f fs IH]; intros [|b bs] ref isset m L F G; cbn in L; try discriminate; [now eexists|].
  inv F. inv G. cbn [clock_run]. unfold input_clock.
  destruct (match b with [] => _ | _ => _ end) as [ref' isset'].
  destruct (correct_all_zero strict lg ref' b (Some (m, 0)) H1) as (l' & -> & E). cbn [bind].
  assert (exists m', l' = Some (m', 0)) as [m' ->] by (destruct b; [subst; now eexists|assumption]).
  change (signed64 strict (0 + 0)) with (@Ok trap Z 0). cbn [bind].
  destruct (IH bs m' isset' m') as [k' ->]; auto. cbn [bind]. now eexists.
Qed.
Lemma freqcd_identity strict lg junk ib ob fb ts s' os st :
  alloc_ok ib ob fb -> Forall tick_ok ts ->
  freqcd strict lg junk ib ob fb false 0 ts = Ok (s', os, st) ->
  first_complete (chunks os) ->
  prefix (written os) (received os) /\
  (st = Running -> written os = concat (groups (received os))).
Proof.
  intros A T E FC. pose proof (freqcd_spec strict lg junk ib ob fb false 0 ts A T) as S. rewrite E in S.
  destruct S as ((outs & CR & P & W) & _ & _ & _ & _ & NF & _ & L & G & CB).
  specialize (NF eq_refl). pose proof (corrections_nofreq 0 [] os NF) as F0.
  assert (outs = batches [] (chunks os)) as ->.
  { revert CR L F0 G. generalize (corrections ([], 0) os). intros fs.
    destruct (chunks os) as [|c cs]; cbn [batches]; intros CR L F0 G.
    - destruct fs; [|discriminate]. cbn in CR. now inv CR.
    - destruct fs as [|f fs]; [discriminate|]. inv F0. inv G. cbn [clock_run] in CR. cbn [app] in *.
      unfold input_clock in CR. cbn in FC.
      destruct (groups c) as [|ev evs] eqn:GC.
      { apply (f_equal len) in GC. rewrite len_groups in GC. change (@len (list Z) []) with 0 in GC. lia. }
      destruct (correct_all_zero strict lg (ev_time lg ev) (ev :: evs) junk H1) as (l' & EC & m' & ->).
      rewrite EC in CR. cbn [bind] in CR.
      change (signed64 strict (0 + 0)) with (@Ok trap Z 0) in CR. cbn [bind] in CR.
      destruct (clock_run_zero strict lg fs (batches (leftover c) cs) m' true m') as [k' EK]; auto.
      rewrite EK in CR. cbn [bind] in CR. now inv CR. }
  rewrite CB in P, W. split; [|exact W].
  destruct P as [q P]. exists (q ++ leftover (received os)).
  rewrite app_assoc, <- P. symmetry. apply groups_leftover.
Qed.

(** ** Order and accuracy *)
Lemma erc_batches : forall cs p, every_read_completes p cs -> Forall (fun b => b <> []) (batches p cs).
Proof. induction cs; cbn; intros p H; constructor; [tauto|]. apply IHcs. tauto. Qed.
Lemma retime_batches_concat lg : forall bs tss, length bs = length tss ->
  Forall2 (fun b ts => length b = length ts) bs tss ->
  concat (retime_batches lg bs tss) = retime lg (concat bs) (concat tss).
Proof.
  induction bs as [|b bs IH]; intros [|ts tss] L F; cbn in *; try discriminate; [reflexivity|]. inv F.
  rewrite retime_app by assumption. now rewrite IH by (assumption || lia).
Qed.
Lemma corrected_lengths : forall fs bs K, length fs = length bs ->
  Forall2 (fun b ts => length b = length ts) bs (corrected K fs bs).
Proof.
  induction fs as [|f fs IH]; intros [|b bs] K L; cbn in *; try discriminate; constructor; auto.
  unfold batch_times. destruct b; [reflexivity|]. now rewrite map_length.
Qed.
Lemma Forall2_length' {A B} (R : A -> B -> Prop) l m : Forall2 R l m -> length l = length m.
Proof. induction 1; cbn; auto. Qed.
Lemma corrected_stream_times lg K fs bs : length fs = length bs ->
  concat (corrected_stream lg K fs bs) = retime lg (concat bs) (concat (corrected K fs (map (map (ev_time lg)) bs))).
Proof.
  intros L. unfold corrected_stream.
  pose proof (corrected_lengths fs (map (map (ev_time lg)) bs) K) as CL. rewrite map_length in CL. specialize (CL L).
  apply retime_batches_concat.
  - apply Forall2_length' in CL. now rewrite map_length in CL.
  - revert CL. generalize (corrected K fs (map (map (ev_time lg)) bs)). induction bs; intros l CL; inv CL; constructor.
    + now rewrite map_length in H1.
    + clear - H3. revert l' H3. induction bs; intros l' H; inv H; constructor; auto. now rewrite map_length in H2.
Qed.
Lemma times_concat lg bs : concat (map (map (ev_time lg)) bs) = map (ev_time lg) (concat bs).
Proof. induction bs; cbn; [reflexivity|]. now rewrite map_app, IHbs. Qed.
Lemma times_range lg bs : Forall (Forall good_ev) bs ->
  Forall (fun t => 0 <= t < 2 ^ 54) (concat (map (map (ev_time lg)) bs)).
Proof.
  intros G. rewrite times_concat. apply Forall_concat in G.
  rewrite Forall_forall in *. intros t I. apply in_map_iff in I as (e & <- & I).
  destruct (G e I). now apply ev_time_range.
Qed.
Lemma map_nonempty lg bs : Forall (fun b : list (list Z) => b <> []) bs ->
  Forall (fun b => b <> []) (map (map (ev_time lg)) bs).
Proof. induction 1; cbn; constructor; auto. destruct x; [congruence|discriminate]. Qed.

Lemma freqcd_order lg junk ib ob fb fg fc ts s' os st :
  alloc_ok ib ob fb -> Forall tick_ok ts ->
  freqcd true lg junk ib ob fb fg fc ts = Ok (s', os, st) ->
  every_read_completes [] (chunks os) ->
  Forall small (corrections ([], fc) os) ->
  nondecr (map (ev_time lg) (groups (received os))) ->
  exists times, length times = length (groups (received os)) /\ nondecr times /\
    prefix (written os) (concat (retime lg (groups (received os)) times)) /\
    (st = Running -> written os = concat (retime lg (groups (received os)) times)).
Proof.
  intros A T E C SM N. pose proof (freqcd_spec true lg junk ib ob fb fg fc ts A T) as S. rewrite E in S.
  destruct S as (_ & _ & _ & _ & _ & _ & _ & L & G & CB).
  destruct (freqcd_exact _ _ _ _ _ _ _ _ _ _ _ A T E) as [P W].
  set (bs := batches [] (chunks os)) in *. set (fs := corrections ([], fc) os) in *.
  cbv zeta in P, W. rewrite corrected_stream_times, CB in P, W by assumption.
  eexists. split; [|split; [|split; [exact P|exact W]]].
  - pose proof (corrected_lengths fs (map (map (ev_time lg)) bs) (clock0 junk)) as CL.
    rewrite map_length in CL. specialize (CL L). rewrite <- CB, <- (map_length (ev_time lg)), <- times_concat.
    clear - CL. induction CL; cbn; [reflexivity|]. now rewrite !app_length, IHCL, H.
  - rewrite <- CB, <- times_concat in N. pose proof (times_range lg bs G) as TR.
    pose proof (map_nonempty lg bs (erc_batches _ _ C)) as NE.
    assert (LT : length fs = length (map (map (ev_time lg)) bs)) by now rewrite map_length.
    revert LT N TR NE. generalize (map (map (ev_time lg)) bs) as tss. intros tss LT N TR NE.
    destruct tss as [|[|t0 tl] tss]; [destruct fs; exact I|inv NE; congruence|].
    apply (nondecr_tl (t0 + 0)).
    replace (corrected (clock0 junk) fs ((t0 :: tl) :: tss))
      with (corrected (mkClock (Some t0) 0 (c_last (clock0 junk))) fs ((t0 :: tl) :: tss))
      by (destruct fs; reflexivity).
    change (concat ((t0 :: tl) :: tss)) with (t0 :: tl ++ concat tss) in N, TR.
    apply corrected_order; auto.
    + inv TR. lia.
    + change (concat ((t0 :: tl) :: tss)) with (t0 :: tl ++ concat tss). apply nondecr_cons; [lia|assumption].
    + eapply Forall_impl; [|exact TR]. cbn. lia.
Qed.

Lemma freqcd_accurate lg junk ib ob fb f ts s' os st :
  alloc_ok ib ob fb -> Forall tick_ok ts -> small f ->
  freqcd true lg junk ib ob fb false f ts = Ok (s', os, st) ->
  every_read_completes [] (chunks os) ->
  nondecr (map (ev_time lg) (groups (received os))) ->
  let bs := map (map (ev_time lg)) (batches [] (chunks os)) in
  exists tss, length tss = length bs /\
    (forall i t0, hd_error (concat bs) = Some t0 ->
       Forall2 (accurate f t0 (Z.of_nat i + 1)) (nth i bs []) (nth i tss [])) /\
    prefix (written os) (concat (retime lg (groups (received os)) (concat tss))) /\
    (st = Running -> written os = concat (retime lg (groups (received os)) (concat tss))).
Proof.
  intros A T SM E C N bs0. pose proof (freqcd_spec true lg junk ib ob fb false f ts A T) as S. rewrite E in S.
  destruct S as (_ & _ & _ & _ & _ & NF & _ & L & G & CB). specialize (NF eq_refl).
  pose proof (corrections_nofreq f [] os NF) as FF.
  destruct (freqcd_exact _ _ _ _ _ _ _ _ _ _ _ A T E) as [P W].
  set (bs := batches [] (chunks os)) in *. set (fs := corrections ([], f) os) in *.
  cbv zeta in P, W. rewrite corrected_stream_times, CB in P, W by assumption.
  eexists. split; [|split; [|split; [exact P|exact W]]].
  - pose proof (corrected_lengths fs (map (map (ev_time lg)) bs) (clock0 junk)) as CL.
    rewrite map_length in CL. specialize (CL L). now apply Forall2_length' in CL.
  - rewrite <- CB, <- times_concat in N. pose proof (times_range lg bs G) as TR.
    pose proof (map_nonempty lg bs (erc_batches _ _ C)) as NE.
    assert (LT : length fs = length (map (map (ev_time lg)) bs)) by now rewrite map_length.
    unfold bs0. revert LT N TR NE. generalize (map (map (ev_time lg)) bs) as tss. intros tss LT N TR NE i t0 HD.
    destruct tss as [|[|t1 tl] tss]; [destruct i; destruct fs; constructor|inv NE; congruence|].
    cbn in HD. injection HD as ->.
    replace (corrected (clock0 junk) fs ((t0 :: tl) :: tss))
      with (corrected (mkClock (Some t0) 0 (c_last (clock0 junk))) fs ((t0 :: tl) :: tss))
      by (destruct fs; reflexivity).
    change (concat ((t0 :: tl) :: tss)) with (t0 :: tl ++ concat tss) in N, TR.
    replace (Z.of_nat i + 1) with (0 + Z.of_nat i + 1) by lia.
    apply corrected_accurate; auto.
    + inv TR. lia.
    + change (concat ((t0 :: tl) :: tss)) with (t0 :: tl ++ concat tss). apply nondecr_cons; [lia|assumption].
    + eapply Forall_impl; [|exact TR]. cbn. lia.
    + lia.
Qed.
