(** Proofs of the freqcd properties from the refinement of [FreqcdProofs]. *)
From Verif Require Import Base FreqcdModel FreqcdSpec FreqcdProofs.
From Coq Require Import ZifyBool.
Ltac Zify.zify_post_hook ::= Z.div_mod_to_equations.

(** ** Events *)
Lemma mk_event_len lg t fl : len (mk_event lg t fl) = 8.
Proof.
  unfold mk_event, swap_words. destruct lg; [|now rewrite le_enc_len].
  rewrite len_app, len_drop, len_take, le_enc_len by lia. reflexivity.
Qed.
Lemma mk_event_bytes lg t fl : bytes_ok (mk_event lg t fl).
Proof.
  unfold mk_event, swap_words. pose proof (le_enc_bytes 8 (t * 2 ^ 10 + fl)) as B.
  destruct lg; [|assumption]. apply Forall_app. split; [now apply Forall_drop|now apply Forall_take].
Qed.
Lemma swap_words_invol ev : len ev = 8 -> swap_words (swap_words ev) = ev.
Proof. intros H. eight ev H. reflexivity. Qed.
Lemma swap_words_len ev : len ev = 8 -> len (swap_words ev) = 8.
Proof. intros H. eight ev H. reflexivity. Qed.
Lemma ev_value_mk lg t fl : ev_value lg (mk_event lg t fl) = (t * 2 ^ 10 + fl) mod 2 ^ 64.
Proof.
  unfold ev_value, mk_event. destruct lg.
  - rewrite swap_words_invol by now rewrite le_enc_len. rewrite le_dec_enc. reflexivity.
  - rewrite le_dec_enc. reflexivity.
Qed.
Lemma ev_flags_mk lg t fl : 0 <= fl < 2 ^ 10 -> ev_flags lg (mk_event lg t fl) = fl.
Proof. intros H. unfold ev_flags. rewrite ev_value_mk. lia. Qed.
Lemma ev_time_mk lg t fl : 0 <= fl < 2 ^ 10 -> ev_time lg (mk_event lg t fl) = t mod 2 ^ 54.
Proof. intros H. unfold ev_time. rewrite ev_value_mk. lia. Qed.
Lemma ev_flags_range lg ev : 0 <= ev_flags lg ev < 2 ^ 10.
Proof. unfold ev_flags. lia. Qed.
Lemma ev_time_range lg ev : bytes_ok ev -> len ev = 8 -> 0 <= ev_time lg ev < 2 ^ 54.
Proof.
  intros B L. destruct (event_words lg ev) as [low high] eqn:E.
  destruct (ev_value_words _ _ _ _ B L E) as (V & ? & ?). unfold ev_time. rewrite V. lia.
Qed.
Lemma mk_event_id lg ev : bytes_ok ev -> len ev = 8 ->
  mk_event lg (ev_time lg ev) (ev_flags lg ev) = ev.
Proof.
  intros B L. unfold mk_event, ev_time, ev_flags.
  replace (ev_value lg ev / 2 ^ 10 * 2 ^ 10 + ev_value lg ev mod 2 ^ 10) with (ev_value lg ev) by lia.
  unfold ev_value. destruct lg.
  - assert (B' : bytes_ok (swap_words ev)) by (apply Forall_app; split; [now apply Forall_drop|now apply Forall_take]).
    replace 8%nat with (length (swap_words ev)) by (pose proof (swap_words_len ev L); unfold len in *; lia).
    rewrite le_enc_dec by assumption. now apply swap_words_invol.
  - replace 8%nat with (length ev) by (unfold len in *; lia). now apply le_enc_dec.
Qed.
Lemma mk_event_mod lg t t' fl : t mod 2 ^ 54 = t' mod 2 ^ 54 -> mk_event lg t fl = mk_event lg t' fl.
Proof.
  intros H. unfold mk_event. replace (le_enc 8 (t * 2 ^ 10 + fl)) with (le_enc 8 (t' * 2 ^ 10 + fl)); [reflexivity|].
  rewrite <- (le_enc_mod 8 (t * 2 ^ 10 + fl) (2 ^ 64)) by (try reflexivity; exists 1; reflexivity).
  rewrite <- (le_enc_mod 8 (t' * 2 ^ 10 + fl) (2 ^ 64)) by (try reflexivity; exists 1; reflexivity).
  f_equal. lia.
Qed.

(** ** Any mode: the output is the input with other times *)
Definition good_ev (ev : list Z) : Prop := bytes_ok ev /\ len ev = 8.
Lemma retime_app lg : forall a ta b tb, length a = length ta ->
  retime lg (a ++ b) (ta ++ tb) = retime lg a ta ++ retime lg b tb.
Proof.
  induction a as [|x a IH]; intros [|y ta] b tb H; cbn in *; try discriminate; [reflexivity|].
  now rewrite IH by lia.
Qed.
Lemma correct_all_retime strict lg f ref ovf : forall evs lst evs' lst',
  Forall good_ev evs -> correct_all strict lg f ref ovf evs lst = Ok (evs', lst') ->
  exists ts, length ts = length evs /\ evs' = retime lg evs ts.
Proof.
  induction evs as [|ev r IH]; intros lst evs' lst' G H; cbn in H.
  - inv H. now exists [].
  - inv G. destruct H2 as [B L]. rewrite correct_event_spec in H by assumption.
    destruct (signed64 strict _) as [prod|]; [|discriminate]. cbn [bind] in H.
    fold (correct_all strict lg f ref ovf) in H.
    match type of H with (let* _ := correct_all _ _ _ _ _ r ?x in _) = _ =>
      destruct (correct_all strict lg f ref ovf r x) as [[r' l']|] eqn:E2; [|discriminate] end.
    injection H as <- <-. destruct (IH _ _ _ H3 E2) as (ts & LT & ->).
    eexists (_ :: ts). cbn. split; [now rewrite LT|reflexivity].
Qed.
Lemma clock_run_retime strict lg : forall fs bs k outs k',
  length fs = length bs -> Forall (Forall good_ev) bs -> clock_run strict lg fs k bs = Ok (outs, k') ->
  exists ts, length ts = length (concat bs) /\ concat outs = retime lg (concat bs) ts.
Proof.
  induction fs as [|f fs IH]; intros [|b bs] k outs k' L G H; cbn in L, H; try discriminate.
  - inv H. now exists [].
  - destruct (input_clock strict lg f k b) as [[evs' k1]|] eqn:IC; [|discriminate]. cbn [bind] in H.
    destruct (clock_run strict lg fs k1 bs) as [[outs1 k2]|] eqn:CR; [|discriminate]. inv H.
    inv G. destruct (IH bs k1 outs1 k') as (ts & LT & E); auto.
    unfold input_clock in IC. destruct k as [[[ref isset] ovf] lst].
    destruct (match b with [] => _ | _ => _ end) as [ref' isset'].
    destruct (correct_all strict lg f ref' ovf b lst) as [[e1 l1]|] eqn:CA; [|discriminate].
    cbn [bind] in IC. destruct l1 as [[m c]|]; [|discriminate].
    destruct (signed64 strict (ovf + c)); [|discriminate]. cbn [bind] in IC.
    assert (e1 = evs') by congruence. subst e1.
    destruct (correct_all_retime _ _ _ _ _ _ _ _ _ H1 CA) as (ts1 & L1 & ->).
    exists (ts1 ++ ts). cbn. rewrite !app_length, L1, LT. split; [reflexivity|].
    now rewrite E, retime_app by lia.
Qed.

(** ** Strict mode: the specification's clock *)
Definition Rk (k : clk) (K : clock) : Prop :=
  let '(ref, isset, ovf, lst) := k in
  c_ref K = (if isset : bool then Some ref else None) /\ c_acc K = ovf /\
  match lst with Some (_, c) => c_last K = c | None => isset = false end /\
  (isset = true -> exists c, lst = Some (ref, c)).

Lemma signed64_strict x y : signed64 true x = Ok y -> y = x /\ fits_s64 x = true.
Proof. unfold signed64. destruct (fits_s64 x); intros H; inv H. auto. Qed.

Lemma correct_all_strict lg f ref ovf : forall evs lst evs' lst',
  Forall good_ev evs -> correct_all true lg f ref ovf evs lst = Ok (evs', lst') ->
  evs' = retime lg evs (map (fun t => t + shift f (elapsed ref t) + ovf) (map (ev_time lg) evs)) /\
  lst' = match evs with
         | [] => lst
         | ev :: _ => let t := List.last (map (ev_time lg) evs) (ev_time lg ev) in
                      Some (t, shift f (elapsed ref t))
         end.
Proof.
  induction evs as [|ev r IH]; intros lst evs' lst' G H; cbn in H.
  - inv H. auto.
  - inv G. destruct H2 as [B L]. rewrite correct_event_spec in H by assumption.
    destruct (signed64 true _) as [prod|] eqn:S; [|discriminate]. cbn [bind] in H.
    apply signed64_strict in S as [-> _].
    fold (correct_all true lg f ref ovf) in H.
    match type of H with (let* _ := correct_all _ _ _ _ _ r ?x in _) = _ =>
      destruct (correct_all true lg f ref ovf r x) as [[r' l']|] eqn:E2; [|discriminate] end.
    injection H as <- <-. destruct (IH _ _ _ H3 E2) as (-> & ->). cbn [retime map]. split; [reflexivity|].
    destruct r as [|ev2 r2]; [reflexivity|]. cbn [map]. cbv zeta.
    replace (List.last (ev_time lg ev :: ev_time lg ev2 :: map (ev_time lg) r2) (ev_time lg ev))
      with (List.last (ev_time lg ev2 :: map (ev_time lg) r2) (ev_time lg ev2)); [reflexivity|].
    clear. cbn [List.last]. generalize (map (ev_time lg) r2). intros l. destruct l as [|a l]; [reflexivity|].
    revert a. induction l as [|b l IHl]; intros a; [reflexivity|]. apply IHl.
Qed.

Lemma input_clock_strict lg f k K evs evs' k' : Rk k K -> Forall good_ev evs ->
  input_clock true lg f k evs = Ok (evs', k') ->
  evs' = retime lg evs (batch_times f K (map (ev_time lg) evs)) /\
  Rk k' (batch_clock f K (map (ev_time lg) evs)).
Proof.
  intros R G H. destruct k as [[[ref isset] ovf] lst]. destruct R as (R1 & R2 & R3 & R4).
  unfold input_clock in H. destruct evs as [|ev r].
  - cbn [correct_all bind map batch_times batch_clock] in *. destruct lst as [[m c]|]; [|discriminate].
    destruct (signed64 true (ovf + c)) as [o|] eqn:S; [|discriminate]. apply signed64_strict in S as [-> _].
    cbn [bind] in H. inv H. split; [reflexivity|].
    unfold Rk. cbn. destruct isset; repeat split; auto; try congruence.
    + destruct R4 as [c' E]; [reflexivity|]. inv E. assumption.
    + intros _. destruct R4 as [c' E]; [reflexivity|]. inv E. now eexists.
  - assert (REF : exists ref', (if isset then (ref, isset) else (ev_time lg ev, true)) = (ref', true)
        /\ ref' = ref_of K (ev_time lg ev)).
    { unfold ref_of. rewrite R1. destruct isset; eexists; split; reflexivity. }
    destruct REF as (ref' & E & ER). cbv beta iota zeta in H. rewrite E in H. clear E.
    destruct (correct_all true lg f ref' ovf (ev :: r) lst) as [[e1 l1]|] eqn:CA; [|discriminate].
    apply correct_all_strict in CA as [-> ->]; [|assumption].
    unfold bind at 1 in H. cbv beta iota zeta in H.
    unfold batch_times, batch_clock. cbn [map] in *. cbv zeta.
    rewrite <- ER, R2.
    destruct (signed64 true (ovf + _)) as [o|] eqn:S in H; [|discriminate]. apply signed64_strict in S as [-> _].
    cbn [bind] in H. injection H as <- <-.
    split; [reflexivity|].
    unfold Rk. cbn [c_ref c_acc c_last]. repeat split; auto. intros _. now eexists.
Qed.

Lemma clock_run_strict lg : forall fs bs k K outs k', Rk k K -> Forall (Forall good_ev) bs ->
  clock_run true lg fs k bs = Ok (outs, k') ->
  outs = corrected_stream lg K fs bs /\ Rk k' (clock_after K fs (map (map (ev_time lg)) bs)).
Proof.
  induction fs as [|f fs IH]; intros bs k K outs k' R G H; cbn in H.
  - inv H. split; [|exact R]. unfold corrected_stream. cbn. now destruct bs.
  - destruct bs as [|b bs]; cbn in H; [inv H; split; [reflexivity|assumption]|].
    destruct (input_clock true lg f k b) as [[evs' k1]|] eqn:IC; [|discriminate]. cbn [bind] in H.
    destruct (clock_run true lg fs k1 bs) as [[outs1 k2]|] eqn:CR; [|discriminate]. inv H. inv G.
    destruct (input_clock_strict _ _ _ _ _ _ _ R H1 IC) as [-> R1].
    destruct (IH _ _ _ _ _ R1 H2 CR) as [-> R2]. split; [reflexivity|exact R2].
Qed.

(** ** From the initial state *)
Lemma init_inv junk ib ob fb fg fc : alloc_ok ib ob fb -> Inv (init_state junk ib ob fb fg fc) [] [].
Proof.
  intros (H1 & H2 & H3). constructor; cbn; auto; try reflexivity.
  - exists [], ib. split; reflexivity.
  - unfold INBUFSIZE, INBUFENTRIES, SIZEOF_RAWEVENT. lia.
  - constructor.
  - constructor; cbn; auto; try reflexivity; [now exists fb|]. unfold len; cbn; lia.
Qed.
Lemma init_Rk junk ib ob fb fg fc : Rk (clk_of (init_state junk ib ob fb fg fc)) (clock0 junk).
Proof.
  unfold Rk, clk_of, init_state, clock0. cbn.
  destruct junk as [[m c]|]; repeat split; try discriminate.
Qed.
Lemma batches_good : forall cs p, bytes_ok p -> Forall bytes_ok cs -> Forall (Forall good_ev) (batches p cs).
Proof.
  induction cs as [|c r IH]; intros p BP BC; cbn; constructor.
  - inv BC. assert (bytes_ok (p ++ c)) by (apply Forall_app; auto).
    pose proof (Forall_groups is_byte _ H) as G1. pose proof (groups_8 (p ++ c)) as G2.
    rewrite Forall_forall in *. intros x Hx. split; auto. apply G1; assumption.
  - inv BC. apply IH; [|assumption]. apply Forall_leftover. apply Forall_app; auto.
Qed.
Lemma batches_length : forall cs p, length (batches p cs) = length cs.
Proof. induction cs; intros; cbn; auto. Qed.
Lemma chunks_bytes os : Forall (fun o => bytes_ok (rx o) /\ bytes_ok (rx_freq o)) os -> Forall bytes_ok (chunks os).
Proof.
  unfold chunks, rxs. induction 1 as [|o r [H1 H2] HR IH]; cbn; [constructor|].
  destruct (nonempty (rx o)); [constructor|]; auto.
Qed.
Lemma concat_chunks os : concat (chunks os) = received os.
Proof.
  unfold chunks, rxs, received. induction os as [|o r IH]; cbn; [reflexivity|].
  destruct (rx o); cbn; now rewrite IH.
Qed.

(** The master lemma. *)
Lemma freqcd_spec strict lg junk ib ob fb fg fc ts : alloc_ok ib ob fb -> Forall tick_ok ts ->
  match freqcd strict lg junk ib ob fb fg fc ts with
  | Err e => (e = SignedOverflow /\ strict = true) \/ (e = Uninitialised /\ junk = None)
  | Ok (s', os, st) =>
      (exists outs, clock_run strict lg (corrections ([], fc) os) (0, false, 0, junk) (batches [] (chunks os))
                    = Ok (outs, clk_of s')
        /\ prefix (written os) (concat (concat outs))
        /\ (st = Running -> written os = concat (concat outs))) /\
      (fcorr s' = snd (freq_after ([], fc) os)) /\
      (st = Running -> Inv s' (leftover (received os)) (fst (freq_after ([], fc) os))) /\
      (st = Running -> forall r, delivered 0 (ts ++ r)
          = chunks os ++ delivered (len (leftover (received os))) r) /\
      prefix (chunks os) (delivered 0 ts) /\
      (fg = false -> Forall (fun o => rx_freq o = []) os) /\
      Forall (fun o => bytes_ok (rx o) /\ bytes_ok (rx_freq o)) os /\
      length (corrections ([], fc) os) = length (batches [] (chunks os)) /\
      Forall (Forall good_ev) (batches [] (chunks os)) /\
      concat (batches [] (chunks os)) = groups (received os)
  end.
Proof.
  intros A T. pose proof (run_spec strict lg ts _ _ _ (init_inv junk ib ob fb fg fc A) T) as S.
  unfold freqcd. destruct (run strict lg (init_state junk ib ob fb fg fc) ts) as [[[s' os] st]|e]; [|exact S].
  destruct S as (S1 & S2 & S3 & S4 & S5 & S6 & S7). cbn [app] in *.
  split; [exact S1|]. split; [exact S2|]. split; [exact S3|]. split; [exact S4|]. split; [exact S5|].
  split; [intros E; now apply S6|]. split; [exact S7|].
  split; [rewrite corrections_length, batches_length; reflexivity|].
  split; [apply batches_good; [constructor|now apply chunks_bytes]|].
  rewrite concat_batches by reflexivity. cbn [app]. now rewrite concat_chunks.
Qed.
