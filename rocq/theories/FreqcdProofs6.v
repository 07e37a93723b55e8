(** Frequency lines, legacy mode, and the remaining freqcd properties. *)
From Verif Require Import Base FreqcdModel FreqcdSpec FreqcdProofs FreqcdProofs2 FreqcdProofs3 FreqcdProofs4 FreqcdProofs5.
From Coq Require Import ZifyBool.
Ltac Zify.zify_post_hook ::= Z.div_mod_to_equations.

(** ** Numbers *)
Lemma is_space_blank c : is_space c = true <-> blank c.
Proof. unfold is_space, blank. lia. Qed.
Lemma is_digit_digit c : is_digit c = true <-> digit c.
Proof. unfold is_digit, digit. lia. Qed.
Lemma skip_spaces_app ws r : Forall blank ws -> (match r with c :: _ => ~ blank c | [] => True end) ->
  skip_spaces (ws ++ r) = r.
Proof.
  induction 1 as [|c ws B _ IH]; intros H; cbn.
  - destruct r as [|c r]; [reflexivity|]. cbn. destruct (is_space c) eqn:E; [|reflexivity].
    apply is_space_blank in E. easy.
  - apply is_space_blank in B. rewrite B. now apply IH.
Qed.
Lemma skip_spaces_inv : forall s, exists ws, s = ws ++ skip_spaces s /\ Forall blank ws.
Proof.
  induction s as [|c s [ws [E B]]]; cbn; [now exists []|].
  destruct (is_space c) eqn:EC.
  - exists (c :: ws). split; [cbn; congruence|]. constructor; [now apply is_space_blank|assumption].
  - exists []. split; [reflexivity|constructor].
Qed.
Lemma scan_digits_all : forall ds acc any, Forall digit ds ->
  scan_digits ds acc any = (fold_left (fun n c => 10 * n + (c - 48)) ds acc, any || nonempty ds, []).
Proof.
  induction ds as [|c ds IH]; intros acc any H; cbn; [now rewrite orb_false_r|]. inv H.
  apply is_digit_digit in H2. rewrite H2, IH by assumption. now rewrite orb_true_r.
Qed.
Lemma scan_digits_inv : forall s acc any n any' rest, scan_digits s acc any = (n, any', rest) ->
  exists ds, s = ds ++ rest /\ Forall digit ds /\ n = fold_left (fun n c => 10 * n + (c - 48)) ds acc /\
  any' = any || nonempty ds.
Proof.
  induction s as [|c s IH]; intros acc any n any' rest H; cbn in H.
  - inv H. exists []. repeat split; auto. now rewrite orb_false_r.
  - destruct (is_digit c) eqn:E.
    + apply IH in H as (ds & -> & D & -> & ->). exists (c :: ds). repeat split; auto.
      * constructor; [now apply is_digit_digit|assumption].
      * cbn. now rewrite orb_true_r.
    + inv H. exists []. repeat split; auto. now rewrite orb_false_r.
Qed.
Definition clampl (v : Z) : Z := Z.max LONG_MIN (Z.min LONG_MAX v).
Lemma digit_not_blank c : digit c -> ~ blank c. Proof. unfold digit, blank. lia. Qed.
Lemma strtol_denotes line v : denotes line v -> strtol line = (true, clampl v, []).
Proof.
  intros [ws sg ds -> B D NE S]. unfold strtol.
  rewrite skip_spaces_app; [|assumption|].
  2:{ destruct ds as [|d ds]; [congruence|]. inv D.
      destruct S as [[[->| ->] _]|[-> _]]; cbn; [now apply digit_not_blank|unfold blank; lia|unfold blank; lia]. }
  pose proof (scan_digits_all ds 0 false D) as SD. fold (decimal ds) in SD.
  assert (NN : nonempty ds = true) by (destruct ds; [congruence|reflexivity]). rewrite NN in SD. cbn [orb] in SD.
  destruct S as [[[->| ->] ->]|[-> ->]]; cbn [app].
  - destruct ds as [|d ds']; [congruence|]. inv D. unfold digit in H1.
    replace (d =? 45) with false by lia. replace (d =? 43) with false by lia. now rewrite SD.
  - cbn [Z.eqb Pos.eqb]. now rewrite SD.
  - cbn [Z.eqb Pos.eqb]. now rewrite SD.
Qed.
Lemma strtol_inv line w : strtol line = (true, w, []) -> exists v, denotes line v /\ w = clampl v.
Proof.
  unfold strtol. destruct (skip_spaces_inv line) as (ws & E & B).
  destruct (skip_spaces line) as [|c r] eqn:SS.
  - cbn. discriminate.
  - destruct (c =? 45) eqn:C1.
    + assert (c = 45) by lia. subst c. destruct (scan_digits r 0 false) as [[n any] rest] eqn:SD.
      destruct any; [|discriminate]. intros H; injection H as <- ->.
      apply scan_digits_inv in SD as (ds & E2 & D & -> & NN). rewrite app_nil_r in E2. subst r.
      exists (- decimal ds). split; [|reflexivity]. apply (Denotes _ _ ws [45] ds); auto.
      destruct ds; [discriminate|congruence].
    + destruct (c =? 43) eqn:C2.
      * assert (c = 43) by lia. subst c. destruct (scan_digits r 0 false) as [[n any] rest] eqn:SD.
        destruct any; [|discriminate]. intros H; injection H as <- ->.
        apply scan_digits_inv in SD as (ds & E2 & D & -> & NN). rewrite app_nil_r in E2. subst r.
        exists (decimal ds). split; [|reflexivity]. apply (Denotes _ _ ws [43] ds); auto.
        destruct ds; [discriminate|congruence].
      * destruct (scan_digits (c :: r) 0 false) as [[n any] rest] eqn:SD.
        destruct any; [|discriminate]. intros H; injection H as <- ->.
        apply scan_digits_inv in SD as (ds & E2 & D & -> & NN). rewrite app_nil_r in E2.
        exists (decimal ds). split; [|reflexivity]. apply (Denotes _ _ ws [] ds); auto.
        -- now rewrite <- E2.
        -- destruct ds; [discriminate|congruence].
Qed.
Lemma upto0_plain line : Forall (fun c => c <> 0) line -> upto0 line = line.
Proof. induction 1; cbn; [reflexivity|]. replace (x =? 0) with false by lia. now rewrite IHForall. Qed.
Lemma denotes_fun line v w : denotes line v -> denotes line w -> clampl v = clampl w.
Proof. intros H1 H2. apply strtol_denotes in H1, H2. congruence. Qed.

Lemma line_update_spec f line : plain_line line -> after_line f line (line_update f line).
Proof.
  intros [NZ RNG]. unfold line_update. rewrite upto0_plain by assumption.
  unfold readint. destruct (strtol line) as [[moved w] rest] eqn:S.
  destruct (moved && match rest with [] => true | _ => false end) eqn:C.
  - destruct moved; [|discriminate]. destruct rest; [|discriminate]. cbn [andb].
    apply strtol_inv in S as (v & D & ->).
    specialize (RNG v D). assert (CL : clampl v = v) by (unfold clampl, LONG_MIN, LONG_MAX; lia).
    rewrite CL. assert (SV : s32 v = v) by (unfold s32; lia). rewrite SV.
    unfold abs32, INT_MAX. change FCORR_MAX with (2 ^ 21).
    destruct (v =? - 2 ^ 31) eqn:E1; [lia|]. destruct (Z.abs v <? 2 ^ 31 - 1) eqn:E2.
    + rewrite E1. destruct (Z.abs v <? 2 ^ 21) eqn:E3; [left; split; [assumption|lia]|].
      right. split; [|reflexivity]. intros u [Du Bu]. pose proof (denotes_fun _ _ _ D Du).
      unfold clampl, LONG_MIN, LONG_MAX in *. lia.
    + replace (2 ^ 31 - 1 =? - 2 ^ 31) with false by lia.
      replace (Z.abs (2 ^ 31 - 1) <? 2 ^ 21) with false by lia.
      right. split; [|reflexivity]. intros u [Du Bu]. pose proof (denotes_fun _ _ _ D Du).
      unfold clampl, LONG_MIN, LONG_MAX in *. lia.
  - cbn [andb]. right. split; [|reflexivity].
    intros u [Du _]. apply strtol_denotes in Du. rewrite S in Du. inv Du. discriminate.
Qed.
(** A line that is not a number at all is ignored. *)
Lemma line_update_malformed f line : Forall (fun c => c <> 0) line -> (forall v, ~ denotes line v) ->
  line_update f line = f.
Proof.
  intros NZ ND. destruct (line_update_spec f line) as [[D _]|[_ E]]; [|now apply ND in D|assumption].
  split; [assumption|]. intros v D. now apply ND in D.
Qed.
Lemma line_update_range f line : f = - 2 ^ 31 \/ small f ->
  line_update f line = - 2 ^ 31 \/ small (line_update f line).
Proof.
  intros H. unfold line_update, small. set (v := readint (upto0 line)). unfold abs32.
  change FCORR_MAX with (2 ^ 21).
  destruct (v =? - 2 ^ 31) eqn:E; [|destruct (Z.abs v <? 2 ^ 21) eqn:E2; [right; lia|assumption]].
  replace (- 2 ^ 31 <? 2 ^ 21) with true by lia. left. lia.
Qed.

(** ** The frequency stream *)
Lemma split_lines_concat : forall a cur b,
  split_lines cur (a ++ b) =
  let '(l1, r1) := split_lines cur a in let '(l2, r2) := split_lines r1 b in (l1 ++ l2, r2).
Proof.
  induction a as [|c a IH]; intros cur b; cbn [app split_lines].
  - now destruct (split_lines cur b).
  - destruct (newline =? c).
    + rewrite IH. destruct (split_lines [] a) as [l1 r1]. destruct (split_lines r1 b). reflexivity.
    + apply IH.
Qed.
Lemma split_lines_self l : snd (split_lines [] l) = [] ++ snd (split_lines [] l). Proof. reflexivity. Qed.

Lemma feed_fold f0 : forall ds done f,
  has_newline (snd (split_lines [] done)) = false ->
  f = fold_left line_update (fst (split_lines [] done)) f0 ->
  fold_left feed ds (snd (split_lines [] done), f) =
  (snd (split_lines [] (done ++ concat (filter has_newline ds))),
   fold_left line_update (fst (split_lines [] (done ++ concat (filter has_newline ds)))) f0).
Proof.
  induction ds as [|d ds IH]; intros done f NL ->; cbn [fold_left filter].
  - cbn [concat]. now rewrite app_nil_r.
  - unfold feed at 2. cbn [fst snd]. destruct (has_newline d) eqn:HN; [|now apply IH].
    cbn [concat]. rewrite app_assoc. rewrite <- (IH (done ++ d) (fold_left line_update (fst (split_lines [] (done ++ d))) f0)).
    + f_equal. rewrite (split_lines_concat done [] d). destruct (split_lines [] done) as [l1 r1] eqn:S1. cbn [fst snd] in *.
      rewrite (split_lines_app r1 [] d) by assumption. cbn [app]. destruct (split_lines r1 d) as [l2 r2]. cbn [fst snd].
      now rewrite fold_left_app.
    + now apply split_lines_rest.
    + reflexivity.
Qed.
Lemma freq_after_spec fc os :
  snd (freq_after ([], fc) os) =
  fold_left line_update (lines (concat (filter has_newline (map rx_freq os)))) fc.
Proof.
  unfold freq_after, lines. pose proof (feed_fold fc (map rx_freq os) [] fc eq_refl eq_refl) as F.
  cbn [split_lines snd app] in F. now rewrite F.
Qed.

Lemma freqcd_fcorr strict lg junk ib ob fb fg fc ts s' os st :
  alloc_ok ib ob fb -> Forall tick_ok ts ->
  freqcd strict lg junk ib ob fb fg fc ts = Ok (s', os, st) ->
  fcorr s' = fold_left line_update (lines (concat (filter has_newline (map rx_freq os)))) fc.
Proof.
  intros A T E. pose proof (freqcd_spec strict lg junk ib ob fb fg fc ts A T) as S. rewrite E in S.
  destruct S as (_ & F & _). rewrite F. apply freq_after_spec.
Qed.
Lemma after_lines_fold : forall ls f, Forall plain_line ls -> after_lines f ls (fold_left line_update ls f).
Proof.
  induction ls as [|l ls IH]; intros f H; cbn; [constructor|]. inv H.
  econstructor; [now apply line_update_spec|]. now apply IH.
Qed.
Lemma freqcd_freq_lines strict lg junk ib ob fb fg fc ts s' os st :
  alloc_ok ib ob fb -> Forall tick_ok ts ->
  freqcd strict lg junk ib ob fb fg fc ts = Ok (s', os, st) ->
  Forall (fun o => rx_freq o = [] \/ has_newline (rx_freq o) = true) os ->
  Forall plain_line (lines (received_freq os)) ->
  after_lines fc (lines (received_freq os)) (fcorr s').
Proof.
  intros A T E NL PL. rewrite (freqcd_fcorr _ _ _ _ _ _ _ _ _ _ _ _ A T E).
  replace (concat (filter has_newline (map rx_freq os))) with (received_freq os).
  - now apply after_lines_fold.
  - unfold received_freq. clear - NL. induction NL as [|o os H _ IH]; cbn; [reflexivity|].
    destruct H as [->|H]; [cbn; exact IH|]. rewrite H. cbn. now rewrite IH.
Qed.
Lemma freqcd_fcorr_range strict lg junk ib ob fb fg fc ts s' os st :
  alloc_ok ib ob fb -> Forall tick_ok ts -> small fc ->
  freqcd strict lg junk ib ob fb fg fc ts = Ok (s', os, st) ->
  small (fcorr s') \/ fcorr s' = - 2 ^ 31.
Proof.
  intros A T S E. rewrite (freqcd_fcorr _ _ _ _ _ _ _ _ _ _ _ _ A T E).
  generalize (lines (concat (filter has_newline (map rx_freq os)))). intros ls.
  assert (fc = - 2 ^ 31 \/ small fc) as H by auto. clear S E.
  revert fc H. induction ls as [|l ls IH]; intros fc H; cbn; [tauto|]. apply IH. now apply line_update_range.
Qed.

(** ** Legacy mode *)
Lemma ev_time_swap ev : len ev = 8 -> ev_time true (swap_words ev) = ev_time false ev.
Proof. intros L. unfold ev_time, ev_value. now rewrite swap_words_invol. Qed.
Lemma ev_flags_swap ev : len ev = 8 -> ev_flags true (swap_words ev) = ev_flags false ev.
Proof. intros L. unfold ev_flags, ev_value. now rewrite swap_words_invol. Qed.
Lemma good_swap ev : good_ev ev -> good_ev (swap_words ev).
Proof.
  intros [B L]. split; [|now apply swap_words_len].
  apply Forall_app; split; [now apply Forall_drop|now apply Forall_take].
Qed.
Lemma correct_event_swap strict f ref ovf ev : good_ev ev ->
  correct_event strict true f ref ovf (swap_words ev) =
  (let* (ev', m, c) := correct_event strict false f ref ovf ev in Ok (swap_words ev', m, c)).
Proof.
  intros G. pose proof (good_swap ev G) as [B' L']. destruct G as [B L].
  rewrite !correct_event_spec by assumption. rewrite ev_time_swap, ev_flags_swap by assumption.
  destruct (signed64 strict _); reflexivity.
Qed.
Lemma correct_all_swap strict f ref ovf : forall evs lst, Forall good_ev evs ->
  correct_all strict true f ref ovf (map swap_words evs) lst =
  (let* (evs', l') := correct_all strict false f ref ovf evs lst in Ok (map swap_words evs', l')).
Proof.
  induction evs as [|ev evs IH]; intros lst G; [reflexivity|]. inv G. cbn [map correct_all].
  rewrite correct_event_swap by assumption.
  destruct (correct_event strict false f ref ovf ev) as [[[ev' m] c]|]; [|reflexivity]. cbn [bind].
  fold (correct_all strict true f ref ovf). fold (correct_all strict false f ref ovf). rewrite IH by assumption.
  destruct (correct_all strict false f ref ovf evs (Some (m, c))) as [[? ?]|]; reflexivity.
Qed.
Lemma input_clock_swap strict f k evs : Forall good_ev evs ->
  input_clock strict true f k (map swap_words evs) =
  (let* (evs', k') := input_clock strict false f k evs in Ok (map swap_words evs', k')).
Proof.
  intros G. destruct k as [[[ref isset] ovf] lst]. unfold input_clock.
  assert (E : match map swap_words evs with [] => (ref, isset) | ev :: _ => if isset then (ref, isset) else (ev_time true ev, true) end
    = match evs with [] => (ref, isset) | ev :: _ => if isset then (ref, isset) else (ev_time false ev, true) end).
  { destruct evs as [|ev evs]; [reflexivity|]. cbn. inv G. rewrite ev_time_swap by apply H1. reflexivity. }
  rewrite E. destruct (match evs with [] => _ | _ => _ end) as [ref' isset'].
  rewrite correct_all_swap by assumption.
  destruct (correct_all strict false f ref' ovf evs lst) as [[evs' l']|]; [|reflexivity]. cbn [bind].
  destruct l' as [[m c]|]; [|reflexivity]. destruct (signed64 strict (ovf + c)); reflexivity.
Qed.
Lemma clock_run_swap strict : forall fs k bs, Forall (Forall good_ev) bs ->
  clock_run strict true fs k (map (map swap_words) bs) =
  (let* (outs, k') := clock_run strict false fs k bs in Ok (map (map swap_words) outs, k')).
Proof.
  induction fs as [|f fs IH]; intros k [|b bs] G; cbn; try reflexivity. inv G.
  rewrite input_clock_swap by assumption. destruct (input_clock strict false f k b) as [[e k1]|]; [|reflexivity]. cbn [bind].
  rewrite IH by assumption. destruct (clock_run strict false fs k1 bs) as [[? ?]|]; reflexivity.
Qed.

Lemma batches_lens : forall cs1 cs2 p1 p2, map len cs1 = map len cs2 -> len p1 = len p2 ->
  map len (batches p1 cs1) = map len (batches p2 cs2).
Proof.
  induction cs1 as [|c1 cs1 IH]; intros [|c2 cs2] p1 p2 H P; cbn in *; try discriminate; [reflexivity|].
  injection H as H1 H2. rewrite !len_groups, !len_app. f_equal; [congruence|].
  apply IH; [assumption|]. rewrite !len_leftover, !len_app. congruence.
Qed.
Lemma concat_swap_inj : forall (bs1 bs2 : list (list (list Z))), map len bs1 = map len bs2 ->
  concat bs2 = map swap_words (concat bs1) -> bs2 = map (map swap_words) bs1.
Proof.
  induction bs1 as [|b1 bs1 IH]; intros [|b2 bs2] L E; cbn in *; try discriminate; [reflexivity|].
  injection L as L1 L2. rewrite map_app in E.
  assert (length b2 = length (map swap_words b1)) as LB by (rewrite map_length; unfold len in L1; lia).
  assert (b2 = map swap_words b1 /\ concat bs2 = map swap_words (concat bs1)) as [-> E2].
  { revert LB E. generalize (map swap_words b1). clear. induction b2 as [|x b2 IH]; intros [|y l] LB E; cbn in *; try discriminate; [auto|].
    injection E as -> E. destruct (IH l) as [-> E2]; auto. }
  f_equal. now apply IH.
Qed.
Lemma corrections_same : forall os1 os2 p,
  Forall2 (fun o1 o2 => len (rx o1) = len (rx o2) /\ rx_freq o1 = rx_freq o2) os1 os2 ->
  corrections p os1 = corrections p os2 /\ map len (chunks os1) = map len (chunks os2).
Proof.
  intros os1 os2 p H. revert p. induction H as [|o1 o2 os1 os2 [L F] _ IH]; intros p; [split; reflexivity|].
  cbn [corrections]. destruct (IH (feed p (rx_freq o2))) as [E1 E2]. rewrite F, E1.
  unfold chunks, rxs in *. cbn [map filter].
  destruct (rx o1) as [|a l1] eqn:R1, (rx o2) as [|b l2] eqn:R2; cbn [nonempty map].
  - auto.
  - exfalso. unfold len in L. cbn [length] in L. lia.
  - exfalso. unfold len in L. cbn [length] in L. lia.
  - split; [reflexivity|]. congruence.
Qed.
Lemma correct_len8 strict lg : forall fs k bs outs k', clock_run strict lg fs k bs = Ok (outs, k') ->
  Forall (fun ev => len ev = 8) (concat outs).
Proof.
  induction fs as [|f fs IH]; intros k [|b bs] outs k' H; cbn in H; try (inv H; constructor).
  destruct (input_clock strict lg f k b) as [[e k1]|] eqn:E; [|discriminate]. cbn [bind] in H.
  destruct (clock_run strict lg fs k1 bs) as [[o k2]|] eqn:E2; [|discriminate]. inv H.
  cbn. apply Forall_app. split; [|now apply IH in E2].
  unfold input_clock in E. destruct k as [[[ref isset] ovf] lst].
  destruct (match b with [] => _ | _ => _ end) as [ref' isset'].
  destruct (correct_all strict lg f ref' ovf b lst) as [[evs' l']|] eqn:CA; [|discriminate]. cbn [bind] in E.
  destruct l' as [[m c]|]; [|discriminate]. destruct (signed64 strict (ovf + c)); [|discriminate].
  cbn in E. assert (evs' = e) by congruence. subst. now apply correct_all_len in CA as [? _].
Qed.
Lemma freqcd_legacy strict junk ib1 ob1 fb1 ib2 ob2 fb2 fg fc ts1 ts2 s1 os1 s2 os2 :
  alloc_ok ib1 ob1 fb1 -> alloc_ok ib2 ob2 fb2 -> Forall tick_ok ts1 -> Forall tick_ok ts2 ->
  freqcd strict false junk ib1 ob1 fb1 fg fc ts1 = Ok (s1, os1, Running) ->
  freqcd strict true junk ib2 ob2 fb2 fg fc ts2 = Ok (s2, os2, Running) ->
  Forall2 (fun o1 o2 => len (rx o1) = len (rx o2) /\ rx_freq o1 = rx_freq o2) os1 os2 ->
  groups (received os2) = map swap_words (groups (received os1)) ->
  groups (written os2) = map swap_words (groups (written os1)) /\ len (written os2) = len (written os1).
Proof.
  intros A1 A2 T1 T2 E1 E2 SM RC.
  pose proof (freqcd_spec strict false junk ib1 ob1 fb1 fg fc ts1 A1 T1) as S1. rewrite E1 in S1.
  pose proof (freqcd_spec strict true junk ib2 ob2 fb2 fg fc ts2 A2 T2) as S2. rewrite E2 in S2.
  destruct S1 as ((outs1 & CR1 & _ & W1) & _ & _ & _ & _ & _ & _ & L1 & G1 & CB1).
  destruct S2 as ((outs2 & CR2 & _ & W2) & _ & _ & _ & _ & _ & _ & L2 & G2 & CB2).
  rewrite W1, W2 by reflexivity.
  destruct (corrections_same os1 os2 ([], fc) SM) as [CE CL].
  assert (BE : batches [] (chunks os2) = map (map swap_words) (batches [] (chunks os1))).
  { apply concat_swap_inj; [now apply batches_lens|]. now rewrite CB1, CB2. }
  rewrite BE, <- CE, clock_run_swap, CR1 in CR2 by assumption. cbn [bind] in CR2. injection CR2 as <- _.
  pose proof (correct_len8 _ _ _ _ _ _ _ CR1) as H8.
  assert (CC : concat (map (map swap_words) outs1) = map swap_words (concat outs1)).
  { clear. induction outs1; cbn; [reflexivity|]. now rewrite map_app, IHouts1. }
  rewrite CC. rewrite !groups_concat'; auto.
  - split; [reflexivity|]. rewrite !concat_len_8; auto; [now rewrite len_map|].
    clear - H8. induction H8; cbn; constructor; auto. now apply swap_words_len.
  - clear - H8. induction H8; cbn; constructor; auto. now apply swap_words_len.
Qed.

(** ** Two splits of one stream *)
Lemma accurate_le f t0 n m t t' : n <= m -> accurate f t0 n t t' -> accurate f t0 m t t'.
Proof. unfold accurate. nia. Qed.
Lemma Forall2_concat_nth {A B} (R : A -> B -> Prop) : forall l m, length l = length m ->
  (forall i, (i < length l)%nat -> Forall2 R (nth i l []) (nth i m [])) -> Forall2 R (concat l) (concat m).
Proof.
  induction l as [|x l IH]; intros [|y m] L H; cbn in *; try discriminate; [constructor|].
  apply Forall2_app.
  - apply (H O). lia.
  - apply IH; [lia|]. intros i Hi. apply (H (S i)). lia.
Qed.
Lemma freqcd_accurate_flat lg junk ib ob fb f ts s' os st :
  alloc_ok ib ob fb -> Forall tick_ok ts -> small f ->
  freqcd true lg junk ib ob fb false f ts = Ok (s', os, st) ->
  every_read_completes [] (chunks os) ->
  nondecr (map (ev_time lg) (groups (received os))) ->
  exists times, 
    (forall t0, hd_error (map (ev_time lg) (groups (received os))) = Some t0 ->
       Forall2 (accurate f t0 (len (chunks os))) (map (ev_time lg) (groups (received os))) times) /\
    length times = length (groups (received os)) /\
    prefix (written os) (concat (retime lg (groups (received os)) times)) /\
    (st = Running -> written os = concat (retime lg (groups (received os)) times)).
Proof.
  intros A T SM E C N. pose proof (freqcd_spec true lg junk ib ob fb false f ts A T) as S. rewrite E in S.
  destruct S as (_ & _ & _ & _ & _ & NF & _ & L & G & CB).
  destruct (freqcd_accurate lg junk ib ob fb f ts s' os st A T SM E C N) as (tss & LT & AC & P & W).
  rewrite times_concat, CB in AC.
  assert (H : forall t0, hd_error (map (ev_time lg) (groups (received os))) = Some t0 ->
     Forall2 (accurate f t0 (len (chunks os))) (map (ev_time lg) (groups (received os))) (concat tss)).
  { intros t0 HD. rewrite <- CB, <- times_concat. apply Forall2_concat_nth; [lia|].
    intros i Hi. specialize (AC i t0 HD). rewrite map_length, batches_length in Hi.
    clear - AC Hi. induction AC; constructor; auto. eapply accurate_le; [|eassumption]. unfold len. lia. }
  destruct (groups (received os)) as [|g gs] eqn:GE.
  - exists []. split; [discriminate|]. split; [reflexivity|]. auto.
  - exists (concat tss). split; [exact H|]. split; [|auto].
    specialize (H _ eq_refl). apply Forall2_length' in H. now rewrite map_length in H.
Qed.
