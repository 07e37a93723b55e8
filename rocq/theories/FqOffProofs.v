(** Proof of C187. *)
From Coq Require Import String List.
From Verif Require Import Base FreqcdModel FreqcdSpec FreqcdExamples FreqcdProofs FreqcdProofs2 FreqcdProofs4 FreqcdProofs5 FreqcdProofs7 FqOffSpec.
Import ListNotations.
Local Open Scope Z_scope.

Lemma corrections_app : forall A B p, corrections p (A ++ B) = corrections p A ++ corrections (freq_after p A) B.
Proof.
  induction A as [|o A IH]; intros B p; [reflexivity|]. cbn [app corrections]. unfold freq_after. cbn [map fold_left]. fold (freq_after (feed p (rx_freq o)) A).
  rewrite IH. destruct (rx o); reflexivity.
Qed.
Lemma freq_after_app p A B : freq_after p (A ++ B) = freq_after (freq_after p A) B.
Proof. unfold freq_after. now rewrite map_app, fold_left_app. Qed.
Lemma freq_after_none : forall B p, Forall (fun o => rx_freq o = []) B -> freq_after p B = p.
Proof. induction B as [|o B IH]; intros p H; [reflexivity|]. inv H. unfold freq_after. cbn [map fold_left]. rewrite H2. apply IH. assumption. Qed.
Lemma zero_tail : forall bs K, Forall (fun b => b <> []) bs -> concat (corrected K (repeat 0 (length bs)) bs) = map (fun t => t + c_acc K) (concat bs).
Proof.
  induction bs as [|b bs IH]; intros K NE; [reflexivity|]. inv NE. cbn [length repeat corrected concat]. rewrite IH by assumption. rewrite map_app. destruct b as [|t0 b]; [congruence|].
  f_equal.
  - unfold batch_times. apply map_ext. intros t. rewrite shift_f0. lia.
  - unfold batch_clock. cbv zeta. cbn [c_acc]. rewrite shift_f0. apply map_ext. intros t. lia.
Qed.
Lemma last_map_ne {X Y} (g : X -> Y) l d d' : l <> [] -> List.last (map g l) d = g (List.last l d').
Proof. induction l as [|x [|y l] IH]; intros H; [congruence|reflexivity|]. change (List.last (map g (y :: l)) d = g (List.last (y :: l) d')). apply IH. discriminate. Qed.
Lemma last_app_ne {X} (a b : list X) d : b <> [] -> List.last (a ++ b) d = List.last b d.
Proof.
  intros H. induction a as [|x a IH]; [reflexivity|]. cbn [app]. destruct (a ++ b) as [|y l] eqn:E; [apply app_eq_nil in E; tauto|].
  change (List.last (x :: y :: l) d) with (List.last (y :: l) d). exact IH.
Qed.
Lemma last_any {X} (l : list X) d d' : l <> [] -> List.last l d = List.last l d'.
Proof. induction l as [|x [|y l] IH]; intros H; [congruence|reflexivity|]. change (List.last (y :: l) d = List.last (y :: l) d'). apply IH. discriminate. Qed.
Lemma acc_is_last : forall fs bs K, length fs = length bs -> Forall (fun b => b <> []) bs -> bs <> [] ->
  List.last (concat (corrected K fs bs)) 0 = List.last (concat bs) 0 + c_acc (clock_after K fs bs).
Proof.
  induction fs as [|f fs IH]; intros [|b bs] K L NE NN; try discriminate; [congruence|]. inv NE. cbn [corrected clock_after concat].
  destruct bs as [|b2 bs].
  - destruct fs; [|discriminate]. cbn [corrected concat clock_after]. rewrite !app_nil_r. destruct b as [|t0 b]; [congruence|]. unfold batch_times, batch_clock. cbv zeta. cbn [c_acc].
    rewrite (last_map_ne _ _ _ 0) by discriminate.
    rewrite (last_any (t0 :: b) t0 0) by discriminate. lia.
  - assert (NE2 : concat (b2 :: bs) <> []) by (inv H2; destruct b2; [congruence|discriminate]).
    rewrite (last_app_ne b) by exact NE2. rewrite last_app_ne; [apply IH; [now injection L|assumption|discriminate]|].
    destruct fs as [|f2 fs]; [discriminate|]. cbn [corrected concat]. inv H2. destruct b2; [congruence|]. discriminate.
Qed.
Lemma c187 lg junk ib ob fb f ts s' A B : alloc_ok ib ob fb ->
  freqcd true lg junk ib ob fb true f ts = Ok (s', A ++ B, Running) -> off_after lg ts s' A B ->
  exists times, written_with lg A B times (fun t => t + (List.last times 0 - List.last (map (ev_time lg) (groups (received A))) 0)).
Proof.
  intros AO E (TK & ERC & NB & F0 & GA). pose proof (freqcd_spec true lg junk ib ob fb true f ts AO TK) as S. rewrite E in S.
  destruct S as (_ & FC & _ & _ & _ & _ & _ & L & _ & CB). destruct (freqcd_exact _ _ _ _ _ _ _ _ _ _ _ AO TK E) as [_ W]. specialize (W eq_refl). cbv zeta in W.
  rewrite corrected_stream_times, CB in W by assumption.
  rewrite freq_after_app, freq_after_none in FC by assumption.
  set (p := freq_after ([], f) A) in *. assert (EP : p = (fst p, 0)) by (destruct p; cbn [snd fst] in *; congruence).
  rewrite corrections_app in W, L. fold p in W, L. rewrite EP, (corrections_fixed 0 _ _ NB) in W, L.
  rewrite chunks_app in W, L, CB, ERC. pose proof (erc_batches _ _ ERC) as NE0.
  rewrite batches_app in W, L, CB, NE0 by reflexivity. rewrite app_nil_l in W, L, CB, NE0.
  set (bsA := batches [] (chunks A)) in *. set (bsB := batches (leftover (concat (chunks A))) (chunks B)) in *.
  assert (LA : length (corrections ([], f) A) = length bsA) by (unfold bsA; rewrite corrections_length, batches_length; reflexivity).
  assert (LB : length (chunks B) = length bsB) by (unfold bsB; now rewrite batches_length).
  assert (CA : concat bsA = groups (received A)) by (unfold bsA; rewrite concat_batches by reflexivity; cbn [app]; now rewrite concat_chunks).
  apply Forall_app in NE0 as [NA NBB]. apply (map_nonempty lg) in NA. apply (map_nonempty lg) in NBB.
  rewrite map_app, corrected_app in W by (rewrite map_length; exact LA).
  set (tA := map (map (ev_time lg)) bsA) in *. set (tB := map (map (ev_time lg)) bsB) in *.
  assert (LB' : length (chunks B) = length tB) by (unfold tB; now rewrite map_length). rewrite LB' in W.
  rewrite concat_app in W. rewrite zero_tail in W by assumption.
  set (cA := concat (corrected (clock0 junk) (corrections ([], f) A) tA)) in *.
  assert (TA : concat tA = map (ev_time lg) (groups (received A))) by (unfold tA; rewrite times_concat, CA; reflexivity).
  assert (LC : length cA = length (groups (received A))).
  { rewrite <- (map_length (ev_time lg)), <- TA. unfold cA. clear - LA. assert (LA' : length (corrections ([], f) A) = length tA) by (unfold tA; now rewrite map_length).
    pose proof (corrected_lengths _ _ (clock0 junk) LA') as CL. revert CL. generalize (corrected (clock0 junk) (corrections ([], f) A) tA) as u. generalize tA as v.
    induction 1; [reflexivity|]. cbn [concat]. rewrite !app_length. lia. }
  exists cA. split; [exact LC|].
  assert (ALL : map (ev_time lg) (groups (received (A ++ B))) = concat tA ++ concat tB) by (rewrite <- CB, concat_app, map_app; unfold tA, tB; now rewrite !times_concat).
  assert (LT : length cA = length (concat tA)) by (rewrite LC, TA, map_length; reflexivity).
  rewrite ALL, skipn_app, LT, skipn_all, Nat.sub_diag. cbn [app skipn].
  assert (AC : List.last cA 0 - List.last (map (ev_time lg) (groups (received A))) 0 = c_acc (clock_after (clock0 junk) (corrections ([], f) A) tA)).
  { rewrite <- TA. unfold cA. rewrite acc_is_last; [lia|unfold tA; now rewrite map_length|exact NA|]. intros Z. rewrite Z in TA. cbn in TA. symmetry in TA. apply map_eq_nil in TA. contradiction. }
  rewrite AC. exact W.
Qed.
(** test case 2 of tests/freqcd/test_freqcd_update.py *)
Definition first187 : list Z := ev 0 1 ++ ev 1000000000 1 ++ ev 2000000000 1.
Definition later187 : list Z := ev 3000000000 1 ++ ev 4000000000 1.
Definition ticks187 : list tick := [rdin first187; rdfq (line "0"); rdin later187].
Definition moved187 : list Z := ev 0 1 ++ ev 1000058207 1 ++ ev 2000116415 1 ++ ev 3000116415 1 ++ ev 4000116415 1.
Lemma run187 : exists s' a b c, runF 1000000 ticks187 = Ok (s', [a; b] ++ [c], Running) /\ written [a; b; c] = moved187 /\ off_after false ticks187 s' [a; b] [c] /\
  received [a; b] = first187 /\ received [a; b; c] = first187 ++ later187.
Proof.
  destruct (runF 1000000 ticks187) as [[[s os] st]|] eqn:E; [|vm_compute in E; discriminate E].
  assert (H : match runF 1000000 ticks187 with Ok (s, [a; b; c], Running) => written [a; b; c] = moved187 /\ fcorr s = 0 /\ rx_freq c = [] /\ rx a = first187 /\ rx b = [] /\ rx c = later187 | _ => False end) by (vm_compute; repeat split).
  rewrite E in H. destruct os as [|a [|b [|c [|]]]]; try contradiction. destruct st; try contradiction. destruct H as (W & F & N & R1 & R2 & R3).
  exists s, a, b, c. split; [reflexivity|]. split; [exact W|]. unfold received. cbn [map concat]. rewrite R1, R2, R3. split; [|split; reflexivity].
  unfold off_after. split; [apply ticks_okb; vm_compute; reflexivity|]. unfold chunks, rxs, received. cbn [app map concat]. rewrite R1, R2, R3.
  split; [vm_compute; repeat split; discriminate|]. split; [repeat constructor; exact N|]. split; [exact F|]. vm_compute. discriminate.
Qed.
Lemma c187_refuted : ~ C187_statement.
Proof.
  intros F. destruct run187 as (s' & a & b & c & R & W & O & G1 & G2).
  destruct (F false None IB IB FB 1000000 ticks187 s' [a; b] [c] alloc_example R O) as (times & LT & WT). cbn [app] in WT. rewrite W, G2 in WT. rewrite G1 in LT.
  destruct times as [|t1 [|t2 [|t3 [|]]]]; try discriminate LT.
  apply (f_equal (fun l => drop 24 l)) in WT. cbn [app length skipn map] in WT.
  unfold first187, later187, moved187 in WT.
  change (groups ((ev 0 1 ++ ev 1000000000 1 ++ ev 2000000000 1) ++ ev 3000000000 1 ++ ev 4000000000 1)) with [ev 0 1; ev 1000000000 1; ev 2000000000 1; ev 3000000000 1; ev 4000000000 1] in WT.
  cbn [map skipn retime concat] in WT.
  set (x1 := mk_event _ t1 _) in WT. set (x2 := mk_event _ t2 _) in WT. set (x3 := mk_event _ t3 _) in WT.
  assert (L1 : len x1 = 8) by apply mk_event_len. assert (L2 : len x2 = 8) by apply mk_event_len. assert (L3 : len x3 = 8) by apply mk_event_len.
  clearbody x1 x2 x3. unfold drop in WT. change (Z.to_nat 24) with (8 + (8 + (8 + 0)))%nat in WT.
  assert (SK : forall x (l : list Z) n, len x = 8 -> skipn (8 + n) (x ++ l) = skipn n l).
  { intros x l n LX. rewrite skipn_app. unfold len in LX. rewrite (skipn_all2 x) by lia. cbn [app]. f_equal. lia. }
  rewrite (SK x1 _ _ L1), (SK x2 _ _ L2), (SK x3 _ _ L3) in WT. vm_compute in WT. discriminate WT.
Qed.
