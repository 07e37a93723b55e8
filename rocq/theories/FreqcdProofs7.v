(** Splitting, short reads and the rollover. *)
From Verif Require Import Base FreqcdModel FreqcdSpec FreqcdProofs FreqcdProofs2 FreqcdProofs3 FreqcdProofs4 FreqcdProofs5 FreqcdProofs6.
From Coq Require Import ZifyBool.
Ltac Zify.zify_post_hook ::= Z.div_mod_to_equations.

Lemma accurate_pair f t0 n1 n2 : forall l a b,
  Forall2 (accurate f t0 n1) l a -> Forall2 (accurate f t0 n2) l b ->
  Forall2 (fun a b => 2 * Z.abs (a - b) < 3 * (n1 + n2)) a b.
Proof.
  intros l a b H1. revert b. induction H1 as [|x y l a Ha _ IH]; intros b H2; inv H2; constructor.
  - unfold accurate in *. clear - Ha H1. generalize dependent (f * (x - t0)). intros z Ha Hb.
    rewrite !Z.mul_sub_distr_l in *. lia.
  - auto.
Qed.
Lemma freqcd_split lg junk1 ib1 ob1 fb1 junk2 ib2 ob2 fb2 f ts1 ts2 s1 os1 s2 os2 :
  alloc_ok ib1 ob1 fb1 -> alloc_ok ib2 ob2 fb2 -> Forall tick_ok ts1 -> Forall tick_ok ts2 -> small f ->
  freqcd true lg junk1 ib1 ob1 fb1 false f ts1 = Ok (s1, os1, Running) ->
  freqcd true lg junk2 ib2 ob2 fb2 false f ts2 = Ok (s2, os2, Running) ->
  received os1 = received os2 ->
  every_read_completes [] (chunks os1) -> every_read_completes [] (chunks os2) ->
  nondecr (map (ev_time lg) (groups (received os1))) ->
  exists times1 times2,
    length times1 = length (groups (received os1)) /\
    written os1 = concat (retime lg (groups (received os1)) times1) /\
    written os2 = concat (retime lg (groups (received os1)) times2) /\
    Forall2 (fun a b => 2 * Z.abs (a - b) < 3 * (len (chunks os1) + len (chunks os2))) times1 times2.
Proof.
  intros A1 A2 T1 T2 SM E1 E2 R C1 C2 N.
  destruct (freqcd_accurate_flat _ _ _ _ _ _ _ _ _ _ A1 T1 SM E1 C1 N) as (t1 & H1 & L1 & _ & W1).
  rewrite R in N.
  destruct (freqcd_accurate_flat _ _ _ _ _ _ _ _ _ _ A2 T2 SM E2 C2 N) as (t2 & H2 & L2 & _ & W2).
  exists t1, t2. specialize (W1 eq_refl). specialize (W2 eq_refl). rewrite R in *.
  split; [assumption|]. split; [assumption|]. split; [assumption|].
  destruct (map (ev_time lg) (groups (received os2))) as [|t0 tl] eqn:ET.
  - apply map_eq_nil in ET. rewrite ET in *. destruct t1, t2; try discriminate. constructor.
  - eapply accurate_pair; [now apply H1|now apply H2].
Qed.

(** ** Short reads *)
Lemma corrections_fixed f p : forall os, Forall (fun o => rx_freq o = []) os ->
  corrections (p, f) os = repeat f (length (chunks os)).
Proof.
  intros os H. rewrite <- (corrections_length os (p, f)). pose proof (corrections_nofreq f p os H) as F.
  revert F. generalize (corrections (p, f) os). induction l; intros F; inv F; cbn; [reflexivity|].
  now rewrite <- IHl.
Qed.
Lemma corrected_app : forall fs1 bs1 fs2 bs2 K, length fs1 = length bs1 ->
  corrected K (fs1 ++ fs2) (bs1 ++ bs2) = corrected K fs1 bs1 ++ corrected (clock_after K fs1 bs1) fs2 bs2.
Proof.
  induction fs1 as [|f fs1 IH]; intros [|b bs1] fs2 bs2 K L; cbn in *; try discriminate; [reflexivity|].
  now rewrite IH by lia.
Qed.
Lemma corrected_offset d : forall fs bs r a l,
  corrected (mkClock r (a + d) l) fs bs = map (map (Z.add d)) (corrected (mkClock r a l) fs bs).
Proof.
  induction fs as [|f fs IH]; intros [|b bs] r a l; cbn [corrected]; try reflexivity.
  cbn [map]. f_equal.
  - unfold batch_times. destruct b as [|t0 b]; [reflexivity|]. rewrite map_map. apply map_ext. intros t.
    unfold ref_of. cbn [c_ref c_acc]. lia.
  - unfold batch_clock, ref_of. destruct b as [|t0 b]; cbn [c_ref c_acc c_last].
    + replace (a + d + l) with (a + l + d) by lia. apply IH.
    + match goal with |- context [a + d + ?x] => replace (a + d + x) with (a + x + d) by lia end. apply IH.
Qed.
Lemma batches_app : forall A B p, leftover p = p -> 
  batches p (A ++ B) = batches p A ++ batches (leftover (p ++ concat A)) B.
Proof.
  induction A as [|c A IH]; intros B p LP; cbn [app batches concat].
  - now rewrite app_nil_r, LP.
  - cbn [app]. f_equal. rewrite IH.
    + f_equal. f_equal. rewrite app_assoc. symmetry. apply leftover_split.
    + rewrite leftover_short; [reflexivity|]. rewrite len_leftover. lia.
Qed.
Lemma groups_nil_leftover l : groups l = [] -> leftover l = l.
Proof. intros H. pose proof (groups_leftover l) as G. rewrite H in G. exact G. Qed.

Lemma freqcd_short_read lg junk ib1 ob1 fb1 ib2 ob2 fb2 f ts1 ts2 s1 os1 s2 os2 A c1 c2 B :
  alloc_ok ib1 ob1 fb1 -> alloc_ok ib2 ob2 fb2 -> Forall tick_ok ts1 -> Forall tick_ok ts2 ->
  freqcd true lg junk ib1 ob1 fb1 false f ts1 = Ok (s1, os1, Running) ->
  freqcd true lg junk ib2 ob2 fb2 false f ts2 = Ok (s2, os2, Running) ->
  chunks os1 = A ++ c1 :: c2 :: B -> chunks os2 = A ++ (c1 ++ c2) :: B ->
  groups (leftover (concat A) ++ c1) = [] ->
  let evs := groups (received os1) in
  let K := clock_after (clock0 junk) (repeat f (length A)) (map (map (ev_time lg)) (batches [] A)) in
  exists timesA timesB,
    length timesA = length (groups (concat A)) /\ length (timesA ++ timesB) = length evs /\
    written os2 = concat (retime lg evs (timesA ++ timesB)) /\
    written os1 = concat (retime lg evs (timesA ++ map (Z.add (c_last K)) timesB)).
Proof.
  intros A1 A2 T1 T2 E1 E2 H1 H2 SH evs K.
  pose proof (freqcd_spec true lg junk ib1 ob1 fb1 false f ts1 A1 T1) as S1. rewrite E1 in S1.
  pose proof (freqcd_spec true lg junk ib2 ob2 fb2 false f ts2 A2 T2) as S2. rewrite E2 in S2.
  destruct S1 as (_ & _ & _ & _ & _ & NF1 & _ & L1 & G1 & CB1).
  destruct S2 as (_ & _ & _ & _ & _ & NF2 & _ & L2 & G2 & CB2).
  destruct (freqcd_exact _ _ _ _ _ _ _ _ _ _ _ A1 T1 E1) as [_ W1].
  destruct (freqcd_exact _ _ _ _ _ _ _ _ _ _ _ A2 T2 E2) as [_ W2].
  rewrite (W1 eq_refl), (W2 eq_refl). clear W1 W2.
  rewrite corrections_fixed in L1 |- * by auto. rewrite corrections_fixed in L2 |- * by auto.
  rewrite !corrected_stream_times by assumption. rewrite CB1, CB2.
  assert (RE : received os2 = received os1).
  { rewrite <- !concat_chunks, H1, H2, !concat_app. cbn. now rewrite <- app_assoc. }
  rewrite RE. fold evs. clear L1 L2.
  assert (LA : length (repeat f (length A)) = length (map (map (ev_time lg)) (batches [] A))).
  { rewrite repeat_length, map_length, batches_length. reflexivity. }
  set (P := leftover (concat A)) in *.
  assert (B1 : batches [] (chunks os1) = batches [] A ++ [] :: batches P ((c1 ++ c2) :: B)).
  { rewrite H1, batches_app by reflexivity. cbn [app batches]. fold P. rewrite SH.
    rewrite (groups_nil_leftover _ SH). rewrite <- app_assoc. reflexivity. }
  assert (B2 : batches [] (chunks os2) = batches [] A ++ batches P ((c1 ++ c2) :: B)).
  { rewrite H2, batches_app by reflexivity. reflexivity. }
  rewrite B1, B2, !map_app. cbn [map].
  assert (R1 : repeat f (length (chunks os1)) = repeat f (length A) ++ f :: repeat f (S (length B))).
  { rewrite H1, app_length. cbn [length]. rewrite repeat_app. reflexivity. }
  assert (R2 : repeat f (length (chunks os2)) = repeat f (length A) ++ repeat f (S (length B))).
  { rewrite H2, app_length. cbn [length]. rewrite repeat_app. reflexivity. }
  rewrite R1, R2, !corrected_app by assumption. fold K.
  cbn [corrected batch_times]. set (bsB := map (map (ev_time lg)) (batches P ((c1 ++ c2) :: B))).
  set (fsB := repeat f (S (length B))).
  change (batch_clock f K []) with (mkClock (c_ref K) (c_acc K + c_last K) (c_last K)).
  rewrite corrected_offset. replace (mkClock (c_ref K) (c_acc K) (c_last K)) with K by now destruct K.
  rewrite !concat_app. cbn [concat app]. rewrite <- concat_map.
  exists (concat (corrected (clock0 junk) (repeat f (length A)) (map (map (ev_time lg)) (batches [] A)))),
         (concat (corrected K fsB bsB)).
  split; [|split; [|split; reflexivity]].
  - pose proof (corrected_lengths _ _ (clock0 junk) LA) as CL.
    change (concat A) with ([] ++ concat A). rewrite <- (concat_batches A []), <- (map_length (ev_time lg) (concat (batches [] A))), <- times_concat by reflexivity.
    clear - CL. induction CL; cbn; [reflexivity|]. now rewrite !app_length, IHCL, H.
  - rewrite <- concat_app. unfold K. rewrite <- corrected_app by assumption.
    unfold evs. rewrite <- RE, <- CB2, <- (map_length (ev_time lg) (concat (batches [] (chunks os2)))), <- times_concat, B2, map_app. fold bsB.
    assert (LL : length (repeat f (length A) ++ fsB) = length (map (map (ev_time lg)) (batches [] A) ++ bsB)).
    { rewrite !app_length, LA. unfold fsB, bsB. rewrite repeat_length, !map_length, !batches_length. reflexivity. }
    pose proof (corrected_lengths _ _ (clock0 junk) LL) as CL.
    clear - CL. induction CL; cbn; [reflexivity|]. now rewrite !app_length, IHCL, H.
Qed.

(** ** Rollover *)
Lemma shift_rollover f ref t : t < ref -> 0 <= t -> ref < 2 ^ 54 ->
  shift f (elapsed ref t) = shift f (t + 2 ^ 54 - ref) + f * (2 ^ 30 - 2 ^ 20).
Proof.
  intros. unfold elapsed, shift. replace ((t - ref) mod 2 ^ 64) with (t + 2 ^ 54 - ref + (2 ^ 52 - 2 ^ 42) * 2 ^ 12) by lia.
  rewrite Z.div_add by lia.
  replace (((t + 2 ^ 54 - ref) / 2 ^ 12 + (2 ^ 52 - 2 ^ 42)) * f)
    with ((t + 2 ^ 54 - ref) / 2 ^ 12 * f + f * (2 ^ 30 - 2 ^ 20) * 2 ^ 22) by ring.
  rewrite Z.div_add by lia. reflexivity.
Qed.
Lemma freqcd_rollover lg junk ib ob fb f ts s' os ev1 ev2 :
  alloc_ok ib ob fb -> Forall tick_ok ts ->
  freqcd true lg junk ib ob fb false f ts = Ok (s', os, Running) ->
  len ev1 = 8 -> len ev2 = 8 -> chunks os = [ev1 ++ ev2] ->
  let r := ev_time lg ev1 in let t := ev_time lg ev2 in
  (r <= t -> written os = mk_event lg r (ev_flags lg ev1) ++ mk_event lg (t + shift f (t - r)) (ev_flags lg ev2)) /\
  (t < r -> written os = mk_event lg r (ev_flags lg ev1) ++
     mk_event lg (t + shift f (t + 2 ^ 54 - r) + f * (2 ^ 30 - 2 ^ 20)) (ev_flags lg ev2)).
Proof.
  intros A T E L1 L2 CH r t.
  pose proof (freqcd_spec true lg junk ib ob fb false f ts A T) as S. rewrite E in S.
  destruct S as (_ & _ & _ & _ & _ & NF & BO & L & G & CB).
  destruct (freqcd_exact _ _ _ _ _ _ _ _ _ _ _ A T E) as [_ W]. rewrite (W eq_refl).
  rewrite corrections_fixed by auto. rewrite CH in G |- *. cbn [length repeat batches app] in *.
  assert (GR : groups (ev1 ++ ev2) = [ev1; ev2]).
  { rewrite groups_app by assumption. replace ev2 with (ev2 ++ []) at 1 by apply app_nil_r.
    now rewrite groups_app. }
  rewrite GR in *. inv G. inv H1. inv H4.
  pose proof (ev_time_range lg ev1 (proj1 H3) L1) as B1. pose proof (ev_time_range lg ev2 (proj1 H1) L2) as B2.
  unfold corrected_stream. cbn [map corrected batch_times clock0 ref_of c_ref c_acc retime_batches retime concat app].
  fold r t. rewrite app_nil_r.
  assert (E0 : elapsed r r = 0) by (unfold elapsed; now rewrite Z.sub_diag).
  rewrite E0, shift_0, !Z.add_0_r. split; intros O.
  - rewrite elapsed_small by (unfold r, t in *; lia). reflexivity.
  - rewrite shift_rollover by (unfold r, t in *; lia). rewrite Z.add_assoc. reflexivity.
Qed.
