(** Proofs for freqcd on timestamp files. *)
From Coq Require Import QArith Qabs Lqa List Lia.
From Verif Require Import Float Base FreqcdModel FreqcdSpec FreqcdProofs FreqcdProofs4 FreqcdProofs5 FreqcdProofs6 FreqcdProofs7 FreqcdProofs8 FreqcdProofs9 FreqcdCliSpec FpfindModel FpfindSpec FpfindProofs3 FpfindPipe PipeSpec PipeProofs TimestampsModel TimestampsSpec TimestampsProofs TimestampsProofs2 CdFileSpec.
Import ListNotations. Local Open Scope Z_scope.

Lemma encode1_len lg v : len (encode1 (A1 lg) v) = 8.
Proof. destruct lg; cbn [encode1]; rewrite len_app, !le_enc_len; reflexivity. Qed.
Lemma encode1_enc lg v : word_ok v -> encode1 (A1 lg) v = if lg then swap_words (le_enc 8 v) else le_enc 8 v.
Proof.
  intros W. unfold swap_words. rewrite <- (enc8_words v). destruct lg; cbn [encode1]; unfold high, low; [|reflexivity].
  rewrite drop_app_exact, take_app_exact by (rewrite le_enc_len; reflexivity). reflexivity.
Qed.
Lemma swap_swap l : len l = 8 -> swap_words (swap_words l) = l.
Proof.
  intros L. unfold swap_words. rewrite drop_app_exact, take_app_exact by (rewrite len_drop; lia). apply take_drop.
Qed.
Lemma ev_value_encode lg v : word_ok v -> ev_value lg (encode1 (A1 lg) v) = v.
Proof.
  intros W. rewrite encode1_enc by assumption. unfold ev_value. destruct lg; [rewrite swap_swap by apply le_enc_len|];
    rewrite le_dec_enc; apply Z.mod_small; exact W.
Qed.
Lemma groups_encode lg vs : FreqcdSpec.groups (encode (A1 lg) vs) = map (encode1 (A1 lg)) vs.
Proof. unfold encode. apply groups_concat'. apply Forall_map. apply Forall_forall. intros v _. apply encode1_len. Qed.
Lemma times_encode lg vs : Forall word_ok vs -> map (ev_time lg) (FreqcdSpec.groups (encode (A1 lg) vs)) = map time_of vs.
Proof.
  intros W. rewrite groups_encode, map_map. apply map_ext_in. intros v I. rewrite Forall_forall in W. unfold ev_time. now rewrite ev_value_encode by auto.
Qed.
Lemma with_time_ok v t : word_ok (with_time v t).
Proof. unfold with_time, word_ok. lia. Qed.
Lemma mk_event_encode lg v t : word_ok v -> mk_event lg t (ev_flags lg (encode1 (A1 lg) v)) = encode1 (A1 lg) (with_time v t).
Proof.
  intros W. unfold ev_flags. rewrite ev_value_encode by assumption. rewrite encode1_enc by apply with_time_ok. unfold mk_event.
  assert (E : le_enc 8 (t * 2 ^ 10 + v mod 2 ^ 10) = le_enc 8 (with_time v t)).
  { rewrite <- (le_enc_mod 8 (t * 2 ^ 10 + v mod 2 ^ 10) (2 ^ 64)) by (try reflexivity; exists 1; reflexivity). f_equal. unfold with_time. lia. }
  now rewrite E.
Qed.
Lemma retime_encode lg vs ts : Forall word_ok vs -> length ts = length vs ->
  concat (retime lg (FreqcdSpec.groups (encode (A1 lg) vs)) ts) = encode (A1 lg) (map (fun '(v, t) => with_time v t) (combine vs ts)).
Proof.
  intros W. rewrite groups_encode. unfold encode. revert ts. induction W as [|v vs V W IH]; intros [|t ts] L; cbn [length] in L; try lia; [reflexivity|].
  cbn [map retime concat combine]. rewrite mk_event_encode by assumption. f_equal. apply IH. lia.
Qed.
Lemma retimed_of (R : Z -> Z -> Prop) vs ts : Forall2 R (map time_of vs) ts -> retimed R vs (map (fun '(v, t) => with_time v t) (combine vs ts)).
Proof.
  revert ts. induction vs as [|v vs IH]; intros ts F; inversion F; subst; [constructor|]. cbn [combine map]. constructor; [eauto|now apply IH].
Qed.
Lemma retimed_ok R vs ws : retimed R vs ws -> Forall word_ok ws.
Proof. induction 1 as [|v w vs ws (t & -> & _) F IH]; constructor; [apply with_time_ok|assumption]. Qed.
Lemma retimed_patterns R vs ws : retimed R vs ws -> map pattern_of ws = map pattern_of vs.
Proof.
  induction 1 as [|v w vs ws (t & -> & _) F IH]; [reflexivity|]. cbn [map]. rewrite IH. f_equal. unfold pattern_of, with_time. lia.
Qed.
(** ** Any correction *)
Lemma cd_file strict lg junk ib ob fb fg fc ts s' os st vs : alloc_ok ib ob fb -> Forall tick_ok ts ->
  freqcd strict lg junk ib ob fb fg fc ts = Ok (s', os, st) -> Forall word_ok vs -> received os = encode (A1 lg) vs ->
  exists ws, retimed (fun _ _ => True) vs ws /\ prefix (written os) (encode (A1 lg) ws) /\
    (st = Running -> written os = encode (A1 lg) ws /\ forall p r fr, exists t t' ps,
       read_a1 p (received os) lg r fr = Ok (t, ps) /\ read_a1 p (written os) lg r fr = Ok (t', ps) /\ tlen t' = tlen t).
Proof.
  intros A T RUN W E. destruct (freqcd_framing _ _ _ _ _ _ _ _ _ _ _ _ A T RUN) as (_ & _ & times & L & P & Q). rewrite E in *.
  rewrite groups_encode, map_length in L. rewrite retime_encode in P, Q by assumption.
  assert (RT : retimed (fun _ _ => True) vs (map (fun '(v, t) => with_time v t) (combine vs times))).
  { apply retimed_of. clear -L. revert times L. induction vs as [|v vs IH]; intros [|t times] L; cbn [length] in L; try lia; cbn [map]; constructor; [exact I|apply IH; lia]. }
  eexists. split; [exact RT|]. split; [exact P|]. intros R. specialize (Q R). split; [exact Q|]. intros p r fr.
  rewrite Q. rewrite !read_a1_encode by (assumption || now apply (retimed_ok _ _ _ RT)). unfold out. rewrite (retimed_patterns _ _ _ RT).
  eexists. eexists. eexists. split; [reflexivity|]. split; [reflexivity|].
  assert (LL : length (map (fun '(v, t) => with_time v t) (combine vs times)) = length vs) by (rewrite map_length, combine_length; lia).
  unfold tlen, raw_t. destruct fr, r; cbn [format_timestamps tvalues]; unfold len; rewrite !map_length, combine_length; lia.
Qed.
(** ** One constant frequency *)
Lemma forall2_batches {A B} (R : A -> B -> Prop) : forall (bs : list (list A)) (tss : list (list B)), length tss = length bs ->
  (forall i, (i < length bs)%nat -> Forall2 R (nth i bs []) (nth i tss [])) -> Forall2 R (concat bs) (concat tss).
Proof.
  induction bs as [|b bs IH]; intros [|t tss] L H; cbn [length] in *; try lia; [constructor|]. cbn [concat]. apply Forall2_app; [exact (H 0%nat ltac:(lia))|].
  apply IH; [lia|]. intros i I. exact (H (S i) ltac:(lia)).
Qed.
Lemma cd_file_step (R : Z -> Z -> Z -> Z -> Prop) lg vs os st t0 : Forall word_ok vs -> received os = encode (A1 lg) vs ->
  hd_error (map time_of vs) = Some t0 -> (forall n m t t', n <= m -> R t0 n t t' -> R t0 m t t') ->
  let bs := map (map (ev_time lg)) (FreqcdSpec.batches [] (chunks os)) in
  (exists tss, length tss = length bs /\
    (forall i t0, hd_error (concat bs) = Some t0 -> Forall2 (R t0 (Z.of_nat i + 1)) (nth i bs []) (nth i tss [])) /\
    prefix (written os) (concat (retime lg (FreqcdSpec.groups (received os)) (concat tss))) /\
    (st = Running -> written os = concat (retime lg (FreqcdSpec.groups (received os)) (concat tss)))) ->
  exists ws, retimed (R t0 (len (chunks os))) vs ws /\ prefix (written os) (encode (A1 lg) ws) /\ (st = Running -> written os = encode (A1 lg) ws).
Proof.
  intros W E H0 MONO bs (tss & L & S & P & Q).
  assert (CB : concat (FreqcdSpec.batches [] (chunks os)) = FreqcdSpec.groups (received os)) 
    by (rewrite FreqcdProofs.concat_batches by reflexivity; unfold received, chunks, rxs; cbn [app]; f_equal; clear; induction (map rx os) as [|[|x c] l IH]; cbn [filter nonempty concat app]; [reflexivity|exact IH|now rewrite IH]).
  assert (BS : concat bs = map time_of vs) by (unfold bs; rewrite <- concat_map, CB, E; now apply times_encode).
  assert (LB : length bs = length (chunks os)).
  { unfold bs. rewrite map_length. clear. generalize (@nil Z) as pend, (chunks os) as cs. intros pend cs. revert pend. induction cs as [|c cs IH]; intros pend; [reflexivity|]. cbn [FreqcdSpec.batches length]. f_equal. apply IH. }
  assert (F : Forall2 (R t0 (len (chunks os))) (map time_of vs) (concat tss)).
  { rewrite <- BS. apply forall2_batches; [exact L|]. intros i I. specialize (S i t0). rewrite BS in S. specialize (S H0). 
    assert (K : Z.of_nat i + 1 <= len (chunks os)) by (unfold len; lia). revert S. generalize (nth i bs []) (nth i tss []). induction 1; constructor; eauto. }
  assert (LT : length (concat tss) = length vs) by (rewrite <- (map_length time_of vs); clear -F; induction F; cbn [length]; congruence).
  rewrite E in *. rewrite retime_encode in P, Q by assumption.
  eexists. split; [apply retimed_of; exact F|]. split; assumption.
Qed.
Lemma cd_file_accurate lg junk ib ob fb f ts s' os st vs t0 : alloc_ok ib ob fb -> Forall tick_ok ts -> small f ->
  freqcd true lg junk ib ob fb false f ts = Ok (s', os, st) -> every_read_completes [] (chunks os) ->
  Forall word_ok vs -> received os = encode (A1 lg) vs -> nondecr (map time_of vs) -> hd_error (map time_of vs) = Some t0 ->
  exists ws, retimed (FreqcdSpec.accurate f t0 (len (chunks os))) vs ws /\ prefix (written os) (encode (A1 lg) ws) /\ (st = Running -> written os = encode (A1 lg) ws).
Proof.
  intros A T SM RUN ERC W E ND H0. apply (cd_file_step (FreqcdSpec.accurate f)); try assumption.
  - unfold FreqcdSpec.accurate. intros n m t t' N H. lia.
  - apply (freqcd_accurate lg junk ib ob fb f ts s'); try assumption. rewrite E, times_encode; assumption.
Qed.
Lemma cd_file_pipe prog repr dt df : (forall x, field_ok (repr x)) -> (Qabs df <= (1 # 2 ^ 13) - (1 # 2 ^ 25))%Q ->
  exists f, accepted prog (printed true (fl 53) repr dt df) f /\
  forall F lg junk ib ob fb ts s' os st vs t0, (Qabs (df - F) <= 1 # 2 ^ 51)%Q -> alloc_ok ib ob fb -> Forall tick_ok ts ->
    freqcd true lg junk ib ob fb false f ts = Ok (s', os, st) -> every_read_completes [] (chunks os) ->
    Forall word_ok vs -> received os = encode (A1 lg) vs -> nondecr (map time_of vs) -> hd_error (map time_of vs) = Some t0 ->
    exists ws, retimed (in_step ((1 # 2 ^ 35) + (1 # 2 ^ 49)) F t0 (len (chunks os))) vs ws /\ prefix (written os) (encode (A1 lg) ws) /\
      (st = Running -> written os = encode (A1 lg) ws).
Proof.
  intros R B. destruct (pipe prog repr dt df R B) as (f & A & N). exists f. split; [exact A|].
  intros F lg junk ib ob fb ts s' os st vs t0 DF AL TK RUN ERC W E ND H0.
  apply (cd_file_step (in_step ((1 # 2 ^ 35) + (1 # 2 ^ 49)) F)); try assumption.
  - unfold in_step. intros n m t t' K H dt0. eapply Qle_trans; [apply H|]. apply Qplus_le_r. rewrite !(Qmult_comm (3 # 2)). apply Qmult_le_compat_r; [now rewrite <- Zle_Qle|discriminate].
  - apply (N F lg junk ib ob fb ts s' os st); try assumption. rewrite E, times_encode; assumption.
Qed.
