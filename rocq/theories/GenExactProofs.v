(** Proof of C207. *)
From Coq Require Import QArith String List Lia.
From Verif Require Import Float Base FreqcdModel FreqcdSpec FreqcdCliSpec FreqcdProofs FreqcdProofs7 TimestampsModel TimestampsSpec TimestampsProofs CdFileSpec CdFileProofs FpfindModel MiscModel MiscSpec MiscProofs
  CdRunModel CdRunSpec CdRunProofs CdRunProofs2 CdRunProofs3 WholeProofs2 ChainSpec ChainProofs CdExactSpec CdExactProofs ArgModel FpCliSpec CliSpec TsCliModel TsCliSpec GenCliModel GenCliSpec GenCliProofs3 GenCliChain GenRefuseSpec AnyTimeSpec GenBackSpec GenBackProofs.
Import ListNotations. Local Open Scope Z_scope.

Lemma exact_events junk ib ob fb prog args ss f fs stdin evs : alloc_ok ib ob fb -> asks args ss f -> static false ss -> recording evs -> input_of fs stdin ss = Some (encode (A1 false) (map word_of evs)) ->
  exists e, freqcd_main true junk ib ob fb (prog :: args) fs stdin = Some (Ok e) /\ code e = 0 /\
    ChainSpec.output_of (files e) (CdRunModel.stdout e) ss = Some (encode (A1 false) (map word_of (at_times evs (map (exact_time f (map fst evs)) (seq 0 (length evs)))))).
Proof.
  intros A K (LG & NF & S1) [OK ND] IN. set (X := encode (A1 false) (map word_of evs)) in *.
  assert (EV : event_file (legacy_of ss) X).
  { rewrite LG. destruct (encode_bytes false (map word_of evs)) as [B1 B2]. split; [exact B1|]. split; [exact B2|]. unfold X. rewrite file_times by exact OK. exact ND. }
  pose proof (c184 junk ib ob fb prog args ss f fs stdin X A K IN EV NF S1) as H. cbv zeta in H. rewrite LG in H. unfold X in H at 2 3. rewrite file_times in H by exact OK. rewrite map_length in H.
  destruct H as (e & ME & CE & L & N & LB). exists e. split; [exact ME|]. split; [exact CE|]. set (times := map (exact_time f (map fst evs)) (seq 0 (length evs))) in *.
  assert (Y : concat (retime (legacy_of ss) (FreqcdSpec.groups X) times) = encode (A1 false) (map word_of (at_times evs times))).
  { rewrite LG. unfold X. rewrite retime_encode; [now rewrite at_times_words| |unfold times; now rewrite !map_length, seq_length]. apply Forall_map. eapply Forall_impl; [|exact OK]. intros ev O. now apply word_of_ok. }
  rewrite Y in LB. unfold left_behind in LB. unfold ChainSpec.output_of. destruct (FreqcdCliSpec.last_of FreqcdCliSpec.out_of ss) as [t|]; [apply LB|f_equal; apply LB].
Qed.
Lemma c207 p tmp1 args1 ss1 fs1 in1 zs junk ib ob fb prog args2 ss2 f fs2 tmp3 args3 ss3 fs3 : 54 <= p -> generating args1 ss1 zs -> let ts := map (fun t => t mod 2 ^ 54) zs in nondecr ts ->
  alloc_ok ib ob fb -> asks args2 ss2 f -> static false ss2 -> FreqcdCliSpec.last_of FreqcdCliSpec.in_of ss2 = None -> FreqcdCliSpec.last_of FreqcdCliSpec.out_of ss2 = None ->
  reading args3 ss3 -> ~ In GLegacy ss3 -> fs3 tmp3 = None ->
  exists e1 e2 out, grun p tmp1 args1 fs1 in1 = Ends e1 /\ code e1 = 0 /\ freqcd_main true junk ib ob fb (prog :: args2) fs2 (CdRunModel.stdout e1) = Some (Ok e2) /\ code e2 = 0 /\
    said (grun p tmp3 args3 fs3 (CdRunModel.stdout e2)) 0 fs3 out /\ numbers (map (fun i => exact_time f ts i mod 2 ^ 54) (seq 0 (length ts))) out.
Proof.
  intros P G ts N A K S IN OU R L FT. destruct (writes_words p tmp1 args1 ss1 fs1 in1 zs G) as [(e1 & E1 & Z1 & S1 & _) NZ]. set (evs := map (fun t => (t, 1)) ts). assert (M1 : map fst evs = ts) by (unfold evs; rewrite map_map; apply map_id).
  assert (OK : Forall event_ok evs). { unfold evs, ts. apply Forall_map, Forall_map. eapply Forall_impl; [|exact NZ]. cbn beta. intros t _. split; cbn [fst snd]; [apply Z.mod_pos_bound; lia|lia]. }
  assert (EW : event_words zs = map word_of evs) by (unfold event_words, evs, ts; now rewrite !map_map). rewrite EW in S1. assert (LE : length evs = length ts) by apply map_length.
  destruct (exact_events junk ib ob fb prog args2 ss2 f fs2 (encode (A1 false) (map word_of evs)) evs A K S) as (e2 & ME & CE & OUT); [split; [exact OK|now rewrite M1]|unfold input_of; now rewrite IN|].
  rewrite M1, LE in OUT. unfold ChainSpec.output_of in OUT. rewrite OU in OUT. set (times := map (exact_time f ts) (seq 0 (length ts))) in *. assert (S2 : CdRunModel.stdout e2 = encode (A1 false) (map word_of (at_times evs times))) by congruence.
  destruct R as (C3 & G3 & H3 & T3 & O3). assert (GL : gasked GLegacy ss3 false) by (split; [discriminate|intros X; contradiction]).
  destruct (c131 p tmp3 args3 ss3 fs3 false (at_times evs times) P C3 G3 H3 T3 O3 GL FT (at_times_ok evs times OK)) as (out & NU & SA). rewrite at_times_fst in NU by (unfold times; now rewrite map_length, seq_length).
  exists e1, e2, out. rewrite S1, S2. split; [exact E1|]. split; [exact Z1|]. split; [exact ME|]. split; [exact CE|]. split; [exact SA|]. unfold times in NU. rewrite map_map in NU. exact NU.
Qed.
