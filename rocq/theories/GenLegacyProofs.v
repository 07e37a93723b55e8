(** Proof of C210. *)
From Coq Require Import QArith String List Lia.
From Verif Require Import Float Base FreqcdModel FreqcdSpec FreqcdCliSpec FreqcdProofs FreqcdProofs7 TimestampsModel TimestampsSpec TimestampsProofs TimestampsProofs5 CdFileSpec CdFileProofs FpfindModel MiscModel MiscSpec MiscProofs
  CdRunModel CdRunSpec CdRunProofs CdRunProofs2 CdRunProofs3 WholeProofs2 ChainSpec ChainProofs CdExactSpec CdExactProofs ArgModel FpCliSpec CliSpec TsCliModel TsCliSpec GenCliModel GenCliSpec GenCliProofs3 GenRefuseSpec AnyTimeSpec GenBackSpec GenBackProofs GenOldSpec GenOldProofs.
Import ListNotations. Local Open Scope Z_scope.

Lemma exact_legacy junk ib ob fb prog args ss f fs stdin evs lg : alloc_ok ib ob fb -> asks args ss f -> static lg ss -> recording evs -> input_of fs stdin ss = Some (encode (A1 lg) (map word_of evs)) ->
  exists e, freqcd_main true junk ib ob fb (prog :: args) fs stdin = Some (Ok e) /\ code e = 0 /\
    ChainSpec.output_of (files e) (CdRunModel.stdout e) ss = Some (encode (A1 lg) (map word_of (at_times evs (map (exact_time f (map fst evs)) (seq 0 (length evs)))))).
Proof.
  intros A K (LG & NF & S1) [OK ND] IN. set (X := encode (A1 lg) (map word_of evs)) in *.
  assert (EV : event_file (legacy_of ss) X).
  { rewrite LG. destruct (encode_bytes lg (map word_of evs)) as [B1 B2]. split; [exact B1|]. split; [exact B2|]. unfold X. rewrite file_times by exact OK. exact ND. }
  pose proof (c184 junk ib ob fb prog args ss f fs stdin X A K IN EV NF S1) as H. cbv zeta in H. rewrite LG in H. unfold X in H at 2 3. rewrite file_times in H by exact OK. rewrite map_length in H.
  destruct H as (e & ME & CE & L & N & LB). exists e. split; [exact ME|]. split; [exact CE|]. set (times := map (exact_time f (map fst evs)) (seq 0 (length evs))) in *.
  assert (Y : concat (retime (legacy_of ss) (FreqcdSpec.groups X) times) = encode (A1 lg) (map word_of (at_times evs times))).
  { rewrite LG. unfold X. rewrite retime_encode; [now rewrite at_times_words| |unfold times; now rewrite !map_length, seq_length]. apply Forall_map. eapply Forall_impl; [|exact OK]. intros ev O. now apply word_of_ok. }
  rewrite Y in LB. unfold left_behind in LB. unfold ChainSpec.output_of. destruct (FreqcdCliSpec.last_of FreqcdCliSpec.out_of ss) as [t|]; [apply LB|f_equal; apply LB].
Qed.
Lemma c210 lg p path tmp1 args1 ss1 fs1 in1 zs a args2 ss2 b old memory junk ib ob fb prog args3 ss3 f in3 tmp4 args4 ss4 fs4 : 54 <= p -> generating_to args1 ss1 zs a -> let ts := map (fun t => t mod 2 ^ 54) zs in nondecr ts ->
  plainly args2 ss2 a b (A1 false) (A1 old) memory ->
  alloc_ok ib ob fb -> asks args3 ss3 f -> static old ss3 -> FreqcdCliSpec.last_of FreqcdCliSpec.in_of ss3 = Some b -> FreqcdCliSpec.last_of FreqcdCliSpec.out_of ss3 = None ->
  reading args4 ss4 -> gasked GLegacy ss4 old -> fs4 tmp4 = None ->
  exists e1 e2 e3 out, grun p tmp1 args1 fs1 in1 = Ends e1 /\ code e1 = 0 /\ trun lg p path args2 (files e1) = Ends e2 /\ code e2 = 0 /\
    freqcd_main true junk ib ob fb (prog :: args3) (files e2) in3 = Some (Ok e3) /\ code e3 = 0 /\
    said (grun p tmp4 args4 fs4 (CdRunModel.stdout e3)) 0 fs4 out /\ numbers (map (fun i => exact_time f ts i mod 2 ^ 54) (seq 0 (length ts))) out.
Proof.
  intros P G ts N R2 A K S IN OU R4 GL FT. destruct (c206_partial lg p path tmp1 args1 ss1 fs1 in1 zs a args2 ss2 b (A1 old) memory P G R2) as (e1 & E1 & Z1 & e2 & E2 & Z2 & _ & F2 & _).
  set (evs := map (fun t => (t, 1)) ts). assert (M1 : map fst evs = ts) by (unfold evs; rewrite map_map; apply map_id).
  assert (OK : Forall event_ok evs). { unfold evs, ts. apply Forall_map, Forall_map. apply Forall_forall. cbn beta. intros t _. split; cbn [fst snd]; [apply Z.mod_pos_bound; lia|lia]. }
  assert (EW : map (fun t => word_of (t mod 2 ^ 54, 1)) zs = map word_of evs) by (unfold evs, ts; now rewrite !map_map). rewrite EW in F2. assert (LE : length evs = length ts) by apply map_length.
  destruct (exact_legacy junk ib ob fb prog args3 ss3 f (files e2) in3 evs old A K S) as (e3 & ME & CE & OUT); [split; [exact OK|now rewrite M1]|unfold input_of; now rewrite IN|].
  rewrite M1, LE in OUT. unfold ChainSpec.output_of in OUT. rewrite OU in OUT. set (times := map (exact_time f ts) (seq 0 (length ts))) in *. assert (S3 : CdRunModel.stdout e3 = encode (A1 old) (map word_of (at_times evs times))) by congruence.
  destruct R4 as (C4 & G4 & H4 & T4 & O4).
  destruct (c131 p tmp4 args4 ss4 fs4 old (at_times evs times) P C4 G4 H4 T4 O4 GL FT (at_times_ok evs times OK)) as (out & NU & SA). rewrite at_times_fst in NU by (unfold times; now rewrite map_length, seq_length).
  exists e1, e2, e3, out. rewrite S3. split; [exact E1|]. split; [exact Z1|]. split; [exact E2|]. split; [exact Z2|]. split; [exact ME|]. split; [exact CE|]. split; [exact SA|]. unfold times in NU. rewrite map_map in NU. exact NU.
Qed.
