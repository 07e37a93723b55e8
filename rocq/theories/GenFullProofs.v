(** Proof of C209. *)
From Coq Require Import QArith String List Lia.
From Verif Require Import Float Base FreqcdModel FreqcdSpec FreqcdCliSpec FreqcdProofs TimestampsModel TimestampsSpec TimestampsProofs TimestampsProofs5 FpfindModel MiscModel MiscSpec MiscProofs
  CdRunModel CdRunSpec ChainSpec ChainProofs CdExactSpec ArgModel FpCliSpec CliSpec TsCliModel TsCliSpec GenCliModel GenCliSpec GenRefuseSpec AnyTimeSpec GenBackSpec GenBackProofs GenOldSpec GenOldProofs GenExactProofs.
Import ListNotations. Local Open Scope Z_scope.

Lemma at_ones ts times : length times = length ts -> at_times (map (fun t => (t, 1)) ts) times = map (fun t => (t mod 2 ^ 54, 1)) times.
Proof. revert times. induction ts as [|t ts IH]; intros [|u times] L; try discriminate L; [reflexivity|]. cbn [map at_times snd]. f_equal. apply IH. now injection L. Qed.
Lemma c209 lg p path tmp1 args1 ss1 fs1 in1 zs junk ib ob fb prog args2 ss2 f fs2 a args3 ss3 b fout memory : 54 <= p -> generating args1 ss1 zs -> let ts := map (fun t => t mod 2 ^ 54) zs in nondecr ts ->
  alloc_ok ib ob fb -> asks args2 ss2 f -> static false ss2 -> FreqcdCliSpec.last_of FreqcdCliSpec.in_of ss2 = None -> FreqcdCliSpec.last_of FreqcdCliSpec.out_of ss2 = Some a -> a <> [] ->
  plainly args3 ss3 a b (A1 false) fout memory ->
  exists e1 e2, grun p tmp1 args1 fs1 in1 = Ends e1 /\ code e1 = 0 /\ freqcd_main true junk ib ob fb (prog :: args2) fs2 (CdRunModel.stdout e1) = Some (Ok e2) /\ code e2 = 0 /\
    wrote (trun lg p path args3 (files e2)) 0 (files e2) b (encode fout (map (fun i => word_of (exact_time f ts i mod 2 ^ 54, 1)) (seq 0 (length ts)))).
Proof.
  intros P G ts N A K S IN OU NA R. destruct (writes_words p tmp1 args1 ss1 fs1 in1 zs G) as [(e1 & E1 & Z1 & S1 & _) NZ]. set (evs := map (fun t => (t, 1)) ts). assert (M1 : map fst evs = ts) by (unfold evs; rewrite map_map; apply map_id).
  assert (OK : Forall event_ok evs). { unfold evs, ts. apply Forall_map, Forall_map. eapply Forall_impl; [|exact NZ]. cbn beta. intros t _. split; cbn [fst snd]; [apply Z.mod_pos_bound; lia|lia]. }
  assert (EW : event_words zs = map word_of evs) by (unfold event_words, evs, ts; now rewrite !map_map). rewrite EW in S1. assert (LE : length evs = length ts) by apply map_length.
  destruct (exact_events junk ib ob fb prog args2 ss2 f fs2 (encode (A1 false) (map word_of evs)) evs A K S) as (e2 & ME & CE & OUT); [split; [exact OK|now rewrite M1]|unfold input_of; now rewrite IN|].
  rewrite M1, LE in OUT. unfold ChainSpec.output_of in OUT. rewrite OU in OUT. set (times := map (exact_time f ts) (seq 0 (length ts))) in *. assert (LT : length times = length ts) by (unfold times; now rewrite map_length, seq_length).
  pose proof (at_times_ok evs times OK) as OK2. unfold evs in OUT at 1, OK2 at 1. rewrite at_ones in OUT, OK2 by exact LT. exists e1, e2. rewrite S1. split; [exact E1|]. split; [exact Z1|]. split; [exact ME|]. split; [exact CE|].
  pose proof (converts_words lg p path args3 ss3 (files e2) a b false fout memory _ P R NA OUT (TimestampsProofs5.words_of_ok _ OK2)) as X. unfold times in X. rewrite !map_map in X. erewrite map_ext in X; [exact X|]. intros i. cbv beta.
  destruct (time_word (exact_time f ts i mod 2 ^ 54, 1)) as [T Q]; [unfold event_ok; cbn [fst snd]; pose proof (Z.mod_pos_bound (exact_time f ts i) (2 ^ 54) ltac:(lia)); lia|]. now rewrite T, Q.
Qed.
