(** From two timestamp files through fpfind to the stream corrected by freqcd. *)
From Coq Require Import QArith Qabs Lqa Permutation Lia.
From Verif Require Import Float Base FreqcdModel FreqcdSpec FreqcdCliSpec TimestampsModel TimestampsSpec UtilsModel UtilsSpec FpfindModel FpfindSpec FpfindProofs3 FpfindPipe
  MainModel MainProofs3 MainProofs4 MainSpec2 PipeSpec PipeProofs.
Local Open Scope Z_scope.

Lemma c88 fuel M repr p o lg evA evB s1 s2 : rt M = fl p -> rs M = fl 53 -> accurate (2 ^ buffer_order o) (len evA) (len evB) M -> 54 <= p -> (forall x, field_ok (repr x)) ->
  one_iteration o -> same_events M o evA evB s1 s2 ->
  Z.abs (delay_ns o s1) <= 100000000 -> (Qabs (ratio o s1 s2) <= (1 # 8192) - (1 # 2 ^ 51))%Q ->
  exists line dt df, main_files (S fuel) M p repr o (encode (A1 lg) (map word_of evA)) (encode (A1 lg) (map word_of evB)) lg 0 = Ok line /\
    shows_offsets repr (flag o) dt df line /\ (dt == inject_Z (delay_ns o s1))%Q /\ (Qabs (df - ratio o s1 s2) <= 1 # 2 ^ 51)%Q.
Proof.
  intros RT RS AC PP RP O E C1 CF. destruct (one_run fuel M repr p o lg evA evB s1 s2 RT RS AC PP O E C1 CF) as (dt & df & H & D & F).
  eexists. exists dt, df. split; [exact H|]. split; [exact (c62 (fl 53) repr (flag o) dt df RP)|]. split; assumption.
Qed.
Lemma c89 fuel M repr p o lg evA evB s1 s2 prog : rt M = fl p -> rs M = fl 53 -> accurate (2 ^ buffer_order o) (len evA) (len evB) M -> 54 <= p -> (forall x, field_ok (repr x)) ->
  one_iteration o -> flag o = 7 -> same_events M o evA evB s1 s2 ->
  Z.abs (delay_ns o s1) <= 100000000 -> (Qabs (ratio o s1 s2) <= (1 # 2 ^ 13) - (1 # 2 ^ 24))%Q ->
  exists line f, main_files (S fuel) M p repr o (encode (A1 lg) (map word_of evA)) (encode (A1 lg) (map word_of evB)) lg 0 = Ok line /\
    accepted prog line f /\
    forall lg junk ib ob fb ts s' os st, alloc_ok ib ob fb -> Forall tick_ok ts ->
      freqcd true lg junk ib ob fb false f ts = Ok (s', os, st) -> every_read_completes [] (chunks os) ->
      nondecr (map (ev_time lg) (FreqcdSpec.groups (received os))) ->
      let bs := map (map (ev_time lg)) (FreqcdSpec.batches [] (chunks os)) in
      exists tss, length tss = length bs /\
        (forall i t0, hd_error (concat bs) = Some t0 ->
           Forall2 (in_step ((1 # 2 ^ 35) + (1 # 2 ^ 49)) (ratio o s1 s2) t0 (Z.of_nat i + 1)) (nth i bs []) (nth i tss [])) /\
        prefix (written os) (concat (retime lg (FreqcdSpec.groups (received os)) (concat tss))) /\
        (st = Running -> written os = concat (retime lg (FreqcdSpec.groups (received os)) (concat tss))).
Proof.
  intros RT RS AC PP RP O FL E C1 CF.
  assert (CF' : (Qabs (ratio o s1 s2) <= (1 # 8192) - (1 # 2 ^ 51))%Q) by (eapply Qle_trans; [exact CF|vm_compute; discriminate]).
  destruct (one_run fuel M repr p o lg evA evB s1 s2 RT RS AC PP O E C1 CF') as (dt & df & H & D & F).
  assert (DF : (Qabs df <= (1 # 2 ^ 13) - (1 # 2 ^ 25))%Q).
  { change (1 # 2 ^ 13)%Q with (1 # 8192)%Q in *. change (1 # 2 ^ 24)%Q with (1 # 16777216)%Q in CF. change (1 # 2 ^ 25)%Q with (1 # 33554432)%Q.
    change (1 # 2 ^ 51)%Q with (1 # 2251799813685248)%Q in F. apply Qabs_Qle_condition in CF, F. apply Qabs_Qle_condition. lra. }
  destruct (pipe prog repr dt df RP DF) as (f & A & B). rewrite FL in H.
  assert (PE : printed true (fl 53) repr dt df = output (fl 53) repr 7 dt df) by reflexivity. rewrite PE in A. clear PE. exists (output (fl 53) repr 7 dt df), f. split; [exact H|]. split; [exact A|].
  intros lg2 junk ib ob fb ts s' os st. exact (B (ratio o s1 s2) lg2 junk ib ob fb ts s' os st F).
Qed.
