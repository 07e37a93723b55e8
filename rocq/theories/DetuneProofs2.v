(** freqcd on the files of generate_freqdetuneg2. *)
From Coq Require Import QArith Qabs Lqa List Lia.
From Verif Require Import Float Base FreqcdModel FreqcdSpec TimestampsModel TimestampsSpec TimestampsProofs5 FreqcdCliSpec FpfindModel FpfindSpec FpfindProofs3 FpfindPipe PipeSpec CdFileSpec CdFileProofs DetuneSpec DetuneProofs.
Import ListNotations. Local Open Scope Z_scope.

Lemma undo R t0 c t c' t' t'' n : (0 <= R <= 1 # 10000)%Q -> t0 <= c <= t -> c' <= t' -> fast R t0 c c' -> fast R t0 t t' ->
  in_step ((1 # 2 ^ 35) + (1 # 2 ^ 49)) R c' n t' t'' -> restored t0 c' c n t t''.
Proof.
  intros HR L L' FC FT S. specialize (S 0%Q). unfold FpfindSpec.corrected in S. cbn [fst snd] in S. unfold fast in FC, FT. unfold restored.
  change (1 # 2 ^ 52)%Q with (1 # 4503599627370496)%Q in *. change (1 # 2 ^ 34)%Q with (1 # 17179869184)%Q. change (1 # 2 ^ 35)%Q with (1 # 34359738368)%Q in S.
  change (1 # 2 ^ 49)%Q with (1 # 562949953421312)%Q in S. set (k := ((3 # 2) * inject_Z n)%Q) in *. clearbody k.
  set (D := inject_Z (t - t0)) in *. set (C := inject_Z (c - t0)) in *. set (u := inject_Z (t' - c')) in *. set (w := inject_Z (t'' - c')) in *.
  assert (E1 : (inject_Z (t - c) == D - C)%Q) by (unfold D, C; unfold Z.sub; rewrite !inject_Z_plus, !inject_Z_opp; ring).
  assert (E2 : (u == inject_Z t' - inject_Z c')%Q) by (unfold u; unfold Z.sub; rewrite !inject_Z_plus, !inject_Z_opp; ring).
  assert (C0 : (0 <= C)%Q) by (unfold C; change 0%Q with (inject_Z 0); rewrite <- Zle_Qle; lia).
  assert (CD : (C <= D)%Q) by (unfold C, D; rewrite <- Zle_Qle; lia).
  assert (U0 : (0 <= u)%Q) by (unfold u; change 0%Q with (inject_Z 0); rewrite <- Zle_Qle; lia).
  assert (X0 : ~ (1 + R == 0)%Q) by lra.
  assert (E3 : ((inject_Z t' - 0) / (1 + R) - (inject_Z c' - 0) / (1 + R) == u / (1 + R))%Q) by (rewrite E2; field; exact X0).
  rewrite E3 in S. rewrite E1. rewrite (Qabs_pos u U0) in S. apply Qabs_Qle_condition in FC, FT, S.
  set (d := (u - (D - C) * (1 + R))%Q).
  assert (DB : (- ((257 # 128) + (1 # 2251799813685248) * D) <= d <= (257 # 128) + (1 # 2251799813685248) * D)%Q) by (unfold d; clearbody D C u; rewrite E2; lra).
  assert (E4 : (u / (1 + R) == (D - C) + d / (1 + R))%Q) by (unfold d; field; exact X0).
  assert (DD : (- ((257 # 128) + (1 # 2251799813685248) * D) <= d / (1 + R) <= (257 # 128) + (1 # 2251799813685248) * D)%Q).
  { assert (0 <= ((257 # 128) + (1 # 2251799813685248) * D) * R)%Q by (apply Qmult_le_0_compat; lra). split; [apply Qle_shift_div_l; [lra|]|apply Qle_shift_div_r; [lra|]]; clearbody d D; lra. }
  assert (U1 : (u <= D * (10001 # 10000) + ((257 # 128) + (1 # 2251799813685248) * D))%Q).
  { assert (u == (D - C) * (1 + R) + d)%Q by (unfold d; ring).
    assert ((D - C) * (1 + R) <= D * (10001 # 10000))%Q; [|clearbody d; lra].
    apply Qle_trans with (D * (1 + R))%Q; [apply Qmult_le_compat_r; lra|]. rewrite !(Qmult_comm D). apply Qmult_le_compat_r; lra. }
  rewrite E4 in S. set (q := (d / (1 + R))%Q) in *. clearbody q. clear - S DD U1 C0 CD U0. clearbody u D C w. apply Qabs_Qle_condition. lra.
Qed.
Lemma ratio_small n : In n [10; 9; 8; 7; 6; 5; 4] -> (0 <= file_ratio n <= 1 # 10000)%Q /\
  (Qabs (fl 53 (file_ratio n)) <= (1 # 2 ^ 13) - (1 # 2 ^ 25))%Q /\ (Qabs (fl 53 (file_ratio n) - file_ratio n) <= 1 # 2 ^ 51)%Q.
Proof.
  intros I. assert (R : (0 <= file_ratio n <= 1 # 10000)%Q) by (repeat (destruct I as [<-|I]; [split; vm_compute; discriminate|]); destruct I).
  split; [exact R|]. repeat (destruct I as [<-|I]; [split; vm_compute; discriminate|]). destruct I.
Qed.
Lemma restore_all R t0 c c' k es us ws : (0 <= R <= 1 # 10000)%Q -> t0 <= c -> fast R t0 c c' ->
  Forall2 (fun e e' : event => snd e' = 8 /\ fast R t0 (fst e) (fst e')) es us ->
  Forall (fun e : event => c <= fst e) es -> Forall (fun e : event => c' <= fst e) us -> Forall event_ok us ->
  retimed (in_step ((1 # 2 ^ 35) + (1 # 2 ^ 49)) R c' k) (map word_of us) ws ->
  Forall2 (fun e w => exists t, w = t mod 2 ^ 54 * 2 ^ 10 + 8 /\ restored t0 c' c k (fst e) t) es ws.
Proof.
  intros HR T0 F0 FF. revert ws. induction FF as [|e u es us [U8 FU] FF IH]; intros ws GE GO OO RT; cbn [map] in RT; inversion RT as [|v w vs ws' (t & W & ST) RT' E1 E2]; subst; [constructor|].
  apply Forall_cons_iff in GE, GO, OO. destruct GE as [G1 GE], GO as [G2 GO], OO as [O1 OO]. constructor; [|now apply IH].
  exists t. destruct (time_word u O1) as [TU PU]. split.
  - unfold with_time. do 2 f_equal. rewrite <- U8 at 1. unfold word_of. destruct O1 as [_ O1]. rewrite Z.add_comm, Z_mod_plus_full. apply Z.mod_small. lia.
  - rewrite TU in ST. apply (undo R t0 c (fst e) c' (fst u) t k); try assumption; lia.
Qed.
Lemma c94 prog repr dt n : In n [10; 9; 8; 7; 6; 5; 4] -> (forall x, field_ok (repr x)) ->
  exists f, accepted prog (printed true (fl 53) repr dt (fl 53 (file_ratio n))) f /\
  forall t0 evs file c0 cs junk ib ob fb ts s' os st, fast_file t0 evs n file -> channel 8 evs = c0 :: cs -> nondecr (map fst (channel 8 evs)) -> t0 <= fst c0 ->
    alloc_ok ib ob fb -> Forall tick_ok ts -> freqcd true true junk ib ob fb false f ts = Ok (s', os, st) -> every_read_completes [] (chunks os) -> received os = file ->
    exists t1 ws, prefix (written os) (encode (A1 true) ws) /\ (st = Running -> written os = encode (A1 true) ws) /\
      Forall2 (fun e w => exists t, w = t mod 2 ^ 54 * 2 ^ 10 + 8 /\ restored t0 t1 (fst c0) (len (chunks os)) (fst e) t) (channel 8 evs) ws.
Proof.
  intros I R. destruct (ratio_small n I) as (RN & B & NR). destruct (cd_file_pipe prog repr dt _ R B) as (f & A & P). exists f. split; [exact A|].
  intros t0 evs file c0 cs junk ib ob fb ts s' os st (out & -> & OO & FF & SS) CC ND T0 AL TK RUN ERC RX. specialize (SS ND). rewrite CC in *.
  destruct out as [|o0 out]; [inversion FF|].
  assert (TM : map time_of (map word_of (o0 :: out)) = map fst (o0 :: out)) by apply (times_words _ OO).
  destruct (P (file_ratio n) true junk ib ob fb ts s' os st (map word_of (o0 :: out)) (fst o0) NR AL TK RUN ERC (words_of_ok _ OO) RX) as (ws & RT & P1 & P2);
    [rewrite TM; exact SS|rewrite TM; reflexivity|].
  exists (fst o0), ws. split; [exact P1|]. split; [exact P2|].
  assert (F0 : fast (file_ratio n) t0 (fst c0) (fst o0)) by (inversion FF; tauto).
  assert (GE : Forall (fun e => fst c0 <= fst e) (c0 :: cs)).
  { clear -ND. revert ND. generalize c0. induction cs as [|e cs IH]; intros c ND; constructor; try lia; [constructor|]. 
    cbn [map nondecr] in ND. destruct ND as [N1 N2]. specialize (IH e N2). eapply Forall_impl; [|exact IH]. cbn beta. intros x X. lia. }
  assert (GO : Forall (fun e => fst o0 <= fst e) (o0 :: out)).
  { clear -SS. revert SS. generalize o0. induction out as [|e cs IH]; intros c ND; constructor; try lia; [constructor|]. 
    cbn [map nondecr] in ND. destruct ND as [N1 N2]. specialize (IH e N2). eapply Forall_impl; [|exact IH]. cbn beta. intros x X. lia. }
  exact (restore_all _ t0 (fst c0) (fst o0) _ _ _ _ RN T0 F0 FF GE GO OO RT).
Qed.
