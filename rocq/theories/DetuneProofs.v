(** Proofs about generate_freqdetuneg2. *)
From Coq Require Import QArith Qabs Qround Lqa List Lia.
From Verif Require Import Float Base TimestampsModel TimestampsSpec TimestampsProofs TimestampsProofs2 TimestampsProofs5 EpochsModel UtilsModel UtilsSpec FpfindSpec MainProofs MainProofs4 PlotProofs PipeSpec DetuneModel DetuneSpec.
Import ListNotations. Local Open Scope Z_scope.

Lemma fl_close64 p x b : 64 <= p -> (Qabs x <= b)%Q -> (Qabs (fl p x - x) <= (1 # 18446744073709551616) * b)%Q.
Proof.
  intros Q1 H. pose proof (fl_err p x) as E. pose proof (Qabs_nonneg x) as N.
  assert (P : (pow2 (- p) <= 1 # 18446744073709551616)%Q) by (change (1 # 18446744073709551616)%Q with (pow2 (-64)); apply pow2_le; lia).
  assert (A : (pow2 (- p) * Qabs x <= (1 # 18446744073709551616) * Qabs x)%Q) by (apply Qmult_le_compat_r; assumption). lra.
Qed.
Lemma fl_256 p x : (fl p (x * 256) == fl p x * 256)%Q.
Proof. change 256%Q with (pow2 8). apply fl_scale. Qed.
Lemma quot_floor x : (0 <= x)%Q -> Z.quot (Qnum x) (Zpos (Qden x)) = Qfloor x.
Proof. intros H. destruct x as [a b]. unfold Qle in H. cbn [Qnum Qden] in *. unfold Qfloor. apply Z.quot_div_nonneg; lia. Qed.
Lemma rate53 R : (0 <= R <= 1 # 1000)%Q -> (Qabs (fl 53 (1 + fl 53 R) - (1 + R)) <= (1 # 9007199254740992) * (1003 # 1000))%Q.
Proof.
  intros H. assert (A : (Qabs (fl 53 R - R) <= (1 # 9007199254740992) * (1 # 1000))%Q) by (apply fl_close53; apply Qabs_Qle_condition; lra).
  apply Qabs_Qle_condition in A. set (r := fl 53 R) in *.
  assert (B : (Qabs (fl 53 (1 + r) - (1 + r)) <= (1 # 9007199254740992) * (1002 # 1000))%Q) by (apply fl_close53; apply Qabs_Qle_condition; lra).
  apply Qabs_Qle_condition in B. apply Qabs_Qle_condition. lra.
Qed.
(** one detuned time, packed; the room kept below 2^54 is for the rounding *)
Lemma pack_fast p R t0 t v v0 : 64 <= p -> (0 <= R <= 1 # 1000)%Q -> 0 <= t0 <= t -> t < 2 ^ 54 ->
  (inject_Z t0 + inject_Z (t - t0) * (1 + R) <= inject_Z (2 ^ 54 - 8))%Q ->
  (v0 == inject_Z t0 / 256)%Q -> (v == inject_Z t / 256)%Q ->
  exists t', pack p NS1 (fl p (fl p (fl p (fl p (v - v0) * fl 53 (1 + fl 53 R)) + v0) + 0)) = Ok t' /\ 0 <= t' < 2 ^ 54 /\ fast R t0 t t'.
Proof.
  intros P HR T0 T LIM V0 V. set (g := fl 53 (1 + fl 53 R)). pose proof (rate53 R HR) as G. fold g in G. apply Qabs_Qle_condition in G. clearbody g.
  set (D := inject_Z (t - t0)). assert (D0 : (0 <= D)%Q) by (unfold D; change 0%Q with (inject_Z 0); rewrite <- Zle_Qle; lia).
  assert (D54 : (D <= 18014398509481984)%Q) by (unfold D; change 18014398509481984%Q with (inject_Z (2 ^ 54)); rewrite <- Zle_Qle; lia).
  assert (S0 : (0 <= inject_Z t0)%Q) by (change 0%Q with (inject_Z 0); rewrite <- Zle_Qle; lia).
  assert (S54 : (inject_Z t0 <= 18014398509481984)%Q) by (change 18014398509481984%Q with (inject_Z (2 ^ 54)); rewrite <- Zle_Qle; lia).
  set (d := fl p (v - v0)). assert (ED : (d == D / 256)%Q).
  { unfold d. assert (X : (v - v0 == D / 256)%Q) by (rewrite V, V0; unfold D, Zminus; rewrite inject_Z_plus, inject_Z_opp; field).
    rewrite (fl_eq p _ _ X). apply (device_exact 54); [lia|lia|]. exists (t - t0). split; [reflexivity|lia]. }
  assert (W0 : (D * g >= 0)%Q) by (apply Qmult_le_0_compat; lra).
  assert (DG : (Qabs (D * g - D * (1 + R)) <= D * ((1 # 9007199254740992) * (1003 # 1000)))%Q).
  { setoid_replace (D * g - D * (1 + R))%Q with (D * (g - (1 + R)))%Q by ring. apply mult_bound; [apply Qabs_Qle_condition; lra|]. apply Qabs_Qle_condition. lra. }
  assert (DR : (0 <= D * R <= (1 # 1000) * D)%Q).
  { split; [apply Qmult_le_0_compat; lra|]. rewrite (Qmult_comm D R). apply Qmult_le_compat_r; lra. }
  apply Qabs_Qle_condition in DG.
  assert (W1 : (D * g <= D * (1004 # 1000))%Q) by (clear - DG DR D0; lra).
  set (m := fl p (d * g)). assert (M : (Qabs (m - D * g * (1 # 256)) <= (1 # 18446744073709551616) * (D * (1004 # 1000) * (1 # 256)))%Q).
  { unfold m. assert (X : (d * g == D * g * (1 # 256))%Q) by (rewrite ED; field). rewrite (fl_eq p _ _ X). apply fl_close64; [exact P|]. apply Qabs_Qle_condition. clear - W0 W1 D0. set (w := (D * g)%Q) in *. clearbody w. split; lra. }
  apply Qabs_Qle_condition in M.
  set (a := fl p (m + v0)). assert (A : (Qabs (a - (m + inject_Z t0 * (1 # 256))) <= (1 # 18446744073709551616) * (18014398509481984 * (1 # 128)))%Q).
  { unfold a. assert (X : (m + v0 == m + inject_Z t0 * (1 # 256))%Q) by (rewrite V0; field). rewrite (fl_eq p _ _ X). apply fl_close64; [exact P|]. apply Qabs_Qle_condition.
    change (inject_Z (2 ^ 54 - 8)) with 18014398509481976%Q in LIM. fold D in LIM. clear - W0 DG DR D0 D54 S0 S54 LIM M. set (w := (D * g)%Q) in *. clearbody w. set (x := (D * R)%Q) in *. assert (E : (D * (1 + R) == D + x)%Q) by (unfold x; ring). rewrite E in *. clearbody x. clear E. clearbody m. split; lra. }
  assert (A0 : (0 <= a)%Q).
  { unfold a. rewrite <- (fl_0 p 0) by reflexivity. apply fl_mono; [lia|]. assert (0 <= m)%Q; [|assert (V1 : (v0 == inject_Z t0 * (1 # 256))%Q) by (rewrite V0; field); rewrite V1; clear - H S0; clearbody m; lra].
    unfold m. rewrite <- (fl_0 p 0) by reflexivity. apply fl_mono; [lia|]. assert (X : (d * g == D * g * (1 # 256))%Q) by (rewrite ED; field). rewrite X. clear - W0. lra. }
  apply Qabs_Qle_condition in A.
  assert (AA : (fl p (a + 0) == a)%Q).
  { rewrite (fl_eq p (a + 0) a) by ring. unfold a. apply fl_idem. lia. }
  unfold pack. cbn [rvalue]. change (inject_Z (256 / 1)) with 256%Q.
  set (y := fl p (fl p (fl p (a + 0)) * 256)). assert (Y : (y == a * 256)%Q).
  { unfold y. rewrite fl_256. assert (X : (fl p (fl p (a + 0)) == a)%Q) by (rewrite (fl_eq p _ _ AA); unfold a; apply fl_idem; lia).
    rewrite (fl_idem p (fl p (a + 0))) by lia. rewrite X. reflexivity. }
  assert (Y0 : (0 <= y)%Q) by (rewrite Y; clear - A0; lra).
  exists (Qfloor y). pose proof (Qfloor_le y) as F1. pose proof (Qlt_floor y) as F2. rewrite inject_Z_plus in F2. change (inject_Z 1) with 1%Q in F2.
  assert (LIM' : (inject_Z t0 + D * (1 + R) <= 18014398509481976)%Q) by exact LIM.
  assert (B0 : 0 <= Qfloor y) by (rewrite <- (Qfloor_Z 0); apply Qfloor_resp_le; exact Y0).
  assert (B1 : Qfloor y < 2 ^ 54).
  { assert (inject_Z (Qfloor y) < inject_Z (2 ^ 54))%Q; [change (inject_Z (2 ^ 54)) with 18014398509481984%Q; lra|]. now rewrite <- Zlt_Qlt in H. }
  split; [|split; [lia|]].
  - unfold to_uint64. cbv zeta. rewrite quot_floor by exact Y0.
    destruct (Z.leb_spec 0 (Qfloor y)); [|lia]. destruct (Z.ltb_spec (Qfloor y) (2 ^ 64)); [reflexivity|]. assert (2 ^ 54 < 2 ^ 64) by reflexivity. lia.
  - unfold fast. fold D. change (1 # 2 ^ 52)%Q with (1 # 4503599627370496)%Q. apply Qabs_Qle_condition. lra.
Qed.
(** order *)
Fixpoint qsorted (l : list Q) : Prop :=
  match l with [] => True | x :: r => match r with [] => True | y :: _ => (x <= y)%Q end /\ qsorted r end.
Lemma uint64_mono x y a b : (x <= y)%Q -> to_uint64 x = Ok a -> to_uint64 y = Ok b -> a <= b.
Proof.
  unfold to_uint64. cbv zeta. intros L A B.
  destruct ((0 <=? Z.quot (Qnum x) (Zpos (Qden x))) && (Z.quot (Qnum x) (Zpos (Qden x)) <? 2 ^ 64)) eqn:EA; [|discriminate].
  destruct ((0 <=? Z.quot (Qnum y) (Zpos (Qden y))) && (Z.quot (Qnum y) (Zpos (Qden y)) <? 2 ^ 64)) eqn:EB; [|discriminate].
  injection A as <-. injection B as <-. destruct (Qlt_le_dec x 0) as [N|N].
  - assert (Z.quot (Qnum x) (Zpos (Qden x)) <= 0); [|lia]. unfold Qlt in N. cbn [Qnum Qden] in N.
    rewrite <- (Z.opp_involutive (Qnum x)), Z.quot_opp_l by lia. assert (0 <= Z.quot (- Qnum x) (Zpos (Qden x))) by (apply Z.quot_pos; lia). lia.
  - rewrite !quot_floor by (assumption || (eapply Qle_trans; eassumption)). now apply Qfloor_resp_le.
Qed.
Lemma pack_sorted p : 1 <= p -> forall l ts, qsorted l -> mapM (pack p NS1) l = Ok ts -> nondecr ts.
Proof.
  intros P. induction l as [|x l IH]; intros ts S M; cbn [mapM] in M; [injection M as <-; exact I|].
  destruct (pack p NS1 x) as [a|] eqn:A; [|discriminate]. cbn [bind] in M. destruct (mapM (pack p NS1) l) as [bs|] eqn:B; [|discriminate]. injection M as <-.
  destruct S as [S1 S2]. specialize (IH _ S2 eq_refl). cbn [nondecr]. split; [|exact IH]. destruct l as [|y l]; cbn [mapM] in B; [injection B as <-; exact I|].
  destruct (pack p NS1 y) as [b|] eqn:Y; [|discriminate]. cbn [bind] in B. destruct (mapM (pack p NS1) l); [|discriminate]. injection B as <-.
  unfold pack in A, Y. eapply uint64_mono; [|exact A|exact Y]. apply fl_mono; [exact P|]. apply Qmult_le_compat_r; [|discriminate]. now apply fl_mono.
Qed.
Lemma qsorted_map h l : (forall x y, (x <= y)%Q -> (h x <= h y)%Q) -> qsorted l -> qsorted (map h l).
Proof.
  intros H. induction l as [|x l IH]; intros S; [exact I|]. destruct S as [S1 S2]. cbn [map qsorted]. split; [|now apply IH].
  destruct l; [exact I|]. cbn [map]. now apply H.
Qed.
Lemma qsorted_events : forall (l : list (Q * Z)) evs, Forall2 (fun x (e : event) => (fst x == inject_Z (fst e) / 256)%Q /\ snd x = snd e) l evs ->
  nondecr (map fst evs) -> qsorted (map fst l).
Proof.
  induction 1 as [|x e l evs [X _] F IH]; intros N; [exact I|]. cbn [map nondecr] in N. destruct N as [N1 N2]. cbn [map qsorted]. split; [|now apply IH].
  destruct F as [|y e2 l evs [Y _] F]; [exact I|]. cbn [map] in *. rewrite X, Y. unfold Qdiv. apply Qmult_le_compat_r; [|discriminate]. now rewrite <- Zle_Qle.
Qed.
Lemma rate_pos R : (0 <= R <= 1 # 1000)%Q -> (0 <= fl 53 (1 + fl 53 R))%Q.
Proof. intros H. pose proof (rate53 R H) as G. apply Qabs_Qle_condition in G. set (g := fl 53 (1 + fl 53 R)) in *. clearbody g. lra. Qed.
Lemma packed_sorted p R v0 l evs ts : 64 <= p -> (0 <= R <= 1 # 1000)%Q -> Forall2 (fun x (e : event) => (fst x == inject_Z (fst e) / 256)%Q /\ snd x = snd e) l evs ->
  mapM (pack p NS1) (map (fun e : Q * Z => fl p (fl p (fl p (fl p (fst e - v0) * fl 53 (1 + fl 53 R)) + v0) + 0)%Q) l) = Ok ts ->
  nondecr (map fst evs) -> nondecr ts.
Proof.
  intros P HR F M N. apply (pack_sorted p) in M; [exact M|lia|].
  set (h := fun x => fl p (fl p (fl p (fl p (x - v0) * fl 53 (1 + fl 53 R)) + v0) + 0)%Q).
  change (qsorted (map (fun e => h (fst e)) l)). rewrite <- (map_map fst h l). apply qsorted_map; [|exact (qsorted_events _ _ F N)].
  intros x y L. unfold h. pose proof (rate_pos R HR) as G. apply fl_mono; [lia|]. apply Qplus_le_l. apply fl_mono; [lia|]. apply Qplus_le_l.
  apply fl_mono; [lia|]. apply Qmult_le_compat_r; [|exact G]. apply fl_mono; [lia|]. now apply Qplus_le_l.
Qed.
Lemma chosen_channel c : forall evs l, same_values l (map (fun e => inject_Z (fst e) / 256)%Q evs) ->
  Forall2 (fun x e => (fst x == inject_Z (fst e) / 256)%Q /\ snd x = snd e) (chosen c l (map snd evs)) (channel c evs).
Proof.
  induction evs as [|e evs IH]; intros l S; cbn [map] in S; inv S; [constructor|]. unfold chosen, channel. cbn [map combine filter snd fst].
  specialize (IH _ H3). unfold chosen, channel in IH. destruct (snd e =? c); [constructor; [split; [assumption|reflexivity]|exact IH]|exact IH].
Qed.
Lemma channel_ok c evs : Forall event_ok evs -> Forall event_ok (channel c evs).
Proof. intros F. unfold channel. rewrite Forall_forall in *. intros e H. apply filter_In in H. now apply F. Qed.
Lemma pack_all p R t0 v0 l : 64 <= p -> (0 <= R <= 1 # 1000)%Q -> 0 <= t0 -> (v0 == inject_Z t0 / 256)%Q -> forall evs,
  Forall event_ok evs -> Forall (fun e => t0 <= fst e /\ (inject_Z t0 + inject_Z (fst e - t0) * (1 + R) <= inject_Z (2 ^ 54 - 8))%Q /\ snd e = 8) evs ->
  Forall2 (fun x e => (fst x == inject_Z (fst e) / 256)%Q /\ snd x = snd e) l evs ->
  exists out, mapM (pack p NS1) (map (fun e => fl p (fl p (fl p (fl p (fst e - v0) * fl 53 (1 + fl 53 R)) + v0) + 0)%Q) l) = Ok (map fst out) /\
    map snd out = map snd l /\ Forall event_ok out /\ Forall2 (fun e e' => snd e' = 8 /\ fast R t0 (fst e) (fst e')) evs out.
Proof.
  intros P HR T0 V0. induction l as [|x l IH]; intros evs O B S; destruct evs as [|y evs]; [|inversion S|inversion S|].
  - exists []. repeat split; constructor.
  - apply Forall_cons_iff in O. destruct O as [[O1 O2] O]. apply Forall_cons_iff in B. destruct B as [(B1 & B2 & B3) B].
    assert (X : ((fst x == inject_Z (fst y) / 256)%Q /\ snd x = snd y) /\ Forall2 (fun x e => (fst x == inject_Z (fst e) / 256)%Q /\ snd x = snd e) l evs) by (inversion S; split; assumption).
    destruct X as [[X1 X2] S']. destruct (IH _ O B S') as (out & M & SN & OO & FF).
    destruct (pack_fast p R t0 (fst y) (fst x) v0 P HR ltac:(lia) ltac:(lia) B2 V0 X1) as (t' & E & L & FA).
    exists ((t', 8) :: out). cbn [map mapM fst snd]. rewrite E. cbn [bind]. rewrite M. cbn [bind].
    split; [reflexivity|]. split; [now rewrite SN, X2, B3|]. split; [constructor; [unfold event_ok; cbn [fst snd]; lia|assumption]|].
    constructor; [split; [reflexivity|exact FA]|assumption].
Qed.
Lemma write_packed p f ts out : Forall event_ok out -> mapM (pack p NS1) ts = Ok (map fst out) ->
  write p f (TLD ts) (map snd out) NS1 = Ok (encode f (map word_of out)).
Proof.
  intros O M. assert (L : length ts = length out) by (apply mapM_length in M; rewrite map_length in M; now symmetry).
  unfold write. rewrite consolidate_eq by (unfold tlen, len; cbn [tvalues]; now rewrite map_length, L). cbn [tvalues]. rewrite M. cbn [bind].
  rewrite <- (render_encode f (map word_of out)) by now apply words_of_ok. do 2 f_equal.
  clear -O. induction O as [|[t q] evs [T1 T2] O IH]; [reflexivity|]. cbn [map combine fst snd] in *. f_equal; [|exact IH].
  unfold join2, word_of, u64. cbn [fst snd]. rewrite Z.shiftl_mul_pow2 by lia. rewrite !Z.mod_small; lia.
Qed.
Lemma fast_write p n e0 evs l : 64 <= p -> (0 <= file_ratio n <= 1 # 1000)%Q -> Forall event_ok (e0 :: evs) ->
  Forall (fun e => fst e0 <= fst e /\ (inject_Z (fst e0) + inject_Z (fst e - fst e0) * (1001 # 1000) <= inject_Z (2 ^ 54 - 8))%Q) (e0 :: evs) ->
  same_values l (map (fun e => inject_Z (fst e) / 256)%Q (e0 :: evs)) ->
  exists file, (let* (tc, pc) := detune_ld p l (map snd (e0 :: evs)) 8 (fl 53 (file_ratio n)) 0 in write p (A1 true) (TLD tc) pc NS1) = Ok file /\
    fast_file (fst e0) (e0 :: evs) n file.
Proof.
  intros P HR O B S. unfold detune_ld. pose proof (chosen_channel 8 _ _ S) as C.
  destruct l as [|v0 l]; [inversion S|]. change (getitem (v0 :: l) 0) with (Ok v0 : pyres Q). cbn [bind].
  assert (V0 : (v0 == inject_Z (fst e0) / 256)%Q) by (inversion S; assumption).
  assert (B' : Forall (fun e => fst e0 <= fst e /\ (inject_Z (fst e0) + inject_Z (fst e - fst e0) * (1 + file_ratio n) <= inject_Z (2 ^ 54 - 8))%Q /\ snd e = 8) (channel 8 (e0 :: evs))).
  { rewrite Forall_forall in *. intros e I. apply filter_In in I. destruct I as [I E]. destruct (B e I) as [B1 B2]. split; [exact B1|]. split; [|lia].
    eapply Qle_trans; [|exact B2]. apply Qplus_le_r. rewrite !(Qmult_comm (inject_Z (fst e - fst e0))). apply Qmult_le_compat_r; [lra|].
    change 0%Q with (inject_Z 0). rewrite <- Zle_Qle. lia. }
  assert (T0 : 0 <= fst e0) by (apply Forall_inv in O; destruct O as [[O1 _] _]; exact O1).
  destruct (pack_all p (file_ratio n) (fst e0) v0 _ P HR T0 V0 _ (channel_ok 8 _ O) B' C) as (out & M & SN & OO & FF).
  rewrite <- SN. rewrite (write_packed p (A1 true) _ out OO M).
  eexists. split; [reflexivity|]. exists out. split; [reflexivity|]. split; [assumption|]. split; [assumption|]. intros N. exact (packed_sorted p _ v0 _ _ _ P HR C M N).
Qed.
Lemma c92 p e0 evs : 64 <= p -> Forall event_ok (e0 :: evs) ->
  Forall (fun e => fst e0 <= fst e /\ (inject_Z (fst e0) + inject_Z (fst e - fst e0) * (1001 # 1000) <= inject_Z (2 ^ 54 - 8))%Q) (e0 :: evs) ->
  exists files, detune_script p (encode (A1 true) (map word_of (e0 :: evs))) = Ok (encode A2 (map word_of (channel 1 (e0 :: evs))), files) /\
    Forall2 (fast_file (fst e0) (e0 :: evs)) names files.
Proof.
  intros P O B. unfold detune_script.
  assert (RD : exists t, read_a1 p (encode (A1 true) (map word_of (e0 :: evs))) true NS1 true = Ok (t, map snd (e0 :: evs)) /\
    same_values (tvalues t) (map (fun e => inject_Z (fst e) / 256)%Q (e0 :: evs))).
  { destruct (read_times_values p true (e0 :: evs) ltac:(lia) O) as (t & ps & E & S). exists t. split; [|exact S]. rewrite E.
    rewrite read_a1_encode in E by now apply words_of_ok. unfold out, raw_t in E. cbn [format_timestamps] in E. inversion E as [[E1 E2]]. 
    do 2 f_equal. exact (proj2 (times_words _ O)). }
  destruct RD as (t & -> & S). cbn [bind]. set (l := tvalues t) in *. clearbody l. clear t.
  assert (W1 : write p A2 (TLD (map fst (chosen 1 l (map snd (e0 :: evs))))) (map snd (chosen 1 l (map snd (e0 :: evs)))) NS1 = Ok (encode A2 (map word_of (channel 1 (e0 :: evs))))).
  { pose proof (chosen_channel 1 _ _ S) as C. 
    assert (E : map snd (chosen 1 l (map snd (e0 :: evs))) = map snd (channel 1 (e0 :: evs))) by (clear -C; induction C as [|x e a b [_ X] C IH]; [reflexivity|]; cbn [map]; now rewrite X, IH).
    rewrite E. apply TimestampsProofs5.write_events; [lia|now apply channel_ok|]. cbn [tvalues]. unfold times_in. clear -C. induction C as [|x e a b [X _] C IH]; cbn [map]; constructor; [|exact IH].
    rewrite X. unfold in_units. cbn [rvalue]. rewrite Z.mul_1_r. reflexivity. }
  rewrite W1. cbn [bind].
  assert (ALL : forall ns, Forall (fun n => (0 <= file_ratio n <= 1 # 1000)%Q) ns -> exists files,
    mapM (fun r => let* (tc, pc) := detune_ld p l (map snd (e0 :: evs)) 8 (fl 53 r) 0 in write p (A1 true) (TLD tc) pc NS1) (map file_ratio ns) = Ok files /\ Forall2 (fast_file (fst e0) (e0 :: evs)) ns files).
  { induction 1 as [|n ns N F (files & IH & FF)]; [exists []; split; [reflexivity|constructor]|].
    destruct (fast_write p n e0 evs l P N O B S) as (file & W & G). exists (file :: files). change (map file_ratio (n :: ns)) with (file_ratio n :: map file_ratio ns). cbn [mapM]. rewrite W. cbn [bind]. rewrite IH. cbn [bind].
    split; [reflexivity|constructor; assumption]. }
  destruct (ALL names) as (files & E & F).
  { repeat constructor; vm_compute; discriminate. }
  exists files. split; [|exact F].
  change ratios with (map file_ratio names). now rewrite E.
Qed.
