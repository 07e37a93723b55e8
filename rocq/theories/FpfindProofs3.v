(** Slices that are not empty, the scan over precompensations, their generation, and the output. *)
From Coq Require Import QArith Qabs Qround Lqa.
From Coq Require Import ZifyBool.
From Verif Require Import Float Base TimestampsModel TimestampsSpec UtilsModel UtilsSpec UtilsProofs UtilsProofs2 UtilsProofs3 FpfindModel FpfindSpec FpfindProofs FpfindProofs2.
Local Open Scope Z_scope.

(** ** No IndexError with enough data *)
Lemma slice_some rt ts s d t : In t ts -> (0 <= rt (t - s))%Q -> exists l, slice_timestamps rt ts (Some s) (Some d) = Ok l.
Proof.
  intros I L. unfold slice_timestamps. cbn [bind]. destruct (getitem_last_ok (filter (fun t => Qle_bool 0 t) (map (fun t => rt (t - s)%Q) ts))) as (x & ->).
  - intros E. assert (X : In (rt (t - s)%Q) (filter (fun t => Qle_bool 0 t) (map (fun t => rt (t - s)%Q) ts))).
    { apply filter_In. split; [|now apply Qle_bool_iff]. apply in_map_iff. now exists t. }
    rewrite E in X. easy.
  - eexists. reflexivity.
Qed.
Definition reaches (rt : Q -> Q) (ts : list Q) (s : Q) : Prop := exists t, In t ts /\ (0 <= rt (t - s))%Q.
Lemma correlate_value M P ats b s d res : num_bins P = 1 \/ Z.odd (num_bins P) = false -> reaches (rt M) ats s -> reaches (rt M) b s ->
  errs [ValueError] (correlate M P ats b s d res).
Proof.
  intros NB (t & I & L) (u & J & K) e E. pose proof (correlate_errs M P ats b s d res NB e E) as X.
  unfold correlate in E. destruct (slice_some (rt M) ats s d t I L) as (l1 & E1). destruct (slice_some (rt M) b s d u J K) as (l2 & E2). rewrite E1, E2 in E. cbn [bind] in E.
  destruct X as [<-|[<-|[]]]; [now left|]. exfalso.
  assert (HE : forall l, histogram l (num_bins P) res <> Err IndexError).
  { intros l H. unfold histogram in H. destruct l; [discriminate|]. destruct (_ || _)%bool; discriminate. }
  destruct (histogram l1 (num_bins P) res) as [ha|x] eqn:H1; [|cbn [bind] in E; injection E as ->; now apply HE in H1]. cbn [bind] in E.
  destruct (histogram l2 (num_bins P) res) as [hb|x] eqn:H2; [|cbn [bind] in E; injection E as ->; now apply HE in H2]. cbn [bind] in E.
  unfold get_xcorr in E. destruct (len ha =? 1); [discriminate|]. destruct (Z.odd (len ha)); discriminate.
Qed.
Lemma iteration_value M P ats e d s : good_xc M -> good_zs M -> num_bins P = 1 \/ Z.odd (num_bins P) = false ->
  reaches (rt M) ats 0 -> reaches (rt M) (bts s) 0 -> reaches (rt M) ats (separation_duration P) -> reaches (rt M) (bts s) (separation_duration P) ->
  errs [ValueError] (iteration M P ats e d s).
Proof.
  intros GX GZ NB A0 B0 A1 B1. unfold iteration. apply errs_bind; [now apply correlate_value|]. intros ys E.
  destruct (correlate_len _ _ _ _ _ _ _ _ GX E) as [LY N2].
  assert (NE : forall l : list Q, len l = num_bins P -> l <> []) by (intros l L ->; change (len (@nil Q)) with 0 in L; lia).
  destruct (delay_of_ok M ys (resolution s) (NE ys LY)) as (d1 & D1). rewrite LY in D1. rewrite D1. cbn [bind].
  destruct (sig_of_ok M ys (resolution s) ltac:(lia)) as (p & b & bg & _ & _ & S). rewrite S. cbn [bind].
  apply errs_bind.
  - destruct (is_first s); [|apply errs_ok]. apply (confirm_errs M P GZ); [lia|lia|exact S].
  - intros (res & dt1) _. destruct (Qltb _ _); [apply errs_err; now left|].
    apply errs_bind; [now apply correlate_value|]. intros ys2 E2. destruct (correlate_len _ _ _ _ _ _ _ _ GX E2) as [LY2 _].
    destruct (delay_of_ok M ys2 res (NE ys2 LY2)) as (d2 & D2). rewrite LY2 in D2. rewrite D2. cbn [bind]. cbv zeta.
    destruct (_ && _)%bool; [apply errs_ok|]. destruct (Qle_bool _ _); [apply errs_err; now left|]. destruct (Qeq_bool _ _); apply errs_ok.
Qed.
(** state after [k] iterations: the target times are the original ones under (dt, f) *)
Definition tracks (bts0 : list Q) (k : nat) (s : fstate) : Prop :=
  Forall2 (fun t u => u == (t - dt s) / f s)%Q bts0 (bts s) /\
  (Qabs (dt s) <= inject_Z (Z.of_nat k) * (100000000 * (8193 # 8192)))%Q /\ (Qabs (f s - 1) < 1 # 8192)%Q.
Lemma tracks_reach bts0 k s sep t : (0 <= sep)%Q -> tracks bts0 k s -> In t bts0 ->
  ((sep + inject_Z (Z.of_nat k) * 100000000) * (8193 # 8192) <= t)%Q -> exists u, In u (bts s) /\ (sep <= u)%Q.
Proof.
  intros S0 (F2 & D & FR) I L. assert (X : exists u, In u (bts s) /\ (u == (t - dt s) / f s)%Q).
  { clear - F2 I. induction F2 as [|a b l l' E F2 IH]; [easy|]. destruct I as [->|I]; [exists b; split; [now left|exact E]|].
    destruct (IH I) as (u & U & V). exists u. split; [now right|exact V]. }
  destruct X as (u & U & V). exists u. split; [exact U|]. rewrite V. apply Qabs_Qlt_condition in FR. apply Qabs_Qle_condition in D.
  apply Qle_shift_div_l; [lra|]. assert (sep * f s <= sep * (8193 # 8192))%Q by (rewrite !(Qmult_comm sep); apply Qmult_le_compat_r; lra). lra.
Qed.
Lemma tracks_next M P ats e d s s' bts0 k : good_xc M -> exact_fpu M -> tracks bts0 k s -> iteration M P ats e d s = Ok (Again s') -> tracks bts0 (S k) s'.
Proof.
  intros GX [RT RS] (F2 & D & FR) H. destruct (iteration_inv _ _ _ _ _ _ _ GX H) as (w & ys & ys1 & dt1 & res & ys2 & d2 & _ & _ & _ & _ & _ & LD & _ & _ & K).
  cbv zeta in K. set (df1 := rs M (rs M (d2 - dt1) / separation_duration P)%Q) in *.
  destruct K as [(_ & K)|(B & [(_ & K)|(_ & K)])]; [discriminate|discriminate|]. injection K as ->. rewrite RS in B. unfold MAX_FCORR in B. unfold NTP_MAXDELAY_NS in LD.
  split; [|split]; cbn [bts dt f]; [| |exact B].
  - pose proof (small_nonzero _ B) as NF. set (f' := rs M (f s * rs M (1 + df1))%Q) in *. set (dt' := rs M (dt s + rs M (f s * dt1))%Q).
    assert (EF : (f' == f s * (1 + df1))%Q) by (subst f'; rewrite (RS (f s * rs M (1 + df1))%Q), (RS (1 + df1)%Q); reflexivity).
    assert (ED : (dt' == dt s + f s * dt1)%Q) by (subst dt'; rewrite (RS (dt s + rs M (f s * dt1))%Q), (RS (f s * dt1)%Q); reflexivity).
    clearbody f' dt'. assert (N1 : ~ (1 + df1 == 0)%Q) by (intros Z0; apply NF; rewrite EF, Z0; ring).
    assert (N2 : ~ (f s == 0)%Q) by (intros Z0; apply NF; rewrite EF, Z0; ring).
    clear - F2 EF ED N1 N2 RT RS. induction F2 as [|t u l l' E F2 IH]; cbn [map]; constructor; [|exact IH].
    rewrite (RT (rt M (u - dt1) / rs M (1 + df1))%Q), (RT (u - dt1)%Q), (RS (1 + df1)%Q), E, EF, ED. field. split; assumption.
  - rewrite (RS (dt s + rs M (f s * dt1))%Q), (RS (f s * dt1)%Q). apply Qabs_Qlt_condition in FR. apply Qabs_Qle_condition in D. apply Qabs_Qle_condition in LD.
    rewrite Nat2Z.inj_succ. unfold Z.succ. rewrite inject_Z_plus. change (inject_Z 1) with 1%Q.
    assert (Y : (Qabs (f s * dt1) <= (8193 # 8192) * 100000000)%Q).
    { rewrite Qabs_Qmult. apply Qle_trans with ((8193 # 8192) * Qabs dt1)%Q.
      - apply Qmult_le_compat_r; [|apply Qabs_nonneg]. apply Qabs_Qle_condition. lra.
      - rewrite !(Qmult_comm (8193 # 8192)). apply Qmult_le_compat_r; [|lra]. apply Qabs_Qle_condition. exact LD. }
    apply Qabs_Qle_condition in Y. apply Qabs_Qle_condition. generalize dependent (f s * dt1)%Q. intros z Y. lra.
Qed.
Lemma iterate_value M P ats e d bts0 t n : good_xc M -> good_zs M -> exact_fpu M -> num_bins P = 1 \/ Z.odd (num_bins P) = false ->
  (0 <= separation_duration P)%Q -> (exists a, In a ats /\ (separation_duration P <= a)%Q) ->
  In t bts0 -> ((separation_duration P + inject_Z (Z.of_nat n) * 100000000) * (8193 # 8192) <= t)%Q ->
  forall fuel k s, (fuel + k <= n)%nat -> tracks bts0 k s -> errs [ValueError; OutOfFuel] (iterate fuel M P ats e d s).
Proof.
  intros GX GZ EX NB S0 (a & IA & LA) I L. induction fuel as [|m IH]; intros k s LE T; cbn [iterate]; [apply errs_err; cbn; tauto|].
  apply errs_bind.
  - apply (errs_mono [ValueError]); [cbn; tauto|].
    assert (LK : ((separation_duration P + inject_Z (Z.of_nat k) * 100000000) * (8193 # 8192) <= t)%Q).
    { assert (inject_Z (Z.of_nat k) <= inject_Z (Z.of_nat n))%Q by (rewrite <- Zle_Qle; lia). lra. }
    destruct (tracks_reach bts0 k s _ t S0 T I LK) as (u & U & V). destruct EX as [RT RS].
    apply iteration_value; try assumption; [exists a|exists u|exists a|exists u]; (split; [assumption|]); rewrite RT; lra.
  - intros [x y|s'] E; [apply errs_ok|]. apply (IH (S k)); [lia|]. apply (tracks_next M P ats e d s s' bts0 k GX EX T E).
Qed.
Lemma c58_enough n M P ats bts res : good_xc M -> good_zs M -> exact_fpu M -> num_bins P = 1 \/ Z.odd (num_bins P) = false ->
  (0 <= separation_duration P)%Q -> (exists a, In a ats /\ (separation_duration P <= a)%Q) ->
  (exists t, In t bts /\ ((separation_duration P + inject_Z (Z.of_nat n) * 100000000) * (8193 # 8192) <= t)%Q) ->
  errs [ValueError; OutOfFuel] (time_freq n M P ats bts res).
Proof.
  intros GX GZ EX NB S0 A (t & I & L). unfold time_freq.
  destruct A as (a & IA & LA).
  destruct (getitem_last_ok ats) as (x & ->); [intros ->; easy|]. destruct (getitem_last_ok bts) as (y & ->); [intros ->; easy|]. cbn [bind].
  apply (iterate_value M P ats _ _ bts t n) with (k := 0%nat); try assumption; [now exists a|lia|].
  split; [|split]; cbn [FpfindModel.bts dt f].
  - clear. induction bts as [|t l IH]; constructor; [field|exact IH].
  - vm_compute. discriminate.
  - reflexivity.
Qed.

(** ** The scan *)
Lemma c56 rt rs search bob : forall df0s,
  (exists i df0 dt1 df1, nth_error df0s i = Some df0 /\ search (attempt rt rs df0 bob) = Ok (dt1, df1) /\
     (forall j x, (j < i)%nat -> nth_error df0s j = Some x -> search (attempt rt rs x bob) = Err ValueError) /\
     scan rt rs search bob df0s false =
       Ok (rs (0 + rs (rs (1 + df0) * dt1))%Q, rs (rs (rs (1 + df0) * rs (1 + df1)) - 1)%Q)) \/
  (exists i df0 e, nth_error df0s i = Some df0 /\ search (attempt rt rs df0 bob) = Err e /\ e <> ValueError /\
     (forall j x, (j < i)%nat -> nth_error df0s j = Some x -> search (attempt rt rs x bob) = Err ValueError) /\
     scan rt rs search bob df0s false = Err e) \/
  (Forall (fun x => search (attempt rt rs x bob) = Err ValueError) df0s /\ scan rt rs search bob df0s false = Err ValueError).
Proof.
  induction df0s as [|x df0s IH]; [right; right; split; [constructor|reflexivity]|].
  cbn [scan]. fold (attempt rt rs x bob). destruct (search (attempt rt rs x bob)) as [(d, e)|e] eqn:E.
  - left. exists 0%nat, x, d, e. split; [reflexivity|]. split; [exact E|]. split; [intros; lia|reflexivity].
  - assert (dec : e = ValueError \/ e <> ValueError) by (destruct e; (now left) || (right; discriminate)).
    destruct dec as [->|NV].
    + destruct IH as [(i & df0 & d & e & N & S1 & B & R)|[(i & df0 & e & N & S1 & NV & B & R)|(F & R)]].
      * left. exists (S i), df0, d, e. split; [exact N|]. split; [exact S1|]. split; [|exact R].
        intros [|j] y J NE; [cbn in NE; injection NE as <-; exact E|]. apply (B j); [lia|exact NE].
      * right; left. exists (S i), df0, e. split; [exact N|]. split; [exact S1|]. split; [exact NV|]. split; [|exact R].
        intros [|j] y J NE; [cbn in NE; injection NE as <-; exact E|]. apply (B j); [lia|exact NE].
      * right; right. split; [constructor; assumption|exact R].
    + right; left. exists 0%nat, x, e. split; [reflexivity|]. split; [exact E|]. split; [exact NV|]. split; [intros; lia|]. destruct e; try reflexivity. congruence.
Qed.
Lemma c57_never rt rs search bob : forall df0s r, scan rt rs search bob df0s true <> Ok r.
Proof.
  induction df0s as [|x df0s IH]; intros r H; [discriminate|]. cbn [scan] in H.
  match type of H with match search ?b with _ => _ end = _ => destruct (search b) as [(d, e)|e] eqn:E end; [now apply IH in H|].
  destruct e; try discriminate. now apply IH in H.
Qed.

(** ** Precompensations *)
Lemma flip_flop_zigzag m : flip_flop ((Z.of_nat m + 1) * 2) = zigzag m.
Proof.
  unfold flip_flop, zigzag. replace (Z.to_nat ((Z.of_nat m + 1) * 2 - 1)) with (2 * m + 1)%nat by lia.
  set (g := fun i : nat => let v := (Z.of_nat i + 1) / 2 in if Z.even (Z.of_nat i) then - v else v).
  induction m as [|m IH]; [reflexivity|]. replace (2 * S m + 1)%nat with (2 * m + 1 + 1 + 1)%nat by lia.
  rewrite (seq_app (2 * m + 1 + 1)), (seq_app (2 * m + 1)), !map_app, IH, (seq_S m 1), flat_map_app. cbn [Nat.add seq map flat_map app].
  f_equal. rewrite <- app_assoc. f_equal. cbn [app]. subst g. cbv beta zeta.
  replace (Z.even (Z.of_nat (2 * m + 1))) with false by (rewrite <- Z.negb_odd; replace (Z.of_nat (2 * m + 1)) with (1 + 2 * Z.of_nat m) by lia; now rewrite Z.odd_add_mul_2).
  replace (Z.even (Z.of_nat (2 * m + 1 + 1))) with true by (replace (Z.of_nat (2 * m + 1 + 1)) with (2 * (Z.of_nat m + 1)) by lia; now rewrite Z.even_mul).
  assert (D1 : (Z.of_nat (2 * m + 1) + 1) / 2 = Z.of_nat (S m)) by (symmetry; apply (Z.div_unique _ _ _ 0); lia).
  assert (D2 : (Z.of_nat (2 * m + 1 + 1) + 1) / 2 = Z.of_nat (S m)) by (symmetry; apply (Z.div_unique _ _ _ 1); lia).
  rewrite D1, D2. reflexivity.
Qed.
Lemma quotient_floor x y : (0 < y)%Q -> quotient x y (Qfloor (x / y)).
Proof.
  intros Y. pose proof (Qfloor_le (x / y)) as A. pose proof (Qlt_floor (x / y)) as B. split.
  - apply Qle_trans with (x / y * y)%Q; [apply Qmult_le_compat_r; lra|]. apply Qle_lteq. right. field. lra.
  - apply Qle_lt_trans with (x / y * y)%Q; [apply Qle_lteq; right; field; lra|]. apply Qmult_lt_compat_r; assumption.
Qed.
Lemma quotient_unique x y m n : (0 < y)%Q -> quotient x y m -> quotient x y n -> m = n.
Proof.
  assert (G : forall m n, (0 < y)%Q -> quotient x y m -> quotient x y n -> m <= n).
  { intros a b Y [A _] [_ B]. assert (L : (inject_Z a < inject_Z (b + 1))%Q) by (apply Qmult_lt_r with y; [assumption|]; lra). rewrite <- Zlt_Qlt in L. lia. }
  intros Y A B. pose proof (G m n Y A B). pose proof (G n m Y B A). lia.
Qed.
Lemma c59 rs start stop step : (0 < step)%Q -> (0 <= stop)%Q ->
  exists m, quotient stop step (Z.of_nat m) /\
    generate_precompensations rs start stop step false = map (fun k => rs (rs (inject_Z k * step) + start)%Q) (zigzag m).
Proof.
  intros S T. assert (F0 : 0 <= Qfloor (stop / step)).
  { pose proof (Qfloor_resp_le 0 (stop / step)%Q) as X. change (Qfloor 0) with 0 in X. apply X. apply Qle_shift_div_l; lra. }
  exists (Z.to_nat (Qfloor (stop / step))). rewrite Z2Nat.id by assumption. split; [now apply quotient_floor|].
  unfold generate_precompensations. destruct (Qeq_bool step 0) eqn:Z0; [apply Qeq_bool_iff in Z0; lra|].
  rewrite <- flip_flop_zigzag, Z2Nat.id by assumption. reflexivity.
Qed.
Lemma c59_ordered rs start stop step : (0 < step)%Q -> (0 <= rs (stop - start))%Q ->
  exists m, quotient (rs (stop - start)%Q) step (Z.of_nat m) /\
    generate_precompensations rs start stop step true = map (fun k => rs (rs (inject_Z (Z.of_nat k) * step) + start)%Q) (seq 0 (S m)).
Proof.
  intros S T. assert (F0 : 0 <= Qfloor (rs (stop - start)%Q / step)).
  { pose proof (Qfloor_resp_le 0 (rs (stop - start)%Q / step)%Q) as X. change (Qfloor 0) with 0 in X. apply X. apply Qle_shift_div_l; lra. }
  exists (Z.to_nat (Qfloor (rs (stop - start)%Q / step))). rewrite Z2Nat.id by assumption. split; [now apply quotient_floor|].
  unfold generate_precompensations. destruct (Qeq_bool step 0) eqn:Z0; [apply Qeq_bool_iff in Z0; lra|].
  rewrite map_map. replace (Z.to_nat (Qfloor (rs (stop - start)%Q / step) + 1)) with (Datatypes.S (Z.to_nat (Qfloor (rs (stop - start)%Q / step)))) by lia. reflexivity.
Qed.

(** ** Inverted offsets *)
Lemma c60_time dt df t : (-1 < df)%Q ->
  (corrected (invert (fun x => x) dt df) (corrected (dt, df) t) == t + dt * ((1 + df) * (1 + df) - 1))%Q.
Proof. intros D. unfold corrected, invert. cbn [fst snd]. field. lra. Qed.
Lemma c60_other dt df t : (-1 < df)%Q ->
  let '(dt', df') := invert (fun x => x) dt df in ((t / (1 + df) - dt) / (1 + df') - dt' == t)%Q.
Proof. intros D. unfold invert. field. lra. Qed.
Lemma c60_exact dt df : (-1 < df)%Q -> ((forall t, corrected (invert (fun x => x) dt df) (corrected (dt, df) t) == t)%Q <-> (dt == 0 \/ df == 0)%Q).
Proof.
  intros D. split.
  - intros H. specialize (H 0%Q). rewrite c60_time in H by assumption.
    assert (X : (dt * (df * (2 + df)) == 0)%Q) by (rewrite <- H; ring).
    apply Qmult_integral in X as [X|X]; [now left|]. apply Qmult_integral in X as [X|X]; [now right|]. lra.
  - intros H t. rewrite c60_time by assumption. destruct H as [H|H]; rewrite H; ring.
Qed.

(** ** Frequency units *)
Lemma rneQ_range x n : (Qabs x < inject_Z n - (1 # 2))%Q -> Z.abs (rneQ x) < n.
Proof.
  intros H. pose proof (rneQ_err x) as E. assert (L : (inject_Z (Z.abs (rneQ x)) < inject_Z n)%Q).
  { rewrite <- inject_abs. pose proof (Qabs_triangle (inject_Z (rneQ x) - x) x) as T.
    setoid_replace (inject_Z (rneQ x) - x + x)%Q with (inject_Z (rneQ x)) in T by ring. lra. }
  now rewrite <- Zlt_Qlt in L.
Qed.
Lemma c61 rs df : (rs (df * inject_Z (2 ^ 34)) == df * inject_Z (2 ^ 34))%Q -> (Qabs df < (1 # 2 ^ 13) - (1 # 2 ^ 35))%Q -> Z.abs (freq_units rs df) < 2 ^ 21.
Proof.
  intros E H. unfold freq_units. change (Z.shiftl 1 34) with (2 ^ 34). apply rneQ_range. rewrite E, Qabs_Qmult.
  change (Qabs (inject_Z (2 ^ 34))) with (17179869184 # 1)%Q. change (inject_Z (2 ^ 21)) with (2097152 # 1)%Q.
  change (1 # 2 ^ 13)%Q with (1 # 8192)%Q in H. change (1 # 2 ^ 35)%Q with (1 # 34359738368)%Q in H. lra.
Qed.
Lemma float_scaled df : (fl 53 df == df)%Q -> (fl 53 (df * inject_Z (2 ^ 34)) == df * inject_Z (2 ^ 34))%Q.
Proof.
  intros E. assert (P : (inject_Z (2 ^ 34) == pow2 34)%Q) by (vm_compute; reflexivity).
  assert (X : (df * inject_Z (2 ^ 34) == df * pow2 34)%Q) by (now rewrite P). rewrite (fl_eq 53 _ _ X), fl_scale, E, P. reflexivity.
Qed.
Lemma c61_float df : (fl 53 df == df)%Q -> (Qabs df < (1 # 2 ^ 13) - (1 # 2 ^ 35))%Q -> Z.abs (freq_units (fl 53) df) < 2 ^ 21.
Proof. intros E. now apply c61, float_scaled. Qed.
Lemma fl53_near x b : (Qabs x <= b)%Q -> (Qabs (fl 53 x - x) <= (1 # 2 ^ 53) * b)%Q.
Proof.
  intros H. pose proof (fl_err 53 x) as E. assert (P : (pow2 (- (53)) == 1 # 2 ^ 53)%Q) by (vm_compute; reflexivity). rewrite P in E.
  apply Qle_trans with ((1 # 2 ^ 53) * Qabs x)%Q; [exact E|]. rewrite !(Qmult_comm (1 # 2 ^ 53)). apply Qmult_le_compat_r; [exact H|discriminate].
Qed.
Lemma c61_inverted dt df : (Qabs df <= (1 # 2 ^ 13) - (1 # 2 ^ 25))%Q -> Z.abs (freq_units (fl 53) (snd (invert (fl 53) dt df))) < 2 ^ 21.
Proof.
  intros H. unfold invert. cbn [snd]. set (x := fl 53 (1 + df)). set (y := fl 53 (1 / x)). set (z := fl 53 (y - 1)).
  change (1 # 2 ^ 13)%Q with (1 # 8192)%Q in H. change (1 # 2 ^ 25)%Q with (1 # 33554432)%Q in H.
  pose proof (proj1 (Qabs_Qle_condition _ _) H) as HD.
  assert (HX : (Qabs (x - (1 + df)) <= (1 # 2 ^ 53) * 2)%Q) by (apply fl53_near; apply Qabs_Qle_condition; lra).
  change (1 # 2 ^ 53)%Q with (1 # 9007199254740992)%Q in HX. apply Qabs_Qle_condition in HX.
  set (B := ((1 # 8192) - (1 # 33554432) + (1 # 2 ^ 50))%Q). change (1 # 2 ^ 50)%Q with (1 # 1125899906842624)%Q in B.
  assert (X1 : (1 - B <= x)%Q) by (unfold B; lra). assert (X2 : (x <= 1 + B)%Q) by (unfold B; lra).
  assert (X0 : (0 < x)%Q) by (unfold B in X1; lra).
  set (C := ((1 # 8192) - (1 # 134217728))%Q).
  assert (Y1 : (1 - C <= 1 / x)%Q).
  { apply Qle_shift_div_l; [assumption|]. assert ((1 - C) * x <= (1 - C) * (1 + B))%Q by (rewrite !(Qmult_comm (1 - C)%Q); apply Qmult_le_compat_r; [lra|unfold C; lra]).
    assert ((1 - C) * (1 + B) <= 1)%Q by (apply Qle_bool_iff; vm_compute; reflexivity). lra. }
  assert (Y2 : (1 / x <= 1 + C)%Q).
  { apply Qle_shift_div_r; [assumption|]. assert ((1 + C) * (1 - B) <= (1 + C) * x)%Q by (rewrite !(Qmult_comm (1 + C)%Q); apply Qmult_le_compat_r; [lra|unfold C; lra]).
    assert (1 <= (1 + C) * (1 - B))%Q by (apply Qle_bool_iff; vm_compute; reflexivity). lra. }
  assert (HY : (Qabs (y - 1 / x) <= (1 # 2 ^ 53) * 2)%Q) by (apply fl53_near; apply Qabs_Qle_condition; unfold C in *; lra).
  change (1 # 2 ^ 53)%Q with (1 # 9007199254740992)%Q in HY. apply Qabs_Qle_condition in HY.
  assert (HZ : (Qabs (z - (y - 1)) <= (1 # 2 ^ 53) * 1)%Q) by (apply fl53_near; apply Qabs_Qle_condition; unfold C in *; lra).
  change (1 # 2 ^ 53)%Q with (1 # 9007199254740992)%Q in HZ. apply Qabs_Qle_condition in HZ.
  apply c61_float; [apply fl_idem; lia|].
  change (1 # 2 ^ 13)%Q with (1 # 8192)%Q. change (1 # 2 ^ 35)%Q with (1 # 34359738368)%Q. apply Qabs_Qlt_condition. unfold C in *. split; lra.
Qed.

(** ** Decimal output *)
Lemma value_app a b : value (a ++ b) = fold_left (fun v c => 10 * v + (c - 48)) b (value a).
Proof. unfold value. now rewrite fold_left_app. Qed.
Lemma digits_spec : forall fuel v, 0 <= v -> v < 2 ^ Z.of_nat (S fuel) -> digits (S fuel) v <> [] /\ Forall digit (digits (S fuel) v) /\ value (digits (S fuel) v) = v /\
  (v <> 0 -> hd 0 (digits (S fuel) v) <> 48) /\ (v = 0 -> digits (S fuel) v = [48]).
Proof.
  induction fuel as [|k IH]; intros v V L.
  - change (2 ^ Z.of_nat 1) with 2 in L. assert (C : v = 0 \/ v = 1) by lia. destruct C as [-> | ->]; cbn;
    (split; [discriminate|split; [repeat constructor; lia|split; [reflexivity|split; [lia|]]]]); [reflexivity|discriminate].
  - change (digits (S (S k)) v) with (if v <? 10 then [48 + v] else digits (S k) (v / 10) ++ [48 + v mod 10]).
    destruct (v <? 10) eqn:B.
    + split; [discriminate|]. split; [constructor; [unfold digit; lia|constructor]|]. split; [unfold value; cbn [fold_left]; lia|]. split; [cbn [hd]; lia|]. intros ->. reflexivity.
    + pose proof (Z.div_mod v 10 ltac:(lia)) as DM. pose proof (Z.mod_pos_bound v 10 ltac:(lia)) as MB.
      assert (Q0 : 0 <= v / 10) by (apply Z.div_pos; lia).
      assert (QL : v / 10 < 2 ^ Z.of_nat (S k)).
      { apply Z.div_lt_upper_bound; [lia|]. rewrite (Nat2Z.inj_succ (S k)), Z.pow_succ_r in L by lia. pose proof (Z.pow_pos_nonneg 2 (Z.of_nat (S k)) ltac:(lia) ltac:(lia)). lia. }
      destruct (IH (v / 10) Q0 QL) as (N & F & VV & H & _). assert (Q1 : v / 10 <> 0) by lia.
      split; [intros X; apply app_eq_nil in X as [_ X]; discriminate|]. split; [apply Forall_app; split; [exact F|constructor; [unfold digit; lia|constructor]]|].
      split; [rewrite value_app, VV; cbn [fold_left]; lia|]. split; [|lia]. intros _. destruct (digits (S k) (v / 10)); [congruence|]. cbn [app hd] in *. apply H, Q1.
Qed.
Lemma digits_log v : 0 <= v -> exists k, Z.to_nat (Z.log2 v + 1) = S k /\ v < 2 ^ Z.of_nat (S k).
Proof.
  intros V. pose proof (Z.log2_nonneg v). exists (Z.to_nat (Z.log2 v)). split; [lia|]. rewrite Nat2Z.inj_succ, Z2Nat.id by lia.
  destruct (Z.eq_dec v 0) as [-> |]; [reflexivity|]. apply Z.log2_spec. lia.
Qed.
Lemma dec_spec n : decimal (dec n) n.
Proof.
  unfold dec, decimal. destruct (n <? 0) eqn:B.
  - destruct (digits_log (- n) ltac:(lia)) as (k & -> & L). destruct (digits_spec k (- n) ltac:(lia) L) as (N & F & V & H & E).
    exists (digits (S k) (- n)). split; [reflexivity|]. split; [exact N|]. split; [exact F|]. split; [lia|]. split; intros; [apply H|apply E]; lia.
  - destruct (digits_log n ltac:(lia)) as (k & -> & L). destruct (digits_spec k n ltac:(lia) L) as (N & F & V & H & E).
    exists (digits (S k) n). split; [reflexivity|]. split; [exact N|]. split; [exact F|]. split; [lia|]. split; intros; [apply H|apply E]; lia.
Qed.
Lemma decimal_unique s n m : decimal s n -> decimal s m -> n = m.
Proof.
  intros (a & A & NA & FA & VA & _) (b & B & NB & FB & VB & _).
  destruct a as [|x a]; [congruence|]. destruct b as [|y b]; [congruence|]. inversion FA as [|? ? DX _]; inversion FB as [|? ? DY _]; subst. unfold digit in *.
  destruct (n <? 0) eqn:N, (m <? 0) eqn:M; cbn [app] in B.
  - injection B as -> ->. lia.
  - injection B as <- _. lia.
  - injection B as -> _. lia.
  - injection B as -> ->. lia.
Qed.
Lemma decimal_field s n : decimal s n -> field_ok s.
Proof.
  intros (ds & -> & N & F & _). destruct (exists_last N) as (r & c & ->). exists ((if n <? 0 then [45] else []) ++ r), c. split; [now rewrite app_assoc|].
  apply Forall_app in F as [_ F]. inversion F; subst. unfold digit in *. unfold is_blank. lia.
Qed.

(** ** The printed line *)
Lemma lstrip_head c r : is_blank c = false -> lstrip (c :: r) = c :: r.
Proof. intros H. cbn [lstrip]. now rewrite H. Qed.
Lemma rstrip_tab s : field_ok s -> rstrip (s ++ [TAB]) = s.
Proof.
  intros (r & c & -> & B). unfold rstrip. rewrite rev_app_distr. cbn [rev app lstrip]. change (is_blank TAB) with true. cbn iota.
  rewrite rev_app_distr. cbn [rev app]. rewrite lstrip_head by assumption. change (c :: rev r) with ([c] ++ rev r). rewrite rev_app_distr, rev_involutive. reflexivity.
Qed.
Lemma field_app a s : field_ok s -> field_ok (a ++ s).
Proof. intros (r & c & -> & B). exists (a ++ r), c. split; [now rewrite app_assoc|exact B]. Qed.
Lemma bit_test i flag : 0 <= i -> bit (2 ^ i) flag = Z.testbit flag i.
Proof.
  intros I. unfold bit. destruct (Z.testbit flag i) eqn:T.
  - destruct (Z.land flag (2 ^ i) =? 0) eqn:E; [|reflexivity]. exfalso. apply Z.eqb_eq in E. assert (X : Z.testbit (Z.land flag (2 ^ i)) i = true) by (rewrite Z.land_spec, T, Z.pow2_bits_true; easy).
    rewrite E, Z.bits_0 in X. discriminate.
  - destruct (Z.land flag (2 ^ i) =? 0) eqn:E; [reflexivity|]. exfalso. apply Z.eqb_neq in E. apply E. apply Z.bits_inj_0. intros j. rewrite Z.land_spec.
    destruct (Z.eq_dec j i) as [-> |N]; [now rewrite T|]. rewrite Z.pow2_bits_false by congruence. apply andb_false_r.
Qed.
Lemma rneQ_nearest x : nearest x (rneQ x).
Proof. apply rneQ_err. Qed.
Lemma c62 rs repr flag dt df : (forall x, field_ok (repr x)) ->
  let c := if Z.testbit flag 0 then inverted rs (dt, df) else (dt, df) in
  exists freq time n, output rs repr flag dt df = freq ++ (if Z.testbit flag 2 then [] else 9 :: time) /\
    (if Z.testbit flag 1 then exists k, decimal freq k /\ nearest (rs (snd c * inject_Z (2 ^ 34))%Q) k else freq = repr (snd c)) /\
    decimal time n /\ nearest (if Z.testbit flag 3 then rs (fst c * 8)%Q else fst c) n.
Proof.
  intros R. unfold output.
  change (bit 1 flag) with (bit (2 ^ 0) flag). change (bit 2 flag) with (bit (2 ^ 1) flag). change (bit 4 flag) with (bit (2 ^ 2) flag). change (bit 8 flag) with (bit (2 ^ 3) flag).
  rewrite !bit_test by lia. change (invert rs dt df) with (inverted rs (dt, df)). cbv zeta. destruct (if Z.testbit flag 0 then inverted rs (dt, df) else (dt, df)) as [d e]. cbn [fst snd].
  unfold freq_units. change (Z.shiftl 1 34) with (2 ^ 34).
  set (fr := if Z.testbit flag 1 then dec (rneQ (rs (e * inject_Z (2 ^ 34))%Q)) else repr e).
  exists fr, (dec (rneQ (if Z.testbit flag 3 then rs (d * 8)%Q else d))), (rneQ (if Z.testbit flag 3 then rs (d * 8)%Q else d)).
  split; [|split; [|split; [apply dec_spec|apply rneQ_nearest]]].
  - assert (FR : field_ok fr) by (subst fr; destruct (Z.testbit flag 1); [eapply decimal_field, dec_spec|apply R]).
    clearbody fr. destruct (Z.testbit flag 2); cbn [negb]; [now rewrite rstrip_tab, app_nil_r|].
    rewrite !app_assoc, rstrip_tab; [now rewrite <- app_assoc|]. apply field_app. eapply decimal_field, dec_spec.
  - subst fr. destruct (Z.testbit flag 1); [|reflexivity]. eexists. split; [apply dec_spec|apply rneQ_nearest].
Qed.
Lemma output_freq rs repr dt df : (forall x, field_ok (repr x)) -> output rs repr 6 dt df = dec (freq_units rs df) /\ output rs repr 7 dt df = dec (freq_units rs (snd (invert rs dt df))).
Proof.
  intros R. unfold output. split; [change (bit 1 6) with false; change (bit 2 6) with true; change (bit 4 6) with true|change (bit 1 7) with true; change (bit 2 7) with true; change (bit 4 7) with true].
  - cbn [negb]. apply rstrip_tab. eapply decimal_field, dec_spec.
  - destruct (invert rs dt df) as [d e]. cbn [negb snd]. apply rstrip_tab. eapply decimal_field, dec_spec.
Qed.
