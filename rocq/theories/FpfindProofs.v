(** The search loop: composition of corrections, range of the result, termination. *)
From Coq Require Import QArith Qabs Qround Lqa.
From Coq Require Import ZifyBool.
From Verif Require Import Float Base TimestampsModel TimestampsSpec UtilsModel UtilsSpec UtilsProofs UtilsProofs2 UtilsProofs3 FpfindModel FpfindSpec.
Local Open Scope Z_scope.

Lemma bind_ok {A B} (m : pyres A) (k : A -> pyres B) b : bind m k = Ok b -> exists a, m = Ok a /\ k a = Ok b.
Proof. destruct m; [|discriminate]. intros H. now exists a. Qed.

(** ** One iteration *)
Lemma confirm_found fuel M P : forall ys res dt1 sig res' dt1', confirm fuel M P ys res dt1 sig = Ok (res', dt1') ->
  delay_of M (len ys) ys res = Ok dt1 -> exists ys1, merged M ys ys1 /\ delay_of M (len ys1) ys1 res' = Ok dt1'.
Proof.
  induction fuel as [|k IH]; intros ys res dt1 sig res' dt1' H D; [discriminate|]. cbn [confirm] in H.
  destruct (Qeq_bool sig 0); [discriminate|]. destruct (Qle_bool (threshold P) sig).
  - injection H as <- <-. exists ys. split; [constructor|assumption].
  - apply bind_ok in H as (ys1 & E1 & H). destruct (Qltb 10000 _); [discriminate|].
    apply bind_ok in H as (d & E2 & H). apply bind_ok in H as (sg & E3 & H).
    destruct (IH _ _ _ _ _ _ H E2) as (ys2 & M2 & D2). exists ys2. split; [now apply (merged_S M ys ys1)|assumption].
Qed.
Lemma correlate_len M P ats b start d res ys : good_xc M -> correlate M P ats b start d res = Ok ys ->
  len ys = num_bins P /\ 2 <= num_bins P.
Proof.
  intros X H. unfold correlate in H. apply bind_ok in H as (a1 & _ & H). apply bind_ok in H as (b1 & _ & H).
  apply bind_ok in H as (ha & Ha & H). apply bind_ok in H as (hb & Hb & H).
  assert (L : forall arr h, histogram arr (num_bins P) res = Ok h -> len h = num_bins P /\ 0 < num_bins P).
  { intros arr h E. unfold histogram in E. destruct arr as [|x arr]; [discriminate|].
    destruct (num_bins P <=? 0) eqn:N; [discriminate|]. destruct (Qeq_bool res 0); [discriminate|]. cbn [orb] in E. injection E as <-.
    split; [|lia]. assert (G : forall l h0, length (fold_left (fun h t => EpochsModel.incr (Z.to_nat (bin_index (num_bins P) res t)) h) l h0) = length h0).
    { induction l as [|y l IH]; intros h0; [reflexivity|]. cbn [fold_left]. rewrite IH. apply EpochsProofs5.incr_length. }
    unfold len. rewrite G, ?EpochsProofs5.incr_length, repeat_length. lia. }
  destruct (L _ _ Ha) as [LA N]. destruct (L _ _ Hb) as [LB _]. unfold get_xcorr in H.
  destruct (len ha =? 1) eqn:O; [discriminate|]. destruct (Z.odd (len ha)) eqn:EV; [discriminate|]. injection H as <-.
  assert (length ha = length hb) by (unfold len in *; lia). unfold len in *. rewrite X by assumption. lia.
Qed.

(** everything an iteration that succeeds went through *)
Lemma iteration_inv M P ats e d s n : good_xc M -> iteration M P ats e d s = Ok n ->
  exists w ys ys1 dt1 res ys2 d2,
    w = used_duration M P e d (resolution s) /\
    correlate M P ats (bts s) 0 w (resolution s) = Ok ys /\ merged M ys ys1 /\ delay_of M (len ys1) ys1 res = Ok dt1 /\
    (is_first s = false -> res = resolution s) /\
    (Qabs dt1 <= NTP_MAXDELAY_NS)%Q /\
    correlate M P ats (bts s) (separation_duration P) w res = Ok ys2 /\ delay_of M (num_bins P) ys2 res = Ok d2 /\
    let df1 := rs M (rs M (d2 - dt1) / separation_duration P)%Q in
    let dt' := rs M (dt s + rs M (f s * dt1))%Q in
    let f' := rs M (f s * rs M (1 + df1))%Q in
    ((is_first s = false /\ n = Return (dt s) (rs M (f s - 1)%Q)) \/
     ((Qabs (rs M (f' - 1)) < MAX_FCORR)%Q /\
      ((res == target_resolution P)%Q /\ n = Return dt' (rs M (f' - 1)%Q) \/
       ~ (res == target_resolution P)%Q /\
       n = Again (mkS (map (fun t => rt M (rt M (t - dt1) / rs M (1 + df1))%Q) (bts s))
                      (qmax (rs M (res / rs M (rs M (separation_duration P / d) / RES_REFINE_FACTOR)))%Q (target_resolution P))
                      dt' f' false)))).
Proof.
  intros X H. unfold iteration in H. set (w := used_duration M P e d (resolution s)) in *.
  apply bind_ok in H as (ys & E1 & H). apply bind_ok in H as (dt1 & E2 & H). apply bind_ok in H as (sg & E3 & H).
  apply bind_ok in H as ((res & dt1') & E4 & H).
  assert (LY : len ys = num_bins P) by apply (correlate_len _ _ _ _ _ _ _ _ X E1).
  assert (exists ys1, merged M ys ys1 /\ delay_of M (len ys1) ys1 res = Ok dt1' /\ (is_first s = false -> res = resolution s)) as (ys1 & E5 & E6 & E7).
  { destruct (is_first s).
    - destruct (confirm_found _ _ _ _ _ _ _ _ _ E4) as (ys1 & A & B); [now rewrite LY|]. exists ys1. split; [exact A|]. split; [exact B|discriminate].
    - injection E4 as <- <-. exists ys. split; [constructor|]. split; [now rewrite LY|reflexivity]. }
  destruct (Qltb NTP_MAXDELAY_NS (Qabs dt1')) eqn:O; [discriminate|]. apply Qltb_ge in O.
  apply bind_ok in H as (ys2 & E8 & H). apply bind_ok in H as (d2 & E9 & H).
  exists w, ys, ys1, dt1', res, ys2, d2. split; [reflexivity|]. split; [exact E1|]. split; [exact E5|]. split; [exact E6|]. split; [exact E7|].
  split; [exact O|]. split; [exact E8|]. split; [exact E9|]. cbv zeta in H |- *.
  match type of H with (if ?c then _ else _) = _ => destruct c eqn:G end.
  - left. split; [|congruence]. apply andb_true_iff in G as [G _]. now destruct (is_first s).
  - right. match type of H with (if ?c then _ else _) = _ => destruct c eqn:B end; [discriminate|]. split.
    + apply Qnot_le_lt. intros L. apply Qle_bool_iff in L. congruence.
    + match type of H with (if ?c then _ else _) = _ => destruct c eqn:T end.
      * left. apply Qeq_bool_iff in T. split; [exact T|congruence].
      * right. split; [|congruence]. intros L. apply Qeq_bool_iff in L. congruence.
Qed.

(** ** C54 *)
Definition in_range (M : fpu) (s : fstate) : Prop := is_first s = true \/ (Qabs (rs M (f s - 1)) < MAX_FCORR)%Q.
Lemma iterate_range fuel M P ats e d : good_xc M -> forall s dt df, in_range M s -> iterate fuel M P ats e d s = Ok (dt, df) -> (Qabs df < MAX_FCORR)%Q.
Proof.
  intros X. induction fuel as [|k IH]; intros s dt df R H; [discriminate|]. cbn [iterate] in H. apply bind_ok in H as (n & E & H).
  destruct (iteration_inv _ _ _ _ _ _ _ X E) as (w & ys & ys1 & dt1 & res & ys2 & d2 & _ & _ & _ & _ & _ & _ & _ & _ & C).
  destruct C as [(F & ->)|(B & [(T & ->)|(T & ->)])].
  - injection H as <- <-. destruct R as [R|R]; [congruence|exact R].
  - injection H as <- <-. exact B.
  - refine (IH _ _ _ _ H). right. exact B.
Qed.
Lemma c54 fuel M P ats bts res dt df : good_xc M -> time_freq fuel M P ats bts res = Ok (dt, df) -> (Qabs df < 1 # 8192)%Q.
Proof.
  intros X H. unfold time_freq in H. apply bind_ok in H as (a & _ & H). apply bind_ok in H as (b & _ & H).
  refine (iterate_range _ _ _ _ _ _ X _ _ _ _ H). now left.
Qed.

(** ** C53 *)
Lemma corrected_cong c t u : (t == u)%Q -> (corrected c t == corrected c u)%Q.
Proof. unfold corrected. intros ->. reflexivity. Qed.
Lemma corrected_all_cong cs : forall t u, (t == u)%Q -> (corrected_all cs t == corrected_all cs u)%Q.
Proof. induction cs as [|c cs IH]; intros t u E; [exact E|]. cbn. apply IH. now apply corrected_cong. Qed.
Lemma corrected_all_app cs c t : corrected_all (cs ++ [c]) t = corrected c (corrected_all cs t).
Proof. unfold corrected_all. rewrite fold_left_app. reflexivity. Qed.
(** the state composes the corrections made so far *)
Definition composes (s : fstate) (cs : list (Q * Q)) : Prop := ~ (f s == 0)%Q /\ forall t, ((t - dt s) / f s == corrected_all cs t)%Q.
Lemma small_nonzero x : (Qabs (x - 1) < MAX_FCORR)%Q -> ~ (x == 0)%Q.
Proof. unfold MAX_FCORR. intros H E. apply Qabs_Qlt_condition in H. lra. Qed.
Lemma compose_step s cs d e f' dt' : composes s cs -> ~ (f' == 0)%Q -> (f' == f s * (1 + e))%Q -> (dt' == dt s + f s * d)%Q ->
  forall t, ((t - dt') / f' == corrected (d, e) (corrected_all cs t))%Q.
Proof.
  intros [N C] N' F D t. unfold corrected. cbn [fst snd]. rewrite <- C, F, D.
  assert (~ (1 + e == 0)%Q) by (intros Z0; apply N'; rewrite F, Z0; ring).
  field. split; assumption.
Qed.
Lemma iterate_composes fuel M P ats e d : good_xc M -> exact_fpu M -> forall s done rdt rdf, composes s done -> iterate fuel M P ats e d s = Ok (rdt, rdf) ->
  exists cs s' tl, steps M P ats s cs s' /\ (tl = [] \/ exists c, tl = [c] /\ found M P ats s' c) /\
    (forall t, corrected (rdt, rdf) t == corrected_all ((done ++ cs) ++ tl) t)%Q.
Proof.
  intros X [RT RS]. induction fuel as [|k IH]; intros s done rdt rdf C H; [discriminate|]. cbn [iterate] in H. apply bind_ok in H as (n & E & H).
  destruct (iteration_inv _ _ _ _ _ _ _ X E) as (w & ys & ys1 & dt1 & res & ys2 & d2 & _ & E1 & E2 & E3 & _ & _ & E4 & E5 & K).
  cbv zeta in K. set (df1 := rs M (rs M (d2 - dt1) / separation_duration P)%Q) in *.
  assert (FD : found M P ats s (dt1, df1)).
  { exists w, res, ys, ys1, ys2, d2. cbn [fst snd]. repeat (split; [assumption|]). subst df1. rewrite !RS. reflexivity. }
  set (f' := rs M (f s * rs M (1 + df1))%Q) in *. set (dt' := rs M (dt s + rs M (f s * dt1))%Q) in *.
  assert (EF : (f' == f s * (1 + df1))%Q) by (subst f'; now rewrite !RS).
  assert (ED : (dt' == dt s + f s * dt1)%Q) by (subst dt'; now rewrite !RS).
  destruct K as [(F & ->)|(B & K)].
  - injection H as <- <-. exists [], s, []. split; [constructor|]. split; [now left|]. intros t. rewrite !app_nil_r.
    rewrite <- (proj2 C t). unfold corrected. cbn [fst snd]. rewrite RS. setoid_replace (1 + (f s - 1))%Q with (f s) by ring. reflexivity.
  - rewrite RS in B. apply small_nonzero in B.
    pose proof (compose_step s done dt1 df1 f' dt' C B EF ED) as CS.
    destruct K as [(T & ->)|(T & ->)].
    + injection H as <- <-. exists [], s, [(dt1, df1)]. split; [constructor|]. split; [right; exists (dt1, df1); now split|].
      intros t. rewrite app_nil_r, corrected_all_app, <- CS. unfold corrected. cbn [fst snd]. rewrite RS. setoid_replace (1 + (f' - 1))%Q with f' by ring. reflexivity.
    + pose proof (fun c => IH _ (done ++ [(dt1, df1)]) _ _ c H) as (cs & s' & tl & S1 & TL & G).
      { split; [exact B|]. intros t. rewrite corrected_all_app. apply CS. }
      exists ((dt1, df1) :: cs), s', tl. split; [|split; [exact TL|]].
      * eapply steps_S; [exact FD| |exact S1]. cbn [UtilsModel.signal]. cbn [bts]. clear - RT RS.
        induction (bts s) as [|t l IH]; cbn [map]; constructor; [|exact IH]. unfold corrected. cbn [fst snd]. rewrite !RT, RS. reflexivity.
      * intros t. rewrite (G t). replace ((done ++ [(dt1, df1)]) ++ cs) with (done ++ (dt1, df1) :: cs) by (now rewrite <- app_assoc). reflexivity.
Qed.
Lemma c53 fuel M P ats bts res dt df : good_xc M -> exact_fpu M -> time_freq fuel M P ats bts res = Ok (dt, df) ->
  exists cs s tl, steps M P ats (mkS bts res 0 1 true) cs s /\ (tl = [] \/ exists c, tl = [c] /\ found M P ats s c) /\
    (forall t, corrected (dt, df) t == corrected_all (cs ++ tl) t)%Q.
Proof.
  intros X EX H. unfold time_freq in H. apply bind_ok in H as (a & _ & H). apply bind_ok in H as (b & _ & H).
  pose proof (fun c => iterate_composes _ _ _ _ _ _ X EX _ [] _ _ c H) as (cs & s & tl & G); [|exists cs, s, tl; exact G].
  split; [cbn [f]; intros Z0; lra|]. intros t. cbn. field.
Qed.
Lemma scan_composes rt rs search bob : (forall x, rt x == x)%Q -> (forall x, rs x == x)%Q ->
  forall df0s dt df, (forall df0, In df0 df0s -> ~ (1 + df0 == 0)%Q) -> (forall b d e, search b = Ok (d, e) -> ~ (1 + e == 0)%Q) ->
  scan rt rs search bob df0s false = Ok (dt, df) ->
  exists df0 c b', In df0 df0s /\ same_values b' (map (corrected (0, df0)%Q) bob) /\ search b' = Ok c /\
    (forall t, corrected (dt, df) t == corrected c (corrected (0, df0) t))%Q.
Proof.
  intros RT RS. induction df0s as [|df0 rest IH]; intros dt df N0 N1 H; [discriminate|]. cbn [scan] in H.
  match type of H with match search ?b with _ => _ end = _ => destruct (search b) as [(d, e)|x] eqn:E end.
  - injection H as <- <-. exists df0, (d, e). eexists. split; [now left|]. split; [|split; [exact E|]].
    + induction bob as [|t l IHl]; cbn [map]; constructor.
      * unfold corrected. cbn [fst snd]. rewrite !RT, RS. reflexivity.
      * clear - RT RS. induction l as [|u l IH]; cbn [map]; constructor; [|exact IH]. unfold corrected. cbn [fst snd]. rewrite !RT, RS. reflexivity.
    + intros t. unfold corrected. cbn [fst snd].
      rewrite (RS (rs (rs (1 + df0) * rs (1 + e)) - 1)%Q), (RS (rs (1 + df0) * rs (1 + e))%Q), (RS (0 + rs (rs (1 + df0) * d))%Q), (RS (rs (1 + df0) * d)%Q), (RS (1 + df0)%Q), (RS (1 + e)%Q). pose proof (N0 df0 (or_introl eq_refl)). pose proof (N1 _ _ _ E).
      setoid_replace (1 + ((1 + df0) * (1 + e) - 1))%Q with ((1 + df0) * (1 + e))%Q by ring. field. split; assumption.
  - destruct x; try discriminate. destruct (IH _ _ ltac:(intros; apply N0; now right) N1 H) as (df1 & c & b' & I & G). exists df1, c, b'. split; [now right|exact G].
Qed.
Lemma c53_fpfind fuel M P alice bob res df0s dt df : good_xc M -> exact_fpu M -> (forall df0, In df0 df0s -> ~ (1 + df0 == 0)%Q) ->
  fpfind fuel M P alice bob res df0s false = Ok (dt, df) ->
  exists df0 c b, In df0 df0s /\ same_values b (map (corrected (0, df0)%Q) bob) /\ time_freq fuel M P alice b res = Ok c /\
    (forall t, corrected (dt, df) t == corrected c (corrected (0, df0) t))%Q.
Proof.
  intros X [RT RS] N H. apply (scan_composes (rt M) (rs M) _ bob RT RS df0s dt df N); [|exact H].
  intros b d e E Z0. apply c54 in E; [|exact X]. apply Qabs_Qlt_condition in E. lra.
Qed.
