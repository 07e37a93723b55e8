(** Proofs of C126 and C127. *)
From Coq Require Import QArith Qabs Qround Lia Lqa.
From Verif Require Import Float Base TimestampsModel TimestampsSpec TimestampsProofs TimestampsProofs2 TimestampsProofs5 TimestampsProofs7 EpochsModel EpochsSpec EpochsProofs EpochsProofs2 ChopSpec.
Import ListNotations. Local Open Scope Z_scope.

Lemma epoch_event e ev : in_epoch e ev -> t1_ok e (fst ev mod 2 ^ 37, snd ev) /\ lsb_time e (fst ev mod 2 ^ 37) = fst ev.
Proof. intros [[A B] C]. unfold t1_ok, lsb_time. cbn [fst snd]. split; [split; [apply Z.mod_pos_bound; lia|assumption]|]. rewrite <- C. pose proof (Z.div_mod (fst ev) (2 ^ 37)). lia. Qed.
Lemma epoch_ok e evs : Forall (in_epoch e) evs -> Forall visible evs ->
  Forall (t1_ok e) (map (fun ev => (fst ev mod 2 ^ 37, snd ev)) evs) /\ Forall (fun ev => t1_word e ev <> 0) (map (fun ev => (fst ev mod 2 ^ 37, snd ev)) evs).
Proof.
  intros F V. split; apply Forall_map; rewrite Forall_forall in *; intros ev I; destruct (epoch_event e ev (F ev I)) as [A B]; [exact A|].
  unfold t1_word. cbn [fst snd]. rewrite B. destruct (F ev I) as [[C D] _]. intros Z0. apply (V ev I). destruct ev as [t q]; cbn [fst snd] in *. f_equal; lia.
Qed.
Definition value_in (r : TSRES) (fr : bool) (t : Z) : Q := if fr then in_units r t else inject_Z (floor_units r t).
Lemma read_one e evs r fr : Forall (in_epoch e) evs -> Forall visible evs -> len evs < 2 ^ 32 ->
  exists T, read_T1 (epoch_file e evs) false r fr = Ok (T, map snd evs) /\ same_values (evalues T) (map (fun ev => value_in r fr (fst ev)) evs).
Proof.
  intros F V L. destruct (epoch_ok e evs F V) as [A B].
  destruct (c31 e (map (fun ev => (fst ev mod 2 ^ 37, snd ev)) evs) r A B) as (_ & _ & (T & R1 & S1) & R2). { unfold len in *. now rewrite map_length. }
  assert (E : map (fun ev => lsb_time e (fst ev)) (map (fun ev : event => (fst ev mod 2 ^ 37, snd ev)) evs) = map fst evs).
  { rewrite map_map. cbn [fst]. apply map_ext_Forall. eapply Forall_impl; [|exact F]. intros ev H. now apply epoch_event in H. }
  assert (P : map snd (map (fun ev : event => (fst ev mod 2 ^ 37, snd ev)) evs) = map snd evs) by (rewrite map_map; reflexivity).
  unfold epoch_file. destruct fr.
  - exists T. rewrite P in R1. split; [exact R1|]. rewrite <- (map_map (fun ev => lsb_time e (fst ev)) (in_units r)), E in S1. now rewrite map_map in S1.
  - rewrite R2, P. eexists. split; [reflexivity|]. cbn [evalues]. rewrite <- (map_map (fun ev => lsb_time e (fst ev)) (floor_units r)), E, !map_map.
    unfold same_values. clear. induction evs; constructor; auto. reflexivity.
Qed.
Lemma read_files e evss r fr : cut_at e evss -> Forall visible (concat evss) ->
  exists ts ps, read_all false r fr (epoch_files e evss) ts ps /\ ps = map snd (concat evss) /\ same_values ts (map (fun ev => value_in r fr (fst ev)) (concat evss)).
Proof.
  revert e. induction evss as [|evs evss IH]; intros e C V; [do 2 eexists; split; [constructor|split; [reflexivity|constructor]]|].
  cbn [cut_at] in C. destruct C as (F & E & L & C). cbn [concat] in V. apply Forall_app in V as [V1 V2].
  destruct (read_one e evs r fr F V1 L) as (T & R & S). destruct (IH (e + 1) C V2) as (ts & ps & RA & P & SV).
  do 2 eexists. split; [cbn [epoch_files]; eapply ReadNext; eassumption|]. cbn [concat]. rewrite !map_app. split; [now rewrite P|]. apply Forall2_app; assumption.
Qed.
Lemma in_epochs_ok e evss : cut_at e evss -> Forall event_ok (concat evss).
Proof. revert e. induction evss as [|evs evss IH]; intros e C; [constructor|]. destruct C as (F & _ & _ & C). cbn [concat]. apply Forall_app. split; [|eauto]. eapply Forall_impl; [|exact F]. now intros ev [A _]. Qed.
Lemma read_recording p lg r fr evs : 54 <= p -> Forall event_ok evs ->
  exists T, read_a1 p (encode (A1 lg) (map word_of evs)) lg r fr = Ok (T, map snd evs) /\ same_values (tvalues T) (map (fun ev => value_in r fr (fst ev)) evs).
Proof.
  intros P F. rewrite read_a1_encode by now apply words_of_ok. destruct (times_words evs F) as [A B]. unfold out, raw_t. rewrite A, B.
  destruct (c22 p r (map fst evs) P) as [(l & E1 & S) E2]. { apply Forall_map. eapply Forall_impl; [|exact F]. now intros ev [H _]. }
  eexists. split; [reflexivity|]. destruct fr.
  - rewrite E1. cbn [tvalues value_in]. now rewrite map_map in S.
  - rewrite E2. cbn [tvalues]. rewrite !map_map. unfold same_values, value_in, floor_units. clear. induction evs; constructor; auto. reflexivity.
Qed.
Lemma same_both a b c : same_values a c -> same_values b c -> same_values a b.
Proof. unfold same_values. intros H. revert b. induction H as [|x y a c E H IH]; intros b S; inversion S; subst; constructor; [|auto]. etransitivity; [eassumption|now symmetry]. Qed.
Lemma c126 p lg r fr e evss rest : 54 <= p -> cut_at e evss -> Forall event_ok rest -> Forall visible (concat evss) ->
  exists T tp ts ps, read_a1 p (encode (A1 lg) (map word_of (concat evss ++ rest))) lg r fr = Ok (T, tp) /\
    read_all false r fr (epoch_files e evss) ts ps /\ length ts = length (concat evss) /\
    same_values ts (firstn (length ts) (tvalues T)) /\ ps = firstn (length ps) tp /\ length ps = length ts.
Proof.
  intros P C R V. destruct (read_recording p lg r fr (concat evss ++ rest) P) as (T & E & S). { apply Forall_app. split; [eapply in_epochs_ok; eassumption|assumption]. }
  destruct (read_files e evss r fr C V) as (ts & ps & RA & PS & SV).
  exists T. do 3 eexists. split; [exact E|]. split; [exact RA|].
  assert (L : length ts = length (concat evss)) by (apply Forall2_len in SV; now rewrite map_length in SV).
  split; [exact L|]. subst ps. rewrite map_length.
  split; [|split; [|now rewrite L]].
  - rewrite L. rewrite map_app in S. apply Forall2_app_inv_r in S as (l1 & l2 & S1 & S2 & ->).
    assert (L1 : length l1 = length (concat evss)) by (apply Forall2_len in S1; now rewrite map_length in S1).
    rewrite <- L1, firstn_app, firstn_all, Nat.sub_diag. cbn [firstn]. rewrite app_nil_r.
    eapply same_both; eassumption.
  - rewrite map_app, <- (map_length snd (concat evss)), firstn_app, firstn_all, Nat.sub_diag. cbn [firstn]. now rewrite app_nil_r.
Qed.

(** ** Full epochs *)
Lemma full_of e ev : 0 <= e < 2 ^ 32 -> in_epoch e ev -> full_time e (fst ev mod 2 ^ 37) = e / 2 ^ 17 * 2 ^ 54 + fst ev.
Proof.
  intros E [_ C]. unfold full_time. rewrite (Z.mod_small e) by lia. pose proof (Z.div_mod (fst ev) (2 ^ 37)). pose proof (Z.div_mod e (2 ^ 17)). lia.
Qed.
Lemma mod_54 h t : 0 <= t < 2 ^ 54 -> (h * 2 ^ 54 + t) mod 2 ^ 54 = t.
Proof. intros. rewrite Z.add_comm, Z.mod_add by lia. now apply Z.mod_small. Qed.
Lemma read_one_full e evs : 0 <= e < 2 ^ 32 -> Forall (in_epoch e) evs -> Forall visible evs -> len evs < 2 ^ 32 ->
  exists l, read_T1 (epoch_file e evs) true PS4 false = Ok (EObj l, map snd evs) /\ map (fun t => t mod 2 ^ 54) l = map fst evs.
Proof.
  intros R F V L. destruct (epoch_ok e evs F V) as [A B].
  destruct (c32 e (map (fun ev => (fst ev mod 2 ^ 37, snd ev)) evs) PS4 A B) as [E _]. { unfold len in *. now rewrite map_length. }
  unfold epoch_file. rewrite !map_map in E. eexists. split; [exact E|]. rewrite map_map. apply map_ext_Forall. eapply Forall_impl; [|exact F]. intros ev H. cbn [fst].
  rewrite (full_of e ev R H). unfold floor_units. change (rvalue PS4) with 256. rewrite Z.div_mul by lia. apply mod_54, H.
Qed.
Lemma qmod_small x m k : (0 < m)%Q -> (inject_Z k * m <= x)%Q -> (x < inject_Z (k + 1) * m)%Q -> (qmod x m == x - inject_Z k * m)%Q.
Proof.
  intros M A B. unfold qmod. assert (Qfloor (x / m) = k) as ->; [|reflexivity].
  assert (k <= Qfloor (x / m)). { rewrite <- (Qfloor_Z k). apply Qfloor_resp_le, Qle_shift_div_l; assumption. }
  assert (Qfloor (x / m) < k + 1). { rewrite Zlt_Qlt. eapply Qle_lt_trans; [apply Qfloor_le|]. apply Qlt_shift_div_r; assumption. }
  lia.
Qed.
Lemma read_one_frac e evs r : 0 <= e < 2 ^ 32 -> Forall (in_epoch e) evs -> Forall visible evs -> len evs < 2 ^ 32 -> Forall (fun ev => fst ev < 2 ^ 54 - 16) evs ->
  exists l, read_T1 (epoch_file e evs) true r true = Ok (ELD l, map snd evs) /\
    Forall2 (fun ev x => Qabs (qmod x (in_units r (2 ^ 54)) - in_units r (fst ev)) <= in_units r 16)%Q evs l.
Proof.
  intros R F V L T. destruct (epoch_ok e evs F V) as [A B].
  set (g := fun ev : event => (fst ev mod 2 ^ 37, snd ev)) in *.
  destruct (convert_full_ld e _ r (ok_fst e _ A)) as (xs & E & X).
  exists (map (fl 64) xs). unfold epoch_file. fold g. rewrite read_t1_file by (try assumption; unfold len in *; now rewrite map_length). rewrite map_lsb, E. split; [f_equal; f_equal; rewrite map_map; reflexivity|].
  clear E A B V L. rewrite map_map in X. cbn [fst] in X. revert xs X. induction evs as [|ev evs IH]; intros xs X; inversion X as [|? x ? xs' HX HR]; subst; cbn [map]; constructor.
  2:{ inversion F; inversion T; subst. now apply IH. }
  inversion F as [|? ? I _]; subst. inversion T as [|? ? TT _]; subst. clear IH F T X HR.
  assert (HX' : (x == in_units r (full_time e (fst (g ev))))%Q) by exact HX. clear HX. rename HX' into HX.
  assert (FT : full_time e (fst (g ev)) = e / 2 ^ 17 * 2 ^ 54 + fst ev) by (apply full_of; assumption).
  set (h := e / 2 ^ 17) in *. set (t := fst ev) in *.
  assert (H0 : 0 <= t < 2 ^ 54) by apply I.
  assert (Hh : 0 <= h < 2 ^ 15) by (unfold h; split; [apply Z.div_pos; lia|apply Z.div_lt_upper_bound; lia]).
  destruct (full_round r x (h * 2 ^ 54 + t)) as [D _]; [lia|rewrite HX, FT; reflexivity|].
  assert (W : (inject_Z (256 / rvalue r) == pow2 (8 - rlog r))%Q) by (destruct r; reflexivity).
  assert (PP : (0 < pow2 (8 - rlog r))%Q) by apply pow2_pos.
  assert (U : forall v, (in_units r v * pow2 (8 - rlog r) == inject_Z v)%Q).
  { intros v. rewrite units_pow, <- Qmult_assoc, <- pow2_plus. replace (rlog r - 8 + (8 - rlog r)) with 0 by lia. change (pow2 0) with 1%Q. ring. }
  rewrite W in D. set (s := pow2 (8 - rlog r)) in *. set (y := fl 64 x) in *.
  assert (LOW : (in_units r (h * 2 ^ 54) <= y)%Q).
  { assert (XE : (in_units r (h * 2 ^ 54) <= x)%Q) by (rewrite HX, FT; apply in_units_le; lia).
    apply (fl_mono 64) in XE; [|lia]. eapply Qle_trans; [|exact XE].
    destruct (full_round r (in_units r (h * 2 ^ 54)) (h * 2 ^ 54)) as [D2 _]; [lia|reflexivity|].
    assert (XX : (fl 64 (in_units r (h * 2 ^ 54)) == in_units r (h * 2 ^ 54))%Q).
    { rewrite (fl_eq 64 _ (inject_Z h * pow2 (54 + (rlog r - 8)))). 2:{ rewrite units_pow, inject_Z_mult, pow2_plus, (pow2_Z 54) by lia. ring. }
      rewrite fl_exact by lia. rewrite units_pow, inject_Z_mult, pow2_plus, (pow2_Z 54) by lia. ring. }
    rewrite XX. apply Qle_refl. }
  apply Qabs_Qle_condition in D. destruct D as [D1 D2].
  assert (MOD : (qmod y (in_units r (2 ^ 54)) == y - inject_Z h * in_units r (2 ^ 54))%Q).
  { assert (HM : forall k, (inject_Z k * in_units r (2 ^ 54) == in_units r (k * 2 ^ 54))%Q).
    { intros k. apply (Qmult_inj_r _ _ s); [lra|]. rewrite <- Qmult_assoc, !U, inject_Z_mult. reflexivity. }
    apply qmod_small; [|rewrite HM; exact LOW|].
    - apply (Qmult_lt_r _ _ s PP). rewrite U, Qmult_0_l. reflexivity.
    - rewrite HM. apply (Qmult_lt_r _ _ s PP). rewrite U. eapply Qle_lt_trans with (y := (inject_Z (h * 2 ^ 54 + t) + 16)%Q); [lra|].
      change 16%Q with (inject_Z 16). rewrite <- inject_Z_plus, <- Zlt_Qlt. lia. }
  rewrite MOD. apply Qabs_Qle_condition.
  assert (U1 := U (2 ^ 54)). assert (U2 := U t). assert (U3 := U 16). rewrite inject_Z_plus, inject_Z_mult in D1, D2.
  split; apply (Qmult_le_r _ _ s PP).
  - setoid_replace (- in_units r 16 * s)%Q with (- (in_units r 16 * s))%Q by ring. setoid_replace ((y - inject_Z h * in_units r (2 ^ 54) - in_units r t) * s)%Q with (y * s - inject_Z h * (in_units r (2 ^ 54) * s) - in_units r t * s)%Q by ring.
    rewrite U1, U2, U3. change (inject_Z 16) with 16%Q. lra.
  - setoid_replace ((y - inject_Z h * in_units r (2 ^ 54) - in_units r t) * s)%Q with (y * s - inject_Z h * (in_units r (2 ^ 54) * s) - in_units r t * s)%Q by ring.
    rewrite U1, U2, U3. change (inject_Z 16) with 16%Q. lra.
Qed.

Lemma read_files_full (near : Q -> event -> Prop) (ok : event -> Prop) r fr :
  (forall e evs, 0 <= e < 2 ^ 32 -> Forall (in_epoch e) evs -> Forall visible evs -> len evs < 2 ^ 32 -> Forall ok evs ->
     exists T, read_T1 (epoch_file e evs) true r fr = Ok (T, map snd evs) /\ Forall2 near (evalues T) evs) ->
  forall evss e, cut_at e evss -> Forall visible (concat evss) -> Forall ok (concat evss) ->
  exists ts, read_all true r fr (epoch_files e evss) ts (map snd (concat evss)) /\ Forall2 near ts (concat evss).
Proof.
  intros ONE. induction evss as [|evs evss IH]; intros e C V K; [eexists; split; constructor|].
  destruct C as (F & E & L & C). cbn [concat] in V, K. apply Forall_app in V as [V1 V2]. apply Forall_app in K as [K1 K2].
  destruct (ONE e evs E F V1 L K1) as (T & R & S). destruct (IH (e + 1) C V2 K2) as (ts & RA & SV).
  eexists. cbn [epoch_files concat]. rewrite map_app. split; [eapply ReadNext; eassumption|]. now apply Forall2_app.
Qed.
Lemma firstn_len {A} (a b : list A) n : length a = n -> firstn n (a ++ b) = a.
Proof. intros <-. rewrite firstn_app, firstn_all, Nat.sub_diag. cbn [firstn]. apply app_nil_r. Qed.
Lemma against (near : Q -> event -> Prop) (close : Q -> Q -> Prop) r fr p lg e evss rest : 54 <= p -> recorded e evss rest ->
  (forall x ev y, near x ev -> (y == value_in r fr (fst ev))%Q -> close x y) ->
  (exists ts, read_all true r fr (epoch_files e evss) ts (map snd (concat evss)) /\ Forall2 near ts (concat evss)) ->
  exists T tp ts, read_a1 p (encode (A1 lg) (map word_of (concat evss ++ rest))) lg r fr = Ok (T, tp) /\
     read_all true r fr (epoch_files e evss) ts (firstn (length (concat evss)) tp) /\ Forall2 close ts (firstn (length (concat evss)) (tvalues T)).
Proof.
  intros P (C & R & V) K (ts & RA & N). destruct (read_recording p lg r fr (concat evss ++ rest) P) as (T & E & S). { apply Forall_app. split; [eapply in_epochs_ok; eassumption|assumption]. }
  exists T. eexists. exists ts. split; [exact E|]. rewrite map_app, firstn_len by apply map_length. split; [exact RA|].
  rewrite map_app in S. apply Forall2_app_inv_r in S as (l1 & l2 & S1 & _ & ->). rewrite firstn_len by (apply Forall2_len in S1; now rewrite map_length in S1).
  clear - N S1 K. revert l1 S1. induction N as [|x ev ts evs H N IH]; intros l1 S1; inversion S1; subst; constructor; [eapply K; eassumption|auto].
Qed.
Lemma full_int e evs : 0 <= e < 2 ^ 32 -> Forall (in_epoch e) evs -> Forall visible evs -> len evs < 2 ^ 32 -> Forall (fun _ : event => True) evs ->
  exists T, read_T1 (epoch_file e evs) true PS4 false = Ok (T, map snd evs) /\ Forall2 (fun x ev => qmod x (2 ^ 54) == inject_Z (fst ev))%Q (evalues T) evs.
Proof.
  intros R F V L _. destruct (read_one_full e evs R F V L) as (l & E & M). exists (EObj l). split; [exact E|]. cbn [evalues].
  clear - M. revert evs M. induction l as [|x l IH]; intros [|ev evs] M; cbn [map] in M; [constructor|discriminate|discriminate|].
  assert (H0 : x mod 2 ^ 54 = fst ev) by congruence. constructor; [|apply IH; congruence].
  rewrite <- H0. rewrite (qmod_small _ _ (x / 2 ^ 54)).
  - change (2 ^ 54)%Q with (inject_Z (2 ^ 54)). unfold Qminus. rewrite <- inject_Z_mult, <- inject_Z_opp, <- inject_Z_plus. apply inject_Z_injective. pose proof (Z.div_mod x (2 ^ 54)). lia.
  - reflexivity.
  - change (2 ^ 54)%Q with (inject_Z (2 ^ 54)). rewrite <- inject_Z_mult, <- Zle_Qle. pose proof (Z.div_mod x (2 ^ 54)). pose proof (Z.mod_pos_bound x (2 ^ 54)). lia.
  - change (2 ^ 54)%Q with (inject_Z (2 ^ 54)). rewrite <- inject_Z_mult, <- Zlt_Qlt. pose proof (Z.div_mod x (2 ^ 54)). pose proof (Z.mod_pos_bound x (2 ^ 54)). lia.
Qed.
Lemma Forall2_flip {A B} (P : A -> B -> Prop) a b : Forall2 P a b -> Forall2 (fun y x => P x y) b a.
Proof. induction 1; constructor; auto. Qed.
Lemma full_frac e evs : 0 <= e < 2 ^ 32 -> Forall (in_epoch e) evs -> Forall visible evs -> len evs < 2 ^ 32 -> Forall (fun ev => fst ev < 2 ^ 54 - 16) evs ->
  exists T, read_T1 (epoch_file e evs) true NS1 true = Ok (T, map snd evs) /\ Forall2 (fun x ev => Qabs (qmod x (2 ^ 46) - in_units NS1 (fst ev)) <= 1 # 8)%Q (evalues T) evs.
Proof.
  intros R F V L K. destruct (read_one_frac e evs NS1 R F V L K) as (l & E & M). exists (ELD l). split; [exact E|]. cbn [evalues].
  apply Forall2_flip. clear - M. induction M as [|ev x evs l H M IH]; constructor; [|exact IH].
  assert (Q1 : (in_units NS1 (2 ^ 54) == 2 ^ 46)%Q) by reflexivity. assert (Q2 : (in_units NS1 16 <= 1 # 8)%Q) by (vm_compute; discriminate).
  assert (Q3 : (qmod x (2 ^ 46) == qmod x (in_units NS1 (2 ^ 54)))%Q).
  { unfold qmod. assert (FF : Qfloor (x / 2 ^ 46) = Qfloor (x / in_units NS1 (2 ^ 54))) by (apply Qfloor_comp, Qdiv_comp; [reflexivity|symmetry; exact Q1]).
    rewrite FF. apply Qplus_comp; [reflexivity|]. apply Qopp_comp, Qmult_comp; [reflexivity|symmetry; exact Q1]. }
  rewrite Q3. eapply Qle_trans; eassumption.
Qed.
Lemma c127_partial p lg e evss rest : 54 <= p -> recorded e evss rest -> Forall (fun ev => fst ev < 2 ^ 54 - 16) (concat evss) -> agree_full p lg e evss rest.
Proof.
  intros P R K. pose proof R as (C & _ & V). split.
  - apply (against (fun x ev => qmod x (2 ^ 54) == inject_Z (fst ev))%Q); [assumption|assumption| |].
    + intros x ev y H E. rewrite E, H. unfold value_in, floor_units. change (rvalue PS4) with 256. rewrite Z.div_mul by lia. reflexivity.
    + apply (read_files_full _ (fun _ => True)); [exact full_int|assumption|assumption|]. apply Forall_forall. auto.
  - apply (against (fun x ev => Qabs (qmod x (2 ^ 46) - in_units NS1 (fst ev)) <= 1 # 8)%Q); [assumption|assumption| |].
    + intros x ev y H E. now rewrite E.
    + apply (read_files_full _ (fun ev => fst ev < 2 ^ 54 - 16)); [exact full_frac|assumption|assumption|assumption].
Qed.
Lemma c127_integers p lg e evss rest : 54 <= p -> recorded e evss rest ->
  exists T tp ts, read_a1 p (encode (A1 lg) (map word_of (concat evss ++ rest))) lg PS4 false = Ok (T, tp) /\
     read_all true PS4 false (epoch_files e evss) ts (firstn (length (concat evss)) tp) /\
     Forall2 (fun et tt => qmod et (2 ^ 54) == tt)%Q ts (firstn (length (concat evss)) (tvalues T)).
Proof.
  intros P R. pose proof R as (C & _ & V).
  apply (against (fun x ev => qmod x (2 ^ 54) == inject_Z (fst ev))%Q); [assumption|assumption| |].
  - intros x ev y H E. rewrite E, H. unfold value_in, floor_units. change (rvalue PS4) with 256. rewrite Z.div_mul by lia. reflexivity.
  - apply (read_files_full _ (fun _ => True)); [exact full_int|assumption|assumption|]. apply Forall_forall. auto.
Qed.
Lemma c127_refuted : ~ C127_statement.
Proof.
  intros H. destruct (H 64 true (2 ^ 32 - 1) [[(2 ^ 54 - 1, 1)]] []) as [_ (T & tp & ts & R & RA & N)]; [lia| |].
  - split; [|split; [constructor|constructor; [discriminate|constructor]]]. split; [|split; [lia|split; [vm_compute; reflexivity|exact I]]]. constructor; [|constructor]. split; [split; cbn [fst snd]; lia|reflexivity].
  - inversion RA as [|f fs t q ts' ps E RR HF HT HP]. subst. inversion RR. subst.
    assert (ET : t = ELD [inject_Z (2 ^ 61)]) by (vm_compute in E; injection E as E1 _; symmetry; exact E1).
    assert (TT : tvalues T = [18014398509481983 # 256]) by (vm_compute in R; injection R as R1 _; now rewrite <- R1).
    rewrite TT in N. subst t. inversion N as [|? ? ? ? B _]; subst. vm_compute in B. now apply B.
Qed.
