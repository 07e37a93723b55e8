(** Arithmetic of the correction: accuracy, order, absence of overflow. *)
From Verif Require Import Base FreqcdModel FreqcdSpec FreqcdProofs FreqcdProofs2.
From Coq Require Import ZifyBool.
Ltac Zify.zify_post_hook ::= Z.div_mod_to_equations.

Lemma shift_0 f : shift f 0 = 0.
Proof. reflexivity. Qed.
Lemma shift_bound f d : small f -> 0 <= d -> 4096 * Z.abs (shift f d) <= d.
Proof.
  unfold small, shift. intros F D. change (2 ^ 12) with 4096. set (q := d / 4096).
  assert (0 <= q /\ 4096 * q <= d) by (unfold q; lia).
  assert (- (2 ^ 21 * q) <= q * f <= 2 ^ 21 * q) by nia. set (p := q * f) in *.
  destruct (Z.eq_dec q 0); [|lia]. assert (p = 0) as -> by (unfold p; nia). cbn. lia.
Qed.
Lemma shift_mono f d1 d2 : small f -> 0 <= d1 <= d2 -> d1 + shift f d1 <= d2 + shift f d2.
Proof.
  unfold small, shift. intros F D. change (2 ^ 12) with 4096.
  set (q1 := d1 / 4096). set (q2 := d2 / 4096).
  destruct (Z.eq_dec q1 q2) as [->|N]; [lia|].
  assert (q1 + 1 <= q2) by (unfold q1, q2 in *; lia).
  assert (d2 - d1 >= 4096 * (q2 - q1 - 1) + 1) by (unfold q1, q2 in *; lia).
  assert (q1 * f - 2 ^ 21 * (q2 - q1) <= q2 * f) by nia.
  set (p1 := q1 * f) in *. set (p2 := q2 * f) in *. clearbody q1 q2 p1 p2. lia.
Qed.
Lemma shift_err f d : small f -> 0 <= d ->
  2 * Z.abs (2 ^ 34 * shift f d - f * d) < 3 * 2 ^ 34.
Proof.
  unfold small, shift. intros F D. change (2 ^ 12) with 4096.
  set (q := d / 4096). set (r := d mod 4096).
  assert (E : d = 4096 * q + r /\ 0 <= r < 4096) by (unfold q, r; lia).
  clearbody q r. destruct E as [-> R].
  replace (f * (4096 * q + r)) with (4096 * (q * f) + f * r) by ring.
  assert (- (2 ^ 21 * 4096) < f * r < 2 ^ 21 * 4096) by nia.
  set (p := q * f) in *. set (s := f * r) in *. clearbody p s. lia.
Qed.
Lemma elapsed_small r t : r <= t -> 0 <= r -> t < 2 ^ 54 -> elapsed r t = t - r.
Proof. intros. unfold elapsed. rewrite Z.mod_small; lia. Qed.

(** ** Non-decreasing lists *)
Lemma nondecr_tl x l : nondecr (x :: l) -> nondecr l.
Proof. cbn. tauto. Qed.
Lemma nondecr_ge : forall l x y, nondecr (x :: l) -> In y l -> x <= y.
Proof.
  induction l as [|a l IH]; intros x y H I; [easy|]. cbn in H. destruct H as [H1 H2].
  destruct I as [->|I]; [assumption|]. apply Z.le_trans with a; [assumption|]. now apply IH.
Qed.
Lemma nondecr_cons x y l : x <= y -> nondecr (y :: l) -> nondecr (x :: y :: l).
Proof. cbn. tauto. Qed.
Lemma nondecr_le_hd x y l : x <= y -> nondecr (y :: l) -> nondecr (x :: l).
Proof. destruct l; cbn; [tauto|]. intros ? [? ?]. split; [lia|assumption]. Qed.
Lemma nondecr_app_l : forall a b, nondecr (a ++ b) -> nondecr a.
Proof.
  induction a as [|x a IH]; intros b H; [exact I|]. destruct a as [|y a].
  - cbn. auto.
  - cbn [app] in H. destruct H as [H1 H2]. split; [assumption|]. now apply (IH b).
Qed.
Lemma nondecr_app_r : forall a b, nondecr (a ++ b) -> nondecr b.
Proof. induction a as [|x a IH]; intros b H; [exact H|]. apply IH. now apply nondecr_tl in H. Qed.
Lemma last_default {A} (l : list A) x y z : List.last (x :: l) y = List.last (x :: l) z.
Proof. revert x; induction l as [|a l IH]; intros x; [reflexivity|]. apply IH. Qed.
Lemma last_cons {A} (l : list A) x d : List.last (x :: l) d = List.last l x.
Proof. destruct l; [reflexivity|]. cbn [List.last]. apply last_default. Qed.
Lemma nondecr_last : forall ts r rest, nondecr (r :: ts ++ rest) -> nondecr (List.last ts r :: rest).
Proof.
  induction ts as [|t ts IH]; intros r rest H; [exact H|].
  cbn [app] in H. apply nondecr_tl in H. rewrite last_cons. now apply IH.
Qed.

(** ** Order *)
Lemma batch_order (g : Z -> Z) : forall ts p X,
  (forall a b, p <= a -> a <= b -> In a (p :: ts) -> In b ts -> g a <= g b) ->
  nondecr (p :: ts) -> nondecr (g (List.last ts p) :: X) ->
  nondecr (g p :: map g ts ++ X).
Proof.
  induction ts as [|t ts IH]; intros p X M N H; [exact H|].
  cbn [map app]. assert (p <= t) by (cbn in N; tauto).
  apply nondecr_cons.
  - apply M; [lia|assumption|now left|now left].
  - apply IH.
    + intros a b A B Ia Ib. apply M; [lia|assumption|now right|now right].
    + now apply nondecr_tl in N.
    + rewrite last_cons in H. exact H.
Qed.
Lemma corrected_order : forall fs bs r acc l,
  length fs = length bs -> Forall small fs -> Forall (fun b => b <> []) bs ->
  0 <= r -> nondecr (r :: concat bs) -> Forall (fun t => t < 2 ^ 54) (concat bs) ->
  nondecr (r + acc :: concat (corrected (mkClock (Some r) acc l) fs bs)).
Proof.
  induction fs as [|f fs IH]; intros [|b bs] r acc l L F NE R N B; cbn in L; try discriminate.
  - cbn. auto.
  - inv F. inv NE. destruct b as [|t0 ts]; [congruence|].
    cbn [corrected concat]. unfold batch_times, batch_clock. cbn [ref_of c_ref c_acc].
    set (g := fun t => t + shift f (elapsed r t) + acc).
    change (concat ((t0 :: ts) :: bs)) with ((t0 :: ts) ++ concat bs) in N, B.
    apply Forall_app in B as [B1 B2]. pose proof (nondecr_last _ _ _ N) as N2.
    replace (r + acc) with (g r) by (unfold g, elapsed; rewrite Z.sub_diag; change (0 mod 2 ^ 64) with 0; rewrite shift_0; lia).
    apply batch_order.
    + intros a c A C Ia Ic. unfold g. rewrite Forall_forall in B1.
      assert (c < 2 ^ 54) by now apply B1.
      rewrite !elapsed_small by lia.
      pose proof (shift_mono f (a - r) (c - r) H1). lia.
    + apply nondecr_app_l with (concat bs). exact N.
    + set (tl := List.last (t0 :: ts) t0).
      assert (TL : List.last (t0 :: ts) r = tl) by (apply last_default).
      rewrite TL in *.
      replace (g tl) with (tl + (acc + shift f (elapsed r tl))) by (unfold g; lia).
      apply IH; auto.
      assert (In tl (t0 :: ts)) by (unfold tl; rewrite last_cons; destruct ts; [now left|]; right;
        rewrite last_cons; clear; revert z; induction ts as [|x ts IH2]; intros z; [now left|]; right; rewrite last_cons; apply IH2).
      assert (r <= tl) by (apply nondecr_ge with ((t0 :: ts) ++ concat bs); [exact N|]; apply in_or_app; now left).
      lia.
Qed.

(** ** Accuracy *)
Lemma last_in {A} (l : list A) x : In (List.last l x) (x :: l).
Proof.
  revert x; induction l as [|a l IH]; intros x; [now left|]. right. rewrite last_cons. apply IH.
Qed.
Lemma corrected_accurate f t0 : small f -> forall fs bs r acc l n i,
  length fs = length bs -> Forall (eq f) fs -> Forall (fun b => b <> []) bs ->
  0 <= r -> nondecr (r :: concat bs) -> Forall (fun t => t < 2 ^ 54) (concat bs) ->
  2 * Z.abs (2 ^ 34 * acc - f * (r - t0)) <= 3 * n * 2 ^ 34 ->
  Forall2 (accurate f t0 (n + Z.of_nat i + 1)) (nth i bs [])
    (nth i (corrected (mkClock (Some r) acc l) fs bs) []).
Proof.
  intros F. induction fs as [|f' fs IH]; intros [|b bs] r acc l n i L FS NE R N B E; cbn in L; try discriminate.
  - cbn. destruct i; constructor.
  - inv FS. rename f' into f. inv NE. destruct b as [|t1 ts]; [congruence|].
    change (concat ((t1 :: ts) :: bs)) with ((t1 :: ts) ++ concat bs) in N, B.
    apply Forall_app in B as [B1 B2]. pose proof (nondecr_last _ _ _ N) as N2.
    cbn [corrected]. destruct i as [|i]; cbn [nth].
    + unfold batch_times. cbn [ref_of c_ref c_acc].
      assert (G : forall l, (forall t, In t l -> r <= t /\ t < 2 ^ 54) ->
        Forall2 (accurate f t0 (n + Z.of_nat 0 + 1)) l (map (fun t => t + shift f (elapsed r t) + acc) l)).
      { induction l0 as [|t l0 IHl]; intros G; cbn [map]; constructor.
        - destruct (G t) as [G1 G2]; [now left|]. unfold accurate. rewrite elapsed_small by lia.
          pose proof (shift_err f (t - r) F).
          replace (2 ^ 34 * (t + shift f (t - r) + acc - t) - f * (t - t0))
            with ((2 ^ 34 * shift f (t - r) - f * (t - r)) + (2 ^ 34 * acc - f * (r - t0))) by ring.
          lia.
        - apply IHl. intros x Hx. apply G. now right. }
      apply G. intros t It. split.
      * apply nondecr_ge with ((t1 :: ts) ++ concat bs); [exact N|]. apply in_or_app. now left.
      * rewrite Forall_forall in B1. now apply B1.
    + unfold batch_clock. cbn [ref_of c_ref c_acc].
      set (tl := List.last (t1 :: ts) t1).
      assert (TL : List.last (t1 :: ts) r = tl) by (apply last_default). rewrite TL in *.
      assert (I : In tl (t1 :: ts)) by (unfold tl; rewrite last_cons; apply last_in).
      assert (RT : r <= tl) by (apply nondecr_ge with ((t1 :: ts) ++ concat bs); [exact N|]; apply in_or_app; now left).
      assert (TB : tl < 2 ^ 54) by (rewrite Forall_forall in B1; now apply B1).
      replace (n + Z.of_nat (S i) + 1) with ((n + 1) + Z.of_nat i + 1) by lia.
      apply IH; auto; [lia|].
      rewrite elapsed_small by lia. pose proof (shift_err f (tl - r) F).
      replace (2 ^ 34 * (acc + shift f (tl - r)) - f * (tl - t0))
        with ((2 ^ 34 * shift f (tl - r) - f * (tl - r)) + (2 ^ 34 * acc - f * (r - t0))) by ring.
      lia.
Qed.

(** ** No overflow *)
Definition J (first p : Z) (K : clock) : Prop :=
  exists r, c_ref K = Some r /\ 0 <= first <= r /\ r < 2 ^ 54 /\
  4096 * Z.abs (c_acc K) + (7 - p) * 4096 * Z.abs (c_last K) <= 8 * (r - first).

Lemma J_batch first f p p' K ts : small f -> J first p K -> 0 <= p <= 7 -> 0 <= p' <= 7 ->
  (ts = [] -> p < p') -> (forall r, c_ref K = Some r -> nondecr (r :: ts)) ->
  Forall (fun t => t < 2 ^ 54) ts ->
  J first p' (batch_clock f K ts) /\ exists r', c_ref (batch_clock f K ts) = Some r' /\
    (forall r, c_ref K = Some r -> r' = List.last ts r).
Proof.
  intros F (r & CR & R1 & R2 & E) P P' HS N B. specialize (N r CR).
  destruct ts as [|t0 ts].
  - specialize (HS eq_refl). cbn [batch_clock]. split.
    + exists r. cbn [c_ref c_acc c_last]. repeat split; auto; try lia.
      assert ((7 - p') * Z.abs (c_last K) <= (6 - p) * Z.abs (c_last K)) by (apply Z.mul_le_mono_nonneg_r; lia).
      pose proof (Z.abs_triangle (c_acc K) (c_last K)).
      set (a := Z.abs (c_acc K)) in *. set (b := Z.abs (c_last K)) in *.
      set (c := Z.abs (c_acc K + c_last K)) in *. clearbody a b c. nia.
    + exists r. split; [assumption|]. intros r0 H. cbn. congruence.
  - unfold batch_clock. unfold ref_of. rewrite CR. set (tl := List.last (t0 :: ts) t0).
    assert (I : In tl (t0 :: ts)) by (unfold tl; rewrite last_cons; apply last_in).
    assert (RT : r <= tl) by (apply nondecr_ge with (t0 :: ts); [exact N|assumption]).
    assert (TB : tl < 2 ^ 54) by (rewrite Forall_forall in B; now apply B).
    split.
    + exists tl. cbn [c_ref c_acc c_last]. repeat split; auto; try lia.
      rewrite elapsed_small by lia. pose proof (shift_bound f (tl - r) F). nia.
    + exists tl. split; [reflexivity|]. intros r0 H. unfold tl. apply last_default.
Qed.

Lemma correct_all_ok lg f ref ovf : small f -> 0 <= ref -> forall evs lst,
  Forall good_ev evs -> Forall (fun ev => ref <= ev_time lg ev) evs ->
  exists r, correct_all true lg f ref ovf evs lst = Ok r.
Proof.
  intros F R. induction evs as [|ev evs IH]; intros lst G T; cbn; [now eexists|].
  inv G. inv T. destruct H1 as [B L]. rewrite correct_event_spec by assumption.
  pose proof (ev_time_range lg ev B L). rewrite elapsed_small by lia.
  set (q := (ev_time lg ev - ref) / 2 ^ 12).
  assert (0 <= q < 2 ^ 42) by (unfold q; lia).
  assert (FQ : fits_s64 (q * f) = true).
  { unfold fits_s64. unfold small in F. assert (- (2 ^ 42 * 2 ^ 21) < q * f < 2 ^ 42 * 2 ^ 21) by nia. lia. }
  unfold signed64. rewrite FQ. cbn [bind]. fold (correct_all true lg f ref ovf).
  edestruct IH as [r E]; [assumption|assumption|]. rewrite E. destruct r. cbn. now eexists.
Qed.

(** A batch that keeps the order never overflows. *)
Lemma input_clock_ok lg f k K evs p first : small f -> Rk k K -> J first p K -> 0 <= p < 7 \/ (p = 7 /\ evs <> []) ->
  Forall good_ev evs -> (forall r, c_ref K = Some r -> nondecr (r :: map (ev_time lg) evs)) ->
  exists r, input_clock true lg f k evs = Ok r.
Proof.
  intros F RK JK P G N. destruct JK as (r & CR & R1 & R2 & E). specialize (N r CR).
  destruct k as [[[ref isset] ovf] lst]. destruct RK as (K1 & K2 & K3 & K4).
  rewrite CR in K1. destruct isset; [|discriminate]. injection K1 as ->.
  destruct K4 as [c0 ->]; [reflexivity|]. subst ovf. unfold input_clock.
  assert (exists ref', (match evs with [] => (ref, true) | _ => (ref, true) end) = (ref', true) /\ ref' = ref)
    as (ref' & E' & ->) by (destruct evs; eexists; split; reflexivity).
  replace (match evs with [] => (ref, true) | ev :: _ => (ref, true) end) with (ref, true) by (now destruct evs).
  edestruct (correct_all_ok lg f ref (c_acc K) F ltac:(lia) evs (Some (ref, c0))) as [[evs' lst'] CA]; [assumption| |].
  { rewrite Forall_forall. intros ev I. apply nondecr_ge with (map (ev_time lg) evs); [assumption|]. now apply in_map. }
  rewrite CA. cbn [bind]. apply correct_all_strict in CA as [_ ->]; [|assumption].
  destruct evs as [|ev evs].
  - unfold signed64. rewrite <- K3.
    assert (1 * Z.abs (c_last K) <= (7 - p) * Z.abs (c_last K))
      by (apply Z.mul_le_mono_nonneg_r; [lia|]; destruct P as [P|[_ P]]; [lia|congruence]).
    pose proof (Z.abs_triangle (c_acc K) (c_last K)).
    assert (HB : Z.abs (c_acc K + c_last K) <= 2 ^ 46).
    { set (a := Z.abs (c_acc K)) in *. set (b := Z.abs (c_last K)) in *. 
      set (c := Z.abs (c_acc K + c_last K)) in *. clearbody a b c. nia. }
    replace (fits_s64 (c_acc K + c_last K)) with true by (unfold fits_s64; lia). now eexists.
  - cbv beta iota zeta. set (tl := List.last (map (ev_time lg) (ev :: evs)) (ev_time lg ev)).
    assert (I : In tl (map (ev_time lg) (ev :: evs))) by (unfold tl; cbn [map]; rewrite last_cons; apply last_in).
    assert (RT : ref <= tl) by (eapply nondecr_ge; [exact N|assumption]).
    assert (TB : tl < 2 ^ 54).
    { apply in_map_iff in I as (e & <- & I). rewrite Forall_forall in G. destruct (G e I).
      pose proof (ev_time_range lg e). intuition. }
    rewrite elapsed_small by lia. pose proof (shift_bound f (tl - ref) F).
    unfold signed64, fits_s64. 
    assert (0 <= (7 - p) * 4096 * Z.abs (c_last K)) by nia.
    match goal with |- context [if ?b then _ else _] => replace b with true by lia end. now eexists.
Qed.
