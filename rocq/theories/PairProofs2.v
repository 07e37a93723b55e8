(** A constant delay under merging of bins. *)
From Coq Require Import QArith Qabs Qround Qminmax Lqa.
From Coq Require Import ZifyBool.
From Verif Require Import Float Base TimestampsModel TimestampsSpec EpochsModel UtilsModel UtilsSpec UtilsProofs UtilsProofs2 FpfindModel FpfindSpec FpfindProofs FpfindProofs3 FpfindRefute MainProofs3 PairSpec PairProofs.
Local Open Scope Z_scope.

Lemma frequent_unique n res m A B q d : 0 < n / m -> stands_out n res m A B q -> frequent 0 n res m A B d ->
  (d == inject_Z (centered (n / m) (q mod (n / m)) * m) * res)%Q.
Proof.
  intros N SO (g & G & MX & _ & D). destruct (Z.eq_dec g (q mod (n / m))) as [->|NE]; [exact D|].
  specialize (SO g G NE). specialize (MX (q mod (n / m)) ltac:(apply Z.mod_pos_bound; lia)).
  exfalso. apply (Qle_not_lt _ _ MX). setoid_replace (inject_Z (pairs n res m A B g) + 2 * 0 * inject_Z m)%Q with (inject_Z (pairs n res m A B g)) by ring. now rewrite <- Zlt_Qlt.
Qed.
Lemma centered_mod n q : - n <= 2 * q < n -> centered n (q mod n) = q.
Proof.
  intros R. unfold centered. destruct (Z.leb 0 q) eqn:E.
  - rewrite Z.mod_small by lia. now replace (2 * q <? n) with true by lia.
  - replace (q mod n) with (q + n) by (rewrite <- (Z.mod_small (q + n) n) by lia; rewrite <- (Z_mod_plus_full q 1 n); f_equal; lia).
    replace (2 * (q + n) <? n) with false by lia. lia.
Qed.
Lemma pow_inj res j k : (0 < res)%Q -> 0 <= j -> 0 <= k -> (res * inject_Z (2 ^ j) == res * inject_Z (2 ^ k))%Q -> j = k.
Proof.
  intros R J K E. assert (E' : (inject_Z (2 ^ j) == inject_Z (2 ^ k))%Q) by (apply (Qmult_inj_l _ _ res); [lra|exact E]).
  rewrite inject_Z_injective in E'. apply (Z.pow_inj_r 2); lia.
Qed.
Lemma c96 M P A B res k q dt df : exact_fpu M -> accurate_to 0 (num_bins P) (len A) (len B) M -> (0 < res)%Q -> constant_delay P A B res (target_resolution P) k q ->
  time_freq 1 M P A B res = Ok (dt, df) ->
  let n := num_bins P in let r := target_resolution P in
  (dt == inject_Z (centered (n / 2 ^ k) (q mod (n / 2 ^ k))) * r)%Q /\ (df == (inject_Z q * r - dt) / separation_duration P)%Q.
Proof.
  intros EX AC R (ER & K0 & Q0 & SO) H n r.
  assert (M0 : 0 < 2 ^ k) by (apply Z.pow_pos_nonneg; lia).
  assert (T0 : (0 < target_resolution P)%Q) by (rewrite ER; apply Qmult_lt_0_compat; [exact R|]; rewrite <- (Zlt_Qlt 0); lia).
  unfold time_freq in H. apply bind_ok in H as (a & Ea & H). apply bind_ok in H as (b & Eb & H). cbv zeta in H.
  set (dur := rs M _) in H. assert (ED : (dur == inject_Z (num_wraps P) * res * inject_Z (num_bins P))%Q) by (unfold dur; now rewrite !(proj2 EX)).
  assert (LC : last_common A B (qmin a b)).
  { apply getitem_app in Ea as (A' & ->). apply getitem_app in Eb as (B' & ->). exists A', a, B', b. split; [reflexivity|]. split; [reflexivity|].
    unfold qmin. destruct (Qltb b a) eqn:L; [apply Qltb_lt in L; rewrite Q.min_r; [reflexivity|lra]|apply Qltb_ge in L; rewrite Q.min_l; [reflexivity|lra]]. }
  cbn [iterate] in H. apply bind_ok in H as (nx & E & H).
  destruct (iteration_outcome 0 M P A (qmin a b) dur (mkS B res 0 1 true) nx EX AC R E) as (r1 & d1 & d2 & ME & [(F1 & _)|(NI & dt' & f' & Edt & Ef & RG & O)]); [discriminate F1|].
  cbn [is_first resolution FpfindModel.dt FpfindModel.f FpfindModel.bts] in *.
  destruct O as [(TR & b' & -> & Eb')|(TR & B' & res' & -> & _)]; [|discriminate H]. injection H as <- <-.
  destruct ME as (w & j & (kk & qq & W1 & W2 & W3) & J0 & _ & _ & ER1 & MD & F1 & _ & F2).
  assert (WL : window_length (num_bins P) res (inject_Z (num_wraps P) * res * inject_Z (num_bins P)) (qmin a b) w).
  { exists kk, qq. split; [|split; assumption]. unfold nearest in *. now rewrite <- ED. }
  destruct (SO _ _ LC WL) as [S1 S2].
  assert (j = k) by (apply (pow_inj res); try assumption; rewrite <- ER1, <- ER; exact TR). subst j.
  assert (N2 : num_bins P = 2 ^ k * (num_bins P / 2 ^ k)) by (apply Z_div_exact_2; lia).
  assert (NK : 0 < n / 2 ^ k) by (unfold n; nia).
  pose proof (frequent_unique _ _ _ _ _ _ _ NK S1 F1) as D1. fold n in D1.
  assert (S2' : stands_out (num_bins P) r1 1 (view (separation_duration P) w A) (view (separation_duration P) w B) q).
  { intros g G NE. specialize (S2 g G NE). unfold pairs, lag in *.
    assert (X : forall t, Qfloor (t / r1) = Qfloor (t / target_resolution P)) by (intros t; apply Qfloor_comp; now rewrite TR).
    assert (Y : forall h, filter (fun c : Q * Q => (Qfloor (snd c / r1) - Qfloor (fst c / r1)) mod num_bins P / 1 =? h)
      (list_prod (view (separation_duration P) w A) (view (separation_duration P) w B)) =
      filter (fun c : Q * Q => (Qfloor (snd c / target_resolution P) - Qfloor (fst c / target_resolution P)) mod num_bins P / 1 =? h)
      (list_prod (view (separation_duration P) w A) (view (separation_duration P) w B))) by (intros h; apply filter_ext; intros c; now rewrite !X).
    rewrite !Y. exact S2. }
  assert (N1 : 0 < num_bins P / 1) by (rewrite Z.div_1_r; lia).
  pose proof (frequent_unique _ _ _ _ _ _ _ N1 S2' F2) as D2. rewrite Z.div_1_r, centered_mod, Z.mul_1_r, TR in D2 by assumption. fold r in D2.
  assert (D1' : (d1 == inject_Z (centered (n / 2 ^ k) (q mod (n / 2 ^ k))) * r)%Q) by (rewrite D1, inject_Z_mult; unfold r; rewrite ER; ring).
  assert (DT : (dt' == d1)%Q) by (rewrite Edt; ring).
  split; [now rewrite DT|]. rewrite Eb', Ef, D2, <- DT. ring.
Qed.
(** a delay within half the range of the first correlation is found, with no frequency offset; any other gives one *)
Lemma c96_within M P A B res k q dt df : exact_fpu M -> accurate_to 0 (num_bins P) (len A) (len B) M -> (0 < res)%Q -> constant_delay P A B res (target_resolution P) k q ->
  time_freq 1 M P A B res = Ok (dt, df) -> ~ (separation_duration P == 0)%Q -> 0 < num_bins P / 2 ^ k ->
  let h := num_bins P / 2 ^ k in
  (- h <= 2 * q < h -> (dt == inject_Z q * target_resolution P)%Q /\ (df == 0)%Q) /\ (~ - h <= 2 * q < h -> ~ (df == 0)%Q).
Proof.
  intros EX AC R CD H S0 N0 h. destruct (c96 M P A B res k q dt df EX AC R CD H) as [D F]. cbv zeta in D, F. fold h in D. fold h in N0.
  destruct CD as (ER & K0 & _). assert (M0 : 0 < 2 ^ k) by (apply Z.pow_pos_nonneg; lia).
  assert (T0 : (0 < target_resolution P)%Q) by (rewrite ER; apply Qmult_lt_0_compat; [exact R|]; rewrite <- (Zlt_Qlt 0); lia).
  split.
  - intros Hq. rewrite centered_mod in D by assumption. split; [exact D|]. rewrite F, D. setoid_replace (inject_Z q * target_resolution P - inject_Z q * target_resolution P)%Q with 0%Q by ring. unfold Qdiv. ring.
  - intros Hq Z0. apply Hq. assert (E : (inject_Z q * target_resolution P - dt == 0)%Q).
    { rewrite F in Z0. apply (Qmult_inj_r _ _ (/ separation_duration P)); [intros I; apply S0; rewrite <- (Qinv_involutive (separation_duration P)), I; reflexivity|]. rewrite Qmult_0_l. exact Z0. }
    assert (E' : (inject_Z q == inject_Z (centered h (q mod h)))%Q) by (apply (Qmult_inj_r _ _ (target_resolution P)); [lra|]; rewrite <- D; lra).
    rewrite inject_Z_injective in E'. pose proof (Z.mod_pos_bound q h N0). unfold centered in E'. destruct (2 * (q mod h) <? h) eqn:C; lia.
Qed.
(** a delay of 6.5 ns, 3 cells of 2 ns, found as -1 cell in the first correlation of 4 cells *)
Definition alice96 : list Q := [0; 1#2; 1; 5#2; 11#2; 131072; 131073; 131080; 1000000]%Q.
Definition bob96 : list Q := map (fun t => t + (13 # 2))%Q alice96.
Definition P96 : params := mkP 8 8 2 (5 # 2) 131072.
Lemma run96 : time_freq 1 MQ P96 alice96 bob96 1 = Ok (- (2), 1 # 16384)%Q.
Proof. vm_compute. reflexivity. Qed.
Lemma common96 last : last_common alice96 bob96 last -> (last == 1000000)%Q.
Proof.
  intros (A' & a & B' & b & EA & EB & ->). change alice96 with ([0; 1#2; 1; 5#2; 11#2; 131072; 131073; 131080]%Q ++ [1000000%Q]) in EA. change bob96 with (map (fun t => t + (13 # 2))%Q [0; 1#2; 1; 5#2; 11#2; 131072; 131073; 131080]%Q ++ [(1000000 + (13 # 2))%Q]) in EB.
  apply app_inj_tail in EA as [_ <-]. apply app_inj_tail in EB as [_ <-]. vm_compute. reflexivity.
Qed.
Lemma view_eq s w w' ts : (w == w')%Q -> view s w ts = view s w' ts.
Proof. intros E. unfold view. now rewrite (window_same s w w' ts E). Qed.
Lemma window96 last w : (last == 1000000)%Q -> window_length 8 1 (inject_Z 8 * 1 * inject_Z 8) last w -> (w == 64)%Q.
Proof.
  intros L (k & q & NK & (Q1 & Q2) & W). unfold nearest in NK.
  assert (k = 8).
  { apply Qabs_Qle_condition in NK. assert (E : (inject_Z 8 * 1 * inject_Z 8 / (1 * inject_Z 8) == 8)%Q) by reflexivity. rewrite E in NK.
    assert (inject_Z 7 < inject_Z k)%Q by (change (inject_Z 7) with 7%Q; lra). assert (inject_Z k < inject_Z 9)%Q by (change (inject_Z 9) with 9%Q; lra).
    rewrite <- Zlt_Qlt in *. lia. }
  assert (8 <= q).
  { assert (inject_Z 8 < inject_Z (q + 1))%Q by (change (inject_Z 8) with 8%Q in *; lra). rewrite <- Zlt_Qlt in *. lia. }
  rewrite W. replace (Z.min k q) with 8 by lia. reflexivity.
Qed.
Lemma constant96 : constant_delay P96 alice96 bob96 1 2 1 3.
Proof.
  split; [reflexivity|]. split; [lia|]. split; [cbn; lia|]. intros last w LC WL. cbn [num_bins num_wraps P96 separation_duration] in *.
  rewrite !(view_eq _ w 64) by (apply (window96 last); [now apply common96|exact WL]).
  split; intros g G NE; change (8 / 2 ^ 1) with 4 in *; change (8 / 1) with 8 in *; change (3 mod 4) with 3 in *; change (3 mod 8) with 3 in *.
  - assert (g = 0 \/ g = 1 \/ g = 2) as [->|[->| ->]] by lia; vm_compute; reflexivity.
  - assert (g = 0 \/ g = 1 \/ g = 2 \/ g = 4 \/ g = 5 \/ g = 6 \/ g = 7) as [->|[->|[->|[->|[->|[->| ->]]]]]] by lia; vm_compute; reflexivity.
Qed.
Lemma c96_refuted : ~ C96_full.
Proof.
  intros H. destruct (H MQ P96 alice96 bob96 1%Q 1 3 _ _ MQ_exact (exact_accurate _ _ _ MQ eq_refl) ltac:(reflexivity) constant96 run96) as [_ D]. vm_compute in D. discriminate D.
Qed.
Lemma len_shown l l' (g : Q -> Q) : same_values l (map g l') -> len l' = len l.
Proof. intros H. unfold len. f_equal. rewrite <- (map_length g l'). symmetry. now induction H as [|x y l1 l2 E H IH]; [|cbn [length]; f_equal]. Qed.
Lemma c95_fpfind e fuel M P alice bob res df0s dt df : exact_fpu M -> accurate_to e (num_bins P) (len alice) (len bob) M -> good_xc M -> (0 < target_resolution P)%Q -> (0 < res)%Q ->
  (forall df0, In df0 df0s -> ~ (1 + df0 == 0)%Q) -> fpfind fuel M P alice bob res df0s false = Ok (dt, df) ->
  exists df0 c B last dur, In df0 df0s /\ same_values B (map (corrected (0, df0)%Q) bob) /\ last_common alice B last /\
    (dur == inject_Z (num_wraps P) * res * inject_Z (num_bins P))%Q /\ search e P alice dur last true res 0 1 B c /\
    (forall t, corrected (dt, df) t == corrected c (corrected (0, df0) t))%Q.
Proof.
  intros EX AC GX T0 R NZ H. destruct (c53_fpfind fuel M P alice bob res df0s dt df GX EX NZ H) as (df0 & c & B & I & SV & TF & CO).
  rewrite (len_shown _ _ _ SV) in AC. destruct (c95 e fuel M P alice B res c EX AC T0 R TF) as (last & dur & LC & ED & SE). exists df0, c, B, last, dur. tauto.
Qed.
