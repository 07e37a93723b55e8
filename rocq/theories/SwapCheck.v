(** A decision procedure for [stand_out]. *)
From Coq Require Import QArith Qabs Qreduction Lqa.
From Coq Require Import ZifyBool.
From Verif Require Import Float Base TimestampsModel UtilsModel UtilsSpec FpfindModel FpfindSpec AccuracySpec PairSpec SignalSpec SignalCase RoundedSpec RoundedProofs WholeSpec SwapSpec.
Import ListNotations. Local Open Scope Z_scope.

(** A check of [stands] that works out each lag once: only groups with pairs need a look, and one without. *)
Definition stands_f (c e : Q) (n : Z) (res : Q) (m : Z) (A B : list Q) (T : Q -> Q -> bool) (g0 : Z) : bool :=
  let ts := map (fun z => (lag n res (fst z) (snd z) / m, T (fst z) (snd z))) (list_prod A B) in
  let count := fun g => len (filter (fun t => fst t =? g) ts) in
  let most := ((2 - c) * inject_Z (count g0) - c * (e * inject_Z m))%Q in
  let less := fun v => negb (Qle_bool most (c * (inject_Z v + e * inject_Z m))%Q) in
  less 0 && forallb (fun t => let g := fst t in existsb (fun t => snd t && (fst t =? g)) ts || less (count g)) ts.
Lemma filter_map_len {X Y} (f : X -> Y) (p : Y -> bool) l : len (filter p (map f l)) = len (filter (fun x => p (f x)) l).
Proof. induction l as [|x l IH]; [reflexivity|]. cbn [map filter]. destruct (p (f x)); rewrite ?len_cons, IH; reflexivity. Qed.
Lemma stands_f_ok c e n res m A B D F j dt f s g0 : 0 <= g0 < n / m -> stands_f c e n res m A B (coincident_b D F j dt f s) g0 = true -> stands c e n res m A B (coincident D F j dt f s).
Proof.
  intros G H. exists g0. split; [exact G|]. intros g Hg N. unfold stands_f in H. cbv zeta in H. apply andb_true_iff in H as [H0 H].
  rewrite filter_map_len in H0. cbn [fst] in H0. change (len (filter _ (list_prod A B))) with (pairs n res m A B g0) in H0.
  destruct (Z.eq_dec (pairs n res m A B g) 0) as [E|E].
  - rewrite E. apply Qnot_le_lt. intros L. apply Qle_bool_iff in L. rewrite L in H0. discriminate.
  - unfold pairs in E. destruct (filter (fun c => lag n res (fst c) (snd c) / m =? g) (list_prod A B)) as [|z l] eqn:FE; [easy|].
    assert (I : In z (list_prod A B) /\ (lag n res (fst z) (snd z) / m =? g) = true) by (apply (filter_In (fun c => lag n res (fst c) (snd c) / m =? g)); rewrite FE; now left). destruct I as [I I2].
    rewrite forallb_forall in H. specialize (H _ (in_map (fun z => (lag n res (fst z) (snd z) / m, coincident_b D F j dt f s (fst z) (snd z))) _ _ I)). cbn [fst] in H.
    apply Z.eqb_eq in I2. rewrite I2 in H. apply orb_true_iff in H as [H|H].
    + apply existsb_exists in H as (t & J & C). apply in_map_iff in J as ((a & b) & <- & J). cbn [fst snd] in C. apply in_prod_iff in J as [JA JB].
      apply andb_true_iff in C as [C1 C2]. exfalso. apply (N a b JA JB); [now apply Qle_bool_iff|lia].
    + rewrite !filter_map_len in H. cbn [fst] in H. change (len (filter _ (list_prod A B))) with (pairs n res m A B g0) in H at 1.
      change (len (filter _ (list_prod A B))) with (pairs n res m A B g) in H. apply Qnot_le_lt. intros L. apply Qle_bool_iff in L. rewrite L in H. discriminate.
Qed.
(** the group with the most pairs *)
Definition best (n : Z) (res : Q) (m : Z) (A B : list Q) : Z :=
  let ls := map (fun c => lag n res (fst c) (snd c) / m) (list_prod A B) in
  fst (fold_left (fun acc g => let c := len (filter (Z.eqb g) ls) in if snd acc <? c then (g, c) else acc) ls (0, 0)).
Definition clear_b (u e : Q) (rt : Q -> Q) (P : params) (A : list Q) (D F j W w : Q) (s : fstate) (k : Z) : bool :=
  let n := num_bins P in let sep := separation_duration P in let q := resolution s in let r := (q * inject_Z (2 ^ k))%Q in
  let c := qpower (1 + u) (Z.to_nat k) in let bound := (inject_Z n * q / 2)%Q in
  let ends := fun tau => Qle_bool (Qabs (remaining D F (dt s) (f s) tau) + (r + (2049 # 2048) * j)) bound in
  let A1 := seen rt 0 w A in let B1 := seen rt 0 w (bts s) in let A2 := seen rt sep w A in let B2 := seen rt sep w (bts s) in
  let g1 := best n q (2 ^ k) A1 B1 in let g2 := best n r 1 A2 B2 in
  ends 0%Q && ends W && ends sep && ends (sep + W)%Q && Qle_bool w W && negb (Qeq_bool (f s) 0) &&
  (0 <=? g1) && (g1 <? n / 2 ^ k) && stands_f c e n q (2 ^ k) A1 B1 (coincident_b D F j (dt s) (f s) 0) g1 &&
  (0 <=? g2) && (g2 <? n / 1) && stands_f 1 e n r 1 A2 B2 (coincident_b D F j (dt s) (f s) sep) g2.
Lemma between (x y c a b t : Q) : (a <= t <= b -> Qabs (x + y * a) + c <= 0 -> Qabs (x + y * b) + c <= 0 -> Qabs (x + y * t) + c <= 0)%Q.
Proof.
  intros [H1 H2] L R. assert (LA : (x + y * a <= - c)%Q) by (pose proof (Qle_Qabs (x + y * a)); lra). assert (RA : (x + y * b <= - c)%Q) by (pose proof (Qle_Qabs (x + y * b)); lra).
  assert (LB : (c <= x + y * a)%Q) by (pose proof (Qle_Qabs (- (x + y * a))) as Z; rewrite Qabs_opp in Z; lra).
  assert (RB : (c <= x + y * b)%Q) by (pose proof (Qle_Qabs (- (x + y * b))) as Z; rewrite Qabs_opp in Z; lra).
  assert ((Qabs (x + y * t) <= - c)%Q); [|lra]. apply Qabs_Qle_condition. destruct (Qlt_le_dec y 0) as [N|N]; nra.
Qed.
Lemma in_range D F dt f c W sep b : ~ (f == 0)%Q -> (forall tau, tau = 0%Q \/ tau = W \/ tau = sep \/ tau = (sep + W)%Q -> (Qabs (remaining D F dt f tau) + c <= b)%Q) ->
  forall tau, (0 <= tau <= W)%Q \/ (sep <= tau <= sep + W)%Q -> (Qabs (remaining D F dt f tau) + c <= b)%Q.
Proof.
  intros NF H tau T.
  assert (LIN : forall t, (remaining D F dt f t == (D - dt) / f + ((1 + F) / f - 1) * t)%Q) by (intros t; unfold remaining; field; exact NF).
  assert (G : forall t, (Qabs (remaining D F dt f t) + c <= b -> Qabs ((D - dt) / f + ((1 + F) / f - 1) * t) + (c - b) <= 0)%Q) by (intros t X; rewrite <- LIN; lra).
  assert (X : (Qabs ((D - dt) / f + ((1 + F) / f - 1) * tau) + (c - b) <= 0)%Q).
  { destruct T as [T|T]; (apply (between _ _ _ _ _ _ T); apply G, H; tauto). }
  rewrite <- LIN in X. lra.
Qed.
Lemma clear_ok u e rt P A D F j W w s k : clear_b u e rt P A D F j W w s k = true -> clear_state u e rt P A D F j W w s k.
Proof.
  unfold clear_b. cbv zeta. rewrite !andb_true_iff. intros (((((((((((E1 & E2) & E3) & E4) & EW) & NF) & G1) & G2) & S1) & G3) & G4) & S2).
  unfold clear_state. cbv zeta. split; [|split; [now apply Qle_bool_iff|split]].
  - apply in_range; [intros C; apply Qeq_bool_iff in C; rewrite C in NF; discriminate|]. intros tau [-> | [-> | [-> | ->]]]; now apply Qle_bool_iff.
  - refine (stands_f_ok _ _ _ _ _ _ _ _ _ _ _ _ _ _ _ S1). lia.
  - refine (stands_f_ok _ _ _ _ _ _ _ _ _ _ _ _ _ _ _ S2). lia.
Qed.
Definition doubled_b (P : params) (q : Q) (k : Z) : bool := (num_bins P mod 2 ^ k =? 0) && ((k =? 0) || Qle_bool (q * inject_Z (2 ^ k)) 10000).
Fixpoint check (fuel : nat) (u e : Q) (M : fpu) (P : params) (A : list Q) (last dur D F j W : Q) (s : fstate) (first : bool) : bool :=
  let w := used_duration M P last dur (resolution s) in
  (if first then forallb (fun i => let k := Z.of_nat i in negb (doubled_b P (resolution s) k) || clear_b u e (rt M) P A D F j W w s k) (seq 0 (Z.to_nat (Z.log2 (num_bins P) + 1)))
   else clear_b u e (rt M) P A D F j W w s 0) &&
  match iteration M P A last dur s with
  | Ok (Again s') => match fuel with O => false | S fuel => check fuel u e M P A last dur D F j W s' false end
  | _ => true
  end.
Lemma check_ok u e M P A last dur D F j W s0 fuel : 0 < num_bins P -> check fuel u e M P A last dur D F j W s0 true = true ->
  forall s ws k, history M P A last dur s0 s ws -> doublings P ws (resolution s) k -> clear_state u e (rt M) P A D F j W (used_duration M P last dur (resolution s)) s k.
Proof.
  intros N0 C s ws k H.
  assert (G : exists fuel', check fuel' u e M P A last dur D F j W s (no_width ws) = true).
  { induction H as [|s ws r d1 d2 s' H IH FI IT]; [now exists fuel|]. destruct IH as (f1 & IH). destruct f1 as [|f1]; cbn [check] in IH; rewrite IT in IH; apply andb_true_iff in IH as [_ IH]; [discriminate|]. now exists f1. }
  intros (K0 & K1 & K2 & K3). destruct G as (f1 & G). apply clear_ok. destruct ws as [|r ws].
  - cbn [no_width] in G. assert (KL : k < Z.log2 (num_bins P) + 1).
    { apply Z.lt_succ_r, Z.log2_le_pow2; [exact N0|]. pose proof (Z.pow_pos_nonneg 2 k). destruct (Z_lt_le_dec (num_bins P) (2 ^ k)) as [L|L]; [rewrite Z.mod_small in K2 by lia; lia|exact L]. }
    destruct f1 as [|f1]; cbn [check] in G; apply andb_true_iff in G as [G _]; rewrite forallb_forall in G; specialize (G (Z.to_nat k)); cbv zeta in G; rewrite Z2Nat.id in G by lia;
      specialize (G ltac:(apply in_seq; lia)); apply orb_true_iff in G as [G|G]; try exact G; exfalso; apply negb_true_iff in G; unfold doubled_b in G;
      (assert (X : (k =? 0) || Qle_bool (resolution s * inject_Z (2 ^ k)) 10000 = true) by (destruct K3 as [->|K3]; [reflexivity|apply Qle_bool_iff in K3; rewrite K3; apply orb_true_r])); rewrite X in G; lia.
  - rewrite (K1 ltac:(discriminate)). cbn [no_width] in G. destruct f1 as [|f1]; cbn [check] in G; apply andb_true_iff in G as [G _]; exact G.
Qed.
Definition stand_out_b (fuel : nat) (e : Q) (M : fpu) (P : params) (A B : list Q) (res D F j W : Q) : bool :=
  match getitem A (-1), getitem B (-1) with
  | Ok a, Ok b => check fuel U53 e M P A (qmin a b) (rs M (rs M (inject_Z (num_wraps P) * res) * inject_Z (num_bins P))%Q) D F j W (mkS B res 0 1 true) true
  | _, _ => false
  end.
Lemma stand_out_ok fuel e M P A B res D F j W : 0 < num_bins P -> stand_out_b fuel e M P A B res D F j W = true -> stand_out e M P A B res D F j W.
Proof.
  intros N0 H. unfold stand_out_b in H. destruct (getitem A (-1)) as [a|] eqn:GA; [|discriminate]. destruct (getitem B (-1)) as [b|] eqn:GB; [|discriminate].
  exists a, b. split; [exact GA|]. split; [exact GB|]. cbv zeta. intros s ws k H1 H2. exact (check_ok _ _ _ _ _ _ _ _ _ _ _ _ fuel N0 H s ws k H1 H2).
Qed.
