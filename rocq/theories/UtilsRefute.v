(** Statements of the properties of lib/utils.py that do not hold in full, with counterexamples. *)
From Coq Require Import QArith Qabs Qround Lqa.
From Verif Require Import Float Base TimestampsModel TimestampsSpec UtilsModel UtilsSpec UtilsProofs UtilsProofs2 UtilsProofs3.
Local Open Scope Z_scope.

(** C51 for any center: a nonnegative one below the range counts from the start, a negative one from the end; [b]
    tells whether the quotient by the resolution is an int. *)
Definition C51_statement : Prop := forall hist res center w, hist <> [] -> (0 < res)%Q -> (0 <= w)%Q ->
  match center with
  | None => True
  | Some (c, _) => (- (inject_Z (len hist) * res) <= c)%Q /\ (c < inject_Z (len hist) * res)%Q
  end ->
  exists s S B, get_statistics hist (Some res) center w = Ok s /\ splits hist (signal s) (background s) S B /\
    match center with
    | None => exists p, first_peak hist p /\ In p S
    | Some (c, _) => In (if Qle_bool 0 c then Qfloor (c / res) else len hist - Qfloor (- c / res)) S
    end.
Lemma c51_refuted : ~ C51_statement.
Proof.
  intros H. destruct (H [1; 5; 1; 2]%Q 1%Q (Some (1%Q, false)) 0%Q) as (s & S & B & E & _); try (intros; congruence); try lra.
  - change (inject_Z (len [1; 5; 1; 2]%Q)) with 4%Q. split; lra.
  - discriminate E.
Qed.
(** an int center in range, -len * res excluded below (its bin would be 0, counted as len - len) *)
Lemma c51_int_in hist res c w : (0 < res)%Q -> (0 <= w)%Q -> (- (inject_Z (len hist) * res) <= c)%Q -> (c < inject_Z (len hist) * res)%Q ->
  (c < 0 -> res <= - c)%Q ->
  exists s S B, get_statistics hist (Some res) (Some (c, true)) w = Ok s /\ splits hist (signal s) (background s) S B /\
    In (if Qle_bool 0 c then Qfloor (c / res) else len hist - Qfloor (- c / res)) S.
Proof.
  intros R W L U Nr. destruct (c51_int hist res c w R W) as (s & S & B & E & H & I). exists s, S, B. split; [exact E|]. split; [exact H|].
  assert (M : middle_bin (len hist) res c = if Qle_bool 0 c then Qfloor (c / res) else len hist - Qfloor (- c / res)).
  { unfold middle_bin. destruct (Qle_bool 0 c) eqn:Q.
    - apply Qle_bool_iff in Q. replace (Qltb c 0) with false by (symmetry; apply Qltb_ge; assumption).
      apply Qfloor_comp. now rewrite (Qabs_pos c Q).
    - assert (Q' : (c < 0)%Q) by (apply Qnot_le_lt; intros X; apply Qle_bool_iff in X; congruence).
      replace (Qltb c 0) with true by (symmetry; now apply Qltb_lt). f_equal.
      apply Qfloor_comp. rewrite (Qabs_neg c) by lra. reflexivity. }
  rewrite <- M. apply I. rewrite M. destruct (Qle_bool 0 c) eqn:Q.
  - apply Qle_bool_iff in Q. split.
    + pose proof (Qfloor_resp_le 0 (c / res)%Q) as X. change (Qfloor 0) with 0 in X. apply X. apply Qle_shift_div_l; lra.
    + rewrite Zlt_Qlt. apply Qle_lt_trans with (c / res)%Q; [apply Qfloor_le|]. apply Qlt_shift_div_r; lra.
  - assert (Q' : (c < 0)%Q) by (apply Qnot_le_lt; intros X; apply Qle_bool_iff in X; congruence). specialize (Nr Q').
    assert (1 <= Qfloor (- c / res)).
    { pose proof (Qfloor_resp_le 1 (- c / res)%Q) as X. change (Qfloor 1) with 1 in X. apply X. apply Qle_shift_div_l; lra. }
    assert (Qfloor (- c / res) <= len hist).
    { rewrite Zle_Qle. apply Qle_trans with (- c / res)%Q; [apply Qfloor_le|]. apply Qle_shift_div_r; lra. }
    lia.
Qed.

(** C72 *)
Definition C72_statement : Prop := forall s m, signal s <> [] -> is_variance (background s) m -> ~ (m == 0)%Q ->
  exists v, significance_raw s = Ok (Some v).
Lemma c72_refuted : ~ C72_statement.
Proof.
  intros H. destruct (H (mkPeak [5] [1; 3])%Q 1%Q) as (v & E).
  - discriminate.
  - exists 2%Q. split; vm_compute; reflexivity.
  - intros X. discriminate X.
  - now apply raw_never in E.
Qed.
