(** Decision procedures for [within_reach] and [significant]. *)
From Coq Require Import QArith Qabs Lqa.
From Verif Require Import Float Base TimestampsModel UtilsModel UtilsSpec FpfindModel FpfindSpec AccuracySpec SignalSpec RoundedSpec WholeSpec SwapSpec SwapCheck ExistSpec.
Import ListNotations. Local Open Scope Z_scope.

(** the bin width an iteration settles on *)
Definition settled (M : fpu) (P : params) (A : list Q) (last dur : Q) (s : fstate) : pyres (Q * Q) :=
  let* ys := correlate M P A (bts s) 0 (used_duration M P last dur (resolution s)) (resolution s) in
  let* d1 := delay_of M (num_bins P) ys (resolution s) in let* sig := sig_of M ys (resolution s) in
  if is_first s then confirm (S (length ys)) M P ys (resolution s) d1 sig else Ok (resolution s, d1).
Lemma settled_ok M P A last dur s r d1 d2 : finds M P A last dur s r d1 d2 -> settled M P A last dur s = Ok (r, d1).
Proof. intros (ys & dt1 & sig & ys2 & H1 & H2 & H3 & H4 & _). unfold settled. rewrite H1. cbn [bind]. rewrite H2. cbn [bind]. rewrite H3. exact H4. Qed.
Definition reach_b (P : params) (D F j W : Q) (s : fstate) (ws : list Q) : bool :=
  negb (Qeq_bool (f s) 0) && forallb (fun tau => Qle_bool (Qabs (remaining D F (dt s) (f s) tau) + wider U53 (num_bins P) j (resolution s)) 100000000) [0%Q; W] &&
  Qltb (Qabs F + freq_error U53 F (separation_duration P) W (map (wider U53 (num_bins P) j) (resolution s :: ws)) + U53) (1 # 8192).
Fixpoint reach (fuel : nat) (M : fpu) (P : params) (A : list Q) (last dur D F j W : Q) (s : fstate) (ws : list Q) : bool :=
  reach_b P D F j W s ws &&
  match iteration M P A last dur s with
  | Ok (Again s') => match fuel, settled M P A last dur s with S k, Ok (r, _) => reach k M P A last dur D F j W s' (r :: ws) | _, _ => false end
  | _ => true
  end.
Definition within_reach_b (fuel : nat) (M : fpu) (P : params) (A B : list Q) (res D F j W : Q) : bool :=
  match getitem A (-1), getitem B (-1) with
  | Ok a, Ok b => reach fuel M P A (qmin a b) (rs M (rs M (inject_Z (num_wraps P) * res) * inject_Z (num_bins P))%Q) D F j W (mkS B res 0 1 true) []
  | _, _ => false
  end.
Lemma within_reach_ok fuel M P A B res D F j W : within_reach_b fuel M P A B res D F j W = true -> within_reach M P A B res D F j W.
Proof.
  intros H. unfold within_reach_b in H. destruct (getitem A (-1)) as [a|] eqn:GA; [|discriminate]. destruct (getitem B (-1)) as [b|] eqn:GB; [|discriminate].
  exists a, b. split; [exact GA|]. split; [exact GB|]. cbv zeta. intros s ws HI.
  assert (G : exists k, reach k M P A (qmin a b) (rs M (rs M (inject_Z (num_wraps P) * res) * inject_Z (num_bins P))%Q) D F j W s ws = true).
  { induction HI as [|s ws r d1 d2 s' HI IH FI IT]; [now exists fuel|]. destruct IH as (k & IH). destruct k as [|k]; cbn [reach] in IH; rewrite IT in IH; apply andb_true_iff in IH as [_ IH]; [discriminate|].
    rewrite (settled_ok _ _ _ _ _ _ _ _ _ FI) in IH. now exists k. }
  destruct G as (k & G). assert (R : reach_b P D F j W s ws = true) by (destruct k; cbn [reach] in G; apply andb_true_iff in G as [G _]; exact G).
  unfold reach_b in R. rewrite !andb_true_iff in R. destruct R as [[NF RT] RF]. cbn [forallb] in RT. rewrite !andb_true_iff in RT. destruct RT as (E1 & E2 & _). split.
  - intros tau T. apply Qle_bool_iff in E1, E2.
    assert (NZ : ~ (f s == 0)%Q) by (intros C; apply Qeq_bool_iff in C; rewrite C in NF; discriminate).
    apply (in_range D F (dt s) (f s) _ W 0%Q _ NZ); [|now left].
    intros t [-> | [-> | [-> | ->]]]; try assumption.
    assert (X : (remaining D F (dt s) (f s) (0 + W) == remaining D F (dt s) (f s) W)%Q) by (unfold remaining; setoid_replace (0 + W)%Q with W by ring; reflexivity). now rewrite X.
  - unfold Qltb in RF. apply negb_true_iff in RF. apply Qnot_le_lt. intros C. apply Qle_bool_iff in C. congruence.
Qed.
Definition significant_b (M : fpu) (P : params) (A B : list Q) (res : Q) : bool :=
  match getitem A (-1), getitem B (-1) with
  | Ok a, Ok b =>
      match correlate M P A B 0 (used_duration M P (qmin a b) (rs M (rs M (inject_Z (num_wraps P) * res) * inject_Z (num_bins P))%Q) res) res with
      | Ok ys => match sig_of M ys res with Ok sig => Qltb 0 sig && Qle_bool (threshold P) sig | Err _ => true end
      | Err _ => true
      end
  | _, _ => false
  end.
Lemma significant_ok M P A B res : significant_b M P A B res = true -> significant M P A B res.
Proof.
  intros H. unfold significant_b in H. destruct (getitem A (-1)) as [a|] eqn:GA; [|discriminate]. destruct (getitem B (-1)) as [b|] eqn:GB; [|discriminate].
  exists a, b. split; [exact GA|]. split; [exact GB|]. cbv zeta. intros ys sig C S. rewrite C, S in H. apply andb_true_iff in H as [H1 H2]. split; [|now apply Qle_bool_iff].
  unfold Qltb in H1. apply negb_true_iff in H1. apply Qnot_le_lt. intros X. apply Qle_bool_iff in X. congruence.
Qed.
