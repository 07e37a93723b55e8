(** Counterexamples, and lemmas about the concrete runs. *)
From Verif Require Import Base FreqcdModel FreqcdSpec FreqcdStatements FreqcdExamples
  FreqcdProofs FreqcdProofs2 FreqcdProofs3 FreqcdProofs4 FreqcdProofs5 FreqcdProofs6 FreqcdProofs7 FreqcdProofs8.
From Coq Require Import String ZifyBool.
Import List ListNotations. Local Open Scope Z_scope.


Definition tsA : list tick := [rdin (ev 0 1 ++ ev 8192 2 ++ ev 16384 3)].
Definition v0 := Eval vm_compute in outcome2 (run0 (2 ^ 20) tsA).
Lemma v0_ok : outcome2 (run0 (2 ^ 20) tsA) = v0.
Proof. vm_cast_no_check (eq_refl v0). Qed.
Definition tsB : list tick := [rdin (ev 0 1); rdin (ev 8192 2); rdin (ev 16384 3)].
Definition v1 := Eval vm_compute in outcome2 (run0 (2 ^ 20) tsB).
Lemma v1_ok : outcome2 (run0 (2 ^ 20) tsB) = v1.
Proof. vm_cast_no_check (eq_refl v1). Qed.
Lemma received_chunks os : received os = concat (chunks os).
Proof. symmetry. apply concat_chunks. Qed.
Lemma C08_refuted_lemma : ~ C08_statement.
Proof.
  intros H.
  destruct (outcome2_inv (run0 (2 ^ 20) tsA) _ _ _ _ _ v0_ok) as (s1 & os1 & E1 & C1 & _ & W1 & _).
  destruct (outcome2_inv (run0 (2 ^ 20) tsB) _ _ _ _ _ v1_ok) as (s2 & os2 & E2 & C2 & _ & W2 & _).
  assert (X : written os1 = written os2).
  { apply (H false None IB IB FB (2 ^ 20) tsA tsB s1 os1 s2 os2); try assumption.
    - exact alloc_example.
    - apply ticks_okb; reflexivity.
    - apply ticks_okb; reflexivity.
    - unfold small; lia.
    - rewrite !received_chunks, C1, C2. reflexivity. }
  rewrite W1, W2 in X. discriminate X.
Qed.

Definition tsC : list tick :=
  [rdin (ev 0 1 ++ ev 16384 3); rdin (take 4 (ev 16384 5)); rdin (drop 4 (ev 16384 5))].
Definition v2 := Eval vm_compute in outcome2 (run0 (2 ^ 20) tsC).
Lemma v2_ok : outcome2 (run0 (2 ^ 20) tsC) = v2.
Proof. vm_cast_no_check (eq_refl v2). Qed.
Definition tsD : list tick := [rdin (ev 0 1 ++ ev 16384 3); rdin (ev 16384 5)].
Definition v3 := Eval vm_compute in outcome2 (run0 (2 ^ 20) tsD).
Lemma v3_ok : outcome2 (run0 (2 ^ 20) tsD) = v3.
Proof. vm_cast_no_check (eq_refl v3). Qed.
Lemma C09_refuted_lemma : ~ C09_statement.
Proof.
  intros H.
  destruct (outcome2_inv (run0 (2 ^ 20) tsC) _ _ _ _ _ v2_ok) as (s1 & os1 & E1 & C1 & _ & W1 & _).
  destruct (outcome2_inv (run0 (2 ^ 20) tsD) _ _ _ _ _ v3_ok) as (s2 & os2 & E2 & C2 & _ & W2 & _).
  assert (X : written os1 = written os2).
  { apply (H false None IB IB FB (2 ^ 20) tsC tsD s1 os1 s2 os2
      [ev 0 1 ++ ev 16384 3] (take 4 (ev 16384 5)) (drop 4 (ev 16384 5)) []); try eassumption.
    - exact alloc_example.
    - apply ticks_okb; reflexivity.
    - apply ticks_okb; reflexivity.
    - unfold small; lia.
    - reflexivity. }
  rewrite W1, W2 in X. discriminate X.
Qed.

Lemma C05_refuted_lemma : ~ C05_statement.
Proof.
  intros H.
  apply (H false (Some (0, 2 ^ 63 - 1)) IB IB FB false 0 [rdin [0]; rdin [0]]).
  - exact alloc_example.
  - apply ticks_okb; reflexivity.
  - exact I.
  - intros pre s os st P E. rewrite (freqcd_fcorr _ _ _ _ _ _ _ _ _ _ _ _ alloc_example) with (2 := E).
    + pose proof (freqcd_spec true false (Some (0, 2 ^ 63 - 1)) IB IB FB false 0 pre alloc_example) as S.
      assert (T : Forall tick_ok pre).
      { destruct P as [r P]. assert (T : Forall tick_ok (pre ++ r)) by (rewrite <- P; apply ticks_okb; reflexivity).
        now apply Forall_app in T. }
      specialize (S T). rewrite E in S. destruct S as (_ & _ & _ & _ & _ & NF & _). specialize (NF eq_refl).
      replace (filter has_newline (map rx_freq os)) with (@nil (list Z)); [vm_compute; reflexivity|].
      clear - NF. induction NF as [|o os Ho _ IH]; [reflexivity|]. cbn [map filter]. now rewrite Ho.
    + destruct P as [r P]. assert (T : Forall tick_ok (pre ++ r)) by (rewrite <- P; apply ticks_okb; reflexivity).
      now apply Forall_app in T.
  - vm_compute; reflexivity.
Qed.

Definition tsE : list tick := [rdfq (str "12"); rdfq (line "")].
Definition v4 := Eval vm_compute in outcome2 (runF 0 tsE).
Lemma v4_ok : outcome2 (runF 0 tsE) = v4.
Proof. vm_cast_no_check (eq_refl v4). Qed.
Lemma plain_12 : Forall plain_line (lines (str "12" ++ line "")).
Proof.
  vm_compute lines. constructor; [|constructor]. split; [repeat constructor; lia|].
  intros v D. apply strtol_denotes in D. assert (E : clampl v = 12).
  { transitivity (snd (fst (strtol [49; 50]))); [now rewrite D|reflexivity]. }
  unfold clampl, LONG_MIN, LONG_MAX in *. lia.
Qed.
Lemma C11_refuted_lemma : ~ C11_statement.
Proof.
  intros H.
  destruct (outcome2_inv (runF 0 tsE) _ _ _ _ _ v4_ok) as (s1 & os1 & E1 & _ & Q1 & _ & F1).
  specialize (H _ _ _ _ _ _ _ _ _ _ _ _ alloc_example (ticks_okb tsE eq_refl) E1).
  rewrite Q1 in H. specialize (H plain_12). rewrite F1 in H.
  inversion H as [|f l f1 ls f2 AL AR]; subst. inversion AR; subst.
  assert (D12 : valid_line (str "12") 12).
  { split; [|lia]. apply (Denotes _ _ [] [] [49; 50]).
    - reflexivity.
    - constructor.
    - constructor; [unfold digit; lia|]. constructor; [unfold digit; lia|constructor].
    - discriminate.
    - left. split; [now left|reflexivity]. }
  destruct AL as [[D _]|[N _]].
  - apply strtol_denotes in D. vm_compute in D. discriminate.
  - exact (N 12 D12).
Qed.

Definition tsG : list tick := [rdfq (line "-2147483648")].
Definition v5 := Eval vm_compute in outcome2 (runF 0 tsG).
Lemma v5_ok : outcome2 (runF 0 tsG) = v5.
Proof. vm_cast_no_check (eq_refl v5). Qed.
Lemma C12_refuted_lemma : ~ C12_statement.
Proof.
  intros H.
  destruct (outcome2_inv (runF 0 tsG) _ _ _ _ _ v5_ok) as (s1 & os1 & E1 & _ & _ & _ & F1).
  specialize (H _ _ _ _ _ _ _ _ _ _ _ _ alloc_example (ticks_okb tsG eq_refl) (eq_refl : small 0) E1).
  rewrite F1 in H. discriminate H.
Qed.

Definition tsH : list tick := [rdfq (line "4294967301")].
Definition outcome3 (r : cres (fstate * list obs * status)) : cres (Z * list (list Z) * status) :=
  match r with Ok (s, os, st) => Ok (fcorr s, map rx_freq os, st) | Err e => Err e end.
Lemma outcome3_inv r f q st : outcome3 r = Ok (f, q, st) ->
  exists s os, r = Ok (s, os, st) /\ fcorr s = f /\ map rx_freq os = q.
Proof. destruct r as [[[s os] st']|]; cbn; [|discriminate]. intros H. injection H as <- <- <-. eauto. Qed.
Definition v7 := Eval vm_compute in outcome3 (runF 0 tsH).
Lemma v7_ok : outcome3 (runF 0 tsH) = v7.
Proof. vm_cast_no_check (eq_refl v7). Qed.
Lemma big_invalid v : ~ valid_line (str "4294967301") v.
Proof.
  intros [D B]. apply strtol_denotes in D.
  assert (E : clampl v = 4294967301).
  { change (clampl v) with (snd (fst (true, clampl v, @nil Z))). rewrite <- D. vm_compute. reflexivity. }
  unfold clampl, LONG_MIN, LONG_MAX in E. lia.
Qed.
Lemma C13_refuted_lemma : ~ C13_statement.
Proof.
  intros H.
  destruct (outcome3_inv (runF 0 tsH) _ _ _ v7_ok) as (s1 & os1 & E1 & F1 & R1).
  specialize (H _ _ _ _ _ _ _ _ _ _ _ _ alloc_example (ticks_okb tsH eq_refl) E1).
  rewrite R1, F1 in H.
  assert (X : 5 = 0); [|discriminate X]. apply H. constructor; [exact big_invalid|constructor].
Qed.

Definition tsR : list tick := [rdin (ev (2 ^ 54 - 1) 0 ++ ev 0 0)].
Definition v6 := Eval vm_compute in outcome2 (run0 1 tsR).
Lemma v6_ok : outcome2 (run0 1 tsR) = v6.
Proof. vm_cast_no_check (eq_refl v6). Qed.
Lemma C18_refuted_lemma : ~ C18_statement.
Proof.
  intros H.
  destruct (outcome2_inv (run0 1 tsR) _ _ _ _ _ v6_ok) as (s1 & os1 & E1 & C1 & _ & W1 & _).
  specialize (H false None IB IB FB 1 tsR s1 os1 (ev (2 ^ 54 - 1) 0) (ev 0 0) alloc_example (ticks_okb tsR eq_refl) ltac:(unfold small; lia) E1 eq_refl eq_refl C1).
  cbv zeta in H. rewrite W1 in H. vm_compute in H. discriminate H.
Qed.
