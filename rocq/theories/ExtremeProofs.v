(** Proof of C196. *)
From Coq Require Import String List.
From Verif Require Import Base FreqcdModel FreqcdSpec FreqcdExamples FreqcdCli FreqcdCliSpec FreqcdCliStatements FreqcdCliProofs FreqcdCliRefute CdRunModel CdRunSpec CdRunStatements FreqcdRefute CdRunRefute CdExactSpec CdExactProofs ExtremeSpec.
From Coq Require Import ZifyBool.
Import ListNotations.
Local Open Scope string_scope.
Local Open Scope Z_scope.

Lemma overflows : freqcd_main true None IB IB FB [str "freqcd"; dash_f; str "-2147483648"] (fun _ => None) two = Some (Err SignedOverflow).
Proof. vm_compute. reflexivity. Qed.
Lemma lowest : good_number (str "-2147483648") (- 2 ^ 31).
Proof. apply number; [vm_compute; reflexivity|lia]. Qed.
Lemma C196_refuted_lemma : ~ C196_statement.
Proof.
  intros H. destruct (H None IB IB FB (str "freqcd") _ _ (fun _ => None) two alloc_example lowest (two_events _ eq_refl)) as [e E]. rewrite overflows in E. discriminate E.
Qed.
Lemma c196 junk ib ob fb prog t n fs X : alloc_ok ib ob fb -> good_number t n -> event_file false X -> n <> - 2 ^ 31 ->
  exists e, freqcd_main true junk ib ob fb [prog; dash_f; t] fs X = Some (Ok e) /\
    (forall m, files e m = fs m) /\
    (Z.abs n < 2 ^ 21 -> let ts := map (ev_time false) (groups X) in code e = 0 /\ stdout e = concat (retime false (groups X) (map (exact_time n ts) (seq 0 (length ts))))) /\
    (2 ^ 21 <= Z.abs n -> code e = -5 /\ stdout e = []).
Proof.
  intros A G EV N. destruct (Z_lt_le_dec (Z.abs n) (2 ^ 21)) as [L|L].
  - assert (K : asks [dash_f; t] [Corr t] n).
    { split; [|split; [|split]].
      - apply (W_detached [] (Corr t) t [] []); [constructor|reflexivity|]. constructor. exact I.
      - constructor; [|constructor]. now exists n.
      - intros [H|[]]. discriminate H.
      - exists n. split; [exact G|]. unfold documented. change (decimal_of [Corr t]) with false. cbv iota. change (2 ^ 21) with 2097152 in L. now replace (Z.abs n <=? 2097151) with true by lia. }
    destruct (c184 junk ib ob fb prog _ _ n fs X X A K eq_refl EV eq_refl (or_introl eq_refl)) as (e & ME & CE & RF).
    exists e. split; [exact ME|]. split; [|split; [|lia]].
    + destruct RF as (_ & _ & RF). cbn in RF. destruct RF as [_ RF]. exact RF.
    + intros _. split; [exact CE|]. destruct RF as (_ & _ & RF & _). exact RF.
  - destruct (c14_actual prog t n G) as [(o & E & O) _]. rewrite (actual_documented false n (fun _ => N) (fun H => match H with end)) in O.
    unfold documented in O. change (2 ^ 21) with 2097152 in L. replace (Z.abs n <=? 2097151) with false in O by lia. cbn [run_with] in O. destruct o as [c|c]; [|discriminate O]. injection O as ->.
    unfold freqcd_main. rewrite E. eexists. split; [reflexivity|]. split; [reflexivity|]. split; [lia|]. split; reflexivity.
Qed.
Lemma c196_decimal junk ib ob fb prog t n fs X : alloc_ok ib ob fb -> good_number t n -> event_file false X -> Z.abs n < 1250000000 ->
  exists e, freqcd_main true junk ib ob fb [prog; dash_d; dash_f; t] fs X = Some (Ok e) /\
    (forall m, files e m = fs m) /\
    (Z.abs n <= 1220703 -> let ts := map (ev_time false) (groups X) in code e = 0 /\ stdout e = concat (retime false (groups X) (map (exact_time (Z.quot (n * 2 ^ 34) (10 ^ 10)) ts) (seq 0 (length ts))))) /\
    (1220703 < Z.abs n -> code e = -5 /\ stdout e = []).
Proof.
  intros A G EV N. destruct (Z_le_gt_dec (Z.abs n) 1220703) as [L|L].
  - assert (K : asks [dash_d; dash_f; t] [Decimal; Corr t] (Z.quot (n * 2 ^ 34) (10 ^ 10))).
    { split; [|split; [|split]].
      - apply (W_flags [Decimal] [dash_f; t] [Corr t]); [repeat constructor|discriminate|]. apply (W_detached [] (Corr t) t [] []); [constructor|reflexivity|]. constructor. exact I.
      - constructor; [exact I|]. constructor; [|constructor]. now exists n.
      - intros [H|[H|[]]]; discriminate H.
      - exists n. split; [exact G|]. unfold documented. change (decimal_of [Decimal; Corr t]) with true. cbv iota. now replace (Z.abs n <=? 1220703) with true by lia. }
    destruct (c184 junk ib ob fb prog _ _ _ fs X X A K eq_refl EV eq_refl (or_introl eq_refl)) as (e & ME & CE & RF).
    exists e. split; [exact ME|]. split; [|split; [|lia]].
    + destruct RF as (_ & _ & _ & RF). exact RF.
    + intros _. split; [exact CE|]. destruct RF as (_ & _ & RF & _). exact RF.
  - destruct (c14_actual prog t n G) as [_ (o & E & O)]. rewrite (actual_documented true n (fun H => match H with end) (fun _ => N)) in O.
    unfold documented in O. replace (Z.abs n <=? 1220703) with false in O by lia. cbn [run_with] in O. destruct o as [c|c]; [|discriminate O]. injection O as ->.
    unfold freqcd_main. rewrite E. eexists. split; [reflexivity|]. split; [reflexivity|]. split; [lia|]. split; reflexivity.
Qed.
