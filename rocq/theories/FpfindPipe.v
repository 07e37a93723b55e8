(** The frequency printed by fpfind given to freqcd. *)
From Coq Require Import QArith Qabs Lqa.
From Coq Require Import ZifyBool.
From Verif Require Import Float Base FreqcdSpec FreqcdCli FreqcdCliSpec FreqcdCliStatements FreqcdCliProofs FpfindModel FpfindSpec FpfindProofs3 FpfindProofs4 FpfindRefute.
Local Open Scope Z_scope.

Lemma decimal_denotes s n : FpfindSpec.decimal s n -> denotes s n.
Proof.
  intros (ds & E & N & F & V & _). apply (Denotes s n [] (if n <? 0 then [45] else []) ds); [exact E|constructor|exact F|exact N|].
  change (FreqcdSpec.decimal ds) with (value ds). destruct (n <? 0) eqn:B; [right|left]; (split; [tauto|lia]).
Qed.
(** printed with bits 1 and 2 (and 0), and used as -f *)
Definition printed (inv : bool) (rs : Q -> Q) (repr : Q -> list Z) (dt df : Q) : list Z := output rs repr (if inv then 7 else 6) dt df.
Definition accepted (prog t : list Z) (f : Z) : Prop := answers [prog; dash_f; t] (Runs f [] [] [] false).
Definition units (inv : bool) (rs : Q -> Q) (dt df : Q) : Z := freq_units rs (if inv then snd (invert rs dt df) else df).
Lemma printed_units inv rs repr dt df : (forall x, field_ok (repr x)) -> printed inv rs repr dt df = dec (units inv rs dt df).
Proof. intros R. destruct (output_freq rs repr dt df R) as [A B]. unfold printed, units. destruct inv; assumption. Qed.
Lemma given inv prog rs repr dt df : (forall x, field_ok (repr x)) -> - 2 ^ 31 < units inv rs dt df < 2 ^ 31 ->
  answers [prog; dash_f; printed inv rs repr dt df] (run_with (documented false (units inv rs dt df))).
Proof.
  intros R B. rewrite (printed_units inv rs repr dt df R). set (n := units inv rs dt df) in *.
  assert (G : good_number (dec n) n) by (split; [apply decimal_denotes, dec_spec|lia]).
  destruct (c14_actual prog _ _ G) as [A _]. rewrite (actual_documented false n) in A; [exact A|lia|discriminate].
Qed.
Lemma given_ok inv prog rs repr dt df : (forall x, field_ok (repr x)) -> Z.abs (units inv rs dt df) < 2 ^ 21 ->
  accepted prog (printed inv rs repr dt df) (units inv rs dt df).
Proof.
  intros R B. change (2 ^ 21) with 2097152 in B. unfold accepted. pose proof (given inv prog rs repr dt df R) as G. change (2 ^ 31) with 2147483648 in G. specialize (G ltac:(lia)).
  unfold documented in G. replace (Z.abs (units inv rs dt df) <=? 2097151) with true in G by lia. exact G.
Qed.
Lemma given_bad inv prog rs repr dt df : (forall x, field_ok (repr x)) -> 2 ^ 21 <= Z.abs (units inv rs dt df) < 2 ^ 31 ->
  answers [prog; dash_f; printed inv rs repr dt df] (Stops (-5)).
Proof.
  intros R B. change (2 ^ 21) with 2097152 in B. change (2 ^ 31) with 2147483648 in B. pose proof (given inv prog rs repr dt df R) as G. change (2 ^ 31) with 2147483648 in G. specialize (G ltac:(lia)).
  unfold documented in G. replace (Z.abs (units inv rs dt df) <=? 2097151) with false in G by lia. exact G.
Qed.

(** C61, for results of runs in the formats of the program *)
Definition C61_statement : Prop := forall inv prog repr fuel P ats bts res dt df, (forall x, field_ok (repr x)) ->
  time_freq fuel MF P ats bts res = Ok (dt, df) -> exists f, accepted prog (printed inv (fl 53) repr dt df) f.
Lemma c61_refuted : ~ C61_statement.
Proof.
  intros H. destruct run4 as (dt & df & E & U). assert (R : forall x : Q, field_ok [48]) by (intros _; exists [], 48; split; reflexivity).
  destruct (H false [] (fun _ => [48]) _ _ _ _ _ _ _ R E) as (f & A).
  pose proof (given_bad false [] (fl 53) (fun _ => [48]) dt df R) as B. assert (V : units false (fl 53) dt df = 2097152) by exact U. rewrite V in B.
  specialize (B ltac:(change (2 ^ 21) with 2097152; change (2 ^ 31) with 2147483648; lia)). pose proof (answers_fun _ _ _ A B). discriminate.
Qed.
Lemma c61_refused : exists dt df, time_freq 1 MF P4 bob4 alice4 1 = Ok (dt, df) /\
  forall prog repr, (forall x, field_ok (repr x)) -> answers [prog; dash_f; printed true (fl 53) repr dt df] (Stops (-5)).
Proof.
  destruct run4_inverted as (dt & df & E & U). exists dt, df. split; [exact E|]. intros prog repr R. apply given_bad; [exact R|]. assert (V : units true (fl 53) dt df = 2097408) by exact U. rewrite V. change (2 ^ 21) with 2097152. change (2 ^ 31) with 2147483648. lia.
Qed.
Lemma c61_pipe prog repr dt df : (forall x, field_ok (repr x)) -> (fl 53 df == df)%Q -> (Qabs df < (1 # 2 ^ 13) - (1 # 2 ^ 35))%Q ->
  exists f, accepted prog (printed false (fl 53) repr dt df) f /\ nearest (df * inject_Z (2 ^ 34)) f.
Proof.
  intros R E B. exists (units false (fl 53) dt df). split; [apply given_ok; [exact R|now apply c61_float]|]. unfold units, freq_units. change (Z.shiftl 1 34) with (2 ^ 34).
  pose proof (rneQ_nearest (fl 53 (df * inject_Z (2 ^ 34)))) as N. unfold nearest in *. now rewrite <- (float_scaled df E) at 2.
Qed.
Lemma c61_pipe_inverted prog repr dt df : (forall x, field_ok (repr x)) -> (Qabs df <= (1 # 2 ^ 13) - (1 # 2 ^ 25))%Q ->
  exists f, accepted prog (printed true (fl 53) repr dt df) f /\ nearest (snd (inverted (fl 53) (dt, df)) * inject_Z (2 ^ 34)) f.
Proof.
  intros R B. exists (units true (fl 53) dt df). split; [apply given_ok; [exact R|now apply c61_inverted]|]. unfold units, freq_units. change (Z.shiftl 1 34) with (2 ^ 34).
  change (snd (inverted (fl 53) (dt, df))) with (snd (invert (fl 53) dt df)). set (df' := snd (invert (fl 53) dt df)).
  assert (E : (fl 53 df' == df')%Q) by (apply fl_idem; lia).
  pose proof (rneQ_nearest (fl 53 (df' * inject_Z (2 ^ 34)))) as N. unfold nearest in *. now rewrite <- (float_scaled df' E) at 2.
Qed.
