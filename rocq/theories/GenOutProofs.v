(** Proof of C203. *)
From Coq Require Import QArith String List Lia.
From Verif Require Import Float Base TimestampsModel TimestampsSpec FpfindModel FpfindSpec FpfindProofs3 MiscModel MiscSpec MiscProofs CdRunModel CdRunProofs ArgModel FpCliSpec CliSpec FpCliProofs CliProofs TsCliModel TsCliSpec TsCliProofs
  GenCliModel GenCliSpec GenCliProofs GenCliProofs2 GenCliProofs3 FpCliCase GenCliCase GenOutSpec.
Import ListNotations. Local Open Scope string_scope. Local Open Scope list_scope. Local Open Scope Z_scope.

Lemma c203 p tmp args ss fs lg evs o : 54 <= p -> with_input args ss [45] -> Forall ggood ss -> ~ In GHelp ss -> last_given gtimes_of ss = None -> last_given gout_of ss = Some o ->
  gasked GLegacy ss lg -> fs tmp = None -> o <> tmp -> Forall event_ok evs ->
  exists e, grun p tmp args fs (encode (A1 lg) (map word_of evs)) = Ends e /\ code e = 0 /\ numbers (map fst evs) (stdout e) /\ files e o = Some [] /\ forall m, m <> o -> files e m = fs m.
Proof.
  intros P C G NH LT LO LG FT OT EV. assert (NE : args <> []) by (destruct C as (a1 & s1 & a2 & s2 & _ & _ & _ & _ & _ & ->); destruct a1; discriminate).
  destruct (run_means p tmp args ss (Some [45]) fs (encode (A1 lg) (map word_of evs)) C G NE) as [_ R]. destruct (R NH) as (n & M & ->). pose proof (means_out ss _ n G M) as MO. destruct M as (_ & MT & ML & MI). rewrite LT in MT.
  assert (LE : g_legacy n = lg) by (unfold gasked in LG; destruct (g_legacy n), lg; intuition). unfold gproceed. rewrite MO, LO, MT, MI. change (same [45] [45]) with true. cbv iota. rewrite LE.
  pose proof (c65 p lg (put fs o [] tmp) evs P EV) as D. cbv zeta in D. rewrite D. eexists. split; [reflexivity|]. split; [reflexivity|]. split; [apply lines_numbers|].
  cbn [files]. unfold unlink, put. split.
  - rewrite same_same. destruct (same_name o tmp) eqn:S; [apply same_ok in S; congruence|]. now rewrite same_refl.
  - intros m N. rewrite same_same. destruct (same_name m tmp) eqn:S; [apply same_ok in S; congruence|]. destruct (same_name m o) eqn:T; [apply same_ok in T; congruence|reflexivity].
Qed.
Lemma c203_file p tmp args ss fs input lg evs o : 54 <= p -> with_input args ss input -> input <> [] -> input <> [45] -> Forall ggood ss -> ~ In GHelp ss -> last_given gtimes_of ss = None -> last_given gout_of ss = Some o ->
  gasked GLegacy ss lg -> Forall event_ok evs -> let X := encode (A1 lg) (map word_of evs) in
  exists e, grun p tmp args fs X = Ends e /\ code e = 0 /\ numbers (map fst evs) (stdout e) /\ files e input = Some X /\ (o <> input -> files e o = Some []) /\ forall m, m <> input -> m <> o -> files e m = fs m.
Proof.
  intros P C N1 N2 G NH LT LO LG EV. cbv zeta. assert (NE : args <> []) by (destruct C as (a1 & s1 & a2 & s2 & _ & _ & _ & _ & _ & ->); destruct a1; discriminate).
  destruct (run_means p tmp args ss (Some input) fs (encode (A1 lg) (map word_of evs)) C G NE) as [_ R]. destruct (R NH) as (n & M & ->). pose proof (means_out ss _ n G M) as MO. destruct M as (_ & MT & ML & MI). rewrite LT in MT.
  assert (LE : g_legacy n = lg) by (unfold gasked in LG; destruct (g_legacy n), lg; intuition). unfold gproceed. rewrite MO, LO, MT, MI. destruct input as [|c input]; [congruence|]. cbv iota.
  assert (S : same (c :: input) [45] = false) by (destruct (same (c :: input) [45]) eqn:S; [apply same_iff in S; congruence|reflexivity]). rewrite S, LE.
  pose proof (c65 p lg (put fs o [] (c :: input)) evs P EV) as D. cbv zeta in D. rewrite D. eexists. split; [reflexivity|]. split; [reflexivity|]. split; [apply lines_numbers|].
  cbn [files]. unfold put. split; [now rewrite same_refl|]. split.
  - intros N. destruct (same_name o (c :: input)) eqn:T; [apply same_ok in T; congruence|]. now rewrite same_refl.
  - intros m A B. destruct (same_name m (c :: input)) eqn:T; [apply same_ok in T; congruence|]. destruct (same_name m o) eqn:T2; [apply same_ok in T2; congruence|reflexivity].
Qed.
(** generate_freqcd_testcase -o a - *)
Lemma input203 i : own_word i -> ascii_text i -> with_input [codes "-o"; codes "a"; i] [GOut (codes "a")] i.
Proof.
  intros OW AT. exists [codes "-o"; codes "a"], [GOut (codes "a")], [], []. split; [|split; [constructor|split; [reflexivity|split; [exact OW|split; [exact AT|reflexivity]]]]].
  apply (P_detached _ _ _ _ [] [] (GOut (codes "a")) 111 (codes "a") [] []); [constructor|reflexivity|reflexivity|now apply own_simple|ascii|constructor].
Qed.
Lemma c203_refuted : ~ C203_statement.
Proof.
  intros H. assert (W : with_input [codes "-o"; codes "a"; [45]] [GOut (codes "a")] [45]) by (apply input203; [right; now left|ascii]). assert (GG : Forall ggood [GOut (codes "a")]) by (constructor; [discriminate|constructor]).
  assert (NH : ~ In GHelp [GOut (codes "a")]) by (intros [X|[]]; discriminate X). assert (LG : gasked GLegacy [GOut (codes "a")] false) by (split; [discriminate|intros [X|[]]; discriminate X]).
  assert (OT : codes "a" <> tmpname) by discriminate.
  destruct (H 64 tmpname _ _ none_fs false evs131 (codes "a") ltac:(lia) W GG NH eq_refl eq_refl LG eq_refl OT ok131) as (out & _ & e & E & _ & SO & _).
  destruct (c203 64 tmpname _ _ none_fs false evs131 (codes "a") ltac:(lia) W GG NH eq_refl eq_refl LG eq_refl OT ok131) as (e' & E' & _ & (ls & LF & LE) & _).
  rewrite E in E'. injection E' as <-. rewrite SO in LE. destruct ls as [|l ls]; [inversion LF|]. cbn in LE. destruct l; discriminate LE.
Qed.
