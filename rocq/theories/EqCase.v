(** Cases for values after "=". *)
From Coq Require Import QArith String List Lia.
From Verif Require Import Float Base FreqcdExamples TimestampsModel TimestampsSpec ReportModel CdRunModel ArgModel FpCliSpec CliSpec FpCliProofs FpCliCase CliProofs TsCliModel TsCliSpec TsCliProofs TsCliCase EqSpec EqProofs.
Import ListNotations.
Local Open Scope string_scope. Local Open Scope list_scope.
Local Open Scope Z_scope.

Lemma from149 : tspells [str "-A=1"] [WFrom (str "1")].
Proof. apply (P_letter_equals _ _ _ _ (WFrom [49]) 65 [49] [] []); [reflexivity|reflexivity|ascii|constructor]. Qed.
Lemma start149 t : introduces (str "--tfilter-s") (WStart t).
Proof. right. apply (tshortened _ _ (codes "--tfilter-start") 11); reflexivity. Qed.
Lemma print149 : introduces (str "-p") WPrint.
Proof. left. exists 112. split; reflexivity. Qed.
Lemma dashed149 : dashed (str "-1e3").
Proof.
  split; [now eexists|]. split; [discriminate|]. split; [|split; cbn; intuition discriminate].
  intros [H|[H|[(ds & _ & HD & E)|(ds & fs & _ & HD & _ & E)]]]; [now apply (H (str "1e3"))|discriminate| |].
  - injection E as <-. inv HD. match goal with X : Forall _ _ |- _ => inv X end. unfold is_digit in *. lia.
  - destruct ds as [|d1 ds]; [discriminate|]. destruct ds as [|d2 ds]; [discriminate|]. injection E as <- <- _. inv HD. match goal with X : Forall _ _ |- _ => inv X end. unfold is_digit in *. lia.
Qed.
Lemma clear_simple w : forallb (fun c => (0 <=? c) && (c <? 128) && negb (c =? 61)) w = true -> clear_word w.
Proof.
  intros H. rewrite forallb_forall in H. split; [apply Forall_forall; intros c I; specialize (H c I); rewrite !andb_true_iff in H; destruct H as [[H1 H2] _]; apply Z.leb_le in H1; apply Z.ltb_lt in H2; lia|].
  intros c r -> _ I. exfalso. specialize (H 61 (or_intror I)). discriminate.
Qed.
Definition fs149 : filesys := fun n => if same n (str "a") then Some [] else None.
Definition code149 (r : tends) : Z := match r with Ends e => code e | _ => -1 end.
Lemma c149_refuted : ~ C149_statement.
Proof.
  intros H. specialize (H (fun x => x) 64 (fun x => x) [str "-A=1"] [WFrom (str "1")] (str "--tfilter-s") (WStart (str "-1e3")) (str "-1e3") (map str ["a"; "b"]) fs149 from149 (start149 _) eq_refl
    (clear_simple (str "-1e3") eq_refl)
    (Forall_cons (str "a") (clear_simple (str "a") eq_refl) (Forall_cons (str "b") (clear_simple (str "b") eq_refl) (Forall_nil _)))).
  apply (f_equal code149) in H. vm_compute in H. discriminate.
Qed.
(** with "=" the value is taken *)
Lemma taken149 : command (map str ["-A=1"; "--tfilter-s=-1e3"; "a"; "b"]) [WFrom (str "1"); WStart (str "-1e3")] (str "a") (Some (str "b")) /\
  trun (fun x => x) 64 (fun x => x) (map str ["-A=1"; "--tfilter-s=-1e3"; "a"; "b"]) fs149 = Ends (mkEnd 0 (put fs149 (str "b") []) []).
Proof.
  split; [|vm_compute; reflexivity]. exists (map str ["-A=1"; "--tfilter-s=-1e3"]), [WFrom (str "1"); WStart (str "-1e3")], [], []. split; [|split; [constructor|split; [reflexivity|split; [now apply name_simple|split; [intros o X; injection X as <-; now apply name_simple|reflexivity]]]]].
  apply (P_letter_equals _ _ _ _ (WFrom [49]) 65 [49]); [reflexivity|reflexivity|ascii|].
  apply (P_equals tletter tword targument twords (str "--tfilter-s") (WStart (str "-1e3")) (str "-1e3") [] []); [reflexivity|apply (tshortened _ _ (codes "--tfilter-start") 11); reflexivity|ascii|constructor].
Qed.
