(** C14-C16: the command line of freqcd. *)
From Coq Require Import String List.
From Verif Require Import Base FreqcdModel FreqcdSpec FreqcdCli FreqcdCliSpec FreqcdCliStatements FreqcdCliProofs FreqcdCliRefute FreqcdExamples.
Import ListNotations.
Local Open Scope string_scope.
Local Open Scope Z_scope.

(** C14.  Full statement: [C14_statement].  It fails for -f -2147483648 (abs(INT_MIN) is INT_MIN) and
    for -d with |n| >= 1250000000 (the product leaves the int range and becomes INT_MIN). *)
Theorem C14_refuted : ~ C14_statement.
Proof. exact C14_refuted_lemma. Qed.
Print Assumptions C14_refuted.

Theorem C14_partial : forall prog t n, good_number t n ->
  (n <> - 2 ^ 31 -> answers [prog; dash_f; t] (run_with (documented false n))) /\
  (Z.abs n < 1250000000 -> answers [prog; dash_d; dash_f; t] (run_with (documented true n))).
Proof.
  exact (fun prog t n G => match c14_actual prog t n G with
    | conj A B =>
        conj (fun H => eq_rect _ (fun o => answers [prog; dash_f; t] (run_with o)) A _
                         (actual_documented false n (fun _ => H) (fun E => match E with end)))
             (fun H => eq_rect _ (fun o => answers [prog; dash_d; dash_f; t] (run_with o)) B _
                         (actual_documented true n (fun E => match E with end) (fun _ => H)))
    end).
Qed.
Print Assumptions C14_partial.

(** What happens for every int, the exceptions included. *)
Theorem C14_actual : forall prog t n, good_number t n ->
  answers [prog; dash_f; t] (run_with (actual false n)) /\
  answers [prog; dash_d; dash_f; t] (run_with (actual true n)).
Proof. exact c14_actual. Qed.
Print Assumptions C14_actual.

Example C14_case : answers [str "freqcd"; dash_d; dash_f; str "-1220703"] (Runs (-2097151) [] [] [] false)
  /\ answers [str "freqcd"; dash_d; dash_f; str "1220704"] (Stops (-5))
  /\ answers [str "freqcd"; dash_f; str "2097151"] (Runs 2097151 [] [] [] false).
Proof.
  repeat split; eexists; split; vm_compute; reflexivity.
Qed.

(** C15.  Any spelling of good settings; last one wins per letter. *)
Theorem C15 : forall prog args ss n, writes args ss -> Forall good ss ->
  (In Help ss -> answers (prog :: args) (Stops 1)) /\
  (~ In Help ss ->
   match last_of corr_of ss with Some t => good_number t n | None => n = 0 end ->
   answers (prog :: args)
     match actual (existsb (fun s => match s with Decimal => true | _ => false end) ss) n with
     | None => Stops (-5)
     | Some f => Runs f (name_of (last_of in_of ss)) (name_of (last_of out_of ss)) (name_of (last_of freq_of ss))
                   (existsb (fun s => match s with Legacy => true | _ => false end) ss)
     end).
Proof. exact (fun prog args ss n W G => conj (cli_help prog args ss W G) (cli_actual prog args ss n W G)). Qed.
Print Assumptions C15.

(** Two spellings with the same last settings do the same. *)
Theorem C15_same : forall prog1 args1 ss1 prog2 args2 ss2,
  writes args1 ss1 -> writes args2 ss2 -> Forall good ss1 -> Forall good ss2 ->
  (In Help ss1 <-> In Help ss2) -> (In Legacy ss1 <-> In Legacy ss2) -> (In Decimal ss1 <-> In Decimal ss2) ->
  last_of in_of ss1 = last_of in_of ss2 -> last_of out_of ss1 = last_of out_of ss2 ->
  last_of freq_of ss1 = last_of freq_of ss2 -> last_of corr_of ss1 = last_of corr_of ss2 ->
  exists s, answers (prog1 :: args1) s /\ answers (prog2 :: args2) s.
Proof. exact cli_same. Qed.
Print Assumptions C15_same.

(** The option loop ends for every argument vector. *)
Theorem C15_total : forall argv, cli argv <> None.
Proof. exact cli_total. Qed.
Print Assumptions C15_total.

Example C15_case : answers (str "freqcd" :: args1) (Runs 20 (str "a") [] [] true)
  /\ answers (str "p" :: args2) (Runs 20 (str "a") [] [] true)
  /\ writes args1 ss1 /\ writes args2 ss2 /\ Forall good ss1 /\ Forall good ss2.
Proof.
  split; [|split; [|exact (conj writes1 (conj writes2 (conj good1 good2)))]].
  - apply (cli_actual (str "freqcd") args1 ss1 12 writes1 good1); [intros H; repeat (destruct H as [H|H]; [discriminate H|]); exact H|exact good_12].
  - apply (cli_actual (str "p") args2 ss2 12 writes2 good2); [intros H; repeat (destruct H as [H|H]; [discriminate H|]); exact H|exact good_12].
Qed.

(** C16.  Full statement: [C16_statement].  A name of 200 or more characters writes 201 bytes. *)
Theorem C16_refuted : ~ C16_statement.
Proof. exact C16_refuted_lemma. Qed.
Print Assumptions C16_refuted.

(** No word with 200 consecutive non-blank characters: never outside the buffers. *)
Theorem C16_partial : forall argv, Forall short_runs argv -> exists o, cli argv = Some (Ok o).
Proof. exact cli_short. Qed.
Print Assumptions C16_partial.

(** The overflow is at most one byte. *)
Theorem C16_extent : forall a w, sscanf_s FNAMEWIDTH a = Some w -> len (w ++ [0]) <= 201.
Proof. exact cli_extent. Qed.
Print Assumptions C16_extent.

Example C16_case : Forall short_runs [str "freqcd"; str "-o"; repeat 98 199]
  /\ answers [str "freqcd"; str "-o"; repeat 98 199] (Runs 0 [] (repeat 98 199) [] false)
  /\ sscanf_s FNAMEWIDTH long_name = Some long_name.
Proof.
  split; [|split; [eexists; split; vm_compute; reflexivity|vm_compute; reflexivity]].
  repeat constructor; apply short_str; vm_compute; discriminate.
Qed.
