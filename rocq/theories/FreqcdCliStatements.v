(** Full statements of the command-line properties that the code does not satisfy. *)
From Verif Require Import Base FreqcdModel FreqcdSpec FreqcdCli FreqcdCliSpec.
Local Open Scope Z_scope.

(** What is observed of the model's outcome: the names are the C strings in the buffers. *)
Definition observe (o : outcome) : seen :=
  match o with
  | Exit k => Stops k
  | Start c => Runs (c_fcorr c) (upto0 (c_in c)) (upto0 (c_out c)) (upto0 (c_freq c)) (c_legacy c)
  end.

Definition answers (argv : list (list Z)) (s : seen) : Prop :=
  exists o, cli argv = Some (Ok o) /\ observe o = s.

Definition dash_f : list Z := [45; 102].
Definition dash_d : list Z := [45; 100].
Definition run_with (f : option Z) : seen :=
  match f with Some v => Runs v [] [] [] false | None => Stops (-5) end.
Definition C14_statement : Prop := forall prog t n, good_number t n ->
  answers [prog; dash_f; t] (run_with (documented false n)) /\
  answers [prog; dash_d; dash_f; t] (run_with (documented true n)).
(** What lines 212-213 do to the number given, exactly. *)
Definition actual (dec : bool) (n : Z) : option Z :=
  if dec then
    if Z.abs n <=? 1220703 then Some (Z.quot (n * 2 ^ 34) (10 ^ 10))
    else if Z.abs n <? 1250000000 then None else Some (- 2 ^ 31)
  else if Z.abs n <=? 2097151 then Some n else if n =? - 2 ^ 31 then Some n else None.

(** C16: no argument vector makes freqcd write outside its name buffers. *)
Definition C16_statement : Prop := forall argv, cli argv <> Some (Err OutOfBounds).
(** no 200 consecutive non-blank characters *)
Definition short_runs (w : list Z) : Prop := forall a m b,
  w = a ++ m ++ b -> Forall (fun c => ~ blank c) m -> len m <= 199.
