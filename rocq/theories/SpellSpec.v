(** Ways of writing one number. *)
From Verif Require Import Base FpCliSpec TsCliSpec GenRefuseSpec NumRefuseSpec.
From Verif Require PlotCliSpec.
Import ListNotations.
Local Open Scope Z_scope.

(** whole numbers of the same value *)
Definition same_int (t t' : list Z) : Prop := exists z, int_word t z /\ int_word t' z.
(** without underscores *)
Definition plainly (t : list Z) : list Z := filter (fun c => negb (c =? 95)) t.
(** [u] is the number [t] without underscores and without blanks around it *)
Definition tidied (t u : list Z) : Prop :=
  exists b1 s m ex b2, t = b1 ++ s ++ m ++ ex ++ b2 /\ Forall is_blank b1 /\ Forall is_blank b2 /\ sign_word s /\ (special_word m /\ ex = [] \/ mantissa_word m /\ exponent_word ex) /\ u = plainly (s ++ m ++ ex).
(** then they are the same text, or decimal numbers read as the same float64 *)
Definition same_float (t t' : list Z) : Prop := exists u u', tidied t u /\ tidied t' u' /\ (u = u' \/ exists x, decimal u x /\ decimal u' x).
(** requests which differ in the writing of a number only *)
Definition alike (a b : ask) : Prop :=
  match a, b with
  | ASkipEpochs t, ASkipEpochs u | AWraps t, AWraps u | AOrder t, AOrder u | AInitial t, AInitial u | AFinal t, AFinal u | AOutput t, AOutput u => t = u \/ same_int t u
  | ASkip t, ASkip u | ASeparation t, ASeparation u | AThreshold t, AThreshold u | AStart t, AStart u | AStep t, AStep u | AStop t, AStop u => t = u \/ same_float t u
  | _, _ => a = b
  end.
Definition plot_alike (a b : PlotCliSpec.ask) : Prop :=
  match a, b with
  | PlotCliSpec.AEpochs t, PlotCliSpec.AEpochs u | PlotCliSpec.ASkipEpochs t, PlotCliSpec.ASkipEpochs u => t = u \/ same_int t u
  | PlotCliSpec.ASkip t, PlotCliSpec.ASkip u | PlotCliSpec.AFreq t, PlotCliSpec.AFreq u | PlotCliSpec.ATime t, PlotCliSpec.ATime u | PlotCliSpec.AWidth t, PlotCliSpec.AWidth u
  | PlotCliSpec.ADuration t, PlotCliSpec.ADuration u => t = u \/ same_float t u
  | _, _ => a = b
  end.
Definition want_alike (a b : want) : Prop :=
  match a, b with
  | WPattern t, WPattern u => t = u \/ same_int t u
  | WStart t, WStart u | WEnd t, WEnd u => t = u \/ same_float t u
  | _, _ => a = b
  end.
