(** Values of options which are no numbers. *)
From Coq Require Import String.
From Verif Require Import Base FpCliSpec TsCliSpec GenRefuseSpec.
From Verif Require PlotCliSpec.
Import ListNotations. Local Open Scope string_scope. Local Open Scope list_scope. Local Open Scope Z_scope.

(** inf, infinity and nan in small or capital letters *)
Definition special_word (t : list Z) : Prop := exists w, In w (map codes ["inf"; "infinity"; "nan"]) /\ Forall2 (fun a b => a = b \/ a + 32 = b /\ 65 <= a <= 90) t w.
Definition ds_word (t : list Z) : Prop := exists v, numeral t v.
Inductive mantissa_word : list Z -> Prop :=
| M_whole ds : ds_word ds -> mantissa_word ds
| M_point ds : ds_word ds -> mantissa_word (ds ++ [46])
| M_both ds fs : ds_word ds -> ds_word fs -> mantissa_word (ds ++ 46 :: fs)
| M_fraction fs : ds_word fs -> mantissa_word (46 :: fs).
Definition sign_word (s : list Z) : Prop := s = [] \/ s = [43] \/ s = [45].
Definition exponent_word (t : list Z) : Prop := t = [] \/ exists c s ds, (c = 101 \/ c = 69) /\ sign_word s /\ ds_word ds /\ t = c :: s ++ ds.
(** numbers as Python's float() reads them *)
Definition float_word (t : list Z) : Prop :=
  exists b1 s m ex b2, t = b1 ++ s ++ m ++ ex ++ b2 /\ Forall is_blank b1 /\ Forall is_blank b2 /\ sign_word s /\ (special_word m /\ ex = [] \/ mantissa_word m /\ exponent_word ex).

(** requests to fpfind, fpplot and parse_timestamps with a value that is no number of the kind needed *)
Definition bad_number (a : ask) : Prop :=
  match a with
  | ASkipEpochs t | AWraps t | AOrder t | AInitial t | AFinal t => no_number t
  | AOutput t => forall z, int_word t z -> ~ 0 <= z < 16
  | ASkip t | ASeparation t | AThreshold t | AStart t | AStep t | AStop t => ~ float_word t
  | _ => False
  end.
Definition bad_plot_number (a : PlotCliSpec.ask) : Prop :=
  match a with
  | PlotCliSpec.AEpochs t | PlotCliSpec.ASkipEpochs t => no_number t
  | PlotCliSpec.ASkip t | PlotCliSpec.AFreq t | PlotCliSpec.ATime t | PlotCliSpec.AWidth t | PlotCliSpec.ADuration t => ~ float_word t
  | _ => False
  end.
Definition bad_want (a : want) : Prop :=
  match a with WPattern t => no_number t | WStart t | WEnd t => ~ float_word t | _ => False end.
