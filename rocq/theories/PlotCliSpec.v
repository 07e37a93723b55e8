(** Specification of fpplot's command line, independent of argparse and of the model; numbers and words as in FpCliSpec. *)
From Coq Require Import QArith String Ascii.
From Verif Require Import Float Base FpCliSpec.
Import ListNotations. Local Open Scope string_scope. Local Open Scope list_scope. Local Open Scope Z_scope.

(** What a user can ask for; [t] is what they write after the option. *)
Inductive ask : Type :=
| AHelp | AVerbose | AQuiet | ALegacy
| AReference (t : list Z) | ATarget (t : list Z) | ASendfiles (t : list Z) | AT1files (t : list Z) | AFirst (t : list Z) | APicture (t : list Z)
| AEpochs (t : list Z) | ASkipEpochs (t : list Z)
| ASkip (t : list Z) | AFreq (t : list Z) | ATime (t : list Z) | AWidth (t : list Z) | ADuration (t : list Z).
Definition letter (a : ask) : option Z :=
  match a with
  | AHelp => Some 104 | AVerbose => Some 118 | ALegacy => Some 88                                                              (* h v X *)
  | AReference _ => Some 116 | ATarget _ => Some 84 | ASendfiles _ => Some 100 | AT1files _ => Some 68 | AFirst _ => Some 101   (* t T d D e *)
  | AEpochs _ => Some 110 | ASkipEpochs _ => Some 122 | ASkip _ => Some 90                                                     (* n z Z *)
  | _ => None
  end.
Definition word (a : ask) : list Z := codes
  match a with
  | AHelp => "--help" | AVerbose => "--verbosity" | AQuiet => "--quiet" | ALegacy => "--legacy"
  | AReference _ => "--reference" | ATarget _ => "--target" | ASendfiles _ => "--sendfiles" | AT1files _ => "--t1files" | AFirst _ => "--first-epoch" | APicture _ => "--save-plot"
  | AEpochs _ => "--num-epochs" | ASkipEpochs _ => "--skip-epochs" | ASkip _ => "--skip-duration"
  | AFreq _ => "--freq" | ATime _ => "--time" | AWidth _ => "--width" | ADuration _ => "--duration"
  end.
Definition argument (a : ask) : option (list Z) :=
  match a with
  | AReference t | ATarget t | ASendfiles t | AT1files t | AFirst t | APicture t | AEpochs t | ASkipEpochs t | ASkip t | AFreq t | ATime t | AWidth t | ADuration t => Some t
  | _ => None
  end.
(** all long names, with those of options not in [ask] *)
Definition words : list (list Z) := map codes
  ["--help"; "--verbosity"; "--logging"; "--quiet"; "--config"; "--save"; "--experiment"; "--reference"; "--target"; "--legacy"; "--skip-duration"; "--sendfiles"; "--t1files";
   "--first-epoch"; "--num-epochs"; "--skip-epochs"; "--freq"; "--time"; "--width"; "--duration"; "--save-plot"].
(** the name or a beginning of it that no other name has *)
Definition abbreviates (p : list Z) (a : ask) : Prop :=
  2 < len p /\ (exists r, word a = p ++ r) /\ forall w r, In w words -> w = p ++ r -> w = word a.
Definition flag_letter (a : ask) (c : Z) : Prop := argument a = None /\ letter a = Some c.
(** The words [args] spell the requests [ss]. *)
Inductive writes : list (list Z) -> list ask -> Prop :=
| W_end : writes [] []
| W_flags fs cs args ss : fs <> [] -> Forall2 flag_letter fs cs -> writes args ss -> writes ((45 :: cs) :: args) (fs ++ ss)
| W_attached fs cs a c t args ss : Forall2 flag_letter fs cs -> letter a = Some c -> argument a = Some t -> same_word t -> ascii_text t -> writes args ss ->
    writes ((45 :: cs ++ c :: t) :: args) (fs ++ a :: ss)
| W_detached fs cs a c t args ss : Forall2 flag_letter fs cs -> letter a = Some c -> argument a = Some t -> alone t -> ascii_text t -> writes args ss ->
    writes ((45 :: cs ++ [c]) :: t :: args) (fs ++ a :: ss)
| W_long_flag p a args ss : argument a = None -> abbreviates p a -> writes args ss -> writes (p :: args) (a :: ss)
| W_long p a t args ss : argument a = Some t -> abbreviates p a -> alone t -> ascii_text t -> writes args ss -> writes (p :: t :: args) (a :: ss)
| W_equals fs cs a c t args ss : Forall2 flag_letter fs cs -> letter a = Some c -> argument a = Some t -> own_word t -> ascii_text t -> writes args ss ->
    writes ((45 :: cs ++ c :: 61 :: t) :: args) (fs ++ a :: ss)
| W_long_equals p a t args ss : argument a = Some t -> abbreviates p a -> own_word t -> ascii_text t -> writes args ss -> writes ((p ++ 61 :: t) :: args) (a :: ss).

(** ** What is asked for *)
Definition last_of {A} (pick : ask -> option A) (ss : list ask) : option A :=
  fold_left (fun acc s => match pick s with Some v => Some v | None => acc end) ss None.
Definition reference_of s := match s with AReference t => Some t | _ => None end.
Definition target_of s := match s with ATarget t => Some t | _ => None end.
Definition sendfiles_of s := match s with ASendfiles t => Some t | _ => None end.
Definition t1files_of s := match s with AT1files t => Some t | _ => None end.
Definition first_of s := match s with AFirst t => Some t | _ => None end.
Definition picture_of s := match s with APicture t => Some t | _ => None end.
Definition epochs_of s := match s with AEpochs t => Some t | _ => None end.
Definition skip_epochs_of s := match s with ASkipEpochs t => Some t | _ => None end.
Definition skip_of s := match s with ASkip t => Some t | _ => None end.
Definition freq_of s := match s with AFreq t => Some t | _ => None end.
Definition time_of s := match s with ATime t => Some t | _ => None end.
Definition width_of s := match s with AWidth t => Some t | _ => None end.
Definition duration_of s := match s with ADuration t => Some t | _ => None end.
Definition requested (a : ask) (ss : list ask) (b : bool) : Prop := b = true <-> In a ss.
(** every number written is one, also those which are overridden *)
Definition good (a : ask) : Prop :=
  match a with
  | AEpochs t | ASkipEpochs t => exists z, whole t z
  | ASkip t | AFreq t | ATime t | AWidth t | ADuration t => exists x, decimal t x
  | _ => True
  end.
(** frequency in ppm, delay and width of the histogram in ns, seconds to use, with the documented defaults *)
Definition plot_asked (ss : list ask) (freq time width : Q) (duration : option Q) : Prop :=
  decimal_or (last_of freq_of ss) 0 freq /\ decimal_or (last_of time_of ss) 0 time /\ decimal_or (last_of width_of ss) 1000 width /\
  match last_of duration_of ss, duration with Some t, Some d => decimal t d | None, None => True | _, _ => False end.
(** the picture is saved to the file named, if the name is not empty *)
Definition saved (ss : list ask) (s : option (list Z)) : Prop := s = match last_of picture_of ss with Some [] => None | x => x end.
(** ** Command lines to be refused *)
Definition all_letters : list Z := codes "hvLtTXZdDenz".
(** a word which is no option and no argument of one: not beginning with a dash, or an unknown option *)
Definition stray (w : list Z) : Prop := w <> [] /\ ascii_text w /\
  ((forall r, w <> 45 :: r) \/ w = [45] \/
   exists c r, w = 45 :: c :: r /\ ~ In 61 r /\ c <> 61 /\ ~ In c all_letters /\ (c = 45 -> r <> [] /\ forall v q, In v words -> v <> w ++ q)).
(** requests with such words before, between or after them *)
Inductive strays : list (list Z) -> Prop :=
| S_last args ss w args' ss' : writes args ss -> stray w -> writes args' ss' -> strays (args ++ w :: args')
| S_more args ss w args' : writes args ss -> stray w -> strays args' -> strays (args ++ w :: args').
(** the word of an option whose argument is in the next *)
Definition option_word (p : list Z) (a : ask) : Prop := abbreviates p a \/ exists c, letter a = Some c /\ p = [45; c].
Definition takes_number (a : ask) : Prop := match a with ASkip _ | AFreq _ | ATime _ | AWidth _ | ADuration _ => True | _ => False end.
