(** Specification of fpfind's command line, independent of argparse and of the model.  Characters are their codes. *)
From Coq Require Import QArith String Ascii.
From Verif Require Import Float Base MainModel.
Import ListNotations. Local Open Scope string_scope. Local Open Scope list_scope. Local Open Scope Z_scope.

Fixpoint codes (s : string) : list Z := match s with EmptyString => [] | String a r => Z.of_N (N_of_ascii a) :: codes r end.
(** What a user can ask for; [t] is what they write after the option. *)
Inductive ask : Type :=
| AHelp | AVerbose | AQuiet | ALegacy | APrecomp | AOrdered | AFullscan
| AReference (t : list Z) | ATarget (t : list Z) | ASendfiles (t : list Z) | AT1files (t : list Z) | AFirst (t : list Z)
| ASkipEpochs (t : list Z) | AWraps (t : list Z) | AOrder (t : list Z) | AInitial (t : list Z) | AFinal (t : list Z) | AOutput (t : list Z)
| ASkip (t : list Z) | ASeparation (t : list Z) | AThreshold (t : list Z) | AStart (t : list Z) | AStep (t : list Z) | AStop (t : list Z).
Definition letter (a : ask) : option Z :=
  match a with
  | AHelp => Some 104 | AVerbose => Some 118 | ALegacy => Some 88 | APrecomp => Some 80            (* h v X P *)
  | AReference _ => Some 116 | ATarget _ => Some 84 | ASendfiles _ => Some 100 | AT1files _ => Some 68 | AFirst _ => Some 101   (* t T d D e *)
  | ASkipEpochs _ => Some 122 | AWraps _ => Some 107 | AOrder _ => Some 113 | AInitial _ => Some 82 | AFinal _ => Some 114 | AOutput _ => Some 86  (* z k q R r V *)
  | ASkip _ => Some 90 | ASeparation _ => Some 115 | AThreshold _ => Some 83                       (* Z s S *)
  | _ => None
  end.
Definition word (a : ask) : list Z := codes
  match a with
  | AHelp => "--help" | AVerbose => "--verbosity" | AQuiet => "--quiet" | ALegacy => "--legacy" | APrecomp => "--precomp-enable" | AOrdered => "--precomp-ordered"
  | AFullscan => "--precomp-fullscan" | AReference _ => "--reference" | ATarget _ => "--target" | ASendfiles _ => "--sendfiles" | AT1files _ => "--t1files" | AFirst _ => "--first-epoch"
  | ASkipEpochs _ => "--skip-epochs" | AWraps _ => "--num-wraps" | AOrder _ => "--buffer-order" | AInitial _ => "--initial-res" | AFinal _ => "--final-res" | AOutput _ => "--output"
  | ASkip _ => "--skip-duration" | ASeparation _ => "--separation" | AThreshold _ => "--threshold" | AStart _ => "--precomp-start" | AStep _ => "--precomp-step" | AStop _ => "--precomp-stop"
  end.
Definition argument (a : ask) : option (list Z) :=
  match a with
  | AReference t | ATarget t | ASendfiles t | AT1files t | AFirst t | ASkipEpochs t | AWraps t | AOrder t | AInitial t | AFinal t | AOutput t
  | ASkip t | ASeparation t | AThreshold t | AStart t | AStep t | AStop t => Some t
  | _ => None
  end.
(** all long names, with those of options not in [ask] *)
Definition words : list (list Z) := map codes
  ["--help"; "--verbosity"; "--logging"; "--quiet"; "--config"; "--save"; "--experiment"; "--reference"; "--target"; "--legacy"; "--skip-duration"; "--sendfiles"; "--t1files";
   "--first-epoch"; "--skip-epochs"; "--num-wraps"; "--buffer-order"; "--initial-res"; "--final-res"; "--separation"; "--threshold"; "--output"; "--precomp-enable"; "--precomp-start";
   "--precomp-step"; "--precomp-stop"; "--precomp-ordered"; "--precomp-fullscan"].
(** the name or a beginning of it that no other name has *)
Definition abbreviates (p : list Z) (a : ask) : Prop :=
  2 < len p /\ (exists r, word a = p ++ r) /\ forall w r, In w words -> w = p ++ r -> w = word a.
Definition is_digit (c : Z) : Prop := 48 <= c <= 57.
Definition digits (s : list Z) : Prop := Forall is_digit s.
(** What can stand in a word of its own after an option: anything not beginning with a dash, a single dash, -12, -1.25 and -.25. *)
Definition own_word (t : list Z) : Prop :=
  (forall r, t <> 45 :: r) \/ t = [45] \/ (exists ds, ds <> [] /\ digits ds /\ t = 45 :: ds) \/ (exists ds fs, fs <> [] /\ digits ds /\ digits fs /\ t = 45 :: ds ++ 46 :: fs).
Definition ascii_text (t : list Z) : Prop := Forall (fun c => 0 <= c < 128) t.
(** what can stand in the word of the option *)
Definition same_word (t : list Z) : Prop := t <> [] /\ ~ In 61 t.
(** a word of its own, not empty *)
Definition alone (t : list Z) : Prop := t <> [] /\ own_word t.
Definition flag_letter (a : ask) (c : Z) : Prop := argument a = None /\ letter a = Some c.
(** The words [args] spell the requests [ss]. *)
Inductive writes : list (list Z) -> list ask -> Prop :=
| W_end : writes [] []
| W_flags fs cs args ss : fs <> [] -> Forall2 flag_letter fs cs -> writes args ss -> writes ((45 :: cs) :: args) (fs ++ ss)
| W_attached fs cs a c t args ss : Forall2 flag_letter fs cs -> letter a = Some c -> argument a = Some t -> same_word t -> ascii_text t -> writes args ss ->
    writes ((45 :: cs ++ c :: t) :: args) (fs ++ a :: ss)
| W_detached fs cs a c t args ss : Forall2 flag_letter fs cs -> letter a = Some c -> argument a = Some t -> alone t -> ascii_text t -> writes args ss ->
    writes ((45 :: cs ++ [c]) :: t :: args) (fs ++ a :: ss)
| W_long_flag p a args ss : argument a = None -> abbreviates p a -> writes args ss -> writes (p :: args) (a :: ss)
| W_long p a t args ss : argument a = Some t -> abbreviates p a -> alone t -> ascii_text t -> writes args ss -> writes (p :: t :: args) (a :: ss)
| W_equals fs cs a c t args ss : Forall2 flag_letter fs cs -> letter a = Some c -> argument a = Some t -> own_word t -> ascii_text t -> writes args ss ->
    writes ((45 :: cs ++ c :: 61 :: t) :: args) (fs ++ a :: ss)
| W_long_equals p a t args ss : argument a = Some t -> abbreviates p a -> own_word t -> ascii_text t -> writes args ss -> writes ((p ++ 61 :: t) :: args) (a :: ss).

(** ** Numbers *)
Definition digits_value (s : list Z) : Z := fold_left (fun v c => 10 * v + (c - 48)) s 0.
Inductive sign : list Z -> bool -> Prop := plus_none : sign [] false | plus_sign : sign [43] false | minus_sign : sign [45] true.
Definition whole (t : list Z) (z : Z) : Prop :=
  exists s neg ds, sign s neg /\ ds <> [] /\ digits ds /\ t = s ++ ds /\ z = if neg then - digits_value ds else digits_value ds.
(** the exponent: none, or e or E with a whole number *)
Definition exponent (t : list Z) (e : Z) : Prop := (t = [] /\ e = 0) \/ exists c r, (c = 101 \/ c = 69) /\ whole r e /\ t = c :: r.
(** 12, 12., 12.5, .5, each with sign and exponent *)
Definition mantissa (t ds fs : list Z) : Prop := digits ds /\ digits fs /\ ds ++ fs <> [] /\ ((fs = [] /\ t = ds) \/ t = ds ++ 46 :: fs).
Definition power10 (e : Z) : Q := (inject_Z 10) ^ e.
(** a decimal number, without sign neither 0 nor outside the range of normal float64 numbers, read as the nearest float64 *)
Definition decimal (t : list Z) (x : Q) : Prop :=
  exists s neg m ds fs ex e, sign s neg /\ mantissa m ds fs /\ exponent ex e /\ t = s ++ m ++ ex /\
  let q := (inject_Z (digits_value (ds ++ fs)) * power10 (e - len fs))%Q in
  (digits_value (ds ++ fs) = 0 \/ (e - len fs <= 400 /\ - 10000 <= e - len fs /\ (1 # 2 ^ 1022 <= q)%Q /\ (fl 53 q < inject_Z (2 ^ 1024))%Q)) /\
  x = if neg then (- fl 53 q)%Q else fl 53 q.

(** ** What is asked for *)
Definition last_of {A} (pick : ask -> option A) (ss : list ask) : option A :=
  fold_left (fun acc s => match pick s with Some v => Some v | None => acc end) ss None.
Definition reference_of s := match s with AReference t => Some t | _ => None end.
Definition target_of s := match s with ATarget t => Some t | _ => None end.
Definition sendfiles_of s := match s with ASendfiles t => Some t | _ => None end.
Definition t1files_of s := match s with AT1files t => Some t | _ => None end.
Definition first_of s := match s with AFirst t => Some t | _ => None end.
Definition skip_epochs_of s := match s with ASkipEpochs t => Some t | _ => None end.
Definition wraps_of s := match s with AWraps t => Some t | _ => None end.
Definition order_of s := match s with AOrder t => Some t | _ => None end.
Definition initial_of s := match s with AInitial t => Some t | _ => None end.
Definition final_of s := match s with AFinal t => Some t | _ => None end.
Definition output_of s := match s with AOutput t => Some t | _ => None end.
Definition skip_of s := match s with ASkip t => Some t | _ => None end.
Definition separation_of s := match s with ASeparation t => Some t | _ => None end.
Definition threshold_of s := match s with AThreshold t => Some t | _ => None end.
Definition start_of s := match s with AStart t => Some t | _ => None end.
Definition step_of s := match s with AStep t => Some t | _ => None end.
Definition stop_of s := match s with AStop t => Some t | _ => None end.
Definition requested (a : ask) (ss : list ask) (b : bool) : Prop := b = true <-> In a ss.
(** the value [v] of an option: the number written last, or the default *)
Definition whole_or (o : option (list Z)) (default v : Z) : Prop := match o with Some t => whole t v | None => v = default end.
Definition decimal_or (o : option (list Z)) (default v : Q) : Prop := match o with Some t => decimal t v | None => v = default end.
(** every number written is one, also those which are overridden, and the output level is from 0 to 15 *)
Definition good (a : ask) : Prop :=
  match a with
  | ASkipEpochs t | AWraps t | AOrder t | AInitial t | AFinal t => exists z, whole t z
  | AOutput t => exists z, whole t z /\ 0 <= z < 16
  | ASkip t | ASeparation t | AThreshold t | AStart t | AStep t | AStop t => exists x, decimal t x
  | _ => True
  end.
(** the options of the search asked for, with the documented defaults: 2^26 bins of 16 ns refined to 1 ns, 1 wrap, 6 windows apart, significance 6, precompensation from 0 to 10 ppm in
    steps of 0.1 ppm *)
Definition search_asked (ss : list ask) (o : options) : Prop :=
  whole_or (last_of order_of ss) 26 (buffer_order o) /\ whole_or (last_of initial_of ss) 16 (initial_res o) /\ whole_or (last_of final_of ss) 1 (final_res o) /\
  whole_or (last_of wraps_of ss) 1 (o_wraps o) /\ decimal_or (last_of separation_of ss) 6 (separation o) /\ decimal_or (last_of threshold_of ss) 6 (o_threshold o) /\
  whole_or (last_of output_of ss) 0 (flag o) /\ requested AFullscan ss (fullscan o) /\
  match precomp o with
  | None => ~ In APrecomp ss
  | Some (start, stop, step, ordered) => In APrecomp ss /\ decimal_or (last_of start_of ss) 0 start /\ decimal_or (last_of stop_of ss) (fl 53 (1 # 100000)) stop /\
      decimal_or (last_of step_of ss) (fl 53 (1 # 10000000)) step /\ requested AOrdered ss ordered
  end.
(** exit code and standard output of a run ending with [r]: the line, or nothing when an exception ends the program *)
Definition result (r : pyres (list Z)) (code : Z) (out : list Z) : Prop :=
  match r with Ok line => code = 0 /\ out = line ++ [10] | Err _ => code = 1 /\ out = [] end.
(** ** Command lines to be refused *)
Definition all_letters : list Z := codes "hvLtTXZdDezkqRrsSVP".
(** a word which is no option and no argument of one: not beginning with a dash, or an unknown option *)
Definition stray (w : list Z) : Prop := w <> [] /\ ascii_text w /\
  ((forall r, w <> 45 :: r) \/ w = [45] \/
   exists c r, w = 45 :: c :: r /\ ~ In 61 r /\ c <> 61 /\ ~ In c all_letters /\ (c = 45 -> r <> [] /\ forall v q, In v words -> v <> w ++ q)).
(** requests with such words before, between or after them *)
Inductive strays : list (list Z) -> Prop :=
| S_last args ss w args' ss' : writes args ss -> stray w -> writes args' ss' -> strays (args ++ w :: args')
| S_more args ss w args' : writes args ss -> stray w -> strays args' -> strays (args ++ w :: args').
(** the word of an option whose argument is in the next *)
Definition option_word (p : list Z) (a : ask) : Prop := abbreviates p a \/ exists c, letter a = Some c /\ p = [45; c].
Definition takes_number (a : ask) : Prop := match a with ASkip _ | ASeparation _ | AThreshold _ | AStart _ | AStep _ | AStop _ => True | _ => False end.
(** the command line of the README, for files a and b *)
Definition readme (a b : list Z) : list (list Z) := [codes "-t"; a; codes "-T"; b; codes "-n"; codes "1"; codes "-q"; codes "25"; codes "-S"; codes "4"].
Definition file_name (a : list Z) : Prop := ascii_text a /\ forall r, a <> 45 :: r.
