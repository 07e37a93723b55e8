(** Model of fpfind.py main (424-677) from the argument vector to exit code and standard output.  Not modelled: configuration files, -L/--logging, --config, --save and --experiment
    ([Outside]), standard error, infinities and nan as option values.  An exception nobody catches is exit code 1 with nothing on standard output.  --quiet and -v
    only affect logging. *)
From Coq Require Import QArith String.
From Verif Require Import Float Base TimestampsModel EpochsModel UtilsModel FpfindModel MainModel CdRunModel ArgModel.
Import ListNotations. Local Open Scope string_scope. Local Open Scope list_scope. Local Open Scope Z_scope.

Inductive dst := Help | Verbosity | Logging | Quiet | Config | Save | Experiment | Reference | Target | Legacy | SkipDuration | Sendfiles | T1files | FirstEpoch | SkipEpochs
| NumWraps | BufferOrder | InitialRes | FinalRes | Separation | Threshold | Output | PrecompEnable | PrecompStart | PrecompStep | PrecompStop | PrecompOrdered | PrecompFullscan.
Scheme Equality for dst.
Definition both (d : dst) (s l : string) (a : arity) : opt dst := mkOpt d [chars s; chars l] a.
Definition only (d : dst) (l : string) (a : arity) : opt dst := mkOpt d [chars l] a.
(** 438-540 *)
Definition table : list (opt dst) :=
  [both Help "-h" "--help" No; both Verbosity "-v" "--verbosity" No; both Logging "-L" "--logging" One; only Quiet "--quiet" No; only Config "--config" One; only Save "--save" One;
   only Experiment "--experiment" No;
   both Reference "-t" "--reference" One; both Target "-T" "--target" One; both Legacy "-X" "--legacy" No; both SkipDuration "-Z" "--skip-duration" One;
   both Sendfiles "-d" "--sendfiles" One; both T1files "-D" "--t1files" One; both FirstEpoch "-e" "--first-epoch" One; both SkipEpochs "-z" "--skip-epochs" One;
   both NumWraps "-k" "--num-wraps" One; both BufferOrder "-q" "--buffer-order" One; both InitialRes "-R" "--initial-res" One; both FinalRes "-r" "--final-res" One;
   both Separation "-s" "--separation" One; both Threshold "-S" "--threshold" One; both Output "-V" "--output" One;
   both PrecompEnable "-P" "--precomp-enable" No; only PrecompStart "--precomp-start" One; only PrecompStep "--precomp-step" One; only PrecompStop "--precomp-stop" One;
   only PrecompOrdered "--precomp-ordered" No; only PrecompFullscan "--precomp-fullscan" No].
(** a value given to an option: type= and choices= of the same lines *)
Inductive value := Flag | Text (s : list Z) | Int (z : Z) | Real (x : number).
Definition convert (d : dst) (args : list (list Z)) : option value :=
  match args with
  | [] => Some Flag
  | s :: _ =>
      match d with
      | SkipDuration | Separation | Threshold | PrecompStart | PrecompStep | PrecompStop => option_map Real (float_of s)
      | SkipEpochs | NumWraps | BufferOrder | InitialRes | FinalRes => option_map Int (int_of s)
      | Output => match int_of s with Some z => if (0 <=? z) && (z <? 16) then Some (Int z) else None | None => None end
      | _ => Some (Text s)
      end
  end.
Fixpoint converted (l : list (action (D := dst))) : option (list (dst * value)) :=
  match l with
  | [] => Some []
  | Given d args :: l => match convert d args, converted l with Some v, Some r => Some ((d, v) :: r) | _, _ => None end
  | Placed _ _ :: _ => None
  end.
(** the namespace: the last value wins *)
Definition get (ns : list (dst * value)) (d : dst) : option value :=
  fold_left (fun acc x => if dst_beq (fst x) d then Some (snd x) else acc) ns None.
Definition given (ns : list (dst * value)) (d : dst) : bool := match get ns d with Some _ => true | None => false end.
Definition text (ns : list (dst * value)) (d : dst) : option (list Z) := match get ns d with Some (Text s) => Some s | _ => None end.
Definition int (ns : list (dst * value)) (d : dst) (default : Z) : Z := match get ns d with Some (Int z) => z | _ => default end.
Definition real (ns : list (dst * value)) (d : dst) (default : Q) : option Q :=
  match get ns d with Some (Real (Num q)) => Some q | Some (Real Special) => None | _ => Some default end.

(** Defaults of 473-533.  The default separation and threshold are the integer 6: in the code products with them are exact, here they are rounded, which is the same below
    2^53. *)
Definition options_of (ns : list (dst * value)) : option options :=
  match real ns Separation 6, real ns Threshold 6, real ns PrecompStart 0, real ns PrecompStep (fl 53 (1 # 10000000)), real ns PrecompStop (fl 53 (1 # 100000)) with
  | Some sep, Some thr, Some start, Some step, Some stop =>
      Some (mkO (int ns BufferOrder 26) (int ns InitialRes 16) (int ns FinalRes 1) (int ns NumWraps 1) sep thr
              (if given ns PrecompEnable then Some (start, stop, step, given ns PrecompOrdered) else None) (given ns PrecompFullscan) (int ns Output 0))
  | _, _, _, _, _ => None
  end.
Inductive outcome := Exit (code : Z) (out : list Z) | Forever | Outside.
Definition ended (r : pyres (list Z)) : outcome :=
  match r with
  | Ok line => Exit 0 (line ++ [10])
  | Err OutOfFuel => Forever
  | Err Unspecified => Outside
  | Err _ => Exit 1 []
  end.
(** words naming --config or --save, which configargparse looks for first *)
Definition names_config (args : list (list Z)) : bool :=
  existsb (fun x => match snd x with Known o _ | Equals o _ => match dest o with Config | Save => true | _ => false end | _ => false end) (kinds table args).
(** 548-677, after parsing.  [dirs]: the directories with their files; one which does not exist has none, for pathlib's glob.  A missing file is a FileNotFoundError *)
Definition proceed (fuel fuel2 : nat) (M : fpu) (p : Z) (repr : Q -> list Z) (no_args : bool) (ns : list (dst * value)) (fs : filesys) (dirs : list Z -> directory) : outcome :=
  if given ns Help || no_args then Exit 1 [] else                                       (* 549-551 *)
  if given ns Logging || given ns Experiment then Outside else
  match options_of ns with
  | None => Outside
  | Some o =>
      match text ns Sendfiles, text ns T1files, text ns Reference, text ns Target with
      | Some d1, Some d2, _, _ => ended (main_epochs fuel fuel2 M repr o (dirs d1) (dirs d2) (text ns FirstEpoch) (int ns SkipEpochs 0))       (* 578-604 *)
      | _, _, Some a, Some b =>                                                         (* 606-610 *)
          match fs a, fs b, real ns SkipDuration 0 with
          | Some x, Some y, Some skip => ended (main_files fuel M p repr o x y (given ns Legacy) skip)
          | _, _, None => Outside
          | _, _, _ => Exit 1 []
          end
      | _, _, _, _ => Exit 1 []                                                         (* 612-614, or the ValueError of 564 *)
      end
  end.
(** main (424-677), given the words that configargparse passes on to argparse *)
Definition run_words (fuel fuel2 : nat) (M : fpu) (p : Z) (repr : Q -> list Z) (args : list (list Z)) (fs : filesys) (dirs : list Z -> directory) : outcome :=
  if existsb outside args || names_config args then Outside else
  let (acts, bad) := parse table [] args in
  match converted acts with
  | None => Exit 2 []
  | Some ns => if bad then Exit 2 [] else proceed fuel fuel2 M p repr (match args with [] => true | _ => false end) ns fs dirs
  end.
(** 544, parser.parse_args of configargparse, before anything else: a word beginning with "-" is split at its first "=".  Some versions fail on empty words, which are outside the model. *)
Definition split_equals (w : list Z) : list (list Z) :=
  match w with c :: r => if c =? dash then match split_at r with Some (k, v) => [c :: k; v] | None => [w] end else [w] | [] => [w] end.
Definition run (fuel fuel2 : nat) (M : fpu) (p : Z) (repr : Q -> list Z) (args : list (list Z)) (fs : filesys) (dirs : list Z -> directory) : outcome :=
  if existsb (fun w => same w []) args then Outside else run_words fuel fuel2 M p repr (flat_map split_equals args) fs dirs.
