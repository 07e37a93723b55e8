(** Model of fpplot.py main (46-177) from the argument vector to exit code and the call of histogram.  Not modelled: configuration files, -L/--logging, --config, --save
    and --experiment ([Outside]), standard error, infinities and nan as option values, a frequency for which 1 + freq*1e-6 is 0, matplotlib.  An exception nobody catches is exit code 1.
    --quiet and -v only affect logging.  The package boiler is not part of the repository: its parser is taken to be configargparse's, and parse_args_or_help to do what fpfind.py
    543-551 does. *)
From Coq Require Import QArith String.
From Verif Require Import Float Base TimestampsModel EpochsModel UtilsModel FpfindModel CdRunModel ArgModel FpCliModel PlotModel.
Import ListNotations. Local Open Scope string_scope. Local Open Scope list_scope. Local Open Scope Z_scope.

Inductive dst := Help | Verbosity | Logging | Quiet | Config | Save | Experiment | Reference | Target | Legacy | SkipDuration | Sendfiles | T1files | FirstEpoch | NumEpochs | SkipEpochs
| Freq | Time | Width | Duration | SavePlot.
Scheme Equality for dst.
Definition both (d : dst) (s l : string) (a : arity) : opt dst := mkOpt d [chars s; chars l] a.
Definition only (d : dst) (l : string) (a : arity) : opt dst := mkOpt d [chars l] a.
(** 51-123 *)
Definition table : list (opt dst) :=
  [both Help "-h" "--help" No; both Verbosity "-v" "--verbosity" No; both Logging "-L" "--logging" One; only Quiet "--quiet" No; only Config "--config" One; only Save "--save" One;
   only Experiment "--experiment" No;
   both Reference "-t" "--reference" One; both Target "-T" "--target" One; both Legacy "-X" "--legacy" No; both SkipDuration "-Z" "--skip-duration" One;
   both Sendfiles "-d" "--sendfiles" One; both T1files "-D" "--t1files" One; both FirstEpoch "-e" "--first-epoch" One; both NumEpochs "-n" "--num-epochs" One; both SkipEpochs "-z" "--skip-epochs" One;
   only Freq "--freq" One; only Time "--time" One; only Width "--width" One; only Duration "--duration" One; only SavePlot "--save-plot" One].
(** a value given to an option: type= of the same lines *)
Inductive value := Flag | Text (s : list Z) | Int (z : Z) | Real (x : number).
Definition convert (d : dst) (args : list (list Z)) : option value :=
  match args with
  | [] => Some Flag
  | s :: _ =>
      match d with
      | SkipDuration | Freq | Time | Width | Duration => option_map Real (float_of s)
      | NumEpochs | SkipEpochs => option_map Int (int_of s)
      | _ => Some (Text s)
      end
  end.
Fixpoint converted (l : list (action (D := dst))) : option (list (dst * value)) :=
  match l with
  | [] => Some []
  | Given d args :: l => match convert d args, converted l with Some v, Some r => Some ((d, v) :: r) | _, _ => None end
  | Placed _ _ :: _ => None
  end.
(** the namespace: the last value wins *)
Definition get (ns : list (dst * value)) (d : dst) : option value :=
  fold_left (fun acc x => if dst_beq (fst x) d then Some (snd x) else acc) ns None.
Definition given (ns : list (dst * value)) (d : dst) : bool := match get ns d with Some _ => true | None => false end.
Definition text (ns : list (dst * value)) (d : dst) : option (list Z) := match get ns d with Some (Text s) => Some s | _ => None end.
Definition int (ns : list (dst * value)) (d : dst) (default : Z) : Z := match get ns d with Some (Int z) => z | _ => default end.
Definition real (ns : list (dst * value)) (d : dst) (default : Q) : option Q :=
  match get ns d with Some (Real (Num q)) => Some q | Some (Real Special) => None | _ => Some default end.
(** an option without a default *)
Definition real_or_none (ns : list (dst * value)) (d : dst) : option (option Q) :=
  match get ns d with Some (Real (Num q)) => Some (Some q) | Some (Real Special) => None | _ => Some None end.

(** 107-123 with the defaults there *)
Record plotting : Type := mkPlot { freq : Q; time : Q; width : Q; duration : option Q; picture : option (list Z) }.
Definition plotting_of (ns : list (dst * value)) : option plotting :=
  match real ns Freq 0, real ns Time 0, real ns Width 1000, real_or_none ns Duration with
  | Some f, Some t, Some w, Some d => Some (mkPlot f t w d (text ns SavePlot))
  | _, _, _, _ => None
  end.
(** the end of the program; [Drawn a b w s]: 32, 41-43, histogram(a, b, duration=w), saved to file [s] *)
Inductive outcome := Exit (code : Z) | Drawn (a b : list Q) (w : Q) (s : option (list Z)) | Forever | Outside.
Definition ended (o : plotting) (r : pyres (list Q * list Q)) : outcome :=
  match r with
  | Ok (a, b) => Drawn a b (width o) (match picture o with Some [] => None | s => s end)
  | Err OutOfFuel => Forever
  | Err Unspecified => Outside
  | Err _ => Exit 1
  end.
(** words naming --config or --save, which configargparse looks for first *)
Definition names_config (args : list (list Z)) : bool :=
  existsb (fun x => match snd x with Known o _ | Equals o _ => match dest o with Config | Save => true | _ => false end | _ => false end) (kinds table args).
(** 127-177, after parsing.  [dirs], [fs] as for fpfind *)
Definition proceed (fuel : nat) (M : fpu) (p : Z) (no_args : bool) (ns : list (dst * value)) (fs : filesys) (dirs : list Z -> directory) : outcome :=
  if given ns Help || no_args then Exit 1 else
  if given ns Logging || given ns Experiment then Outside else
  match plotting_of ns with
  | None => Outside
  | Some o =>
      if Qeq_bool (rs M (1 + rs M (freq o * rs M (1 # 1000000)))%Q) 0 then Outside else
      match text ns Sendfiles, text ns T1files, text ns Reference, text ns Target with
      | Some d1, Some d2, _, _ =>                                                       (* 139-157 *)
          ended o (plot_epochs fuel M (dirs d1) (dirs d2) (text ns FirstEpoch) (int ns NumEpochs 1) (int ns SkipEpochs 0) (duration o) (freq o) (time o))
      | _, _, Some a, Some b =>                                                         (* 159-163 *)
          match fs a, fs b, real ns SkipDuration 0 with
          | Some x, Some y, Some skip => ended o (plot_files M p x y (given ns Legacy) skip (duration o) (freq o) (time o))
          | _, _, None => Outside
          | _, _, _ => Exit 1
          end
      | _, _, _, _ => Exit 1                                                            (* 165-167 *)
      end
  end.
(** main (46-177), given the words that configargparse passes on to argparse *)
Definition run_words (fuel : nat) (M : fpu) (p : Z) (args : list (list Z)) (fs : filesys) (dirs : list Z -> directory) : outcome :=
  if existsb outside args || names_config args then Outside else
  let (acts, bad) := parse table [] args in
  match converted acts with
  | None => Exit 2
  | Some ns => if bad then Exit 2 else proceed fuel M p (match args with [] => true | _ => false end) ns fs dirs
  end.
(** 127, with configargparse's splitting of words (FpCliModel) *)
Definition run (fuel : nat) (M : fpu) (p : Z) (args : list (list Z)) (fs : filesys) (dirs : list Z -> directory) : outcome :=
  if existsb (fun w => same w []) args then Outside else run_words fuel M p (flat_map split_equals args) fs dirs.
