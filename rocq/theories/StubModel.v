(** The shell script src/fpfind/freqcd, which stands in for the program until it has been compiled, and freqcd called in
    a directory.

    Simplifications: the script is found by a name with a slash and without blanks or characters special to the shell;
    the directory of the package likewise, and it can be written to; ps, awk, python3, readlink and dirname are there
    and give the name by which the script was called and the directory of the package.  No links between files,
    and a file has one absolute name ("." and ".." are not resolved). *)
From Coq Require Import String.
From Verif Require Import Base FreqcdModel FreqcdCli CdRunModel ReportModel.
Local Open Scope Z_scope.

(** the absolute name of a file named in directory [d], as open() resolves it (freqcd.c 217, 223, 229); no name stays no name *)
Definition locate (d name : list Z) : list Z :=
  match name with
  | [] => []
  | c :: _ => if c =? 47 then name else d ++ 47 :: name
  end.
(** freqcd.c 215-461 as in CdRunModel, called in directory [d], with files by their absolute names *)
Definition freqcd_in (strict : bool) (junk : option (Z * Z)) (ib ob fb d : list Z) (argv : list (list Z)) (fs : filesys) (stdin : list Z)
  : option (cres ending) :=
  match cli argv with
  | None => None
  | Some (Err e) => Some (Err e)
  | Some (Ok (Exit c)) => Some (Ok (mkEnd c fs []))
  | Some (Ok (Start c)) =>
      match cstring (c_in c), cstring (c_out c), cstring (c_freq c) with
      | Ok iname, Ok oname, Ok fname =>
          let iname := locate d iname in
          let oname := locate d oname in
          let fname := locate d fname in
          if missing fs iname then Some (Ok (mkEnd (-3) fs []))
          else
            let fs1 := match oname with [] => fs | _ => put fs oname [] end in
            if missing fs1 fname then Some (Ok (mkEnd (-11) fs1 []))
            else
              let fg := match fname with [] => false | _ => true end in
              match main_loop (S (length (source fs1 stdin iname))) strict (c_legacy c) iname oname fname stdin fs1 [] 0 0
                      (init_state junk ib ob fb fg (c_fcorr c)) with
              | None => None
              | Some (Err e) => Some (Err e)
              | Some (Ok (fs2, out)) => Some (Ok (mkEnd 0 fs2 (match oname with [] => out | _ => [] end)))
              end
      | _, _, _ => Some (Err OutOfBounds)
      end
  end.

(** the directory of the package (freqcd 16-17), and whether gcc succeeds in writing the program to a file (24, _postinstall 3-5) *)
Record place : Type := mkPlace { root : list Z; compiles : list Z -> bool }.
(** the files freqcd can read and write, and which names are those of the compiled program *)
Record world : Type := mkW { data : filesys; compiled : list Z -> bool }.
(** freqcd 20-21 *)
Definition record_file (pl : place) : list Z := locate (root pl) (text "freqcd_path").
(** what is left: the ending of the program, and which names are now those of the compiled program *)
Definition result : Type := ending * (list Z -> bool).
(** freqcd 25 *)
Definition failed_text : list Z := text "'freqcd.c' failed to compile... not running." ++ [10].
(** freqcd 12-29: freqcd called as [prog] in directory [cwd] with arguments [args] *)
Definition call (strict : bool) (junk : option (Z * Z)) (ib ob fb : list Z) (pl : place) (w : world) (cwd prog : list Z) (args : list (list Z)) (stdin : list Z)
  : option (cres result) :=
  let run d fs done :=
    match freqcd_in strict junk ib ob fb d (prog :: args) fs stdin with
    | None => None
    | Some (Err e) => Some (Err e)
    | Some (Ok en) => Some (Ok (en, done))
    end in
  if compiled w (locate cwd prog) then run cwd (data w) (compiled w)
  else
    let fs := put (data w) (record_file pl) (prog ++ [10]) in                       (* 20-21 *)
    if compiles pl (locate (root pl) prog)
    then run (root pl) fs (fun m => same_name m (locate (root pl) prog) || compiled w m)   (* 24, 28 *)
    else Some (Ok (mkEnd 1 fs failed_text, compiled w)).                            (* 25 *)
