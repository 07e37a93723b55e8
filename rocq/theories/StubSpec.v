(** Specification of the stand-in script for freqcd. *)
From Verif Require Import Base FreqcdModel FreqcdCliSpec CdRunModel CdRunSpec StubModel.
Local Open Scope Z_scope.

Definition absolute (t : list Z) : Prop := exists r, t = 47 :: r.
(** the files a command line names *)
Definition named (ss : list setting) (t : list Z) : Prop := last_of in_of ss = Some t \/ last_of out_of ss = Some t \/ last_of freq_of ss = Some t.
(** nothing in the file system but file [p] may tell the two endings apart *)
Definition like (p : list Z) (a b : ending) : Prop := code a = code b /\ stdout a = stdout b /\ forall m, m <> p -> files a m = files b m.
(** two runs both end, alike, or both fail in the same way *)
Definition alike (p : list Z) (a b : option (cres result)) : Prop :=
  match a, b with
  | Some (Ok (x, _)), Some (Ok (y, _)) => like p x y
  | Some (Err e), Some (Err e') => e = e'
  | None, None => True
  | _, _ => False
  end.
(** the world in which the program has been compiled to the file [n] *)
Definition compiled_at (w : world) (n : list Z) : world := mkW (data w) (fun m => same_name m n || compiled w m).

(** C164: the first call, which compiles the program, has the outcome the program itself has. *)
Definition C164_statement : Prop := forall strict junk ib ob fb pl w cwd prog args ss f stdin,
  compiles pl (locate (root pl) prog) = true -> absolute prog -> asks args ss f ->
  alike (record_file pl) (call strict junk ib ob fb pl w cwd prog args stdin)
    (call strict junk ib ob fb pl (compiled_at w prog) cwd prog args stdin).
Definition C164_partial_statement : Prop := forall strict junk ib ob fb pl w cwd prog args ss f stdin,
  compiles pl (locate (root pl) prog) = true -> absolute prog -> asks args ss f ->
  (forall t, named ss t -> absolute t /\ t <> record_file pl) ->
  alike (record_file pl) (call strict junk ib ob fb pl w cwd prog args stdin)
    (call strict junk ib ob fb pl (compiled_at w prog) cwd prog args stdin).
(** What the first call does: what the program does when called in the directory of the package. *)
Definition C164_actual_statement : Prop := forall strict junk ib ob fb pl w cwd prog args ss f stdin,
  compiles pl (locate (root pl) prog) = true -> absolute prog -> compiled w prog = false -> asks args ss f ->
  (forall t, named ss t -> locate (root pl) t <> record_file pl) ->
  alike (record_file pl) (call strict junk ib ob fb pl w cwd prog args stdin)
    (call strict junk ib ob fb pl (compiled_at w prog) (root pl) prog args stdin).
(** The compiled program does what C101 to C104 say of freqcd with the absolute names. *)
Definition in_directory (d : list Z) (a b : option (list Z)) : Prop :=
  match a, b with
  | None, None => True
  | Some t, Some u => absolute t /\ u = t \/ t <> [] /\ ~ absolute t /\ u = d ++ [47] ++ t
  | _, _ => False
  end.
Definition C164_main_statement : Prop := forall strict junk ib ob fb pl w cwd prog args ss args' ss' f stdin,
  compiled w (locate cwd prog) = true -> asks args ss f -> asks args' ss' f -> legacy_of ss' = legacy_of ss ->
  in_directory cwd (last_of in_of ss) (last_of in_of ss') -> in_directory cwd (last_of out_of ss) (last_of out_of ss') ->
  in_directory cwd (last_of freq_of ss) (last_of freq_of ss') ->
  match call strict junk ib ob fb pl w cwd prog args stdin, freqcd_main strict junk ib ob fb (prog :: args') (data w) stdin with
  | Some (Ok (e, _)), Some (Ok e') => e = e'
  | Some (Err e), Some (Err e') => e = e'
  | None, None => True
  | _, _ => False
  end.

(** C165: after a call that ended with the program having been compiled, calls by the same name in the same directory are of the compiled program. *)
Definition C165_statement : Prop := forall strict junk ib ob fb pl w cwd prog args stdin e done,
  compiles pl (locate (root pl) prog) = true -> call strict junk ib ob fb pl w cwd prog args stdin = Some (Ok (e, done)) ->
  done (locate cwd prog) = true.
Definition C165_partial_statement : Prop := forall strict junk ib ob fb pl w cwd prog args stdin e done,
  compiles pl (locate (root pl) prog) = true -> call strict junk ib ob fb pl w cwd prog args stdin = Some (Ok (e, done)) ->
  absolute prog \/ cwd = root pl -> done (locate cwd prog) = true.
(** A name relative to another directory never comes to be that of the compiled program. *)
Definition C165_actual_statement : Prop := forall strict junk ib ob fb pl w cwd prog args stdin e done,
  call strict junk ib ob fb pl w cwd prog args stdin = Some (Ok (e, done)) -> compiled w (locate cwd prog) = false ->
  locate cwd prog <> locate (root pl) prog -> done (locate cwd prog) = false.

(** C166: a call that ends with an exit code other than 0 has written nothing to standard output, where the events go. *)
Definition C166_statement : Prop := forall strict junk ib ob fb pl w cwd prog args stdin e done,
  call strict junk ib ob fb pl w cwd prog args stdin = Some (Ok (e, done)) -> code e <> 0 -> stdout e = [].
Definition C166_partial_statement : Prop := forall strict junk ib ob fb pl w cwd prog args stdin e done,
  call strict junk ib ob fb pl w cwd prog args stdin = Some (Ok (e, done)) ->
  compiled w (locate cwd prog) = true \/ compiles pl (locate (root pl) prog) = true -> code e <> 0 -> stdout e = [].
(** "'freqcd.c' failed to compile... not running." and a line feed *)
Definition complaint : list Z :=
  [39; 102; 114; 101; 113; 99; 100; 46; 99; 39; 32; 102; 97; 105; 108; 101; 100; 32; 116; 111; 32; 99; 111; 109; 112; 105; 108; 101; 46; 46; 46; 32;
   110; 111; 116; 32; 114; 117; 110; 110; 105; 110; 103; 46; 10].
(** When the program cannot be compiled: a line of text where the events go, exit code 1, no file changed but the record. *)
Definition C166_actual_statement : Prop := forall strict junk ib ob fb pl w cwd prog args stdin,
  compiled w (locate cwd prog) = false -> compiles pl (locate (root pl) prog) = false ->
  exists e done, call strict junk ib ob fb pl w cwd prog args stdin = Some (Ok (e, done)) /\ code e = 1 /\ stdout e = complaint /\
    (forall m, m <> root pl ++ [47; 102; 114; 101; 113; 99; 100; 95; 112; 97; 116; 104] -> files e m = data w m) /\
    files e (root pl ++ [47; 102; 114; 101; 113; 99; 100; 95; 112; 97; 116; 104]) = Some (prog ++ [10]) /\ forall m, done m = compiled w m.
