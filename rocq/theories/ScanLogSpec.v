(** What the messages of a search should say. *)
From Coq Require Import QArith Qabs String.
From Verif Require Import Float Base TimestampsModel TimestampsSpec UtilsModel FpfindModel FpfindSpec ReportModel ReportSpec ScanLogModel.
Local Open Scope Z_scope.

(** [s] is the number [n], with at most a sign more *)
Definition shows0 (n : Z) (s : list Z) : Prop :=
  exists sg a, s = sg ++ a /\ (sg = [] /\ 0 <= n \/ sg = [45] /\ n <= 0) /\ a <> [] /\ Forall digit a /\ value a = Z.abs n.
(** [s] is [v] in units of 10^-[d], to half a unit and the error of one operation; blanks may stand before it *)
Definition written (d : nat) (v : Q) (s : list Z) : Prop :=
  exists k n t, s = repeat 32 k ++ t /\ (if Nat.eqb d 0 then shows0 n t else shows d n t) /\
  let x := (v * inject_Z (10 ^ Z.of_nat d))%Q in (Qabs (inject_Z n - x) <= (1 # 2) + (1 # 9007199254740992) * Qabs x)%Q.
(** a quantity with its name and unit *)
Inductive quantity : string -> nat -> string -> Q -> list Z -> Prop :=
| quantity_intro name d unit v s : written d v s -> quantity name d unit v (text name ++ s ++ text unit).
(** the quantities that are known, in order *)
Inductive quantities : list (option Q * string * nat * string * Q) -> list (list Z) -> Prop :=
| quantities_nil : quantities [] []
| quantities_none name d unit k l ss : quantities l ss -> quantities ((None, name, d, unit, k) :: l) ss
| quantities_some v name d unit k l s ss : quantity name d unit (v * k)%Q s -> quantities l ss -> quantities ((Some v, name, d, unit, k) :: l) (s :: ss).
Definition known (e : pff) : list (option Q * string * nat * string * Q) :=
  [(f_s e, "S=", 3%nat, "", 1%Q); (f_r e, "r=", 0%nat, "", 1%Q); (f_dt1 e, "dt1=", 0%nat, "", 1%Q); (f_dt2 e, "dt2=", 0%nat, "", 1%Q);
   (f_dt e, "dt=", 0%nat, "", 1%Q); (f_df e, "df=", 4%nat, "ppm", 1000000%Q)]%string.
(** [s] describes [e]: the message, and in parentheses what is known *)
Definition describes (e : pff) (s : list Z) : Prop :=
  exists l, quantities (known e) l /\ (l = [] /\ s = message e \/ l <> [] /\ s = message e ++ text " (" ++ joined_by (text ", ") l ++ text ")").

(** ** The lines of a scan *)
Definition failed_line (df0 : Q) (why line : list Z) : Prop :=
  exists s, written 3 (df0 * 1000000) s /\ line = text "Peak finding failed, " ++ s ++ text " ppm: " ++ why.
Definition found_line (df0 target dt df : Q) (line : list Z) : Prop :=
  exists s r t u, written 3 (df0 * 1000000) s /\ written 0 target r /\ written 0 dt t /\ written 4 (df * 1000000) u /\
  line = text "Peak found,          " ++ s ++ text " ppm:  (r=" ++ r ++ text ", dt=" ++ t ++ text ", df=" ++ u ++ text "ppm)".
(** the offsets from those found after the precompensation [df0] *)
Definition together (rs : Q -> Q) (df0 dt1 df1 : Q) : Q * Q := (rs (0 + rs (rs (1 + df0) * dt1)), rs (rs (rs (1 + df0) * rs (1 + df1)) - 1))%Q.
(** the line for a precompensation whose search gives [o] *)
Definition line_for (rs : Q -> Q) (target : Q) (other : Q -> list Z) (df0 : Q) (o : logged (Q * Q)) (line : list Z) : Prop :=
  match o with
  | Ok (dt1, df1) => found_line df0 target (fst (together rs df0 dt1 df1)) (snd (together rs df0 dt1 df1)) line
  | Err (Failed e) => exists why, describes e why /\ failed_line df0 why line
  | Err (Raised ValueError) => failed_line df0 (other df0) line
  | Err (Raised _) => False
  end.
Definition fails {A} (o : logged A) : Prop := match o with Ok _ => False | Err e => erased e = ValueError end.
(** where a scan ends, [n] lines having been written *)
Definition ends (outcome : Q -> logged (Q * Q)) (rs : Q -> Q) (df0s : list Q) (full : bool) (n : nat) (r : pyres (Q * Q)) : Prop :=
  match r with
  | Ok p => full = false /\ exists k df0 dt1 df1, n = S k /\ nth_error df0s k = Some df0 /\ outcome df0 = Ok (dt1, df1) /\ p = together rs df0 dt1 df1 /\
      Forall (fun x => fails (outcome x)) (firstn k df0s)
  | Err ValueError => n = length df0s /\ (full = false -> Forall (fun x => fails (outcome x)) df0s)
  | Err e => exists df0, nth_error df0s n = Some df0 /\ outcome df0 = Err (Raised e)
  end.

(** ** What a failure says *)
Definition says (e : pff) (msg : string) (s r d1 : Q) : Prop := message e = text msg /\ f_s e = Some s /\ f_r e = Some r /\ f_dt1 e = Some d1.
Definition only3 (e : pff) : Prop := f_dt2 e = None /\ f_dt e = None /\ f_df e = None.
Definition truthful (P : params) (e : pff) : Prop :=
  exists s r d1,
    (says e "Bin saturation  " s r d1 /\ only3 e /\ (s == 0)%Q) \/
    (says e "Resolution OOB  " s r d1 /\ only3 e /\ (s < threshold P)%Q /\ (10000 < r)%Q) \/
    (says e "Time delay OOB  " s r d1 /\ only3 e /\ (100000000 < Qabs d1)%Q) \/
    (says e "Compensation OOB" s r d1 /\ (Qabs d1 <= 100000000)%Q /\ exists d2 d x, f_dt2 e = Some d2 /\ f_dt e = Some d /\ f_df e = Some x /\ (1 # 8192 <= Qabs x)%Q).

(** ** Where the numbers come from *)
(** sums of neighbours *)
Inductive paired (rs : Q -> Q) : list Q -> list Q -> Prop :=
| paired_nil : paired rs [] []
| paired_two a b l m : paired rs l m -> paired rs (a :: b :: l) (rs (a + b)%Q :: m).
(** bins of width [r] and bins of a width doubled some times *)
Inductive widened (rs : Q -> Q) (ys : list Q) (r : Q) : list Q -> Q -> Prop :=
| widened_same : widened rs ys r ys r
| widened_more zs w zs' : widened rs ys r zs w -> paired rs zs zs' -> widened rs ys r zs' (rs (w * 2)%Q).
(** states of later iterations *)
Inductive later (M : fpu) (P : params) (ats : list Q) (e d : Q) (s : fstate) : fstate -> Prop :=
| later_same : later M P ats e d s s
| later_more s1 s2 : later M P ats e d s s1 -> iteration M P ats e d s1 = Ok (Again s2) -> later M P ats e d s s2.
(** significance and delay are those of the early correlation of the state [s] with bins of width [r] *)
Definition measured (M : fpu) (P : params) (ats : list Q) (e d : Q) (s : fstate) (sig r d1 : Q) : Prop :=
  exists ys zs, correlate M P ats (bts s) 0 (used_duration M P e d (resolution s)) (resolution s) = Ok ys /\
    widened (rs M) ys (resolution s) zs r /\ sig_of M zs r = Ok sig /\ delay_of M (len zs) zs r = Ok d1.
Definition measured_in (M : fpu) (P : params) (ats bts : list Q) (res sig r d1 : Q) : Prop :=
  exists a b s, getitem ats (-1) = Ok a /\ getitem bts (-1) = Ok b /\
    let d := rs M (rs M (inject_Z (num_wraps P) * res) * inject_Z (num_bins P))%Q in
    later M P ats (qmin a b) d (mkS bts res 0 1 true) s /\ measured M P ats (qmin a b) d s sig r d1.
(** a failure shows what was measured at the resolution it shows *)
Definition C155_statement : Prop := forall n M P ats bts res e, good_xc M -> good_zs M -> time_freq_log n M P ats bts res = Err (Failed e) ->
  exists s r d1, f_s e = Some s /\ f_r e = Some r /\ f_dt1 e = Some d1 /\ measured_in M P ats bts res s r d1.
