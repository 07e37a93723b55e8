(** ** [round] (src/fpfind/lib/utils.py 17-43), the replacement of the built-in function offered by the library.

    Numbers are ints or float64 values; the values of float64 are rational numbers, so that -0.0, inf and nan are
    left out as arguments. *)
From Coq Require Import QArith Qabs Qpower String.
From Verif Require Import Float Base FpfindModel ReportModel.
Import ListNotations. Local Open Scope Z_scope.

(** The number nearest to [q] among the values of float64 if the exponent had no upper end; from 2^1024 on it is infinite. *)
Definition double (q : Q) : Q :=
  if Qle_bool (pow2 (-1022)) (Qabs q) then fl 53 q else (inject_Z (rneQ (q * pow2 1074)) * pow2 (-1074))%Q.
Definition infinite (q : Q) : bool := Qle_bool (pow2 1024) (Qabs (double q)).
Definition ten (e : Z) : Q := Qpower (inject_Z 10) e.
(** the exponent of the first digit of [x], not 0, found from the numbers of digits of numerator and denominator *)
Definition qlog10 (x : Q) : Z :=
  let e := len (dec (Z.abs (Qnum x))) - len (dec (Zpos (Qden x))) in
  if Qle_bool (ten e) (Qabs x) then e else e - 1.
(** '{:.<p>g}'.format(x), [1 <= p], for x other than 0: p digits as a number, of the sign of x, and the exponent of the last of them.
    The exact value of x is rounded, ties to even. *)
Definition figures_of (p : Z) (x : Q) : Z * Z :=
  let k := qlog10 x - p + 1 in
  let n := rneQ (x / ten k) in
  if Z.abs n =? 10 ^ p then (Z.sgn n * 10 ^ (p - 1), k + 1) else (n, k).
(** the number written *)
Definition g_value (p : Z) (x : Q) : Q :=
  if Qeq_bool x 0 then 0%Q else let (n, k) := figures_of p x in (inject_Z n * ten k)%Q.
(** 'g' writes no zeros at the end of the decimals, *)
Definition strip0 (s : list Z) : list Z := rev ((fix go l := match l with 48 :: r => go r | _ => l end) (rev s)).
Definition point (s : list Z) : list Z := match strip0 s with [] => [] | r => 46 :: r end.
(** the exponent as a sign and at least two digits, *)
Definition exponent_text (e : Z) : list Z := 101 :: (if e <? 0 then 45 else 43) :: (if Z.abs e <? 10 then [48] else []) ++ dec (Z.abs e).
(** and no exponent if that of the first digit is at least -4 and less than the precision. *)
Definition g_text (p : Z) (x : Q) : list Z :=
  if Qeq_bool x 0 then [48] else
  let (n, k) := figures_of p x in
  let ds := decn (Z.to_nat p) (Z.abs n) in
  let e := k + p - 1 in
  (if n <? 0 then [45] else []) ++
  (if (e <? -4) || (p <=? e) then take 1 ds ++ point (drop 1 ds) ++ exponent_text e
   else if 0 <=? e then take (e + 1) ds ++ point (drop (e + 1) ds)
   else 48 :: point (repeat 48 (Z.to_nat (- e - 1)) ++ ds)).

Inductive number : Type := NInt (n : Z) | NFloat (x : Q).
(** what is returned: an int, a float or a str *)
Inductive rounded : Type := RInt (n : Z) | RFloat (x : Q) | RText (s : list Z).

(** 17, 37: the built-in function.  It rounds exact values, ties to even, to the nearest multiple of 10^-digits. *)
Definition inbuilt_round (v : number) (digits : option Z) : pyres rounded :=
  match v, digits with
  | NInt n, None => Ok (RInt n)
  | NInt n, Some d => if 0 <=? d then Ok (RInt n) else Ok (RInt (rne_div n (10 ^ (- d)) * 10 ^ (- d)))
  | NFloat x, None => Ok (RInt (rneQ x))
  | NFloat x, Some d => let y := (inject_Z (rneQ (x * ten d)) * ten (- d))%Q in if infinite y then Err OverflowError else Ok (RFloat (double y))
  end.
(** 40-43.  A negative [sf] makes the format invalid and 0 counts as 1.  float() of the text of a number is the float64 nearest to the
    number written, and "inf" is the text of an infinite one. *)
Definition round_sf (v : number) (sf : Z) : pyres rounded :=
  if sf <? 0 then Err ValueError else
  let p := Z.max 1 sf in
  match v with
  | NInt n =>
      if infinite (inject_Z n) then Err OverflowError else                  (* format() makes it a float *)
      let y := g_value p (double (inject_Z n)) in
      if infinite y then Err OverflowError else Ok (RInt (qtrunc (double y)))
  | NFloat x =>
      let y := g_value p x in
      if infinite y then Ok (RText (if Qle_bool 0 y then text "inf" else text "-inf")) else Ok (RText (g_text p (double y)))
  end.
(** 18-43 *)
Definition round (v : number) (ndigits sf dp : option Z) : pyres rounded :=
  let dp := match ndigits, dp with Some d, None => Some d | _, _ => dp end in
  match sf with None => inbuilt_round v dp | Some s => round_sf v s end.
