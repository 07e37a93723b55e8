#!/usr/bin/env python3
"""Compare RoundModel.round with the same lines of Python (utils.py 17-43) on random numbers.

    round_check.py [cases]      needs the compiled theories
"""
import os, random, re, struct, subprocess, sys, tempfile
from fractions import Fraction
HERE = os.path.dirname(os.path.abspath(__file__))
inbuilt_round = round
def pyround(number, ndigits=None, sf=None, dp=None):
    if ndigits is not None and dp is None: dp = ndigits
    if sf is None: return inbuilt_round(number, dp)
    intermediate = float('{:.{p}g}'.format(number, p=sf))
    if isinstance(number, int): return int(intermediate)
    return '{:.{p}g}'.format(intermediate, p=sf)

def q(x):
    f = Fraction(x)
    return "(%d # %d)" % (f.numerator, f.denominator) if f.numerator >= 0 else "(-(%d) # %d)" % (-f.numerator, f.denominator)
def case(r):
    if r.random() < .5:
        v = r.choice([r.randint(-10**4, 10**4), r.randint(-2**60, 2**60), r.randint(-10**30, 10**30), 10**r.randint(0, 30), r.choice([25, 35, 995, 9995, 99950, 1]) * 10**r.randint(0, 20),
                      r.randint(10**307, 10**309), 2**1024 - r.randint(0, 2**971)])
        num = "NInt (%d)" % v
    else:
        while True:
            v = r.choice([r.uniform(-1000, 1000), r.random() * 10**r.randint(-12, 25), struct.unpack("<d", struct.pack("<Q", r.getrandbits(64)))[0], r.randint(1, 999) / 8,
                          float("1e%d" % r.randint(-30, 40)), float("%de%d" % (r.randint(1, 9999), r.randint(-330, 305))), 1.0000000000000001e23])
            if v == v and abs(v) != float("inf") and v != 0: break
        num = "NFloat %s" % q(v)
    k = r.random()
    sf = r.choice([0, 1, 2, 3, 5, 9, 15, 16, 17, 20, 30, -1]) if k < .8 else None
    nd = r.choice([None, None, -3, -1, 0, 1, 3, 8]) if k > .75 else None
    dp = r.choice([None, None, -2, 0, 2]) if k > .75 else None
    try:
        a = pyround(v, nd, sf, dp)
        if isinstance(a, int): e = "Ok (RInt (%d))" % a
        elif isinstance(a, str):
            e = "Ok (RText [%s])" % "; ".join(str(ord(c)) for c in a)
            if "-0" == a: return None
        else: e = "Ok (RFloat %s)" % q(a)
    except Exception as ex:
        e = "Err " + type(ex).__name__
    o = lambda z: "None" if z is None else "(Some (%d))" % z
    return "(round (%s) %s %s %s, %s)" % (num, o(nd), o(sf), o(dp), e)
if __name__ == "__main__":
    n = int(sys.argv[1]) if len(sys.argv) > 1 else 2000
    r = random.Random(5)
    cs = [c for c in (case(r) for _ in range(n)) if c]
    d = tempfile.mkdtemp()
    with open(os.path.join(d, "t.v"), "w") as f:
        f.write("From Coq Require Import QArith List. From Verif Require Import Float Base FpfindModel ReportModel RoundModel. Import ListNotations. Open Scope Z_scope.\n"
                "Definition same (c : pyres rounded * pyres rounded) : bool := match c with\n"
                "| (Ok (RInt a), Ok (RInt b)) => a =? b | (Ok (RFloat a), Ok (RFloat b)) => Qeq_bool a b\n"
                "| (Ok (RText a), Ok (RText b)) => if list_eq_dec Z.eq_dec a b then true else false\n"
                "| (Err OverflowError, Err OverflowError) | (Err ValueError, Err ValueError) => true | _ => false end.\n")
        for i in range(0, len(cs), 50):
            f.write("Definition c%d := [%s].\nEval vm_compute in (%d, map fst (filter (fun p => negb (snd p)) (combine (seq 0 50) (map same c%d)))).\n" % (i, ";\n".join(cs[i:i + 50]), i, i))
    out = subprocess.run(["coqc", "-Q", os.path.join(HERE, "..", "rocq", "theories"), "Verif", "t.v"], cwd=d, capture_output=True, text=True)
    if out.returncode: sys.exit(out.stderr)
    bad = 0
    for m in re.finditer(r"= \((\d+), \[([^\]]*)\]", out.stdout.replace("\n", " ")):
        for j in m.group(2).split(";"):
            if j.strip(): bad += 1; print(cs[int(m.group(1)) + int(j.strip().split("%")[0])])
    print(len(cs), "cases,", bad, "disagree")
