"""Compare TsCliModel's reading of parse_timestamps' command line with Python's argparse on random command lines."""
import argparse,random,contextlib,io,subprocess,os
from fractions import Fraction
def mk():
    p=argparse.ArgumentParser()
    p.add_argument("-A", choices=["0","1","2"], required=True)
    p.add_argument("-X", action="store_true")
    p.add_argument("-a", choices=["0","1","2"], default="1")
    p.add_argument("-x", action="store_true")
    p.add_argument("-p", "--print", action="store_true")
    p.add_argument("-q", "--quiet", action="store_true")
    p.add_argument("--pfilter-pattern", type=int)
    p.add_argument("--pfilter-mask", action="store_true")
    p.add_argument("--pfilter-invert", action="store_true")
    p.add_argument("--tfilter-start", type=float)
    p.add_argument("--tfilter-end", type=float)
    p.add_argument("--inmemory", action="store_true")
    p.add_argument("infile")
    p.add_argument("outfile", nargs="?", const="")
    return p
random.seed(11)
L=["--help","--print","--quiet","--pfilter-pattern","--pfilter-mask","--pfilter-invert","--tfilter-start","--tfilter-end","--inmemory"]
vals=["a","b","1","2","0","-5","-.5","-5.","1e-6","-1e-6"," 7 ","","-","--","x y","-x y","-n","-A","-A1","-a","-a2","-X","-Xp","-pxA1","-h"]
def word():
    r=random.random()
    if r<.15:
        l=random.choice(L+["-A","-a","-X","-p","-5","--nothing"]); l=l if random.random()<.6 else l[:random.randint(2,len(l))]
        return l+"="+random.choice(["1","0","2","-5","-1e3","1e3","","a b","x=y","=","-"])
    if r<.3: return random.choice(["-A","-X","-a","-x","-p","-q","-A1","-A0","-a2","-XA1","-A 1"]+(["-h"] if random.random()<.2 else []))
    if r<.5:
        l=random.choice(L); return l if random.random()<.6 else l[:random.randint(2,len(l))]
    return random.choice(vals)
def line():
    if random.random()<.4: return [word() for _ in range(random.randint(1,6))]
    out=[["-A",random.choice("0123")]] if random.random()<.5 else [["-A"+random.choice("012")]]
    for _ in range(random.randint(0,3)):
        out.append(random.choice([["-X"],["-x"],["-p"],["-q"],["-a","0"],["-a2"],["--pf"],["--pfilter-pattern","5"],["--pfilter-p","-5"],["--pfilter-m"],["--tfilter-s","1.5"],["--tfilter-e","1e3"],["--inm"],["-h"],["--"],["--tfilter-start=-1e3"],["--tfilter-e=-5"],["--pfilter-pattern=-7"],["-A=1"],["-a=0"],["--pr=1"],["-X="]]))
    out.append(random.choice([["in","out"],["in"],["in"],["in","out","x"],[]]))
    if random.random()<.3: out.append(["out"])
    random.shuffle(out)
    return [w for g in out for w in g]
# groups of letters with "=": not in the model
def unclear(w): return len(w)>1 and w[0]=="-" and w[1]!="-" and "=" in w and not (w[1]!="=" and w[2:3]=="=")
def coq(s): return "["+";".join(str(ord(c)) for c in s)+"]"
def o(x,f): return "None" if x is None else "(Some %s)"%f(x)
def b(x): return "true" if x else "false"
def num(x):
    q=Fraction(x); return "(Num (%d # %d))"%(q.numerator,q.denominator)
cases=[]
while len(cases)<2500:
    a=line()
    if any(unclear(w) for w in a) or not a: continue
    try:
        with contextlib.redirect_stderr(io.StringIO()), contextlib.redirect_stdout(io.StringIO()): n=mk().parse_args(a)
        r="Parsed (mkN (Some %s) %s %s %s %s %s %s %s %s %s %s %s %s)"%(n.A,b(n.X),n.a,b(n.x),b(n.print),b(n.inmemory),o(n.pfilter_pattern,lambda z:"(%d)"%z),b(n.pfilter_mask),b(n.pfilter_invert),o(n.tfilter_start,num),o(n.tfilter_end,num),o(n.infile,coq),o(n.outfile,coq))
    except SystemExit as e: r="Helped" if e.code==0 else "Refused"
    cases.append((a,r))
print({k:sum(1 for _,r in cases if r.startswith(k)) for k in ("Parsed","Helped","Refused")})
with open("/tmp/dt2.v","w") as f:
    f.write("From Coq Require Import QArith Qreduction List. From Verif Require Import Float Base ArgModel TsCliModel. Import ListNotations. Open Scope Z_scope.\n")
    f.write("Definition red x := match x with Some (Num q) => Some (Num (Qred q)) | v => v end.\n")
    f.write("Definition res (a : list (list Z)) : parsed := let (acts, bad) := parse ttable tpos a in match act acts nothing with Parsed n => if bad || match n_from n with None => true | _ => false end then Refused else Parsed (mkN (n_from n) (n_legacy_in n) (n_to n) (n_legacy_out n) (n_print n) (n_inmemory n) (n_pattern n) (n_mask n) (n_invert n) (red (n_start n)) (red (n_end n)) (n_in n) (n_out n)) | r => r end.\n")
    for i,(a,r) in enumerate(cases):
        f.write("Goal res [%s] = %s. Proof. first [vm_compute; reflexivity|idtac %d]. Abort.\n"%(";".join(coq(w) for w in a),r,i))
T=os.path.join(os.path.dirname(os.path.abspath(__file__)),"..","rocq","theories")
out=subprocess.run(["coqc","-Q",T,"Verif","/tmp/dt2.v"],capture_output=True,text=True)
bad=[int(x) for x in out.stdout.split()]
print(len(bad),"disagree",out.stderr[:300])
for i in bad[:10]: print(cases[i])
