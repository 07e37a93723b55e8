"""Compare PlotCliModel's reading of fpplot's command line with Python's argparse on random command lines."""
import argparse,random,contextlib,io,subprocess
T=[("Help","-h","--help",0),("Verbosity","-v","--verbosity",0),("Logging","-L","--logging",1),("Quiet",None,"--quiet",0),("Config",None,"--config",1),("Save",None,"--save",1),("Experiment",None,"--experiment",0),
("Reference","-t","--reference",1),("Target","-T","--target",1),("Legacy","-X","--legacy",0),("SkipDuration","-Z","--skip-duration",1),("Sendfiles","-d","--sendfiles",1),("T1files","-D","--t1files",1),("FirstEpoch","-e","--first-epoch",1),
("NumEpochs","-n","--num-epochs",1),("SkipEpochs","-z","--skip-epochs",1),("Freq",None,"--freq",1),("Time",None,"--time",1),("Width",None,"--width",1),("Duration",None,"--duration",1),("SavePlot",None,"--save-plot",1)]
F={"SkipDuration","Freq","Time","Width","Duration"}; I={"NumEpochs","SkipEpochs"}
def mk(log):
    p=argparse.ArgumentParser(add_help=False)
    class Act(argparse.Action):
        def __call__(self,parser,ns,values,option_string=None): log.append((self.dest,values))
    for d,s,l,n in T:
        kw=dict(dest=d,action=Act)
        if n==0: kw["nargs"]=0
        if d in F: kw["type"]=float
        if d in I: kw["type"]=int
        p.add_argument(*[x for x in (s,l) if x],**kw)
    return p
random.seed(5)
vals=["a","5","-5","-.5","-5.","1e-6","-1e-6","1_0","1__0"," 7 ","","-","--","x y","-x y","0","16","15","+3","1.5","1.","._5",".5","1e","1e+2","1_0.2_5","-a","--zz","-n","-vv-","-5\n","007","1E3","5a"]
def word():
    r=random.random()
    d,s,l,n=random.choice(T)
    if r<0.3 and s: return s
    if r<0.45: return l
    if r<0.6: return l[:random.randint(2,len(l))]
    if r<0.75 and s:
        c="-"+"".join(random.choice("hvXPvXP") for _ in range(random.randint(0,3)))+s[1]
        return c+random.choice(vals) if random.random()<.6 else c
    if r<0.78: return "-"+"".join(random.choice("hvXPtLkzn-5") for _ in range(random.randint(1,4)))
    return random.choice(vals)
def line():
    if random.random()<.5: return [word() for _ in range(random.randint(0,5))]
    out=[]
    for _ in range(random.randint(1,4)):
        d,s,l,n=random.choice(T)
        out.append(s if s and random.random()<.5 else l)
        if n: out.append(random.choice(["1","2","3.5","-4","a","1e3","0x1","1_2"]) if random.random()<.8 else random.choice(vals))
    return out
def coq(s): return "["+";".join(str(ord(c)) for c in s)+"]"
cases=[]
while len(cases)<1500:
    a=line()
    if any(w.startswith("-") and "=" in w for w in a): continue
    log=[]
    try:
        with contextlib.redirect_stderr(io.StringIO()): mk(log).parse_args(a)
        cases.append((a,log))
    except SystemExit: cases.append((a,None))
print(sum(1 for _,l in cases if l is not None),"ok of",len(cases))
from fractions import Fraction
def v(d,x):
    if x==[]: return "Flag"
    if d in F:
        q=Fraction(x); return "(Real (Num (%d # %d)))"%(q.numerator,q.denominator)
    if d in I: return "(Int (%d))"%x
    return "(Text %s)"%coq(x)
with open("/tmp/dt.v","w") as f:
    f.write("From Coq Require Import QArith Qreduction List. From Verif Require Import Float Base ArgModel PlotCliModel. Import ListNotations. Open Scope Z_scope.\n")
    f.write("Definition red (v : value) := match v with Real (Num q) => Real (Num (Qred q)) | v => v end.\n")
    f.write("Definition veq (a b : value) : bool := match a, b with Flag, Flag => true | Text s, Text t => same s t | Int x, Int y => x =? y | Real (Num x), Real (Num y) => Qeq_bool x y | _, _ => false end.\n")
    f.write("Fixpoint leq (a b : list (dst * value)) := match a, b with [], [] => true | (d,x)::a, (e,y)::b => dst_beq d e && veq x y && leq a b | _, _ => false end.\n")
    f.write("Definition go (args : list (list Z)) := let (acts,bad) := parse table [] args in match converted acts with None => None | Some ns => if bad then None else Some ns end.\n")
    f.write("Definition ok (c : list (list Z) * option (list (dst*value))) := match go (fst c), snd c with None, None => true | Some a, Some b => leq a b | _, _ => false end.\n")
    f.write("Definition cases : list (list (list Z) * option (list (dst*value))) := [\n"+";\n".join("([%s], %s)"%(";".join(coq(w) for w in a),"None" if l is None else "Some [%s]"%";".join("(%s,%s)"%(d,v(d,x)) for d,x in l)) for a,l in cases)+"].\n")
    f.write("Eval vm_compute in (length (filter ok cases)).\nEval vm_compute in (map fst (filter (fun c => negb (ok c)) cases)).\n")
