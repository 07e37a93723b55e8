"""Compare GenCliModel's reading of generate_freqcd_testcase's command line with Python's argparse on random command lines."""
import argparse,random,contextlib,io,subprocess,os
def mk():
    p=argparse.ArgumentParser()
    p.add_argument("-o")
    p.add_argument("-t", type=int, nargs="+")
    p.add_argument("-x", action="store_true")
    p.add_argument("infile", nargs="?")
    return p
random.seed(5)
vals=["a","b","1","2","0","-5","-.5","+7","1_0","-0"," 7 ","","-","--","x y","-n","-x","-xt","-t","-t5","-xt5","-o","-of","-xof","-h","--help","--he","--","1.5","-t=5","-t=-5","-t=","-o=","-o=f","-o=-f","-x=","-x=1","-x=t","--help=1","--he=","--=","--n=1","--n= 1","-5=6","-t==5"]
def line():
    if random.random()<.5: return [random.choice(vals) for _ in range(random.randint(1,6))]
    out=[]
    for _ in range(random.randint(0,3)):
        out.append(random.choice([["-x"],["-o","f"],["-of"],["-xo","f"],["-t","5"],["-t","5","-6","7"],["-t5"],["-xt","1","2"],["-t7","8"],["-"],["in"],["-h"],["-t=-6"],["-t=7","8"],["-o=f"]]))
    random.shuffle(out)
    return [w for g in out for w in g]
# groups of letters with "=": not in the model
def unclear(w): return len(w)>1 and w[0]=="-" and w[1]!="-" and "=" in w and not (w[1]!="=" and w[2:3]=="=")
def coq(s): return "["+";".join(str(ord(c)) for c in s)+"]"
def o(x,f): return "None" if x is None else "(Some %s)"%f(x)
cases=[]
while len(cases)<2500:
    a=line()
    if any(unclear(w) for w in a) or not a: continue
    try:
        with contextlib.redirect_stderr(io.StringIO()), contextlib.redirect_stdout(io.StringIO()): n=mk().parse_args(a)
        r="GParsed (mkG %s %s %s %s)"%(o(n.o,coq),o(n.t,lambda l:"["+";".join("(%d)"%z for z in l)+"]"),"true" if n.x else "false",o(n.infile,coq))
    except SystemExit as e: r="GHelped" if e.code==0 else "GRefused"
    cases.append((a,r))
print({k:sum(1 for _,r in cases if r.startswith(k)) for k in ("GParsed","GHelped","GRefused")})
with open("/tmp/dt3.v","w") as f:
    f.write("From Coq Require Import QArith List. From Verif Require Import Float Base ArgModel GenCliModel. Import ListNotations. Open Scope Z_scope.\n")
    f.write("Definition res (a : list (list Z)) : gparsed := let (acts, bad) := parse gtable gpos a in match gact acts gnothing with GParsed n => if bad then GRefused else GParsed n | r => r end.\n")
    for i,(a,r) in enumerate(cases):
        f.write("Goal res [%s] = %s. Proof. first [vm_compute; reflexivity|idtac %d]. Abort.\n"%(";".join(coq(w) for w in a),r,i))
T=os.path.join(os.path.dirname(os.path.abspath(__file__)),"..","rocq","theories")
out=subprocess.run(["coqc","-Q",T,"Verif","/tmp/dt3.v"],capture_output=True,text=True)
bad=[int(x) for x in out.stdout.split()]
print(len(bad),"disagree",out.stderr[:300])
for i in bad[:10]: print(cases[i])
