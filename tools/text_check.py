#!/usr/bin/env python3
"""Compare int16_text, universal and strip of TextModel with Python's int(s, 16), text mode and str.strip on random text.

    text_check.py      needs the compiled theories; both lists printed must be empty
"""
import io, os, random, subprocess, tempfile
HERE = os.path.dirname(os.path.abspath(__file__))
random.seed(5)
al="0123456789abfAF__xX+- \t\n\v\f\r\x1c\x1f#g"
cases=[]
def py(s):
    try: return int(s,16)
    except ValueError: return None
for _ in range(6000):
    if random.random()<.5:
        s="".join(random.choice(al) for _ in range(random.randint(0,6)))
    else:
        s=random.choice(["",""," ","\t"])+random.choice(["","+","-"])+random.choice(["","0x","0X","0x_","0x__","0"])+"".join(random.choice("0019aF_") for _ in range(random.randint(0,6)))+random.choice([""," ","\x1d"])
    cases.append((s,py(s)))
out=["From Verif Require Import Base TimestampsModel TextModel. Local Open Scope Z_scope.","Definition cs : list (list Z * option Z) := ["]
out.append(";\n".join("([%s], %s)"%(";".join(str(ord(c)) for c in s), "None" if v is None else "Some (%d)"%v) for s,v in cases))
out.append("].\nDefinition ok (c : list Z * option Z) := match int16_text (fst c), snd c with Ok v, Some w => v =? w | Err ValueError, None => true | _, _ => false end.")
out.append("Eval vm_compute in (filter (fun c => negb (ok c)) cs).")
# universal + strip
us=[]
for _ in range(1500):
    s="".join(random.choice("a\r\n \x1c\t") for _ in range(random.randint(0,9)))
    t=io.TextIOWrapper(io.BytesIO(s.encode()),encoding="ascii").read()
    us.append((s,t,t.strip(),t.strip(" \r\n")))
L=lambda s:"["+";".join(str(ord(c)) for c in s)+"]"
out.append("Definition us := ["+";\n".join("(%s,%s,%s,%s)"%tuple(map(L,u)) for u in us)+"].")
out.append("Definition eqs := fix e (a b : list Z) := match a, b with [], [] => true | x :: a, y :: b => (x =? y) && e a b | _, _ => false end.")
out.append("Eval vm_compute in filter (fun '(s,t,u,v) => negb (eqs (universal s) t && eqs (strip is_uspace t) u && eqs (strip is_blank t) v)) us.")
with tempfile.TemporaryDirectory() as d:
    path = os.path.join(d, "check.v")
    open(path, "w").write("\n".join(out))
    subprocess.run(["coqc", "-Q", os.path.join(HERE, "..", "rocq", "theories"), "Verif", path], check=True)
