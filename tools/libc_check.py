"""Compare the models of strtol, sscanf("%d") and sscanf("%200s") in FreqcdModel.v and FreqcdCli.v with libc on random strings."""
import ctypes,random,subprocess
L=ctypes.CDLL("libc.so.6"); L.strtol.restype=ctypes.c_long
def strtol(b):
    buf=ctypes.create_string_buffer(b)
    end=ctypes.c_void_p()
    v=L.strtol(buf,ctypes.byref(end),10)
    return v,end.value-ctypes.addressof(buf)
def sd(b):
    v=ctypes.c_int(77); n=L.sscanf(ctypes.c_char_p(b),b"%d",ctypes.byref(v))
    return v.value if n>=1 else None
def ss(b):
    o=ctypes.create_string_buffer(300); n=L.sscanf(ctypes.c_char_p(b),b"%200s",o)
    return o.value if n>=1 else None
random.seed(7)
big=[b"2147483647",b"2147483648",b"-2147483648",b"-2147483649",b"4294967301",b"9223372036854775807",b"9223372036854775808",b"-9223372036854775808",b"-9223372036854775809",b"99999999999999999999999",b"-99999999999999999999999",b"0x10",b"010",b"1e3"]
def rnd():
    r=random.random()
    pre=bytes(random.choice(b" \t\n\v\f\r") for _ in range(random.choice([0,0,1,2])))
    if r<.3: return pre+random.choice(big)+random.choice([b"",b" ",b"x",b"\n"])
    if r<.6: return pre+bytes(random.choice(b"0123456789+- a\n_") for _ in range(random.randint(0,6)))
    if r<.75: return bytes(random.randint(1,255) for _ in range(random.randint(0,8)))
    if r<.85: return pre+bytes(random.choice(b"ab/.") for _ in range(random.randint(195,205)))
    return pre+random.choice([b"",b"+",b"-",b"+-5",b"--5",b"- 5"])+str(random.randint(-10**10,10**10)).encode()+random.choice([b"",b"\r",b"."])
def coq(b): return "["+";".join(map(str,b))+"]"
def opt(x,f): return "None" if x is None else "(Some %s)"%f(x)
N=3000
with open("/tmp/lc.v","w") as f:
    f.write("From Coq Require Import ZArith List. From Verif Require Import Base FreqcdModel FreqcdCli. Import ListNotations. Open Scope Z_scope.\n")
    f.write("Fixpoint same (a b : list Z) := match a, b with [], [] => true | x :: a, y :: b => (x =? y) && same a b | _, _ => false end%bool.\n")
    f.write("Definition chk (s : list Z) (v e : Z) (d : option Z) (w : option (list Z)) : bool := (let '(m, x, r) := strtol s in (x =? v) && (Z.of_nat (length s) - Z.of_nat (length r) =? e) && Bool.eqb m (negb (e =? 0)) && match sscanf_d s, d with Some a, Some b => a =? b | None, None => true | _, _ => false end && match sscanf_s 200 s, w with Some a, Some b => same a b | None, None => true | _, _ => false end)%bool.\n")
    f.write("Definition cases := [\n")
    out=[]
    for _ in range(N):
        b=rnd(); v,e=strtol(b)
        out.append("(%s,chk %s (%d) %d %s %s)"%(coq(b),coq(b),v,e,opt(sd(b),lambda x:"(%d)"%x),opt(ss(b),coq)))
    f.write(";\n".join(out)+"].\n")
    f.write("Eval vm_compute in (List.length cases, List.map fst (filter (fun c => negb (snd c)) cases)).\n")
print(subprocess.run(["coqc","-Q","/verif/rocq/theories","Verif","/tmp/lc.v"],capture_output=True,text=True))
