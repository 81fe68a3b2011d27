import random,struct,subprocess
random.seed(5)
def f(x):
    if x!=x: return "S754_nan"
    import math
    s="true" if math.copysign(1,x)<0 else "false"
    if x==0: return f"(S754_zero {s})"
    if abs(x)==float("inf"): return f"(S754_infinity {s})"
    m,e=math.frexp(abs(x)); M=int(m*2**53); E=e-53
    if E<-1074: M>>= (-1074-E); E=-1074
    return f"(S754_finite {s} {M} ({E}))"
def st(s): return 'u "'+s+'"'
L=[]
def rnd():
    k=random.randrange(6)
    if k==0: return struct.unpack("d",struct.pack("Q",random.getrandbits(64)))[0]
    if k==1: return random.uniform(-180,180)
    if k==2: return random.choice([1,-1])*2.0**random.randrange(-1074,1023)
    if k==3: return round(random.uniform(-180,180),random.randrange(0,8))
    if k==4: return float(random.randrange(0,10**random.randrange(1,20)))
    return random.random()*10**random.randrange(-10,20)
rn=[rnd() for _ in range(400)]+[2.0**k for k in range(-60,70)]+[0.0,-0.0,5e-324,1.7976931348623157e308,9007199254740993.0,1e16,1e22,1e23,0.0001,0.00001,123456789012345680.0]
tests=[]
for x in rn:
    if x!=x: continue
    tests.append(f"str_eqb (str_of_float {f(x)}) ({st(repr(x))})")
    tests.append(f"match float_of_str ({st(repr(x))}) with Ok y => same y {f(x)} | _ => false end")
    if abs(x)<1e25:
        tests.append(f"str_eqb (fmt_fixed 5 {f(x)}) ({st('%.5f'%x)})")
        tests.append(f"same (fround 10 {f(x)}) {f(round(x,10))}")
        d,m=divmod(x,60.0)
        tests.append(f"let '(d,m) := fdivmod {f(x)} (f_norm 60 0) in same d {f(d)} && same m {f(m)}")
        import math
        tests.append(f"match int_of_float {f(x)} with Ok z => Z.eqb z ({int(x)}) | _ => false end")
    y=rnd()
    if y==y and y!=0:
        def sf(g):
            try: return g()
            except ZeroDivisionError: return None
        for op,g in (("fadd",lambda:x+y),("fsub",lambda:x-y),("fmul",lambda:x*y),("fdiv",lambda:x/y)):
            r=g()
            if r==r: tests.append(f"same ({op} {f(x)} {f(y)}) {f(r)}")
for s in [" 1_0.5 ","1_.5","1e5","1E-5","+.5","5.","-inf","1__0","._5","1e400","1e-400","0.1e1_0","12e","+-1","","nan1","4.9e-324","2.4703282292062327e-324","2.4703282292062328e-324","1.7976931348623158e308","1.7976931348623159e308"]:
    try: e="match float_of_str (%s) with Ok y => same y %s | _ => false end"%(st(s),f(float(s)))
    except ValueError: e="match float_of_str (%s) with Raise ValueError => true | _ => false end"%st(s)
    tests.append(e)
src="From Verif Require Import PyFloat.\nLocal Open Scope string_scope.\nOpen Scope Z_scope.\nDefinition t : list bool := [\n"+";\n".join("("+t+")" for t in tests)+"].\n"
src+="Definition bad := filter (fun p => negb (snd p)) (combine (seq 0 (length t)) t).\nEval vm_compute in (length t, map fst bad).\n"
open("/tmp/ftest.v","w").write(src)
out=subprocess.run(["coqc","-Q","/verif/rocq/theories","Verif","/tmp/ftest.v"],capture_output=True,text=True)
print(out.stdout[-3000:],out.stderr[-2000:])
import re
i=out.stdout.rfind(", [")
for n in re.findall(r"\d+",out.stdout[i:])[:20]: print(tests[int(n)])
i=out.stdout.find("nat,")
for n in re.findall(r"\d+",out.stdout[i+4:])[:4]+re.findall(r"\d+",out.stdout[i+4:])[-12:]: print(n,tests[int(n)])
