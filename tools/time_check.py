import random,subprocess,datetime,re
random.seed(7)
tests=[]
def st(s): return "["+"; ".join(str(ord(c)) for c in s)+"]%N"
for fm,cf in (("%d%m%y","FDT"),("%d%m%Y","FDTL"),("%m%d%y","FDM")):
    for _ in range(300):
        n=random.choice([4,5,6,6,6,7,8,8,8])
        s="".join(random.choice("0000111122233456789") for _ in range(n))
        if random.random()<.1: s=" "+s
        if random.random()<.1: s=s.replace("1","١")
        if random.random()<.05: s=s+random.choice([" ","x","."])
        try:
            d=datetime.datetime.strptime(s,fm).date(); e=f"Some (mkdate {d.year} {d.month} {d.day})"
        except ValueError: e="None"
        tests.append(f"match strptime_date {cf} {st(s)}, {e} with Some a, Some b => Z.eqb (d_year a) (d_year b) && Z.eqb (d_month a) (d_month b) && Z.eqb (d_day a) (d_day b) && Z.eqb (toordinal a) {d.toordinal() if e!='None' else 0} | None, None => true | _,_ => false end")
for _ in range(600):
    n=random.choice([3,4,5,6,6,6])
    s="".join(random.choice("0011223456789") for _ in range(n))+random.choice([".",".",".",""])+"".join(random.choice("0123456789") for _ in range(random.randrange(0,8)))
    if random.random()<.1: s=s.replace("1","١")
    try:
        d=datetime.datetime.strptime(s,"%H%M%S.%f").time(); e=f"Some (mktime {d.hour} {d.minute} {d.second} {d.microsecond})"
    except ValueError: e="None"
    tests.append(f"match strptime_time {st(s)}, {e} with Some a, Some b => Z.eqb (t_hour a) (t_hour b) && Z.eqb (t_min a) (t_min b) && Z.eqb (t_sec a) (t_sec b) && Z.eqb (t_us a) (t_us b) | None, None => true | _,_ => false end")
ws=["12"," 12 ","+1_0","1__0","٣٤","-٣","\u20035","5\x1c","","-","_1","1_","0"*4301,"1"*4300,"12a","²","１２"]
for s in ws:
    try: e=f"Ok y => Z.eqb y ({int(s)})" if len(s)<50 else "Ok y => true"; int(s)
    except ValueError: e="Raise ValueError => true"
    tests.append(f"match int_of_str {st(s)} with {e} | _ => false end")
for b in [b"+0x1F\r\n",b"0x_1",b"0X",b"-0x1",b"_1",b"0_1",b"x1",b"0x",b"1f;ext\r\n",b"",b" 1A ",b"0x__1",b"0_x1",b"00x1"]:
    try: e=f"Ok y => Z.eqb y ({int(b.strip(),16)})"
    except ValueError: e="Raise ValueError => true"
    tests.append(f"match int16_of_bytes [{'; '.join(map(str,b))}]%N with {e} | _ => false end")
src="From Verif Require Import PyTime.\nOpen Scope Z_scope.\nDefinition t : list bool := [\n"+";\n".join("("+t+")" for t in tests)+"].\n"
src+="Definition bad := filter (fun p => negb (snd p)) (combine (seq 0 (length t)) t).\nEval vm_compute in (length t, map fst bad).\n"
open("/tmp/ttest.v","w").write(src)
out=subprocess.run(["coqc","-Q","/verif/rocq/theories","Verif","/tmp/ttest.v"],capture_output=True,text=True)
print(out.stdout[-3000:],out.stderr[-2000:])
i=out.stdout.find("nat,")
for n in re.findall(r"\d+",out.stdout[i+4:])[:6]: print(n,tests[int(n)])
print(sum("None with" in t or ", None" in t for t in tests))
