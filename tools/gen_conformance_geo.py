#!/usr/bin/env python3
"""Generate rocq/theories/ConformanceGeo.v: the numeric tests of /repo/tests/test_static.py
(haversine, planar, bearing, area, llh2ecef, ecef2llh) evaluated in FGeo.v with a small
computable sin/cos/asin/acos/atan2 in fixed point (not proved accurate, used for nothing else)."""
import ast
src = open("/repo/tests/test_static.py", encoding="utf-8").read()
def fl(x):
    x = float(x)
    if x == 0: return "(S754_zero false)"
    n, d = abs(x).as_integer_ratio()
    z = n if x > 0 else -n
    return f"(f_norm {z if z >= 0 else f'({z})'} ({1 - d.bit_length()}))"
out = ['''(* Generated by tools/gen_conformance_geo.py from the text of /repo/tests/test_static.py: the
   numeric expectations of the project's unit tests, evaluated in FGeo.v with a computable
   library.  Tests of the translation, not proofs. *)
From Verif Require Import PyFloat FGeo.
Local Open Scope Z_scope.
(* fixed point with 160 fractional bits *)
Definition P := 160.
Definition one := 2 ^ P.
Definition mul (a b : Z) := Z.shiftr (a * b) P.
Definition fix_of (x : fl) : Z :=
  match x with S754_finite s m e => let z := if s then Zneg m else Zpos m in Z.shiftl z (e + P) | _ => 0 end.
Definition fl_of (z : Z) : fl := f_norm z (- P).
(* sum of x^(2k+o)/(2k+o)! (-1)^k *)
Fixpoint taylor (n : nat) (k : Z) (t x2 acc : Z) : Z :=
  match n with O => acc | S n' => taylor n' (k + 2) (- (mul t x2) / ((k + 1) * (k + 2))) x2 (acc + t) end.
Definition zsin (x : Z) := taylor 60 1 x (mul x x) 0.
Definition zcos (x : Z) := taylor 60 0 one (mul x x) 0.
Fixpoint atan_series (n : nat) (k : Z) (t x2 acc : Z) : Z :=
  match n with O => acc | S n' => atan_series n' (k + 2) (- (mul t x2)) x2 (acc + t / k) end.
Definition zsqrt (x : Z) := Z.sqrt (x * one).
(* tan(a/2) = t / (1 + sqrt(1 + t^2)) *)
Definition half (t : Z) := (t * one) / (one + zsqrt (one + mul t t)).
Definition zatan (t : Z) := 16 * atan_series 60 1 (half (half (half (half t)))) (let h := half (half (half (half t))) in mul h h) 0.
Definition zpi := 4 * zatan one.
Definition zatan2 (y x : Z) : Z :=
  if x =? 0 then (if y =? 0 then 0 else Z.sgn y * (zpi / 2))
  else let a := zatan (y * one / x) in
       if 0 <? x then a else if 0 <=? y then a + zpi else a - zpi.
Definition L : libm := mklibm
  (fun x => fl_of (zsin (fix_of x))) (fun x => fl_of (zcos (fix_of x)))
  (fun x => let z := fix_of x in fl_of (zatan2 z (zsqrt (one - mul z z))))
  (fun x => let z := fix_of x in fl_of (zatan2 (zsqrt (one - mul z z)) z))
  (fun y x => fl_of (zatan2 (fix_of y) (fix_of x)))
  (fun x _ => fmul x x).
(* assertAlmostEqual(x, y, n): |x - y| rounds to 0 at n places *)
Definition near (a b tol : fl) : bool := SFleb (fabs (fsub a b)) tol.
Definition is_near (a : result fl) (b tol : fl) : bool := match a with Ok x => near x b tol | Raise _ => false end.
Definition is_near3 (a : result (fl * fl * fl)) (b1 b2 b3 tol : fl) : bool :=
  match a with Ok (x, y, z) => near x b1 tol && near y b2 tol && near z b3 tol | Raise _ => false end.
''']
n = 0
def ex(where, stmt):
    global n
    n += 1
    out.append(f"(* test_static.py:{where} *)\nExample geo_{n:02d} : {stmt} = true.\nProof. vm_compute. reflexivity. Qed.")
ex("math.pi", "near (fl_of zpi) py_pi (f_norm 1 (-51))")
E = lambda e: ast.literal_eval(e)
tree = ast.parse(src)
R = {"haversine": " f_radius_km", "planar": " f_SMAJ_AXIS", "bearing": "", "area": " f_radius_km"}
for f in ast.walk(tree):
    if not isinstance(f, ast.FunctionDef): continue
    cur = None
    for st in f.body:
        if isinstance(st, ast.Assign) and isinstance(st.value, ast.Call) and isinstance(st.value.func, ast.Name) and st.value.func.id in R:
            cur = (st.value.func.id, [E(a) for a in st.value.args])
        elif cur and isinstance(st, ast.Expr) and isinstance(st.value, ast.Call) and st.value.func.attr == "assertAlmostEqual":
            _, y, k = st.value.args
            ex(f"{st.lineno} {f.name}", f"is_near (f{cur[0]} L {' '.join(map(fl, cur[1]))}{R[cur[0]]}) {fl(E(y))} {fl(0.5 * 10 ** -E(k))}")
    if f.name in ("testecef2llh", "testllh2ecef"):
        env = {st.targets[0].id: E(st.value) for st in f.body if isinstance(st, ast.Assign)}
        for v, r in zip(env["vals"], env["res"]):
            ex(f"{f.lineno} {f.name}", f"is_near3 (f{f.name[4:]} L {' '.join(map(fl, v))} f_SMAJ_AXIS f_FLATTENING) {' '.join(map(fl, r))} {fl(5e-6)}")
    if f.name == "testllh2eceftab":
        for v in [E(st.value) for st in f.body if isinstance(st, ast.Assign)][0]:
            ex(f"{f.lineno} {f.name}", f"match fllh2ecef L {' '.join(map(fl, v))} f_SMAJ_AXIS f_FLATTENING with Ok (x, y, z) => is_near3 (fecef2llh L x y z f_SMAJ_AXIS f_FLATTENING) {' '.join(map(fl, v))} {fl(5e-3)} | Raise _ => false end")
open("/verif/rocq/theories/ConformanceGeo.v", "w").write("\n".join(out) + "\n")
print(n, "examples")
