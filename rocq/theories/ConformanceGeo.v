(* Generated by tools/gen_conformance_geo.py from the text of /repo/tests/test_static.py: the
   numeric expectations of the project's unit tests, evaluated in FGeo.v with a computable
   library.  Tests of the translation, not proofs. *)
From Verif Require Import PyFloat FGeo.
Local Open Scope Z_scope.
(* fixed point with 160 fractional bits *)
Definition P := 160.
Definition one := 2 ^ P.
Definition mul (a b : Z) := Z.shiftr (a * b) P.
Definition fix_of (x : fl) : Z :=
  match x with S754_finite s m e => let z := if s then Zneg m else Zpos m in Z.shiftl z (e + P) | _ => 0 end.
Definition fl_of (z : Z) : fl := f_norm z (- P).
(* sum of x^(2k+o)/(2k+o)! (-1)^k *)
Fixpoint taylor (n : nat) (k : Z) (t x2 acc : Z) : Z :=
  match n with O => acc | S n' => taylor n' (k + 2) (- (mul t x2) / ((k + 1) * (k + 2))) x2 (acc + t) end.
Definition zsin (x : Z) := taylor 60 1 x (mul x x) 0.
Definition zcos (x : Z) := taylor 60 0 one (mul x x) 0.
Fixpoint atan_series (n : nat) (k : Z) (t x2 acc : Z) : Z :=
  match n with O => acc | S n' => atan_series n' (k + 2) (- (mul t x2)) x2 (acc + t / k) end.
Definition zsqrt (x : Z) := Z.sqrt (x * one).
(* tan(a/2) = t / (1 + sqrt(1 + t^2)) *)
Definition half (t : Z) := (t * one) / (one + zsqrt (one + mul t t)).
Definition zatan (t : Z) := 16 * atan_series 60 1 (half (half (half (half t)))) (let h := half (half (half (half t))) in mul h h) 0.
Definition zpi := 4 * zatan one.
Definition zatan2 (y x : Z) : Z :=
  if x =? 0 then (if y =? 0 then 0 else Z.sgn y * (zpi / 2))
  else let a := zatan (y * one / x) in
       if 0 <? x then a else if 0 <=? y then a + zpi else a - zpi.
Definition L : libm := mklibm
  (fun x => fl_of (zsin (fix_of x))) (fun x => fl_of (zcos (fix_of x)))
  (fun x => let z := fix_of x in fl_of (zatan2 z (zsqrt (one - mul z z))))
  (fun x => let z := fix_of x in fl_of (zatan2 (zsqrt (one - mul z z)) z))
  (fun y x => fl_of (zatan2 (fix_of y) (fix_of x)))
  (fun x _ => fmul x x).
(* assertAlmostEqual(x, y, n): |x - y| rounds to 0 at n places *)
Definition near (a b tol : fl) : bool := SFleb (fabs (fsub a b)) tol.
Definition is_near (a : result fl) (b tol : fl) : bool := match a with Ok x => near x b tol | Raise _ => false end.
Definition is_near3 (a : result (fl * fl * fl)) (b1 b2 b3 tol : fl) : bool :=
  match a with Ok (x, y, z) => near x b1 tol && near y b2 tol && near z b3 tol | Raise _ => false end.

(* test_static.py:math.pi *)
Example geo_01 : near (fl_of zpi) py_pi (f_norm 1 (-51)) = true.
Proof. vm_compute. reflexivity. Qed.
(* test_static.py:506 testecef2llh *)
Example geo_02 : is_near3 (fecef2llh L (f_norm 2052224661728107 (-29)) (f_norm (-2481245767884551) (-34)) (f_norm 1365492810828795 (-28)) f_SMAJ_AXIS f_FLATTENING) (f_norm 7493100717878185 (-47)) (f_norm (-152261745851977) (-46)) (f_norm 945485647130067 (-42)) (f_norm 5902958103587057 (-70)) = true.
Proof. vm_compute. reflexivity. Qed.
(* test_static.py:506 testecef2llh *)
Example geo_03 : is_near3 (fecef2llh L (f_norm 534263070940597 (-27)) (S754_zero false) (f_norm 2666548372645651 (-29)) f_SMAJ_AXIS f_FLATTENING) (f_norm 7244874292456427 (-47)) (S754_zero false) (f_norm 3541232415625001 (-79)) (f_norm 5902958103587057 (-70)) = true.
Proof. vm_compute. reflexivity. Qed.
(* test_static.py:506 testecef2llh *)
Example geo_04 : is_near3 (fecef2llh L (f_norm 10000 (0)) (f_norm 10000 (0)) (f_norm 10000 (0)) f_SMAJ_AXIS f_FLATTENING) (S754_zero false) (S754_zero false) (f_norm (-10000000) (0)) (f_norm 5902958103587057 (-70)) = true.
Proof. vm_compute. reflexivity. Qed.
(* test_static.py:523 testllh2ecef *)
Example geo_05 : is_near3 (fllh2ecef L (f_norm 7493100717878171 (-47)) (f_norm (-152261745851977) (-46)) (f_norm 3781942588361331 (-44)) f_SMAJ_AXIS f_FLATTENING) (f_norm 4104449323456217 (-30)) (f_norm (-4962491535769107) (-35)) (f_norm 2730985621657583 (-29)) (f_norm 5902958103587057 (-70)) = true.
Proof. vm_compute. reflexivity. Qed.
(* test_static.py:523 testllh2ecef *)
Example geo_06 : is_near3 (fllh2ecef L (f_norm 7244874292456413 (-47)) (S754_zero false) (S754_zero false) f_SMAJ_AXIS f_FLATTENING) (f_norm 1068526141881195 (-28)) (S754_zero false) (f_norm 2666548372645645 (-29)) (f_norm 5902958103587057 (-70)) = true.
Proof. vm_compute. reflexivity. Qed.
(* test_static.py:538 testllh2eceftab *)
Example geo_07 : match fllh2ecef L (f_norm 7492863880037663 (-47)) (f_norm (-607985949695017) (-48)) (f_norm 7563936311657103 (-45)) f_SMAJ_AXIS f_FLATTENING with Ok (x, y, z) => is_near3 (fecef2llh L x y z f_SMAJ_AXIS f_FLATTENING) (f_norm 7492863880037663 (-47)) (f_norm (-607985949695017) (-48)) (f_norm 7563936311657103 (-45)) (f_norm 5764607523034235 (-60)) | Raise _ => false end = true.
Proof. vm_compute. reflexivity. Qed.
(* test_static.py:538 testllh2eceftab *)
Example geo_08 : match fllh2ecef L (f_norm (-2105432825795707) (-48)) (f_norm 596990833417257 (-43)) (f_norm 6068600497881743 (-47)) f_SMAJ_AXIS f_FLATTENING with Ok (x, y, z) => is_near3 (fecef2llh L x y z f_SMAJ_AXIS f_FLATTENING) (f_norm (-2105432825795707) (-48)) (f_norm 596990833417257 (-43)) (f_norm 6068600497881743 (-47)) (f_norm 5764607523034235 (-60)) | Raise _ => false end = true.
Proof. vm_compute. reflexivity. Qed.
(* test_static.py:538 testllh2eceftab *)
Example geo_09 : match fllh2ecef L (f_norm (-4856850723142369) (-47)) (f_norm (-1973491430462587) (-45)) (f_norm 3839450623728681 (-41)) f_SMAJ_AXIS f_FLATTENING with Ok (x, y, z) => is_near3 (fecef2llh L x y z f_SMAJ_AXIS f_FLATTENING) (f_norm (-4856850723142369) (-47)) (f_norm (-1973491430462587) (-45)) (f_norm 3839450623728681 (-41)) (f_norm 5764607523034235 (-60)) | Raise _ => false end = true.
Proof. vm_compute. reflexivity. Qed.
(* test_static.py:538 testllh2eceftab *)
Example geo_10 : match fllh2ecef L (f_norm 90 (0)) (f_norm 90 (0)) (f_norm (-3738207678942413) (-33)) f_SMAJ_AXIS f_FLATTENING with Ok (x, y, z) => is_near3 (fecef2llh L x y z f_SMAJ_AXIS f_FLATTENING) (f_norm 90 (0)) (f_norm 90 (0)) (f_norm (-3738207678942413) (-33)) (f_norm 5764607523034235 (-60)) | Raise _ => false end = true.
Proof. vm_compute. reflexivity. Qed.
(* test_static.py:538 testllh2eceftab *)
Example geo_11 : match fllh2ecef L (S754_zero false) (S754_zero false) (S754_zero false) f_SMAJ_AXIS f_FLATTENING with Ok (x, y, z) => is_near3 (fecef2llh L x y z f_SMAJ_AXIS f_FLATTENING) (S754_zero false) (S754_zero false) (S754_zero false) (f_norm 5764607523034235 (-60)) | Raise _ => false end = true.
Proof. vm_compute. reflexivity. Qed.
(* test_static.py:555 testhaversine *)
Example geo_12 : is_near (fhaversine L (f_norm 7209981528443453 (-47)) (f_norm (-678354693872681) (-48)) (f_norm 2406962894596997 (-46)) (f_norm 1982287523484795 (-45)) f_radius_km) (f_norm 2754673551276507 (-39)) (f_norm 1152921504606847 (-61)) = true.
Proof. vm_compute. reflexivity. Qed.
(* test_static.py:557 testhaversine *)
Example geo_13 : is_near (fhaversine L (f_norm (-3559251080506245) (-48)) (f_norm 4907094006485221 (-47)) (f_norm 5107873625810141 (-45)) (f_norm (-7920489108905793) (-47)) f_radius_km) (f_norm 736354688152109 (-36)) (f_norm 1152921504606847 (-61)) = true.
Proof. vm_compute. reflexivity. Qed.
(* test_static.py:559 testhaversine *)
Example geo_14 : is_near (fhaversine L (f_norm 3761209376296141 (-46)) (f_norm (-4818851601286431) (-51)) (f_norm 7522559490080637 (-47)) (f_norm (-1205275850275029) (-49)) f_radius_km) (f_norm 2334666046828865 (-54)) (f_norm 1152921504606847 (-61)) = true.
Proof. vm_compute. reflexivity. Qed.
(* test_static.py:564 testplanar *)
Example geo_15 : is_near (fplanar L (f_norm 53 (0)) (f_norm 2 (0)) (f_norm 466192938973117 (-43)) (f_norm 2251800939585155 (-50)) f_SMAJ_AXIS) (f_norm 4680997750232545 (-55)) (f_norm 944473296573929 (-74)) = true.
Proof. vm_compute. reflexivity. Qed.
(* test_static.py:567 testplanar *)
Example geo_16 : is_near (fplanar L (f_norm 53 (0)) (f_norm 2 (0)) (f_norm 1864772072551817 (-45)) (f_norm 4503622145368633 (-51)) f_SMAJ_AXIS) (f_norm 2925623600417115 (-51)) (f_norm 944473296573929 (-74)) = true.
Proof. vm_compute. reflexivity. Qed.
(* test_static.py:570 testplanar *)
Example geo_17 : is_near (fplanar L (f_norm 53 (0)) (f_norm 2 (0)) (f_norm 1864775239145305 (-45)) (f_norm 4503824807351865 (-51)) f_SMAJ_AXIS) (f_norm 1828514749333027 (-47)) (f_norm 944473296573929 (-74)) = true.
Proof. vm_compute. reflexivity. Qed.
(* test_static.py:574 testbearing *)
Example geo_18 : is_near (fbearing L (f_norm 7209981528443453 (-47)) (f_norm (-678354693872681) (-48)) (f_norm 3743969033972613 (-46)) (f_norm (-658651445502935) (-48))) (f_norm 21398478983167 (-44)) (f_norm 7378697629483821 (-67)) = true.
Proof. vm_compute. reflexivity. Qed.
(* test_static.py:576 testbearing *)
Example geo_19 : is_near (fbearing L (f_norm 7210185597801569 (-47)) (f_norm (-678354693872681) (-48)) (f_norm 7210185597801569 (-47)) (f_norm (-658651445502935) (-48))) (f_norm 791408336611429 (-43)) (f_norm 7378697629483821 (-67)) = true.
Proof. vm_compute. reflexivity. Qed.
(* test_static.py:578 testbearing *)
Example geo_20 : is_near (fbearing L (f_norm 7209981528443453 (-47)) (f_norm (-678354693872681) (-48)) (f_norm 2406962894596997 (-46)) (f_norm 1982287523484795 (-45))) (f_norm 194792428283183 (-41)) (f_norm 7378697629483821 (-67)) = true.
Proof. vm_compute. reflexivity. Qed.
(* test_static.py:580 testbearing *)
Example geo_21 : is_near (fbearing L (f_norm (-3559251080506245) (-48)) (f_norm 4907094006485221 (-47)) (f_norm (-4809633295799157) (-47)) (f_norm 6794589202063169 (-47))) (f_norm 83952307575333 (-39)) (f_norm 7378697629483821 (-67)) = true.
Proof. vm_compute. reflexivity. Qed.
(* test_static.py:584 testarea *)
Example geo_22 : is_near (farea L (f_norm 7209981528443453 (-47)) (f_norm (-678354693872681) (-48)) (f_norm 3743969033972613 (-46)) (f_norm (-658651445502935) (-48)) f_radius_km) (f_norm 1154009691264857 (-40)) (f_norm 7378697629483821 (-67)) = true.
Proof. vm_compute. reflexivity. Qed.
(* test_static.py:586 testarea *)
Example geo_23 : is_near (farea L (f_norm 3763517984093313 (-46)) (f_norm (-5049106599003047) (-51)) (f_norm 7524972641202597 (-47)) (f_norm (-2479147636511405) (-50)) f_radius_km) (f_norm 2454799566888973 (-49)) (f_norm 7378697629483821 (-67)) = true.
Proof. vm_compute. reflexivity. Qed.
(* test_static.py:588 testarea *)
Example geo_24 : is_near (farea L (f_norm 1889353553891311 (-45)) (f_norm (-3020446489688137) (-50)) (f_norm 3745685400122913 (-46)) (f_norm (-6269861186089359) (-52)) f_radius_km) (f_norm 4912209154479961 (-40)) (f_norm 7378697629483821 (-67)) = true.
Proof. vm_compute. reflexivity. Qed.
(* test_static.py:590 testarea *)
Example geo_25 : is_near (farea L (f_norm (-3559251080506245) (-48)) (f_norm 4907094006485221 (-47)) (f_norm (-4809633295799157) (-47)) (f_norm 6794589202063169 (-47)) f_radius_km) (f_norm 3505006656096305 (-30)) (f_norm 7378697629483821 (-67)) = true.
Proof. vm_compute. reflexivity. Qed.
