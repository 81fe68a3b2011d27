(* What the claims about the binary64 geodesy (C78-C81) assume of the C library
   and the vocabulary of their statements.  [rval] is the real value of a
   finite float, [fdata x] says that x is a finite binary64 number. *)
From Coq Require Import Reals.
From Flocq Require Import Core.
From Verif Require Import PyFloat FloatProofs FGeo GeoSpec.
Local Open Scope R_scope.

(* x is a finite float less than one unit in the last place away from r *)
Definition faithful (x : fl) (r : R) : Prop :=
  fdata x /\ Rabs (rval x - r) < ulp radix2 fexp64 r.

(* The C library is accurate to less than one unit in the last place, has the
   domain errors and the exact cases of the C standard (annex F). *)
Record libm_ok (L : libm) : Prop := mkok {
  sin_ok : forall x, fdata x -> faithful (l_sin L x) (sin (rval x));
  cos_ok : forall x, fdata x -> faithful (l_cos L x) (cos (rval x));
  asin_ok : forall x, fdata x -> -1 <= rval x <= 1 -> faithful (l_asin L x) (asin (rval x));
  asin_dom : forall x, fdata x -> rval x < -1 \/ 1 < rval x -> l_asin L x = S754_nan;
  acos_ok : forall x, fdata x -> -1 <= rval x <= 1 -> faithful (l_acos L x) (acos (rval x));
  acos_dom : forall x, fdata x -> rval x < -1 \/ 1 < rval x -> l_acos L x = S754_nan;
  (* an angle of the point (x, y) in [-pi, pi]; -pi and pi name the same
     direction, which the sign of a zero y selects *)
  atan2_ok : forall y x, fdata y -> fdata x ->
    exists t, - PI <= t <= PI /\
      rval x = sqrt (rval x * rval x + rval y * rval y) * cos t /\
      rval y = sqrt (rval x * rval x + rval y * rval y) * sin t /\
      faithful (l_atan2 L y x) t;
  pow_ok : forall x, fdata x -> Rabs (rval x) <= 10 ^ 15 ->
    faithful (l_pow L x (f_norm 2 0)) (rval x * rval x);
  sin_zero : l_sin L fzero = fzero;
  cos_zero : l_cos L fzero = fone;
  acos_one : l_acos L fone = fzero;
  atan2_zero : l_atan2 L fzero fzero = fzero
}.

(* ... and moreover cos is accurate to 0.6 units in the last place (as
   correctly rounded libraries, and glibc, are) *)
Definition cos_sharp (L : libm) : Prop := forall x, fdata x ->
  Rabs (rval (l_cos L x) - cos (rval x)) <= 6 / 10 * ulp radix2 fexp64 (cos (rval x)).

(* the floats a caller passes as coordinates in degrees *)
Definition latitude (x : fl) : Prop := fdata x /\ -90 <= rval x <= 90.
Definition longitude (x : fl) : Prop := fdata x /\ -180 <= rval x <= 180.

(* the angle between two points of the sphere, in radians *)
Definition angle_between (lat1 lon1 lat2 lon2 t : R) : Prop :=
  0 <= t <= PI /\ cos t = dot (sphere_point lat1 lon1) (sphere_point lat2 lon2).

(* a radius of a sphere, in any unit *)
Definition sphere_radius (r : fl) : Prop := fdata r /\ / 1000000 <= rval r <= 1000000000000.
