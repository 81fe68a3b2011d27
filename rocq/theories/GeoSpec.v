(* Vocabulary for the spherical/ellipsoidal claims (C62-C65), independent of
   the model: points of the sphere as unit vectors, angles as polar angles. *)
From Coq Require Import Reals.
Open Scope R_scope.

(* degrees to radians *)
Definition radians (d : R) : R := d * (PI / 180).

Definition vec := (R * R * R)%type.
Definition dot (p q : vec) : R :=
  let '(a, b, c) := p in let '(d, e, f) := q in a * d + b * e + c * f.
Definition vadd (p q : vec) : vec :=
  let '(a, b, c) := p in let '(d, e, f) := q in (a + d, b + e, c + f).
Definition vscale (k : R) (p : vec) : vec :=
  let '(a, b, c) := p in (k * a, k * b, k * c).

(* the point of the unit sphere at a latitude and longitude in degrees; it is
   also the outward normal there *)
Definition sphere_point (lat lon : R) : vec :=
  (cos (radians lat) * cos (radians lon),
   cos (radians lat) * sin (radians lon),
   sin (radians lat)).

(* the unit vectors pointing east and north at a point: the derivatives of
   sphere_point in longitude (divided by cos lat) and in latitude *)
Definition east (lat lon : R) : vec :=
  (- sin (radians lon), cos (radians lon), 0).
Definition north (lat lon : R) : vec :=
  (- sin (radians lat) * cos (radians lon),
   - sin (radians lat) * sin (radians lon),
   cos (radians lat)).

(* t is the angle, in (-pi, pi], of the point (x, y) of the plane; the origin
   has angle 0 *)
Definition polar_angle (x y t : R) : Prop :=
  - PI < t <= PI /\
  x = sqrt (x * x + y * y) * cos t /\
  y = sqrt (x * x + y * y) * sin t /\
  (x = 0 -> y = 0 -> t = 0).

(* v lies on the ellipsoid of revolution with semi-axes a (equatorial) and b *)
Definition on_ellipsoid (a b : R) (v : vec) : Prop :=
  let '(x, y, z) := v in (x * x + y * y) / (a * a) + z * z / (b * b) = 1.
