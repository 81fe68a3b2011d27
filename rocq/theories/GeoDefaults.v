(* The signatures of the geodesic helpers: which arguments may be left out, and
   what they then are.  None stands for an argument that is left out; the
   functions themselves are those of Geo.v (over the real numbers) and FGeo.v
   (in binary64). *)
From Coq Require Import Reals.
From Verif Require Import PyFloat Geo FGeo.

(* a parameter with a default value: nmeahelpers.py:82-88, 332-338, 466-472, 600-606, 670-676 *)
Definition given_or {A} (arg : option A) (default : A) : A :=
  match arg with Some v => v | None => default end.

(* nmeahelpers.py:82-88 area *)
Definition area_call (lat1 lon1 lat2 lon2 : R) (radius : option R) : R :=
  area lat1 lon1 lat2 lon2 (given_or radius (WGS84_SMAJ_AXIS / 1000)%R).
(* nmeahelpers.py:466-472 haversine *)
Definition haversine_call (lat1 lon1 lat2 lon2 : R) (radius : option R) : result R :=
  haversine lat1 lon1 lat2 lon2 (given_or radius (WGS84_SMAJ_AXIS / 1000)%R).
(* nmeahelpers.py:670-676 planar *)
Definition planar_call (lat1 lon1 lat2 lon2 : R) (radius : option R) : result R :=
  planar lat1 lon1 lat2 lon2 (given_or radius WGS84_SMAJ_AXIS).
(* nmeahelpers.py:600-606 llh2ecef *)
Definition llh2ecef_call (lat lon height : R) (a f : option R) : result (R * R * R) :=
  llh2ecef lat lon height (given_or a WGS84_SMAJ_AXIS) (given_or f WGS84_FLATTENING).
(* nmeahelpers.py:332-338 ecef2llh *)
Definition ecef2llh_call (x y z : R) (a f : option R) : result (R * R * R) :=
  ecef2llh x y z (given_or a WGS84_SMAJ_AXIS) (given_or f WGS84_FLATTENING).

(* nmeahelpers.py:82-88 area *)
Definition farea_call (L : libm) (lat1 lon1 lat2 lon2 : fl) (radius : option fl) : result fl :=
  farea L lat1 lon1 lat2 lon2 (given_or radius f_radius_km).
(* nmeahelpers.py:466-472 haversine *)
Definition fhaversine_call (L : libm) (lat1 lon1 lat2 lon2 : fl) (radius : option fl) : result fl :=
  fhaversine L lat1 lon1 lat2 lon2 (given_or radius f_radius_km).
(* nmeahelpers.py:670-676 planar *)
Definition fplanar_call (L : libm) (lat1 lon1 lat2 lon2 : fl) (radius : option fl) : result fl :=
  fplanar L lat1 lon1 lat2 lon2 (given_or radius f_SMAJ_AXIS).
(* nmeahelpers.py:600-606 llh2ecef *)
Definition fllh2ecef_call (L : libm) (lat lon height : fl) (a f : option fl) : result (fl * fl * fl) :=
  fllh2ecef L lat lon height (given_or a f_SMAJ_AXIS) (given_or f f_FLATTENING).
(* nmeahelpers.py:332-338 ecef2llh *)
Definition fecef2llh_call (L : libm) (x y z : fl) (a f : option fl) : result (fl * fl * fl) :=
  fecef2llh L x y z (given_or a f_SMAJ_AXIS) (given_or f f_FLATTENING).
