(* Geometry the solar algorithms are about, independent of the model: angles in degrees,
   directions as unit vectors in R^3, frames as orthonormal bases. *)
From Coq Require Import Reals.
Local Open Scope R_scope.

Definition sind (x : R) : R := sin (x * PI / 180).
Definition cosd (x : R) : R := cos (x * PI / 180).
Definition tand (x : R) : R := tan (x * PI / 180).

Definition vec : Type := (R * R * R)%type.
Definition dot (u v : vec) : R :=
  let '(a, b, c) := u in let '(x, y, z) := v in a * x + b * y + c * z.

(* Local equatorial frame: x towards the equator on the observer's meridian, y towards east,
   z towards the celestial north pole.  The hour angle is counted westwards. *)
Definition equatorial (declination hour_angle : R) : vec :=
  (cosd declination * cosd hour_angle, - (cosd declination * sind hour_angle), sind declination).

(* the observer's axes at a latitude, in that frame *)
Definition east : vec := (0, 1, 0).
Definition north (latitude : R) : vec := (- sind latitude, 0, cosd latitude).
Definition up (latitude : R) : vec := (cosd latitude, 0, sind latitude).

(* azimuth (clockwise from north) and elevation of a direction seen at a latitude *)
Definition horizontal_coordinates (latitude : R) (v : vec) (azimuth elevation : R) : Prop :=
  dot v east = sind azimuth * cosd elevation /\
  dot v (north latitude) = cosd azimuth * cosd elevation /\
  dot v (up latitude) = sind elevation.

(* a direction from longitude and latitude, in a frame whose x axis is the vernal equinox *)
Definition spherical (longitude latitude : R) : vec :=
  (cosd latitude * cosd longitude, cosd latitude * sind longitude, sind latitude).

(* rotation about the x axis: from ecliptic to equatorial coordinates at an obliquity *)
Definition ecliptic_to_equatorial (obliquity : R) (v : vec) : vec :=
  let '(x, y, z) := v in
  (x, y * cosd obliquity - z * sind obliquity, y * sind obliquity + z * cosd obliquity).

(* two angles in degrees denote the same direction *)
Definition same_angle (a b : R) : Prop := exists k : Z, a = b + 360 * IZR k.

(* Reference ellipsoid: meridian section with semi-axes 1 (equatorial) and b (polar).
   (x, y) is the point whose outward normal makes the angle [latitude] with the equator. *)
Definition ellipsoid_point (b latitude x y : R) : Prop :=
  x ^ 2 + (y / b) ^ 2 = 1 /\                              (* on the ellipse *)
  (exists k, 0 < k /\ x = k * cosd latitude /\ y / b ^ 2 = k * sind latitude).
     (* the gradient (2x, 2y/b^2) of the ellipse equation points along the vertical *)

(* a direction in the observer's east-north-up frame, from azimuth (clockwise from north) and
   angle from the vertical *)
Definition enu (azimuth zenith_angle : R) : vec :=
  (sind zenith_angle * sind azimuth, sind zenith_angle * cosd azimuth, cosd zenith_angle).

(* Atmospheric refraction in degrees as the code's comment describes it (NREL SPA eq. 42, with
   the pressure in pascal): P/1010hPa * 283/T * 1.02/(60 tan(e + 10.3/(e + 5.11))) *)
Definition refraction_argument (e : R) : R := e + 10.3 / (e + 5.11).
Definition refraction_formula (P T e : R) : R :=
  (P / 101000) * (283 / T) * (1.02 / 60) * (cosd (refraction_argument e) / sind (refraction_argument e)).

(* Parallax: the unit direction (declination, hour angle) of a body at distance 1/sin p earth
   radii, seen from the point at x earth radii from the axis and y above the equatorial plane:
   the vector from the observer to the body, in units of the body's distance. *)
Definition parallax_shift (declination hour_angle p x y : R) : vec :=
  (cosd declination * cosd hour_angle - x * sind p,
   - (cosd declination * sind hour_angle),
   sind declination - y * sind p).

(* the direction (declination, hour angle) points along v *)
Definition points_along (v : vec) (declination hour_angle : R) : Prop :=
  exists rho, 0 < rho /\
    let '(a, b, c) := v in let '(x, y, z) := equatorial declination hour_angle in
    a = rho * x /\ b = rho * y /\ c = rho * z.
