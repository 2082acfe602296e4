(** * Specification: places on and around the earth (property C57)

    Geocentric coordinates in metres, angles in radians. *)
From Coq Require Import Reals.
Open Scope R_scope.

Definition Place : Type := (R * R * R)%type.
Definition plus (p q : Place) : Place := let '(x, y, z) := p in let '(x', y', z') := q in (x + x', y + y', z + z').
Definition scale (k : R) (p : Place) : Place := let '(x, y, z) := p in (k * x, k * y, k * z).
Definition earth_centre : Place := (0, 0, 0).
Definition distance (p q : Place) : R :=
  let '(x, y, z) := p in let '(x', y', z') := q in sqrt ((x - x') * (x - x') + (y - y') * (y - y') + (z - z') * (z - z')).

(** The earth of WGS-84: equatorial radius, and polar radius from the flattening 1 : 298.257223563 *)
Definition equatorial_radius : R := 6378137.
Definition polar_radius : R := equatorial_radius * (1 - / 298.257223563).
(** an ellipsoid of revolution with the equatorial radius of the earth and polar radius [b] *)
Definition on_ellipsoid (b : R) (p : Place) : Prop :=
  let '(x, y, z) := p in (x * x + y * y) / (equatorial_radius * equatorial_radius) + z * z / (b * b) = 1.
(** perpendicular to the ellipsoid at [p], outwards (half the gradient of the equation) *)
Definition outward (b : R) (p : Place) : Place :=
  let '(x, y, z) := p in (x / (equatorial_radius * equatorial_radius), y / (equatorial_radius * equatorial_radius), z / (b * b)).
(** the unit vector that points at this latitude above the equator and this longitude *)
Definition up (latitude longitude : R) : Place := (cos latitude * cos longitude, cos latitude * sin longitude, sin latitude).
