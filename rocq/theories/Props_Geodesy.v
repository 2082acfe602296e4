(** * Properties: Geodesy

    Theorems only: each is closed by the lemma of the same name in L_Geodesy.v. *)
From Coq Require Import ZArith List Lia Bool String Ascii Reals Lra.
From Verif Require Import Geodesy SpecGeodesy GeodesyLemmas GeodesyEst GeodesyStep GeodesyInv L_Geodesy.
Import ListNotations. Open Scope Z_scope.

(** C57. The functions agree with the earth of WGS-84: there is an ellipsoid with the equatorial radius of WGS-84, and with its polar radius to within a tenth of a micrometre, such that the geocentric place given for a latitude, longitude and altitude is reached from a point of the ellipsoid by going up the altitude along the direction that the latitude and longitude name, which is perpendicular to the ellipsoid at that point. *)
Theorem geodesy_place : exists b, (Rabs (b - polar_radius) <= 0.0000001)%R /\ forall latitude longitude altitude, exists foot k,
  on_ellipsoid b foot /\ (0 < k)%R /\ outward b foot = scale k (up latitude longitude) /\ geodetic_lla_to_ecef latitude longitude altitude = plus foot (scale altitude (up latitude longitude)).
Proof. exact geodesy_place_pf. Qed.
Print Assumptions geodesy_place.

(** C57. A geocentric place, at least 6000 km from the centre of the earth and however far away, that is converted to latitude, longitude and altitude and back comes back within 2 millimetres. The latitude lies between the poles and the longitude in the half-open circle. *)
Theorem geodesy_there_and_back : forall x y z, (6000000 <= distance earth_centre (x, y, z))%R ->
  let '(latitude, longitude, altitude) := ecef_to_geodetic_lla x y z in
  (- (PI / 2) <= latitude <= PI / 2 /\ - PI < longitude <= PI)%R /\ (distance (geodetic_lla_to_ecef latitude longitude altitude) (x, y, z) <= 0.002)%R.
Proof. exact geodesy_there_and_back_pf. Qed.
Print Assumptions geodesy_there_and_back.

(** C57. A latitude, longitude and altitude (above the ellipsoid by more than 2 millimetres) that is converted to a geocentric place and back comes back: the latitude within half a billionth of a radian, the altitude within 2 millimetres, and the longitude exactly, except that it is lost at the poles. *)
Theorem geodesy_back_and_there : forall latitude longitude altitude, (- (PI / 2) <= latitude <= PI / 2)%R -> (- PI < longitude <= PI)%R -> (0.002 < altitude)%R ->
  let '(x, y, z) := geodetic_lla_to_ecef latitude longitude altitude in
  let '(latitude', longitude', altitude') := ecef_to_geodetic_lla x y z in
  (Rabs (latitude' - latitude) <= 0.0000000005 /\ Rabs (altitude' - altitude) <= 0.002 /\ (Rabs latitude < PI / 2 -> longitude' = longitude))%R.
Proof. exact geodesy_back_and_there_pf. Qed.
Print Assumptions geodesy_back_and_there.

(** C57. Places on the equator and on the axis convert exactly: latitude 0 and the distance from the axis less the equatorial radius, or latitude 90 degrees. Places mirrored in the plane of the equator have the opposite latitude and the same longitude and altitude. (For every place but the centre.) *)
Theorem geodesy_symmetry :
  (forall x y, (x <> 0 \/ y <> 0)%R -> exists longitude, ecef_to_geodetic_lla x y 0 = (0, longitude, sqrt (x * x + y * y) - equatorial_radius)%R) /\
  (forall z, (0 < z)%R -> exists longitude altitude, ecef_to_geodetic_lla 0 0 z = (PI / 2, longitude, altitude)%R) /\
  (forall x y z latitude longitude altitude, (0 < z)%R -> ecef_to_geodetic_lla x y z = (latitude, longitude, altitude) -> ecef_to_geodetic_lla x y (- z) = (- latitude, longitude, altitude)%R).
Proof. exact geodesy_symmetry_pf. Qed.
Print Assumptions geodesy_symmetry.

(** A place 400 km above Greenwich latitude meets the hypotheses of both directions; the axis at the north pole too. *)
Example geodesy_example : (6000000 <= distance earth_centre (4000000, 3000, 5200000) /\ - (PI / 2) <= 0.9 <= PI / 2 /\ - PI < 0 <= PI /\ 0.002 < 400000)%R.
Proof.
  split; [|pose proof PI2_1; pose proof PI_RGT_0; lra]. unfold distance, earth_centre. rewrite <- (sqrt_square 6000000) by lra. apply sqrt_le_1_alt. lra.
Qed.
