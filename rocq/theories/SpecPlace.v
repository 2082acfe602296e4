(** * Specification: places through the C-DIS codec, in metres (property C57) *)
From Coq Require Import ZArith List Reals.
From Verif Require Import DisCommon DisWarfare DisEntity DisLogistics DisRadio DisPdu CdisCodec1 SpecFloatValue Geodesy SpecGeodesy.

(** the place a location of a PDU names *)
Definition place (l : Location) : Place := (f64_value (loc_x l), f64_value (loc_y l), f64_value (loc_z l)).
Definition numbers (l : Location) : Prop := f64_finite (loc_x l) /\ f64_finite (loc_y l) /\ f64_finite (loc_z l).
(** between 6320 and 6430 km from the centre of the earth: every place from 36 km below to 51 km above the surface *)
Definition around_the_surface (l : Location) : Prop := (6320000 <= distance earth_centre (place l) <= 6430000)%R.
(** The two conversions the program calls, in double precision, compute the functions of real numbers to a billionth of a radian and a millimetre. *)
Definition computes (g : Geo) : Prop :=
  (forall l, numbers l -> around_the_surface l ->
     let '(lat, lon, alt) := to_lla g (loc_x l) (loc_y l) (loc_z l) in
     let '(latitude, longitude, altitude) := ecef_to_geodetic_lla (f64_value (loc_x l)) (f64_value (loc_y l)) (f64_value (loc_z l)) in
     f64_finite lat /\ f64_finite lon /\ f64_finite alt /\ within 0.000000001 (f64_value lat) latitude /\ within 0.000000001 (f64_value lon) longitude /\ within 0.001 (f64_value alt) altitude) /\
  (forall lat lon alt, f64_finite lat -> f64_finite lon -> f64_finite alt -> (-2 <= f64_value lat <= 2)%R -> (-4 <= f64_value lon <= 4)%R -> (-100000 <= f64_value alt <= 100000)%R ->
     let '(x, y, z) := to_ecef g lat lon alt in
     (distance (place (MkLocation x y z)) (geodetic_lla_to_ecef (f64_value lat) (f64_value lon) (f64_value alt)) <= 0.001)%R).
(** the place a PDU reports: of its entity, detonation, shot, laser spot or antenna *)
Definition reported (b : PduBody) : option Location :=
  match b with
  | BEntityState x => Some (EntityState_location x)
  | BFire x => Some (Fire_location_in_world x)
  | BDetonation x => Some (Detonation_world_location x)
  | BDesignator x => Some (Designator_spot_location x)
  | BTransmitter x => Some (Transmitter_antenna_location x)
  | _ => None
  end.
