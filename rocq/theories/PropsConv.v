(** * Property C57 (unit conversions): statements only *)
From Coq Require Import String Ascii.
From Coq Require Import List NArith ZArith Bool Lia QArith Qabs.
From Coq Require Import Floats.SpecFloat.
From Verif Require Import PyBase PyFloat SpecNum Utils Base SpecConv ProofConv.
Import ListNotations.
Local Open Scope string_scope.
Local Open Scope list_scope.
Local Open Scope Q_scope.

(** Every unit of a distance is its value in metres times the factor of the
    unit's definition, up to the tolerance beside it, for every number that is
    zero or of a magnitude between 2^-300 and 2^300. *)
Theorem C57_distance : Forall (fun '(f, k, tol) => scales f k tol) metre_units.
Proof. exact metres. Qed.
Print Assumptions C57_distance.

(** The same for pressures, ... *)
Theorem C57_pressure : Forall (fun '(f, k, tol) => scales f k tol) hectopascal_units.
Proof. exact hectopascals. Qed.
Print Assumptions C57_pressure.

(** ... speeds, ... *)
Theorem C57_speed : Forall (fun '(f, k, tol) => scales f k tol) knot_units.
Proof. exact knots. Qed.
Print Assumptions C57_speed.

(** ... and directions. *)
Theorem C57_direction : forall b, Forall (fun '(f, k, tol) => scales f k tol) (degree_units b).
Proof. exact degrees. Qed.
Print Assumptions C57_direction.

(** Kelvin, Fahrenheit and Rankine from Celsius and back. *)
Theorem C57_temperature : Forall (fun '(f, k, b, tol) => shifts f k b tol) celsius_units.
Proof. exact celsius. Qed.
Print Assumptions C57_temperature.

(** Numbers the statements are about: zeros of both signs, whole numbers,
    fractions, negative ones. *)
Example C57_usual : Forall usual [S754_zero true; S754_zero false; flit "9999"; flit "-40"; flit "1013.25"; flit "0.1"].
Proof.
  repeat (apply Forall_cons || apply Forall_nil);
    (split; [vm_compute; reflexivity|eexists; split; [vm_compute; reflexivity|]]);
    first [left; vm_compute; reflexivity|right; vm_compute; split; discriminate].
Qed.

(** Values computed by the code: 100 m are 0.1 km, -40 C are -40 F, 180
    degrees are pi radians, the zero of Celsius is 273.15 K. *)
Example C57_case :
  in_kilometers (Some (flit "100")) = Some (flit "0.1")
  /\ in_fahrenheit (Some (flit "-40")) = Some (flit "-40")
  /\ in_radians (mk_dir (Some (flit "180")) false) = Some (flit "3.141592653589793")
  /\ in_kelvin (Some (S754_zero false)) = Some (flit "273.15")
  /\ in_miph (Some (flit "10")) = Some (flit "11.5078").
Proof. repeat split; vm_compute; reflexivity. Qed.
