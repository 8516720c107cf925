(** * Specification of property C57: unit conversions

    The conversion factors are those of the units' own definitions, not those
    of utils/conversions.py. *)
From Coq Require Import String Ascii.
From Coq Require Import List NArith ZArith Bool Lia QArith Qabs.
From Verif Require Import PyBase PyFloat SpecNum Utils Base Accessors.
Import ListNotations.
Local Open Scope string_scope.
Local Open Scope list_scope.
Local Open Scope Q_scope.

(** A binary64 number that is zero or of a magnitude between 2^-300 and
    2^300, whatever its sign. *)
Definition usual (x : float) : Prop :=
  fvalid x /\ exists q, fvalue x = Some q
    /\ (q == 0 \/ (/ inject_Z (2 ^ 300) <= Qabs q /\ Qabs q <= inject_Z (2 ^ 300))).

(** [f] multiplies every such number by [k], with a relative error of at most
    [tol]; an absent value stays absent. *)
Definition scales (f : option float -> option float) (k tol : Q) : Prop :=
  f None = None
  /\ forall x q, usual x -> fvalue x = Some q ->
     exists y r, f (Some x) = Some y /\ fvalue y = Some r /\ Qabs (r - q * k) <= tol * Qabs (q * k).

(** [f] maps [q] to [k * q + b], with an error of at most [tol] times the sum
    of the magnitudes of the two terms. *)
Definition shifts (f : option float -> option float) (k b tol : Q) : Prop :=
  f None = None
  /\ forall x q, usual x -> fvalue x = Some q ->
     exists y r, f (Some x) = Some y /\ fvalue y = Some r
       /\ Qabs (r - (k * q + b)) <= tol * (Qabs (k * q) + Qabs b).

(** Exact factors: rounding is the only error. *)
Definition rounding : Q := 1 # 10 ^ 15.

(** Metres: a kilometre is 1000 m, a nautical mile 1852 m, a foot 0.3048 m,
    an inch 0.0254 m.
    Hectopascals: an inch of mercury is 33.863886 hPa, a millibar 1 hPa, a bar
    1000 hPa, an atmosphere 1013.25 hPa.
    Knots: 1852 metres an hour; a statute mile is 1609.344 m.
    Degrees: pi (to twenty decimals) radians and 200 gradians are 180 degrees; the value of
    a direction does not depend on its being variable. *)
Definition metre_units : list ((option float -> option float) * Q * Q) :=
  [(in_kilometers, 1 # 1000, rounding); (in_sea_miles, 1 # 1852, rounding);
   (in_feet, 10000 # 3048, rounding); (in_centimeters, 100, rounding);
   (in_decimeters, 10, rounding); (in_inches, 10000 # 254, 1 # 10 ^ 6)].
Definition hectopascal_units : list ((option float -> option float) * Q * Q) :=
  [(in_inHg, 1000000 # 33863886, 1 # 10 ^ 6); (in_mbar, 1, rounding);
   (in_bar, 1 # 1000, rounding); (in_atm, 100 # 101325, rounding)].
Definition knot_units : list ((option float -> option float) * Q * Q) :=
  [(in_mps, 1852 # 3600, 1 # 10 ^ 8); (in_kph, 1852 # 1000, rounding);
   (in_miph, 1852000 # 1609344, 1 # 10 ^ 6)].
Definition degree_units (variable : bool) : list ((option float -> option float) * Q * Q) :=
  [(fun v => in_radians (mk_dir v variable), (314159265358979323846 # 10 ^ 20) * (1 # 180), rounding);
   (fun v => in_gradians (mk_dir v variable), 200 # 180, 2 # 10 ^ 9)].

(** Celsius, kelvin, Fahrenheit and Rankine, both ways. *)
Definition celsius_units : list ((option float -> option float) * Q * Q * Q) :=
  [(in_kelvin, 1, 27315 # 100, rounding); (in_fahrenheit, 9 # 5, 32, rounding);
   (in_rankine, 9 # 5, (27315 # 100) * (9 # 5), rounding);
   (option_map kelvin_to_celsius, 1, - (27315 # 100), rounding);
   (option_map fahrenheit_to_celsius, 5 # 9, - (160 # 9), rounding);
   (option_map rankine_to_celsius, 5 # 9, - (27315 # 100), rounding)].
