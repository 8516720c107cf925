(** * Wave heights in other units

    metar/sea_state.py:114-132: [self._height.converted(factor)]; the height
    in feet is [in_feet] of Base.v. *)
From Verif Require Import PyFloat Utils Base.

Definition in_centimeters (v : option float) := converted v M_TO_CM.
Definition in_decimeters (v : option float) := converted v M_TO_DM.
Definition in_inches (v : option float) := converted v M_TO_IN.
