(** * Specifications: flight rules, CAVOK conditions, compass points

    Over exact rational numbers; the limits are those of the documentation. *)
From Coq Require Import String Ascii.
From Coq Require Import List NArith ZArith Bool Lia QArith.
From Verif Require Import PyBase PyRegex AeroRegex PyFloat Base MetarGroups SpecNum SpecGroups.
Import ListNotations.
Local Open Scope string_scope.
Local Open Scope nat_scope.
Local Open Scope list_scope.

(** ** Flight rules *)

(** Name, ceiling limit, visibility limit (metres), most restrictive first. *)
Definition rule_limits : list (string * Q * Q) :=
  [("VLIFR", 60 # 1, 800 # 1); ("LIFR", 150 # 1, 1600 # 1); ("IFR", 300 # 1, 5000 # 1);
   ("MVFR", 900 # 1, 8000 # 1); ("VFR", 40000 # 1, 20000 # 1)]%Q.

Definition below (o : option Q) (lim : Q) : bool :=
  match o with Some q => negb (Qle_bool lim q) | None => false end.

Definition category (ceiling vis : option Q) : option string :=
  option_map (fun l => fst (fst l))
    (find (fun '(_, c, v) => below ceiling c || below vis v) rule_limits).

(** How restrictive a category is: position in the table; no category is the
    least restrictive. *)
Definition rank (c : option str) : nat :=
  match c with
  | None => 5
  | Some s => if str_eqb s (py "VLIFR") then 0 else if str_eqb s (py "LIFR") then 1
              else if str_eqb s (py "IFR") then 2 else if str_eqb s (py "MVFR") then 3 else 4
  end.

(** The layer that makes the ceiling. *)
Definition is_ceiling (cover : option str) : bool :=
  existsb (fun s => opt_str_eqb cover (py s)) ["broken"; "overcast"; "indefinite ceiling"].
Definition ceiling_layer (l : list cloud) : option cloud :=
  find (fun c => is_ceiling (cl_cover c)) l.
Definition ceiling_height (l : list cloud) : option float :=
  match ceiling_layer l with Some c => cl_height c | None => None end.

(** ** Reports made of coded groups *)

(** The prevailing visibility of the report is absent or was decoded from a
    group. *)
Definition shows_vis (g : option vis_g) (v : visibility) : Prop :=
  match g with
  | None => v_vis v = None
  | Some g => vis_wf g /\ prevailing_new (re_match r_VISIBILITY (vis_code g)) = Ok v
  end.
Definition shows_clouds (gs : list cloud_g) (l : list cloud) : Prop :=
  Forall2 (fun g c => cloud_wf g /\ cloud_from_metar (re_match r_CLOUD (cloud_code g)) = Ok c) gs l.

Definition coded_vis (g : option vis_g) : option Q :=
  match g with Some g => vis_meters g | None => None end.

Definition cover_in (codes : list string) (g : cloud_g) : bool :=
  existsb (String.eqb (fst (fst (cg_cover g)))) codes.
Definition coded_ceiling (gs : list cloud_g) : option Q :=
  match find (cover_in ["BKN"; "OVC"; "VV"]) gs with
  | Some g => height_meters (cg_height g)
  | None => None
  end.

(** ** CAVOK conditions *)

Definition hundreds_of (g : cloud_g) : option N :=
  match cg_height g with HtHundreds n => Some n | _ => None end.

(** The conditions of a layer: no broken or overcast layer at or below 1500
    feet, no CB or TCU, nothing below 5000 feet, no vertical visibility
    without a height. *)
Definition layer_ok (g : cloud_g) : Prop :=
  (cover_in ["BKN"; "OVC"] g = true -> forall n, hundreds_of g = Some n -> (15 < n)%N)
  /\ cg_type g <> TyCB /\ cg_type g <> TyTCU
  /\ (forall n, hundreds_of g = Some n -> (50 <= n)%N)
  /\ ~ (cover_in ["VV"] g = true /\ hundreds_of g = None).

Definition cavok_conditions (weathers : list weather) (vis : option vis_g) (gs : list cloud_g) : Prop :=
  weathers = [] /\ (exists q, coded_vis vis = Some q /\ (10000 # 1 <= q)%Q)
  /\ gs <> [] /\ Forall layer_ok gs.

(** Layers on which the ceiling test compares a height that is there. *)
Definition ceiling_has_height (g : cloud_g) : Prop :=
  cover_in ["BKN"; "OVC"] g = true -> hundreds_of g <> None.

(** Vertical visibilities on which the identity test [is] does not matter:
    rejected anyway when it behaves as equality ([same]), with a height when
    it does not. *)
Definition vv_decided (same : bool) (g : cloud_g) : Prop :=
  cover_in ["VV"] g = true ->
  match hundreds_of g with
  | Some n => same = true -> (n < 50)%N
  | None => same = true
  end.

(** ** Compass points *)

Definition points16 : list string :=
  ["N"; "NNE"; "NE"; "ENE"; "E"; "ESE"; "SE"; "SSE"; "S"; "SSW"; "SW"; "WSW"; "W"; "WNW";
   "NW"; "NNW"].

(** [v] degrees lie in the sector of 22.5 degrees around the [i]-th point, up
    to whole turns. *)
Definition in_sector (i : nat) (v : Q) : Prop :=
  exists k : Z,
    ((45 # 2) * inject_Z (Z.of_nat i) - (45 # 4) <= v + (360 # 1) * inject_Z k
     < (45 # 2) * inject_Z (Z.of_nat i) + (45 # 4))%Q.

(** Zero or a normal number. *)
Definition normal (x : float) : Prop :=
  match x with
  | SpecFloat.S754_zero _ => True
  | SpecFloat.S754_finite _ m e => (2 ^ 52 <= Zpos m < 2 ^ 53 /\ -900 <= e <= 800)%Z
  | _ => False
  end.

(** ** Relations used in the statements *)

(** At most as high; an unknown value counts as unlimited. *)
Definition lower_or_equal (a b : option Q) : Prop :=
  match a, b with
  | Some x, Some y => (x <= y)%Q
  | Some _, None | None, None => True
  | None, Some _ => False
  end.

(** The report has no weather, 10 km of visibility or more, and clouds, none
    of them broken or overcast at or below 1500 feet: only the conditions on
    single layers remain to be looked at. *)
Definition cavok_but_layers (weathers : list weather) (vis : option vis_g) (gs : list cloud_g) : Prop :=
  weathers = [] /\ (exists q, coded_vis vis = Some q /\ (10000 # 1 <= q)%Q) /\ gs <> []
  /\ Forall (fun g => cover_in ["BKN"; "OVC"] g = true ->
                      forall n, hundreds_of g = Some n -> (15 < n)%N) gs.

(** Exactly one layer violates its conditions. *)
Definition one_bad_layer (gs : list cloud_g) : Prop :=
  exists l1 g l2, gs = l1 ++ g :: l2 /\ Forall layer_ok l1 /\ ~ layer_ok g /\ Forall layer_ok l2.
