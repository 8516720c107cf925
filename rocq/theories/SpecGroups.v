(** * Specifications: the groups of the code

    The documented form of every group as data, how it is written, and what
    it means.  Nothing here uses the decoding functions of the model; the
    tables are copied from the documentation of the classes. *)
From Coq Require Import String Ascii.
From Coq Require Import List NArith ZArith Bool Lia QArith.
From Verif Require Import PyBase PyFloat Base MetarGroups SpecNum.
Import ListNotations.
Open Scope list_scope.

Definition opt {A} (f : A -> str) (o : option A) : str :=
  match o with Some x => f x | None => [] end.
Definition flag (b : bool) (s : string) : str := if b then py s else [].
Arguments flag b s%string.
Definition opt_all {A} (P : A -> Prop) (o : option A) : Prop :=
  match o with Some x => P x | None => True end.

(** A documented table: code and meaning. *)
Definition table := list (string * string).
Definition code_of (x : string * string) : str := py (fst x).
Definition text_of (x : string * string) : str := py (snd x).

(** ** Wind *)

Inductive wdir := DirDeg (tens : N) | DirVrb | DirNone.
(** [above]: the P prefix; [wide]: three digits rather than two. *)
Inductive wspeed := Spd (above wide : bool) (n : N) | SpdNone (wide : bool).
Inductive wunits := KT | MPS.
Record wind_g := mk_wind_g {
  wg_dir : wdir;
  wg_speed : wspeed;
  wg_gust : option (bool * bool * N);
  wg_units : wunits
}.

Definition width (wide : bool) : nat := if wide then 3 else 2.

Definition wdir_code (d : wdir) : str :=
  match d with
  | DirDeg t => digits 2 t ++ py "0"
  | DirVrb => py "VRB"
  | DirNone => py "///"
  end.
Definition wspeed_code (s : wspeed) : str :=
  match s with
  | Spd p w n => flag p "P" ++ digits (width w) n
  | SpdNone w => if w then py "///" else py "//"
  end.
Definition wind_code (g : wind_g) : str :=
  wdir_code (wg_dir g) ++ wspeed_code (wg_speed g)
  ++ opt (fun '(p, w, n) => py "G" ++ flag p "P" ++ digits (width w) n) (wg_gust g)
  ++ match wg_units g with KT => py "KT" | MPS => py "MPS" end.

Definition two_or_three (w : bool) (n : N) : Prop := (n < 10 ^ N.of_nat (width w))%N.
Definition wind_wf (g : wind_g) : Prop :=
  match wg_dir g with DirDeg t => (t <= 36)%N | _ => True end
  /\ match wg_speed g with Spd _ w n => two_or_three w n | SpdNone _ => True end
  /\ opt_all (fun '(_, w, n) => two_or_three w n) (wg_gust g).

Definition degrees (d : wdir) : option Q :=
  match d with DirDeg t => Some (ofN (10 * t)) | _ => None end.
Definition is_vrb (d : wdir) : bool := match d with DirVrb => true | _ => false end.
Definition coded_speed (s : wspeed) : option Q :=
  match s with Spd _ _ n => Some (ofN n) | SpdNone _ => None end.
Definition coded_gust (g : option (bool * bool * N)) : option Q :=
  match g with Some (_, _, n) => Some (ofN n) | None => None end.

(** Knots, from metres per second. *)
Definition knots (q : option Q) : option Q :=
  option_map (fun x => x / (51444444 # 100000000))%Q q.

(** ** Wind variation *)

Record wvar_g := mk_wvar_g { vg_from : N; vg_to : N }.      (* tens of degrees *)
Definition wvar_code (g : wvar_g) : str :=
  digits 2 (vg_from g) ++ py "0V" ++ digits 2 (vg_to g) ++ py "0".
Definition wvar_wf (g : wvar_g) : Prop :=
  (1 <= vg_from g <= 36)%N /\ (1 <= vg_to g <= 36)%N.

(** ** Visibility *)

(** The eight points and their direction in degrees. *)
Definition points8 : list (string * Z) :=
  [("N", 360); ("NE", 45); ("E", 90); ("SE", 135); ("S", 180); ("SW", 225);
   ("W", 270); ("NW", 315)]%string%Z.

Inductive vis_g :=
| VisMeters (n : N) (dir : option (string * Z))
| VisMissing (dir : option (string * Z))
| VisCavok
(** [limit]: Some true is M, Some false is P.  Integer part (two digits?) and
    fraction. *)
| VisMiles (limit : option bool) (int : option (bool * N)) (frac : option (N * N))
| VisKm (limit : option bool) (two : bool) (n : N).

Definition limit_code (l : option bool) : str :=
  match l with Some true => py "M" | Some false => py "P" | None => [] end.
Definition one_or_two (two : bool) (n : N) : str := digits (if two then 2 else 1) n.
Definition dir8_code (d : option (string * Z)) : str := opt (fun x => py (fst x)) d.

(** The underscore stands for the space of a mixed number, which the program
    replaces before it splits the report into groups. *)
Definition vis_code (g : vis_g) : str :=
  match g with
  | VisMeters n d => digits 4 n ++ dir8_code d
  | VisMissing d => py "////" ++ dir8_code d
  | VisCavok => py "CAVOK"
  | VisMiles l i f =>
      limit_code l ++ opt (fun '(two, n) => one_or_two two n) i
      ++ (match i, f with Some _, Some _ => py "_" | _, _ => [] end)
      ++ opt (fun '(a, b) => digits 1 a ++ py "/" ++ digits 1 b) f ++ py "SM"
  | VisKm l two n => limit_code l ++ one_or_two two n ++ py "KM"
  end.

(** The same as it stands in the report. *)
Definition vis_spelled (g : vis_g) : str :=
  match g with
  | VisMiles l (Some (two, n)) (Some (a, b)) =>
      limit_code l ++ one_or_two two n ++ py " " ++ digits 1 a ++ py "/" ++ digits 1 b ++ py "SM"
  | _ => vis_code g
  end.

Definition vis_wf (g : vis_g) : Prop :=
  match g with
  | VisMeters n d => (n < 10000)%N /\ opt_all (fun x => In x points8) d
  | VisMissing d => opt_all (fun x => In x points8) d
  | VisCavok => True
  | VisMiles _ i f =>
      opt_all (fun '(two, n) => (n < 10 ^ (if two : bool then 2 else 1))%N) i
      /\ opt_all (fun '(a, b) => (a < 10)%N /\ (1 <= b < 10)%N) f
      /\ (i <> None \/ f <> None)
  | VisKm _ two n => (n < 10 ^ (if two then 2 else 1))%N
  end.

Definition miles (i : option (bool * N)) (f : option (N * N)) : Q :=
  (match i with Some (_, n) => ofN n | None => 0 end
   + match f with Some (a, b) => ofN a / ofN b | None => 0 end)%Q.

(** Metres, and the tolerance of the statement. *)
Definition vis_meters (g : vis_g) : option Q :=
  match g with
  | VisMeters n _ => Some (if N.eqb n 9999 then 10000#1 else ofN n)
  | VisMissing _ => None
  | VisCavok => Some (10000#1)
  | VisMiles _ i f => Some (miles i f * (1852#1))
  | VisKm _ _ n => Some (ofN n * (1000#1))
  end%Q.
Definition vis_dir (g : vis_g) : option (string * Z) :=
  match g with VisMeters _ d | VisMissing d => d | _ => None end.

Definition vis_degrees (g : vis_g) : option Q :=
  option_map (fun x => inject_Z (snd x)) (vis_dir g).

(** Minimum visibility: metres or slashes only. *)
Definition min_vis (g : vis_g) : Prop :=
  match g with VisMeters _ _ | VisMissing _ => True | _ => False end.

(** CAVOK, and the accuracy: exact except for miles. *)
Definition is_cavok (g : vis_g) : bool := match g with VisCavok => true | _ => false end.
Definition vis_close (g : vis_g) (v : option float) : Prop :=
  match g with
  | VisMiles _ _ _ => opt_within (1 # 10 ^ 6) v (vis_meters g)
  | _ => opt_num v (vis_meters g)
  end.

(** ** Runway visual range *)

Definition sides : table := [("R", "right"); ("L", "left"); ("C", "center")]%string.
Definition limits : table := [("M", "below of"); ("P", "above of")]%string.
Definition rvr_trends : table :=
  [("N", "no change"); ("U", "increasing"); ("D", "decreasing")]%string.

(** A runway designator and the name it is reported with. *)
Record runway_g := mk_runway { rn_number : N; rn_side : option (string * string) }.
Definition runway_code (r : runway_g) : str := digits 2 (rn_number r) ++ opt code_of (rn_side r).
Definition runway_wf (r : runway_g) : Prop :=
  (rn_number r < 100)%N /\ opt_all (fun x => In x sides) (rn_side r).
Definition runway_name (r : runway_g) : str :=
  match rn_side r with
  | Some s => digits 2 (rn_number r) ++ py " " ++ text_of s
  | None => if N.eqb (rn_number r) 88 then py "all runways"
            else if N.eqb (rn_number r) 99 then py "repeated"
            else digits 2 (rn_number r)
  end.

(** Number of digits and value. *)
Definition rvr_digits := (nat * N)%type.
Record rvr_g := mk_rvr_g {
  rg_runway : runway_g;
  rg_lim_low : option (string * string);
  rg_low : rvr_digits;
  rg_high : option (option (string * string) * rvr_digits);
  rg_feet : bool;
  rg_trend : option (string * string)
}.
Definition rvr_digits_code (x : rvr_digits) : str := digits (fst x) (snd x).
Definition rvr_digits_wf (x : rvr_digits) : Prop :=
  (2 <= fst x <= 4)%nat /\ (snd x < 10 ^ N.of_nat (fst x))%N.
Definition rvr_code (g : rvr_g) : str :=
  py "R" ++ runway_code (rg_runway g) ++ py "/" ++ opt code_of (rg_lim_low g)
  ++ rvr_digits_code (rg_low g)
  ++ opt (fun '(l, x) => py "V" ++ opt code_of l ++ rvr_digits_code x) (rg_high g)
  ++ flag (rg_feet g) "FT" ++ opt code_of (rg_trend g).
Definition rvr_wf (g : rvr_g) : Prop :=
  runway_wf (rg_runway g) /\ opt_all (fun x => In x limits) (rg_lim_low g)
  /\ rvr_digits_wf (rg_low g)
  /\ opt_all (fun '(l, x) => opt_all (fun y => In y limits) l /\ rvr_digits_wf x) (rg_high g)
  /\ opt_all (fun x => In x rvr_trends) (rg_trend g).
(** In metres; 9999 stands for ten kilometres as in the visibility groups. *)
Definition rvr_meters (feet : bool) (x : rvr_digits) : Q :=
  (if feet then ofN (snd x) * (3048 # 10000)
   else if N.eqb (snd x) 9999 then 10000#1 else ofN (snd x))%Q.

Definition high_limit (g : rvr_g) : option (string * string) :=
  match rg_high g with Some (l, _) => l | None => None end.
Definition high_meters (g : rvr_g) : option Q :=
  match rg_high g with Some (_, x) => Some (rvr_meters (rg_feet g) x) | None => None end.

(** ** Weather *)

Definition intensities : table :=
  [("-", "light"); ("+", "heavy"); ("-VC", "nearby light"); ("+VC", "nearby heavy");
   ("VC", "nearby")]%string.
Definition descriptors : table :=
  [("MI", "shallow"); ("PR", "partial"); ("BC", "patches of"); ("DR", "low drifting");
   ("BL", "blowing"); ("SH", "showers"); ("TS", "thunderstorm"); ("FZ", "freezing")]%string.
Definition precipitations : table :=
  [("DZ", "drizzle"); ("RA", "rain"); ("SN", "snow"); ("SG", "snow grains");
   ("IC", "ice crystals"); ("PL", "ice pellets"); ("GR", "hail"); ("GS", "snow pellets");
   ("UP", "unknown precipitation")]%string.
Definition obscurations : table :=
  [("BR", "mist"); ("FG", "fog"); ("FU", "smoke"); ("VA", "volcanic ash"); ("DU", "dust");
   ("SA", "sand"); ("HZ", "haze"); ("PY", "spray")]%string.
Definition others : table :=
  [("PO", "sand whirls"); ("SQ", "squalls"); ("FC", "funnel cloud"); ("SS", "sandstorm");
   ("DS", "dust storm")]%string.
Definition nsw : string * string := ("NSW", "nil significant weather")%string.

Inductive phenomenon :=
| PhPrec (x : string * string)
| PhObsc (x : string * string)
| PhOther (x : string * string)
| PhUnknown.                                     (* a single slash *)
Record weather_g := mk_weather_g {
  xg_int : option (string * string);
  xg_desc : option (string * string);
  xg_phen : option phenomenon
}.
Definition phenomenon_code (p : phenomenon) : str :=
  match p with PhPrec x | PhObsc x | PhOther x => code_of x | PhUnknown => py "/" end.
Definition weather_code (g : weather_g) : str :=
  opt code_of (xg_int g) ++ opt code_of (xg_desc g) ++ opt phenomenon_code (xg_phen g).
Definition phenomenon_wf (p : phenomenon) : Prop :=
  match p with
  | PhPrec x => In x precipitations
  | PhObsc x => In x obscurations
  | PhOther x => In x (others ++ [nsw])
  | PhUnknown => True
  end.
Definition weather_wf (g : weather_g) : Prop :=
  opt_all (fun x => In x intensities) (xg_int g)
  /\ opt_all (fun x => In x descriptors) (xg_desc g)
  /\ opt_all phenomenon_wf (xg_phen g).
Definition ph_prec (g : weather_g) : option str :=
  match xg_phen g with Some (PhPrec x) => Some (text_of x) | _ => None end.
Definition ph_obsc (g : weather_g) : option str :=
  match xg_phen g with Some (PhObsc x) => Some (text_of x) | _ => None end.
Definition ph_other (g : weather_g) : option str :=
  match xg_phen g with Some (PhOther x) => Some (text_of x) | _ => None end.

(** The present texts separated by single spaces. *)
Definition spaced (l : list (option str)) : str :=
  join (py " ") (flat_map (fun o => match o with Some s => [s] | None => [] end) l).

(** ** Recent weather *)

Record recent_g := mk_recent_g {
  eg_desc : option (string * string);
  eg_prec : option (string * string);
  eg_obsc : option (string * string);
  eg_other : option (string * string)
}.
Definition recent_obscurations : table :=
  filter (fun x => negb (String.eqb (fst x) "FU")) obscurations.
Definition recent_code (g : recent_g) : str :=
  py "RE" ++ opt code_of (eg_desc g) ++ opt code_of (eg_prec g) ++ opt code_of (eg_obsc g)
  ++ opt code_of (eg_other g).
Definition recent_wf (g : recent_g) : Prop :=
  opt_all (fun x => In x descriptors) (eg_desc g)
  /\ opt_all (fun x => In x precipitations) (eg_prec g)
  /\ opt_all (fun x => In x recent_obscurations) (eg_obsc g)
  /\ opt_all (fun x => In x others) (eg_other g).

(** ** Clouds *)

(** Code, cover text, oktas. *)
Definition covers : list (string * string * string) :=
  [("VV", "indefinite ceiling", "undefined"); ("CLR", "clear", "undefined");
   ("SKC", "clear", "undefined"); ("NSC", "clear", "not specified");
   ("NCD", "clear", "not specified"); ("FEW", "a few", "1-2"); ("SCT", "scattered", "3-4");
   ("BKN", "broken", "5-7"); ("OVC", "overcast", "8"); ("///", "undefined", "undefined")]%string.
Inductive cheight := HtHundreds (n : N) | HtSlashes | HtAbsent.
Inductive ctype := TyTCU | TyCB | TySlashes | TyAbsent.
Record cloud_g := mk_cloud_g {
  cg_cover : string * string * string;
  cg_height : cheight;
  cg_type : ctype
}.
Definition cheight_code (h : cheight) : str :=
  match h with HtHundreds n => digits 3 n | HtSlashes => py "///" | HtAbsent => [] end.
Definition ctype_code (t : ctype) : str :=
  match t with TyTCU => py "TCU" | TyCB => py "CB" | TySlashes => py "///" | TyAbsent => [] end.
Definition cloud_code (g : cloud_g) : str :=
  py (fst (fst (cg_cover g))) ++ cheight_code (cg_height g) ++ ctype_code (cg_type g).
(** "///" cannot be both type and height unless the height is written: three
    slashes after the cover are a height. *)
Definition cloud_wf (g : cloud_g) : Prop :=
  In (cg_cover g) covers
  /\ match cg_height g with HtHundreds n => (n < 1000)%N | _ => True end
  /\ ~ (cg_height g = HtAbsent /\ cg_type g = TySlashes).
Definition height_feet (h : cheight) : option Q :=
  match h with HtHundreds n => Some (ofN n * (100#1))%Q | _ => None end.
Definition height_meters (h : cheight) : option Q :=
  match h with HtHundreds n => Some (ofN n * (3048#100))%Q | _ => None end.
Definition type_text (t : ctype) : option str :=
  match t with
  | TyTCU => Some (py "towering cumulus") | TyCB => Some (py "cumulonimbus")
  | _ => None
  end.

(** ** Temperatures *)

(** The sign is written M or -. *)
Inductive tside := TValue (sign : option bool) (n : N) | TMissing (form : string).
Record temps_g := mk_temps_g { tg_temp : tside; tg_dewpt : tside }.
Definition tside_code (t : tside) : str :=
  match t with
  | TValue s n => match s with Some true => py "M" | Some false => py "-" | None => [] end
                  ++ digits 2 n
  | TMissing f => py f
  end.
Definition temps_code (g : temps_g) : str :=
  tside_code (tg_temp g) ++ py "/" ++ tside_code (tg_dewpt g).
Definition tside_wf (t : tside) : Prop :=
  match t with
  | TValue _ n => (n < 100)%N
  | TMissing f => In f ["//"; "XX"; "MM"]%string
  end.
Definition temps_wf (g : temps_g) : Prop := tside_wf (tg_temp g) /\ tside_wf (tg_dewpt g).
Definition celsius (t : tside) : option Q :=
  match t with
  | TValue None n => Some (ofN n)
  | TValue (Some _) n => Some (- ofN n)%Q
  | TMissing _ => None
  end.

(** The other scales, and a reading with its conversions. *)
Definition kelvin (q : Q) : Q := (q + (27315 # 100))%Q.
Definition fahrenheit (q : Q) : Q := (q * (9 # 5) + (32 # 1))%Q.
Definition rankine (q : Q) : Q := (q * (9 # 5) + (49167 # 100))%Q.
Definition temp_is (v : option float) (q : option Q) : Prop :=
  opt_num v q /\ opt_within (1 # 10 ^ 9) (in_kelvin v) (option_map kelvin q)
  /\ opt_within (1 # 10 ^ 9) (in_fahrenheit v) (option_map fahrenheit q)
  /\ opt_within (1 # 10 ^ 9) (in_rankine v) (option_map rankine q).

(** ** Pressure *)

Inductive pprefix := PfNone | PfA | PfQ | PfQNH.
Record press_g := mk_press_g { pg_prefix : pprefix; pg_value : option N; pg_ins : bool }.
Definition press_code (g : press_g) : str :=
  match pg_prefix g with PfNone => [] | PfA => py "A" | PfQ => py "Q" | PfQNH => py "QNH" end
  ++ match pg_value g with Some n => digits 4 n | None => py "////" end
  ++ flag (pg_ins g) "INS".
Definition press_wf (g : press_g) : Prop := opt_all (fun n => n < 10000)%N (pg_value g).

(** ** Windshear *)

Inductive ws_g := WsAll | WsRunway (r : runway_g).
(** Underscores stand for the spaces of the report. *)
Definition ws_token (g : ws_g) : str :=
  match g with WsAll => py "WS_ALL_RWY" | WsRunway r => py "WS_R" ++ runway_code r end.
Definition ws_code (g : ws_g) : str :=
  match g with WsAll => py "WS ALL RWY" | WsRunway r => py "WS R" ++ runway_code r end.
Definition ws_wf (g : ws_g) : Prop := match g with WsAll => True | WsRunway r => runway_wf r end.
(** Windshear groups do not give 88 and 99 a special meaning. *)
Definition ws_runway_name (r : runway_g) : str :=
  digits 2 (rn_number r)
  ++ match rn_side r with Some s => py " " ++ text_of s | None => [] end.

Definition ws_name_of (g : ws_g) : option str :=
  match g with WsAll => None | WsRunway r => Some (ws_runway_name r) end.
Definition ws_is_all (g : ws_g) : bool := match g with WsAll => true | WsRunway _ => false end.

(** ** Sea state *)

Definition sea_states : table :=
  [("0", "calm (glassy)"); ("1", "calm (rippled)"); ("2", "smooth (wavelets)");
   ("3", "slight"); ("4", "moderate"); ("5", "rough"); ("6", "very rough"); ("7", "high");
   ("8", "very high"); ("9", "phenomenal")]%string.
Inductive sea_part := SeaState (x : string * string) | SeaHeight (n : N).   (* decimetres *)
Record sea_g := mk_sea_g { sg_minus : bool; sg_temp : N; sg_part : sea_part }.
Definition sea_code (g : sea_g) : str :=
  py "W" ++ flag (sg_minus g) "M" ++ digits 2 (sg_temp g) ++ py "/"
  ++ match sg_part g with SeaState x => py "S" ++ code_of x | SeaHeight n => py "H" ++ digits 3 n end.
Definition sea_wf (g : sea_g) : Prop :=
  (sg_temp g < 100)%N
  /\ match sg_part g with SeaState x => In x sea_states | SeaHeight n => (n < 1000)%N end.
Definition sea_celsius (g : sea_g) : Q :=
  if sg_minus g then (- ofN (sg_temp g))%Q else ofN (sg_temp g).

Definition sea_height_dm (g : sea_g) : option Q :=
  match sg_part g with SeaHeight n => Some (ofN n / (10 # 1))%Q | SeaState _ => None end.
Definition sea_text_of (g : sea_g) : option str :=
  match sg_part g with SeaState x => Some (text_of x) | SeaHeight _ => None end.

(** ** Runway state *)

Definition deposits : table :=
  [("0", "clear and dry"); ("1", "damp"); ("2", "wet and water patches");
   ("3", "rime and frost covered (depth normally less than 1 mm)"); ("4", "dry snow");
   ("5", "wet snow"); ("6", "slush"); ("7", "ice"); ("8", "compacted or rolled snow");
   ("9", "frozen ruts or ridges");
   ("/", "type of deposit not reported (e.g. due to runway clearance in progress)")]%string.
(** Zero contamination has no documented meaning. *)
Definition contaminations : list (string * option string) :=
  [("0", None); ("1", Some "less than 10% of runway"); ("2", Some "11%-25% of runway");
   ("3", Some "reserved"); ("4", Some "reserved"); ("5", Some "26%-50% of runway");
   ("6", Some "reserved"); ("7", Some "reserved"); ("8", Some "reserved");
   ("9", Some "51%-100% of runway"); ("/", Some "not reported")]%string.
Definition special_depths : list (N * string) :=
  [(0, "less than 1 mm"); (91, "reserved"); (92, "10 cm"); (93, "15 cm"); (94, "20 cm");
   (95, "25 cm"); (96, "30 cm"); (97, "35 cm"); (98, "40 cm or more");
   (99, "runway(s) non-operational due to snow, slush, ice, large drifts or runway clearance, but depth not reported")]%N%string.
Definition depth_unknown : string :=
  "depth of deposit operationally not significant or not measurable".
Definition special_frictions : list (N * string) :=
  [(91, "breaking action poor"); (92, "breaking action medium/poor");
   (93, "breaking action medium"); (94, "breaking action medium/good");
   (95, "breaking action good"); (96, "reserved"); (97, "reserved"); (98, "reserved");
   (99, "breaking action unreliable")]%N%string.
Definition friction_unknown : string :=
  "breaking conditions not reported and/or runway not operational".

(** A number in decimal without leading zeros (at most two digits). *)
Definition plain2 (n : N) : str := if (n <? 10)%N then digits 1 n else digits 2 n.

Definition depth_text (d : option N) : str :=
  match d with
  | None => py depth_unknown
  | Some n => match find (fun x => N.eqb (fst x) n) special_depths with
              | Some x => py (snd x)
              | None => plain2 n ++ py " mm"
              end
  end.
Definition friction_text (d : option N) : str :=
  match d with
  | None => py friction_unknown
  | Some n => match find (fun x => N.eqb (fst x) n) special_frictions with
              | Some x => py (snd x)
              | None => py "0." ++ digits 2 n
              end
  end.

Inductive rstate :=
| RsCodes (dep : string * string) (cont : string * option string) (depth fric : option N)
| RsSnoclo
| RsClrd.
Record rs_g := mk_rs_g { sg_runway : option runway_g; sg_state : rstate }.
Definition two_code (n : option N) : str :=
  match n with Some n => digits 2 n | None => py "//" end.
Definition rs_code_of (g : rs_g) : str :=
  py "R" ++ opt runway_code (sg_runway g) ++ py "/"
  ++ match sg_state g with
     | RsCodes d c h f => code_of d ++ py (fst c) ++ two_code h ++ two_code f
     | RsSnoclo => py "SNOCLO"
     | RsClrd => py "CLRD//"
     end.
Definition rs_wf (g : rs_g) : Prop :=
  opt_all runway_wf (sg_runway g)
  /\ match sg_state g with
     | RsCodes d c h f => In d deposits /\ In c contaminations
                          /\ opt_all (fun n => n < 100)%N h /\ opt_all (fun n => n < 100)%N f
     | _ => True
     end.

Definition rs_deposit_of (s : rstate) : option str :=
  match s with RsCodes d _ _ _ => Some (text_of d) | _ => None end.
Definition rs_cont_of (s : rstate) : option str :=
  match s with RsCodes _ c _ _ => option_map (fun t => py t) (snd c) | _ => None end.
Definition rs_depth_of (s : rstate) : option str :=
  match s with RsCodes _ _ h _ => Some (depth_text h) | _ => None end.
Definition rs_friction_of (s : rstate) : option str :=
  match s with RsCodes _ _ _ f => Some (friction_text f) | _ => None end.
Definition is_snoclo (s : rstate) : bool := match s with RsSnoclo => true | _ => false end.
Definition is_clrd (s : rstate) : bool := match s with RsClrd => true | _ => false end.

(** ** Header groups *)

Definition type_words : list string := ["METAR"; "SPECI"; "TAF"]%string.
Definition types : table :=
  [("METAR", "Meteorological Aerodrome Report"); ("SPECI", "Special Aerodrome Report");
   ("TAF", "Terminal Aerodrome Forecast")]%string.
Definition is_upper (c : N) : Prop := (65 <= c <= 90)%N.
Definition is_alnum (c : N) : Prop := is_upper c \/ (48 <= c <= 57)%N.
Definition station_wf (s : str) : Prop :=
  exists a b c d, s = [a; b; c; d] /\ is_upper a /\ is_alnum b /\ is_alnum c /\ is_alnum d.
Definition modifiers : table :=
  [("COR", "Correction"); ("CORR", "Correction"); ("AMD", "Amendment");
   ("NIL", "Missing report"); ("AUTO", "Automatic report"); ("TEST", "Testing report");
   ("FINO", "Missing report")]%string.
