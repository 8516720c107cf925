(** * aeromet_py/reports/models/base *)
From Coq Require Import String Ascii.
From Coq Require Import List NArith ZArith Bool Lia.
From Coq Require Import Floats.SpecFloat.
From Verif Require Import PyBase PyRegex AeroRegex PyFloat PyTime Utils.
Import ListNotations.
Open Scope list_scope.

(** The environment a report is parsed in: the year and month that
    [datetime.utcnow()] returns (base/time.py:29-35) and the tables of
    database/stations.py and database/countries.py. *)
Record env := mk_env {
  now_year : Z;
  now_month : Z;
  stations : list (list str);
  countries : list (str * str)
}.

(** ** base/group.py *)

(** Group.__init__, group.py:16-19 *)
Definition group_code (code : option str) : option str :=
  option_map (replace (py "_") (py " ")) code.

(** Group.__len__, group.py:27-31 *)
Definition group_len (code : option str) : nat :=
  match code with Some c => length c | None => 0 end.

(** GroupList, group.py:51-102.  [gl_n] is the iterator cursor. *)
Record grouplist (A : Type) := mk_gl {
  gl_n : nat;
  gl_max : nat;
  gl_list : list A
}.
Arguments mk_gl {A}.
Arguments gl_n {A}.
Arguments gl_max {A}.
Arguments gl_list {A}.

(** group.py:55-58 *)
Definition gl_new {A} (max_items : nat) : grouplist A := mk_gl 0 max_items [].

(** __len__, group.py:82-83 *)
Definition gl_len {A} (g : grouplist A) : nat := length (gl_list g).

(** add, group.py:85-92 *)
Definition gl_add {A} (x : A) (g : grouplist A) : result (grouplist A) :=
  if Nat.leb (gl_max g) (length (gl_list g)) then Raise RangeError
  else Ok (mk_gl (gl_n g) (gl_max g) (gl_list g ++ [x])).

(** __next__, group.py:66-73; [None] is StopIteration. *)
Definition gl_next {A} (g : grouplist A) : option A * grouplist A :=
  if Nat.leb (length (gl_list g)) (gl_n g)
  then (None, mk_gl 0 (gl_max g) (gl_list g))
  else (nth_error (gl_list g) (gl_n g), mk_gl (S (gl_n g)) (gl_max g) (gl_list g)).

(** __getitem__, group.py:75-80 (Python list indexing for negative indices). *)
Definition gl_get {A} (g : grouplist A) (i : Z) : result A :=
  if (Z.of_nat (gl_max g) <=? i)%Z then Raise RangeError
  else
    let i' := if (i <? 0)%Z then (i + Z.of_nat (length (gl_list g)))%Z else i in
    if (i' <? 0)%Z then Raise IndexError
    else match nth_error (gl_list g) (Z.to_nat i') with
         | Some x => Ok x
         | None => Raise IndexError
         end.

(** A [for] loop over the list whose body may stop it: [body x] returns
    [Some b] to leave the loop with [b].  Group.__iter__ returns the object
    itself (group.py:63-64), so the cursor is where the last loop left it.
    [fuel] bounds the number of [__next__] calls; [gl_for] gives one more than
    the number of items, which is always enough. *)
Fixpoint gl_for_fuel {A B} (fuel : nat) (body : A -> option B) (g : grouplist A)
  : option B * grouplist A :=
  match fuel with
  | O => (None, g)
  | S f =>
      match gl_next g with
      | (None, g') => (None, g')
      | (Some x, g') => match body x with
                        | Some b => (Some b, g')
                        | None => gl_for_fuel f body g'
                        end
      end
  end.
Definition gl_for {A B} (body : A -> option B) (g : grouplist A) : option B * grouplist A :=
  gl_for_fuel (S (length (gl_list g))) body g.

(** [\[f(x) for x in group_list\]] *)
Fixpoint gl_collect_fuel {A} (fuel : nat) (g : grouplist A) : list A * grouplist A :=
  match fuel with
  | O => ([], g)
  | S f => match gl_next g with
           | (None, g') => ([], g')
           | (Some x, g') => let (l, g'') := gl_collect_fuel f g' in (x :: l, g'')
           end
  end.
Definition gl_collect {A} (g : grouplist A) : list A * grouplist A :=
  gl_collect_fuel (S (length (gl_list g))) g.

(** ** base/numeric.py *)

(** Numeric.__str__, numeric.py:13-17 *)
Definition numeric_str (v : option float) : str :=
  match v with None => [] | Some x => format_fixed 1 x end.

(** Numeric.converted with a factor, numeric.py:35-39.  Every factor used is
    non-zero, hence true. *)
Definition converted (v : option float) (factor : float) : option float :=
  option_map (fun x => fmul x factor) v.

(** Numeric.converted with a function, numeric.py:41-42 *)
Definition converted_by (v : option float) (f : float -> float) : option float :=
  option_map f v.

(** The [if self._value] test of the __str__ methods. *)
Definition vtruthy (v : option float) : bool :=
  match v with Some x => ftruthy x | None => false end.

(** [str(numeric)] with a unit suffix when the value is true: distance.py:24-28,
    pressure.py:21-25, temperature.py:28-32, wind.py:154-158. *)
Definition numeric_str_unit (unit : str) (v : option float) : str :=
  if vtruthy v then numeric_str v ++ unit else numeric_str v.

(** [float(code)] with ValueError turned into [None]. *)
Definition float_or_none (code : str) : option float := parse_float code.

(** ** base/distance.py *)

(** Distance.__init__, distance.py:10-22 *)
Definition distance_new (code : option str) : option float :=
  let code := match code with None => py "////" | Some c => c end in
  let code := if str_eqb code (py "9999") then py "10000" else code in
  float_or_none code.

Definition distance_str (v : option float) : str := numeric_str_unit (py " m") v.

(** distance.py:30-48 *)
Definition in_kilometers (v : option float) := converted v M_TO_KM.
Definition in_sea_miles (v : option float) := converted v M_TO_SMI.
Definition in_feet (v : option float) := converted v M_TO_FT.

(** ** base/pressure.py *)

(** Pressure.__init__, pressure.py:10-19 *)
Definition pressure_new (code : option str) : option float :=
  float_or_none (match code with None => py "////" | Some c => c end).
Definition pressure_str (v : option float) : str := numeric_str_unit (py " hPa") v.
(** pressure.py:27-50 *)
Definition in_inHg (v : option float) := converted v HPA_TO_INHG.
Definition in_mbar (v : option float) := converted v HPA_TO_MBAR.
Definition in_bar (v : option float) := converted v HPA_TO_BAR.
Definition in_atm (v : option float) := converted v HPA_TO_ATM.

(** ** base/temperature.py *)

Definition f10 : float := Eval vm_compute in float_of_Z 10.

(** Temperature.__init__, temperature.py:10-26 *)
Definition temperature_new (code : option str) : result (option float) :=
  let code := match code with
              | None => py "///"
              | Some c => if mem c [py "//"; py "///"] then py "///" else c
              end in
  let code := if Nat.eqb (length (replace (py "-") [] code)) 2 then code ++ py "0" else code in
  if Nat.eqb (length (replace (py "-") [] code)) 3
  then Ok (option_map (fun x => fdiv x f10) (float_or_none code))
  else Raise AssertionError.

Definition temperature_str (v : option float) : str :=
  numeric_str_unit (degree_sign ++ py "C") v.
(** temperature.py:39-52 *)
Definition in_kelvin (v : option float) := converted_by v celsius_to_kelvin.
Definition in_fahrenheit (v : option float) := converted_by v celsius_to_fahrenheit.
Definition in_rankine (v : option float) := converted_by v celsius_to_rankine.

(** ** base/wind.py *)

(** COMPASS_DIRS, wind.py:12-29, in source order. *)
Definition COMPASS_DIRS : list (str * (float * float)) := Eval vm_compute in
  [(py "NNE", (flit "11.25", flit "33.75"));
   (py "NE", (flit "33.75", flit "56.25"));
   (py "ENE", (flit "56.25", flit "78.75"));
   (py "E", (flit "78.75", flit "101.25"));
   (py "ESE", (flit "101.25", flit "123.75"));
   (py "SE", (flit "123.75", flit "146.25"));
   (py "SSE", (flit "146.25", flit "168.75"));
   (py "S", (flit "168.75", flit "191.25"));
   (py "SSW", (flit "191.25", flit "213.75"));
   (py "SW", (flit "213.75", flit "236.25"));
   (py "WSW", (flit "236.25", flit "258.75"));
   (py "W", (flit "258.75", flit "281.25"));
   (py "WNW", (flit "281.25", flit "303.75"));
   (py "NW", (flit "303.75", flit "326.25"));
   (py "NNW", (flit "326.25", flit "348.75"));
   (py "N", (flit "348.75", flit "11.25"))].

Record direction := mk_dir {
  dir_value : option float;
  dir_variable : bool
}.

(** Direction.__init__, wind.py:35-53 *)
Definition direction_new (code : option str) : result direction :=
  let code := match code with
              | None => py "///"
              | Some c => if str_eqb c (py "//") then py "///" else c
              end in
  let code := if Nat.eqb (length code) 2 then code ++ py "0" else code in
  if Nat.eqb (length code) 3 then
    match float_or_none code with
    | Some f => Ok (mk_dir (Some f) false)
    | None => Ok (mk_dir None (str_eqb code (py "VRB")))
    end
  else Raise AssertionError.

(** Direction.__str__, wind.py:55-62 *)
Definition direction_str (d : direction) : str :=
  if dir_variable d then py "variable wind"
  else if vtruthy (dir_value d) then numeric_str (dir_value d) ++ degree_sign
  else numeric_str (dir_value d).

(** [round(x)] of a positive float (ties to even). *)
Definition fround (x : float) : Z :=
  match x with
  | S754_finite s m e => let (n, d) := frac_of m e in
                         let q := round_half_even n d in if s then (- q)%Z else q
  | _ => 0%Z
  end.

(** Direction.from_cardinal, wind.py:64-88.  [code] is never [None] here. *)
Definition from_cardinal (code : str) : result direction :=
  if str_eqb code (py "N") then direction_new (Some (py "360"))
  else match assoc code COMPASS_DIRS with
       | Some (a, b) =>
           (* sum([a, b]) / 2 *)
           let mean := fround (fdiv (fadd a b) (float_of_Z 2)) in
           direction_new (Some (Z_pad 3 mean))
       | None => Raise ValueError
       end.

Definition f348_75 : float := Eval vm_compute in flit "348.75".
Definition f11_25 : float := Eval vm_compute in flit "11.25".

(** Direction.cardinal, wind.py:90-104.  [self.converted(1)] is the value itself. *)
Definition cardinal (d : direction) : option str :=
  match converted (dir_value d) (float_of_Z 1) with
  | None => None
  | Some value =>
      if fleb f348_75 value || fltb value f11_25 then Some (py "N")
      else match find (fun '(_, (a, b)) => fleb a value && fltb value b) COMPASS_DIRS with
           | Some (k, _) => Some k
           | None => None
           end
  end.

(** wind.py:116-124 *)
Definition in_radians (d : direction) := converted (dir_value d) DEGREES_TO_RADIANS.
Definition in_gradians (d : direction) := converted (dir_value d) DEGREES_TO_GRADIANS.

(** Speed.__init__, wind.py:138-152 *)
Definition speed_new (code : option str) : result (option float) :=
  let code := match code with
              | None => py "///"
              | Some c => if str_eqb c (py "//") then py "///" else c
              end in
  let code := if Nat.eqb (length code) 2 then py "0" ++ code else code in
  if Nat.leb 3 (length code) then Ok (float_or_none code) else Raise AssertionError.

Definition speed_str (v : option float) : str := numeric_str_unit (py " kt") v.
(** wind.py:165-178 *)
Definition in_mps (v : option float) := converted v KNOT_TO_MPS.
Definition in_kph (v : option float) := converted v KNOT_TO_KPH.
Definition in_miph (v : option float) := converted v KNOT_TO_MIPH.

(** Wind.__str__, wind.py:198-212 *)
Definition wind_str (d : direction) (speed : option float) : str :=
  let card := match cardinal d with Some c => c | None => [] end in
  let dir := if vtruthy (dir_value d)
             then py "(" ++ direction_str d ++ py ")" else direction_str d in
  let s := card ++ py " " ++ dir ++ py " " ++ speed_str speed in
  strip (re_sub r_SPACES (py " ") s None).

(** Wind._mps2kt, wind.py:214-224 *)
Definition mps2kt (value : option str) : str :=
  match value with
  | None => py "///"                                  (* TypeError *)
  | Some v => match parse_float v with
              | None => py "///"                      (* ValueError *)
              | Some x => repr (fmul x MPS_TO_KNOT)
              end
  end.

(** ** base/cloud.py *)

(** SKY_COVER, cloud.py:11-22 *)
Definition SKY_COVER : list (str * str) :=
  [(py "SKC", py "clear"); (py "CLR", py "clear"); (py "NSC", py "clear");
   (py "NCD", py "clear"); (py "FEW", py "a few"); (py "SCT", py "scattered");
   (py "BKN", py "broken"); (py "OVC", py "overcast"); (py "///", py "undefined");
   (py "VV", py "indefinite ceiling")].

(** CLOUD_TYPE, cloud.py:24-41 *)
Definition CLOUD_TYPE : list (str * str) :=
  [(py "AC", py "altocumulus"); (py "ACC", py "altocumulus castellanus");
   (py "ACSL", py "standing lenticulas altocumulus"); (py "AS", py "altostratus");
   (py "CB", py "cumulonimbus"); (py "CBMAM", py "cumulonimbus mammatus");
   (py "CCSL", py "standing lenticular cirrocumulus"); (py "CC", py "cirrocumulus");
   (py "CI", py "cirrus"); (py "CS", py "cirrostratus"); (py "CU", py "cumulus");
   (py "NS", py "nimbostratus"); (py "SC", py "stratocumulus"); (py "ST", py "stratus");
   (py "SCSL", py "standing lenticular stratocumulus"); (py "TCU", py "towering cumulus")].

(** _set_oktas, cloud.py:44-60 *)
Definition set_oktas (code : str) : str :=
  if str_eqb code (py "FEW") then py "1-2"
  else if str_eqb code (py "SCT") then py "3-4"
  else if str_eqb code (py "BKN") then py "5-7"
  else if str_eqb code (py "OVC") then py "8"
  else if mem code [py "NSC"; py "NCD"] then py "not specified"
  else py "undefined".

Record cloud := mk_cloud {
  cl_code : option str;
  cl_cover : option str;
  cl_oktas : option str;
  cl_type : option str;
  cl_height : option float         (* a Distance *)
}.

(** Cloud.from_metar, cloud.py:84-119 and Cloud.__init__, cloud.py:76-82.
    The cover group takes part in every match of the pattern. *)
Definition cloud_from_metar (m : option rmatch) : result cloud :=
  match m with
  | None => Ok (mk_cloud None None None None (distance_new None))
  | Some m =>
      match group m "cover" with
      | None => Raise TypeError
      | Some cover =>
          let finish height :=
            Ok (mk_cloud (group_code (Some (m_string m))) (assoc cover SKY_COVER)
                  (Some (set_oktas cover)) (dict_get CLOUD_TYPE (group m "type"))
                  (distance_new (Some height))) in
          match group m "height" with
          | None => finish (py "////")
          | Some h =>
              if str_eqb h (py "///") then finish (py "////")
              else
                x <- float_of_str (h ++ py "00") ;;
                finish (format_fixed 10 (fmul x FT_TO_M))
          end
      end
  end.

(** cloud.py:177-180 *)
Definition cl_feet (c : cloud) : option float := in_feet (cl_height c).

(** Cloud.__str__, cloud.py:121-145.  The branch cloud.py:139-140 is dead
    (the height was already found false). *)
Definition cloud_str (c : cloud) : str :=
  if truthy (cl_type c) && vtruthy (cl_height c) then
    fmt_opt (cl_cover c) ++ py " at " ++ numeric_str (cl_feet c) ++ py " feet of "
      ++ fmt_opt (cl_type c)
  else if vtruthy (cl_height c) then
    fmt_opt (cl_cover c) ++ py " at " ++ numeric_str (cl_feet c) ++ py " feet"
  else
    match cl_cover c with
    | Some cv => if mem cv [py "clear"; py "undefined"] then cv
                 else if str_eqb cv (py "indefinite ceiling") then cv
                 else cv ++ py " at undefined height"
    | None => py "None at undefined height"
    end.

Definition f1500 : float := Eval vm_compute in flit "1500.0".

(** CloudList.ceiling, cloud.py:198-209: comparing [None] raises TypeError. *)
Fixpoint ceiling_of (l : list cloud) : result bool :=
  match l with
  | [] => Ok false
  | c :: l' =>
      match cl_oktas c with
      | Some o =>
          if mem o [py "5-7"; py "8"] then
            match cl_feet c with
            | None => Raise TypeError
            | Some h => if fleb h f1500 then Ok true else ceiling_of l'
            end
          else ceiling_of l'
      | None => ceiling_of l'
      end
  end.

Definition cloudlist_new : grouplist cloud := gl_new 4.     (* cloud.py:195-196 *)

(** ** base/flight_rules.py *)

(** FLIGHT_RULES, flight_rules.py:8-14: ceiling and visibility limits. *)
Definition FLIGHT_RULES : list (str * (float * float)) := Eval vm_compute in
  [(py "VLIFR", (flit "60.0", flit "800.0"));
   (py "LIFR", (flit "150.0", flit "1600.0"));
   (py "IFR", (flit "300.0", flit "5000.0"));
   (py "MVFR", (flit "900.0", flit "8000.0"));
   (py "VFR", (flit "40000.0", flit "20000.0"))].

(** The ceiling of flight_rules.py:44-49: the first broken, overcast or
    indefinite layer, whether or not it has a height. *)
Fixpoint rules_ceiling (l : list cloud) : option float :=
  match l with
  | [] => None
  | c :: l' =>
      if match cl_cover c with
         | Some cv => mem cv [py "broken"; py "overcast"; py "indefinite ceiling"]
         | None => false
         end
      then cl_height c else rules_ceiling l'
  end.

(** FlightRulesMixin.flight_rules, flight_rules.py:40-65 *)
Definition flight_rules_of (prevailing : option float) (clouds : list cloud) : option str :=
  let ceiling := rules_ceiling clouds in
  match prevailing, ceiling with
  | None, None => None
  | _, _ =>
      match find (fun '(_, (c_lim, v_lim)) =>
                    match prevailing, ceiling with
                    | Some p, Some c => fltb c c_lim || fltb p v_lim
                    | Some p, None => fltb p v_lim
                    | None, Some c => fltb c c_lim
                    | None, None => true
                    end) FLIGHT_RULES with
      | Some (name, _) => Some name
      | None => None
      end
  end.

(** ** base/type.py *)

Definition TYPES : list (str * str) :=
  [(py "METAR", py "Meteorological Aerodrome Report");
   (py "SPECI", py "Special Aerodrome Report");
   (py "TAF", py "Terminal Aerodrome Forecast")].

Record report_type := mk_type { ty_code : option str; ty_type : option str }.

(** ReportType, type.py:16-21 *)
Definition type_new (code : str) : report_type :=
  mk_type (group_code (Some code)) (assoc code TYPES).
Definition type_str (t : report_type) : str :=
  fmt_opt (ty_type t) ++ py " (" ++ fmt_opt (ty_code t) ++ py ")".

(** ** base/modifier.py *)

Definition MODIFIERS : list (str * str) :=
  [(py "COR", py "Correction"); (py "CORR", py "Correction"); (py "AMD", py "Amendment");
   (py "NIL", py "Missing report"); (py "AUTO", py "Automatic report");
   (py "TEST", py "Testing report"); (py "FINO", py "Missing report")].

Record modifier := mk_mod { mo_code : option str; mo_desc : option str }.

(** Modifier.__init__, modifier.py:23-25 *)
Definition modifier_new (code : option str) : modifier :=
  mk_mod (group_code code) (dict_get MODIFIERS code).
(** modifier.py:27-31 *)
Definition modifier_str (m : modifier) : str :=
  match mo_desc m with None => [] | Some d => lower d end.

(** ** base/station.py *)

Record station := mk_station { st_code : option str; st_row : list (option str) }.

Definition none8 : list (option str) := repeat None 8.

(** Station.__init__ and _get_data with type "ICAO" (index 1), station.py:22-35 *)
Definition station_new (e : env) (code : option str) : station :=
  mk_station (group_code code)
    (match code with
     | None => none8
     | Some c =>
         match find (fun row => match nth_error row 1 with
                                | Some x => str_eqb c x | None => false end) (stations e) with
         | Some row => map Some row
         | None => none8
         end
     end).

Definition st_field (s : station) (i : nat) : option str :=
  match nth_error (st_row s) i with Some x => x | None => None end.
(** station.py:45-83 *)
Definition st_name s := st_field s 0.
Definition st_icao s := st_field s 1.
Definition st_iata s := st_field s 2.
Definition st_synop s := st_field s 3.
Definition st_latitude s := st_field s 4.
Definition st_longitude s := st_field s 5.
Definition st_elevation s := st_field s 6.
Definition st_country (e : env) s := dict_get (countries e) (st_field s 7).

(** Station.__str__, station.py:37-43 *)
Definition station_str (e : env) (s : station) : str :=
  py "Name: " ++ fmt_opt (st_name s) ++ py " | " ++
  py "Coordinates: " ++ fmt_opt (st_latitude s) ++ py " " ++ fmt_opt (st_longitude s)
  ++ py " | " ++ py "Elevation: " ++ fmt_opt (st_elevation s) ++ py " m MSL | " ++
  py "Country: " ++ fmt_opt (st_country e s).

(** ** base/time.py *)

Record time := mk_time { t_code : option str; t_dt : datetime }.

Definition opt_default {A} (d : A) (o : option A) : A :=
  match o with Some x => x | None => d end.

(** Time.__init__ without a datetime, time.py:24-53.
    ["{}{:02d}{}{}{}".format(year, month, day, hour, minute)] then strptime. *)
Definition time_new (e : env) (code minute hour day : option str) (month year : option Z)
  : result time :=
  let year := opt_default (now_year e) year in
  let month := opt_default (now_month e) month in
  let day := opt_default (py "01") day in
  let hour := opt_default (py "00") hour in
  let minute := opt_default (py "00") minute in
  t <- strptime (Z_str year ++ Z_pad 2 month ++ day ++ hour ++ minute) ;;
  Ok (mk_time (group_code code) t).

(** Time(time=t), time.py:26-27 *)
Definition time_at (t : datetime) : time := mk_time None t.
Definition time_at_code (code : str) (t : datetime) : time :=
  mk_time (group_code (Some code)) t.

(** Time.from_metar, time.py:55-77 *)
Definition time_from_metar (e : env) (m : option rmatch) (year month : option Z)
  : result time :=
  match m with
  | None => time_new e None None None None month year
  | Some m => time_new e (Some (m_string m)) (group m "min") (group m "hour")
                       (group m "day") month year
  end.

Definition time_str (t : time) : str := dt_str (t_dt t).     (* time.py:79-80 *)

(** ** base/change_indicator.py *)

Definition CHANGE_TRANSLATIONS : list (str * str) :=
  [(py "NOSIG", py "no significant changes"); (py "BECMG", py "becoming");
   (py "TEMPO", py "temporary"); (py "PROB30", py "probability 30%");
   (py "PROB40", py "probability 40%")].

(** ChangeIndicator.__init__, change_indicator.py:20-36: code and translation. *)
Definition change_indicator_new (m : option rmatch) : result (option str * option str) :=
  match m with
  | None => Ok (None, None)
  | Some m =>
      let s := m_string m in
      let code := group_code (Some s) in
      match assoc s CHANGE_TRANSLATIONS with
      | Some t => Ok (code, Some t)
      | None =>
          if starts_with (py "PROB") s then
            match split_on 95%N s with
            | c0 :: c1 :: _ =>
                match assoc c0 CHANGE_TRANSLATIONS, assoc c1 CHANGE_TRANSLATIONS with
                | Some a, Some b => Ok (code, Some (a ++ py " " ++ b))
                | None, _ => Raise KeyError
                | _, None => Raise KeyError
                end
            | c0 :: _ => match assoc c0 CHANGE_TRANSLATIONS with
                         | Some _ => Raise IndexError
                         | None => Raise KeyError
                         end
            | [] => Raise IndexError
            end
          else Ok (code, None)
      end
  end.

(** change_indicator.py:38-42 *)
Definition translation_str (t : option str) : str :=
  match t with Some s => s | None => [] end.

(** ** base/__init__.py: parse_section *)

(** A handler: the pattern and the bound method it calls on a match. *)
Record handler (S : Type) := mk_handler {
  h_regexp : regex;
  h_handle : rmatch -> S -> result S
}.
Arguments mk_handler {S}.
Arguments h_regexp {S}.
Arguments h_handle {S}.

(** [list.remove(x)]: drops the first equal element. *)
Fixpoint list_remove (x : str) (l : list str) : list str :=
  match l with
  | [] => []
  | y :: l' => if str_eqb x y then l' else y :: list_remove x l'
  end.

(** The inner loop, __init__.py:42-50: the first handler that matches and
    how many handlers were tried ([counter]). *)
Fixpoint first_match {S} (hs : list (handler S)) (counter : nat) (group : str)
  : option (nat * handler S * rmatch) :=
  match hs with
  | [] => None
  | h :: hs' =>
      match re_match (h_regexp h) group with
      | Some m => Some (Datatypes.S counter, h, m)
      | None => first_match hs' (Datatypes.S counter) group
      end
  end.

(** The outer loop, __init__.py:38-50: [index], [unparsed] and the object
    state the handlers act on. *)
Fixpoint parse_groups {S} (hs : list (handler S)) (groups : list str) (index : nat)
         (unparsed : list str) (st : S) : result (S * list str) :=
  match groups with
  | [] => Ok (st, unparsed)
  | g :: gs =>
      let unparsed := unparsed ++ [g] in
      match first_match (skipn index hs) 0 g with
      | Some (counter, h, m) =>
          st' <- h_handle h m st ;;
          parse_groups hs gs (index + counter) (list_remove g unparsed) st'
      | None => parse_groups hs gs index unparsed st
      end
  end.

(** parse_section, __init__.py:23-52 *)
Definition parse_section {S} (hs : list (handler S)) (section : str) (st : S)
  : result (S * list str) :=
  parse_groups hs (split_on 32%N section) 0 [] st.

(** ** base/report.py *)

(** Report.__init__, report.py:17-23: the raw code. *)
Definition normalise (code : str) : str :=
  replace (py "=") [] (re_sub r_NORMALISE (py " ") (strip code) None).

Definition report_raw_code (code : str) : result str :=
  match code with
  | [] => Raise AssertionError
  | _ => Ok (normalise code)
  end.

(** StringAttributeMixin._concatenate_string, string_attribute.py:21-22 *)
Definition concat_string (buffer obj : str) : str := buffer ++ obj ++ [10%N].
