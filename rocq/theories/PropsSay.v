(** * Property C62: statements only *)
From Coq Require Import String Ascii.
From Coq Require Import List NArith ZArith QArith Bool Lia.
From Verif Require Import PyBase PyFloat PyTime Base MetarGroups Trend Metar Taf SpecNum SpecTime TimeFacts SpecSay ProofSay ProofValues PropsFailures PropsAbsent.
Import ListNotations.
Local Open Scope string_scope.
Local Open Scope nat_scope.
Local Open Scope list_scope.

(** Every finite number is written with one decimal, to the nearest one. *)
Theorem C62_number : forall x q, fvalue x = Some q -> written (format_fixed 1 x) q.
Proof. exact number_written. Qed.
Print Assumptions C62_number.

(** Every moment of the calendar is written in full. *)
Theorem C62_clock : forall d, real_time d -> clock_said d (dt_str d).
Proof. exact clock_says. Qed.
Print Assumptions C62_clock.

(** The texts of the groups of an accepted METAR and of its trends say their
    values.  Missing from the full statement: values that are zero, which
    lose their unit or are not mentioned ([C62_refuted]). *)
Theorem C62_metar_partial : forall e code y mo tr x, metar_parse e code y mo tr = Ok x -> metar_said x.
Proof. exact metar_says. Qed.
Print Assumptions C62_metar_partial.

(** The same for an accepted TAF and its changes. *)
Theorem C62_taf_partial : forall e code y mo tr x, taf_parse e code y mo tr = Ok x -> taf_said x.
Proof. exact taf_says. Qed.
Print Assumptions C62_taf_partial.

(** ** Examples *)

Definition num_text (s r : string) : bool :=
  match parse_float (py s) with Some x => str_eqb (format_fixed 1 x) (py r) | None => false end.
Example C62_numbers :
  forallb (fun '(s, r) => num_text s r)
    [("0.25", "0.2"); ("0.75", "0.8"); ("0.35", "0.3"); ("1234.56", "1234.6"); ("-7", "-7.0"); ("0", "0.0"); ("-0.01", "-0.0"); ("99.96", "100.0")] = true.
Proof. vm_compute. reflexivity. Qed.
Example C62_moments : real_time (mk_dt 2024 2 29 6 5) /\ dt_str (mk_dt 2024 2 29 6 5) = py "2024-02-29 06:05:00".
Proof. split; [apply valid_dt_spec; reflexivity|reflexivity]. Qed.

Definition metar_texts (x : metar) : list str :=
  [metar_wind_str (c_wind (me_common x)); prevailing_str (c_vis (me_common x)); wind_variation_str (me_wvar x);
   visibility_dir_str (me_minvis x); temperatures_str (me_temps x); pressure_str (pr_value (me_press x));
   recent_weather_str (me_recent x); sea_state_str (me_sea x)]
  ++ map runway_range_str (gl_list (me_rvr x)) ++ map weather_str (gl_list (c_weathers (me_common x)))
  ++ map cloud_str (gl_list (c_clouds (me_common x))).
Fixpoint texts_eqb (a b : list str) : bool :=
  match a, b with [], [] => true | x :: a, y :: b => str_eqb x y && texts_eqb a b | _, _ => false end.

Example C62_metar_case : exists x, read_in 2026 11
    "METAR SEQM 162000Z 24008G20KT 210V290 4000 1500NE R06/M0400U -TSRA BR FEW003CB BKN/// M01/M07 A2992 RETSRA W15/S2" = Ok x
  /\ texts_eqb (metar_texts x)
      [py "WSW (240.0" ++ degree_sign ++ py ") 8.0 kt gust of 20.0 kt"; py "4.0 km";
       py "from SSW (210.0" ++ degree_sign ++ py ") to WNW (290.0" ++ degree_sign ++ py ")";
       py "1.5 km to NE (45.0" ++ degree_sign ++ py ")";
       py "temperature: -1.0" ++ degree_sign ++ py "C | dewpoint: -7.0" ++ degree_sign ++ py "C"; py "1013.2 hPa"; py "thunderstorm rain";
       py "temperature 15.0" ++ degree_sign ++ py "C, no significant wave height, smooth (wavelets)";
       py "runway 06 below of 400.0 m, increasing"; py "light thunderstorm rain"; py "mist"; py "a few at 300.0 feet of cumulonimbus";
       py "broken at undefined height"] = true.
Proof. apply gives_ok. vm_compute. reflexivity. Qed.

Example C62_taf_case : exists x, read_taf 2026 11
    "TAF SEQM 162000Z 1700/1724 VRB03KT CAVOK TX20/1718Z TNM05/1706Z BECMG 1704/1706 06010MPS 1 1/2SM OVC010" = Ok x
  /\ texts_eqb ([metar_wind_str (c_wind (ta_common x)); prevailing_str (c_vis (ta_common x))]
        ++ map taf_temp_str (gl_list (ta_max x)) ++ map taf_temp_str (gl_list (ta_min x))
        ++ flat_map (fun p => let c := cf_common p in
             metar_wind_str (c_wind c) :: prevailing_str (c_vis c) :: map cloud_str (gl_list (c_clouds c))) (gl_list (ta_changes x)))
      [py "variable wind 3.0 kt"; py "Ceiling and Visibility OK"; py "20.0" ++ degree_sign ++ py "C at 2026-11-17 18:00:00";
       py "-5.0" ++ degree_sign ++ py "C at 2026-11-17 06:00:00";
       py "ENE (60.0" ++ degree_sign ++ py ") 19.4 kt"; py "2.8 km"; py "overcast at 1000.0 feet"] = true.
Proof. apply gives_ok. vm_compute. reflexivity. Qed.

(** Zero: no degree sign, knots, metres or hectopascals, no height of a cloud
    on the ground, no sea temperature of zero and no flat sea. *)
Theorem C62_refuted :
  (exists x, read_in 2026 11 "METAR SEQM 162000Z 00000KT 0000 R06/0000V0000 FEW000 00/00 Q0000 W00/H000" = Ok x
   /\ texts_eqb (metar_texts x)
       [py "N 0.0 0.0"; py "0.0 km"; []; []; py "temperature: 0.0 | dewpoint: 0.0"; py "0.0"; [];
        py "no temperature, no significant wave height, no sea state"; py "runway 06 0.0"; py "a few at undefined height"] = true)
  /\ (exists x, read_in 2026 11 "METAR SEQM 162000Z ///00" = Ok x
      /\ str_eqb (temperatures_str (me_temps x)) (py "temperature:  | dewpoint: 0.0") = true)
  /\ (exists x, read_taf 2026 11 "TAF SEQM 162000Z 1700/1724 00000KT 9999 FEW020 TX00/1718Z TNM05/1706Z" = Ok x
      /\ texts_eqb (map taf_temp_str (gl_list (ta_max x))) [py "0.0 at 2026-11-17 18:00:00"] = true).
Proof. conjs; apply gives_ok; vm_compute; reflexivity. Qed.
Print Assumptions C62_refuted.
