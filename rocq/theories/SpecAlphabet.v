(** * The characters and the length of a group: specification *)
From Coq Require Import String Ascii.
From Coq Require Import List NArith ZArith Bool Lia.
From Verif Require Import PyBase PyRegex AeroRegex Base MetarGroups Trend Metar Taf SpecText SpecKept.
Import ListNotations.
Local Open Scope string_scope.
Local Open Scope nat_scope.
Local Open Scope list_scope.

(** A to Z, a decimal digit, or one of + - / and the underscore that joins two
    words. *)
Definition coded (c : N) : Prop :=
  (65 <= c <= 90)%N \/ is_digit c = true \/ In c (py "+-/_").

(** The patterns of a METAR trend but for its indicator, and those of a TAF
    that are closed by an end mark. *)
Definition trend_patterns : list regex := [r_TREND_TIME_PERIOD; r_WIND; r_VISIBILITY; r_WEATHER; r_CLOUD].
Definition closed_taf_patterns : list regex :=
  [r_TYPE; r_T_AMD_COR; r_STATION; r_TIME; r_T_NIL; r_T_VALID; r_T_CANCELLED; r_T_WIND; r_WEATHER; r_CLOUD].
Definition closed_change_patterns : list regex := [r_T_VALID; r_T_WIND; r_VISIBILITY; r_WEATHER; r_CLOUD].

(** What a field may show: at most 19 characters, of the code or blanks. *)
Definition showable (c : str) : Prop := Forall (fun a => coded a \/ a = 32%N) c /\ length c <= 19.

(** All codes of a METAR body, and those of a TAF body but for the visibility
    and the temperatures. *)
Definition metar_fields (x : metar) : list str := code_of_field (ty_code (me_type x)) ++ metar_codes_before x ++ metar_codes_after x.
Definition taf_fields (x : taf) : list str :=
  code_of_field (ty_code (ta_type x)) ++ code_of_field (mo_code (ta_modifier x)) ++ code_of_field (st_code (ta_station x))
  ++ code_of_field (t_code (ta_time x)) ++ code_of_field (mo_code (mi_mod (ta_missing x))) ++ code_of_field (va_code (ta_valid x))
  ++ code_of_field (ca_code (ta_cancelled x)) ++ code_of_field (w_code (c_wind (ta_common x))) ++ common_codes (ta_common x).

(** The codes of a trend or a change but for its indicator with the times. *)
Definition weather_fields (c : common) : list str :=
  code_of_field (w_code (c_wind c)) ++ code_of_field (v_code (c_vis c)) ++ common_codes c.
