(** * The patterns of the program, verbatim

    utils/metar_regexp.py:1-102, utils/taf_regexp.py:1-46,
    utils/parser.py:17,40,42,62, base/report.py:22 and
    the [\s{2,}] of the __str__ methods (base/wind.py:209, metar/weather.py:91,
    metar/recent_weather.py:36). *)
From Coq Require Import String Ascii.
From Coq Require Import List NArith Bool.
From Verif Require Import PyBase PyRegex.
Import ListNotations.
Local Open Scope string_scope.

(** utils/metar_regexp.py *)
Definition p_TYPE := "^(?P<type>METAR|SPECI|TAF)$".
Definition p_STATION := "^(?P<station>[A-Z][A-Z0-9]{3})$".
Definition p_TIME :=
  "^(?P<day>0[1-9]|[12][0-9]|3[01])" ++
  "(?P<hour>[0-1]\d|2[0-4])" ++
  "(?P<min>[0-5]\d)Z$".
Definition p_MODIFIER := "^(?P<mod>COR(R)?|AMD|NIL|TEST|FINO|AUTO)$".
Definition p_WIND :=
  "^(?P<dir>([0-2][0-9]|3[0-6])0|///|VRB)" ++
  "P?(?P<speed>\d{2,3}|//|///)" ++
  "(G(P)?(?P<gust>\d{2,3}))?" ++
  "(?P<units>KT|MPS)$".
Definition p_WIND_VARIATION :=
  "^(?P<from>(0[1-9]|[12][0-9]|3[0-6])0)" ++ "V(?P<to>(0[1-9]|[12][0-9]|3[0-6])0)$".
Definition p_VISIBILITY :=
  "^((?P<vis>\d{4}|////)" ++
  "(?P<dir>[NSEW]([EW])?)?|" ++
  "(M|P)?(?P<integer>\d{1,2})?_?" ++
  "(?P<fraction>\d/\d)?" ++
  "(?P<units>SM|KM|M|U)|" ++
  "(?P<cavok>CAVOK))$".
Definition p_MINIMUM_VISIBILITY := "^(?P<vis>\d{4}|////)" ++ "(?P<dir>[NSEW]([EW])?)?$".
Definition p_RUNWAY_RANGE :=
  "^R(?P<name>\d{2}[RLC]?)/" ++
  "(?P<rvrlow>[MP])?" ++
  "(?P<low>\d{2,4})" ++
  "(V(?P<rvrhigh>[MP])?" ++
  "(?P<high>\d{2,4}))?" ++
  "(?P<units>FT)?" ++
  "(?P<trend>[NDU])?$".
Definition p_WEATHER :=
  "^(?P<int>(-|\+)VC|(-|\+)|VC)?" ++
  "(?P<desc>MI|PR|BC|DR|BL|SH|TS|FZ)?" ++
  "((?P<prec>DZ|RA|SN|SG|IC|PL|GR|GS|UP)|" ++
  "(?P<obsc>BR|FG|FU|VA|DU|SA|HZ|PY)|" ++
  "(?P<other>PO|SQ|FC|SS|DS|NSW|/))?$".
Definition p_CLOUD :=
  "^(?P<cover>VV|CLR|SKC|NSC|NCD|BKN|SCT|FEW|[O0]VC|///)" ++
  "(?P<height>\d{3}|///)?" ++
  "(?P<type>TCU|CB|///)?$".
Definition p_TEMPERATURES :=
  "^(?P<tsign>M|-)?" ++
  "(?P<temp>\d{2}|//|XX|MM)/" ++
  "(?P<dsign>M|-)?" ++
  "(?P<dewpt>\d{2}|//|XX|MM)$".
Definition p_PRESSURE := "^(?P<units>A|Q|QNH)?" ++ "(?P<press>\d{4}|\//\//)" ++ "(?P<units2>INS)?$".
Definition p_RECENT_WEATHER :=
  "^RE(?P<desc>MI|PR|BC|DR|BL|SH|TS|FZ)?" ++
  "(?P<prec>DZ|RA|SN|SG|IC|PL|GR|GS|UP)?" ++
  "(?P<obsc>BR|FG|VA|DU|SA|HZ|PY)?" ++
  "(?P<other>PO|SQ|FC|SS|DS)?$".
Definition p_WINDSHEAR := "^WS(?P<all>_ALL)?" ++ "_(RWY|R(?P<name>\d{2}[RCL]?))$".
Definition p_SEA_STATE :=
  "^W(?P<sign>M)?" ++
  "(?P<temp>\d{2})" ++
  "/(S(?P<state>\d)" ++
  "|H(?P<height>\d{3}))$".
Definition p_RUNWAY_STATE :=
  "^R(?P<name>\d{2}([RLC])?)?/(" ++
  "(?P<deposit>\d|/)" ++
  "(?P<cont>\d|/)" ++
  "(?P<depth>\d\d|//)" ++
  "(?P<fric>\d\d|//)|" ++
  "(?P<snoclo>SNOCLO)|" ++
  "(?P<clrd>CLRD//))$".
Definition p_CHANGE_INDICATOR := "^TEMPO|BECMG|NOSIG$".
Definition p_TREND_TIME_PERIOD :=
  "^(?P<prefix>FM|TL|AT)" ++ "(?P<hour>[01]\d|2[0-4])" ++ "(?P<min>[0-5]\d)$".

(** utils/taf_regexp.py *)
Definition p_T_AMD_COR := "^(?P<mod>COR|AMD)$".
Definition p_T_NIL := "^NIL$".
Definition p_T_VALID :=
  "^(?P<fmday>0[1-9]|[12][0-9]|3[01])" ++
  "(?P<fmhour>[0-1]\d|2[0-3])/" ++
  "(?P<tlday>0[1-9]|[12][0-9]|3[01])" ++
  "(?P<tlhour>[0-1]\d|2[0-4])$".
Definition p_T_CANCELLED := "^CNL$".
Definition p_T_WIND :=
  "^(?P<dir>([0-2][0-9]|3[0-6])0|VRB)" ++
  "P?(?P<speed>\d{2,3})" ++
  "(G(P)?(?P<gust>\d{2,3}))?" ++
  "(?P<units>KT|MPS)$".
Definition p_T_VISIBILITY :=
  "^(?P<vis>\d{4})" ++
  "(?P<dir>[NSEW]([EW])?)?|" ++
  "(M|P)?(?P<integer>\d{1,2})?_?" ++
  "(?P<fraction>\d/\d)?" ++
  "(?P<units>SM|KM|M|U)|" ++
  "(?P<cavok>CAVOK)$".
Definition p_T_TEMPERATURE :=
  "T(?P<type>N|X)" ++
  "(?P<sign>M)?" ++
  "(?P<temp>\d{2})/" ++
  "(?P<day>0[1-9]|[12][0-9]|3[01])" ++
  "(?P<hour>[0-1]\d|2[0-3])Z".
Definition p_T_CHANGE_INDICATOR :=
  "^TEMPO|BECMG" ++
  "|FM(?P<day>0[1-9]|[12][0-9]|3[01])" ++
  "(?P<hour>[0-1]\d|2[0-3])" ++
  "(?P<minute>[0-5]\d)" ++
  "|PROB[34]0(_TEMPO)?$".

(** utils/parser.py *)
Definition p_SAN_VIS := "\s(?P<int>\d+)\s(?P<frac>\d/\dSM)\s?".
Definition p_SAN_WS_ALL := "WS\sALL\sRWY".
Definition p_SAN_WS := "WS\sR(WY)?(?P<name>\d{2}[CLR]?)".
Definition p_SAN_PROB := "PROB(?P<percent>[34]0)\sTEMPO".

(** base/report.py:22 *)
Definition p_NORMALISE := "\s{2,}|\n+|\t+".
Definition p_SPACES := "\s{2,}".

(** CPython's _strptime for "%Y%m%d%H%M" (Lib/_strptime.py). *)
Definition p_STRPTIME :=
  "(?P<Y>\d\d\d\d)" ++ "(?P<m>1[0-2]|0[1-9]|[1-9])" ++
  "(?P<d>3[0-1]|[1-2]\d|0[1-9]|[1-9]| [1-9])" ++
  "(?P<H>2[0-3]|[0-1]\d|\d)" ++ "(?P<M>[0-5]\d|\d)".

Definition all_patterns : list string :=
  [p_TYPE; p_STATION; p_TIME; p_MODIFIER; p_WIND; p_WIND_VARIATION; p_VISIBILITY;
   p_MINIMUM_VISIBILITY; p_RUNWAY_RANGE; p_WEATHER; p_CLOUD; p_TEMPERATURES; p_PRESSURE;
   p_RECENT_WEATHER; p_WINDSHEAR; p_SEA_STATE; p_RUNWAY_STATE; p_CHANGE_INDICATOR;
   p_TREND_TIME_PERIOD; p_T_AMD_COR; p_T_NIL; p_T_VALID; p_T_CANCELLED; p_T_WIND;
   p_T_VISIBILITY; p_T_TEMPERATURE; p_T_CHANGE_INDICATOR; p_SAN_VIS; p_SAN_WS_ALL;
   p_SAN_WS; p_SAN_PROB; p_NORMALISE; p_SPACES; p_STRPTIME].

Example all_patterns_parse :
  forallb (fun p => match parse_regex p with Some _ => true | None => false end)
          all_patterns = true.
Proof. vm_compute. reflexivity. Qed.

Definition r_TYPE := Eval vm_compute in compile p_TYPE.
Definition r_STATION := Eval vm_compute in compile p_STATION.
Definition r_TIME := Eval vm_compute in compile p_TIME.
Definition r_MODIFIER := Eval vm_compute in compile p_MODIFIER.
Definition r_WIND := Eval vm_compute in compile p_WIND.
Definition r_WIND_VARIATION := Eval vm_compute in compile p_WIND_VARIATION.
Definition r_VISIBILITY := Eval vm_compute in compile p_VISIBILITY.
Definition r_MINIMUM_VISIBILITY := Eval vm_compute in compile p_MINIMUM_VISIBILITY.
Definition r_RUNWAY_RANGE := Eval vm_compute in compile p_RUNWAY_RANGE.
Definition r_WEATHER := Eval vm_compute in compile p_WEATHER.
Definition r_CLOUD := Eval vm_compute in compile p_CLOUD.
Definition r_TEMPERATURES := Eval vm_compute in compile p_TEMPERATURES.
Definition r_PRESSURE := Eval vm_compute in compile p_PRESSURE.
Definition r_RECENT_WEATHER := Eval vm_compute in compile p_RECENT_WEATHER.
Definition r_WINDSHEAR := Eval vm_compute in compile p_WINDSHEAR.
Definition r_SEA_STATE := Eval vm_compute in compile p_SEA_STATE.
Definition r_RUNWAY_STATE := Eval vm_compute in compile p_RUNWAY_STATE.
Definition r_CHANGE_INDICATOR := Eval vm_compute in compile p_CHANGE_INDICATOR.
Definition r_TREND_TIME_PERIOD := Eval vm_compute in compile p_TREND_TIME_PERIOD.
Definition r_T_AMD_COR := Eval vm_compute in compile p_T_AMD_COR.
Definition r_T_NIL := Eval vm_compute in compile p_T_NIL.
Definition r_T_VALID := Eval vm_compute in compile p_T_VALID.
Definition r_T_CANCELLED := Eval vm_compute in compile p_T_CANCELLED.
Definition r_T_WIND := Eval vm_compute in compile p_T_WIND.
Definition r_T_VISIBILITY := Eval vm_compute in compile p_T_VISIBILITY.
Definition r_T_TEMPERATURE := Eval vm_compute in compile p_T_TEMPERATURE.
Definition r_T_CHANGE_INDICATOR := Eval vm_compute in compile p_T_CHANGE_INDICATOR.
Definition r_SAN_VIS := Eval vm_compute in compile p_SAN_VIS.
Definition r_SAN_WS_ALL := Eval vm_compute in compile p_SAN_WS_ALL.
Definition r_SAN_WS := Eval vm_compute in compile p_SAN_WS.
Definition r_SAN_PROB := Eval vm_compute in compile p_SAN_PROB.
Definition r_NORMALISE := Eval vm_compute in compile p_NORMALISE.
Definition r_SPACES := Eval vm_compute in compile p_SPACES.
Definition r_STRPTIME := Eval vm_compute in compile p_STRPTIME.

(** The evaluated patterns are what [compile] gives for the verbatim text. *)
Definition compiled : list (string * regex) :=
  [(p_TYPE, r_TYPE); (p_STATION, r_STATION); (p_TIME, r_TIME); (p_MODIFIER, r_MODIFIER);
   (p_WIND, r_WIND); (p_WIND_VARIATION, r_WIND_VARIATION); (p_VISIBILITY, r_VISIBILITY);
   (p_MINIMUM_VISIBILITY, r_MINIMUM_VISIBILITY); (p_RUNWAY_RANGE, r_RUNWAY_RANGE);
   (p_WEATHER, r_WEATHER); (p_CLOUD, r_CLOUD); (p_TEMPERATURES, r_TEMPERATURES);
   (p_PRESSURE, r_PRESSURE); (p_RECENT_WEATHER, r_RECENT_WEATHER);
   (p_WINDSHEAR, r_WINDSHEAR); (p_SEA_STATE, r_SEA_STATE);
   (p_RUNWAY_STATE, r_RUNWAY_STATE); (p_CHANGE_INDICATOR, r_CHANGE_INDICATOR);
   (p_TREND_TIME_PERIOD, r_TREND_TIME_PERIOD); (p_T_AMD_COR, r_T_AMD_COR);
   (p_T_NIL, r_T_NIL); (p_T_VALID, r_T_VALID); (p_T_CANCELLED, r_T_CANCELLED);
   (p_T_WIND, r_T_WIND); (p_T_VISIBILITY, r_T_VISIBILITY);
   (p_T_TEMPERATURE, r_T_TEMPERATURE); (p_T_CHANGE_INDICATOR, r_T_CHANGE_INDICATOR);
   (p_SAN_VIS, r_SAN_VIS); (p_SAN_WS_ALL, r_SAN_WS_ALL); (p_SAN_WS, r_SAN_WS);
   (p_SAN_PROB, r_SAN_PROB); (p_NORMALISE, r_NORMALISE); (p_SPACES, r_SPACES);
   (p_STRPTIME, r_STRPTIME)].

Example compiled_ok : map (fun x => compile (fst x)) compiled = map snd compiled.
Proof. vm_compute. reflexivity. Qed.
