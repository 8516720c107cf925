(** * A word that is no group of a report: specification *)
From Coq Require Import String Ascii.
From Coq Require Import List NArith ZArith Bool Lia.
From Verif Require Import PyBase PyRegex AeroRegex Base MetarGroups Trend Metar Taf SpecText SpecWords SpecApart SpecJoined.
Import ListNotations.
Local Open Scope string_scope.
Local Open Scope nat_scope.
Local Open Scope list_scope.

(** The patterns of the groups of a METAR body, metar_regexp.py. *)
Definition metar_patterns : list regex :=
  [r_TYPE; r_STATION; r_TIME; r_MODIFIER; r_WIND; r_WIND_VARIATION; r_VISIBILITY; r_MINIMUM_VISIBILITY; r_RUNWAY_RANGE;
   r_WEATHER; r_CLOUD; r_TEMPERATURES; r_PRESSURE; r_RECENT_WEATHER; r_WINDSHEAR; r_SEA_STATE; r_RUNWAY_STATE].

(** None of the patterns accepts the word. *)
Definition foreign (pats : list regex) (q : str) : Prop := Forall (fun r => re_match r q = None) pats.

(** The same list with one entry more. *)
Definition inserted (q : str) (l l' : list str) : Prop := exists a b, l = a ++ b /\ l' = a ++ q :: b.

(** Everything but the raw code, the sections and the unparsed groups. *)
Definition read_part (x : metar) := (body_part x, c_string (me_common x), me_trends x, me_out x).

Definition read_forecast (x : taf) := (taf_part x, c_string (ta_common x), ta_changes x).

(** Refused alike, or read alike but for one unparsed group more. *)
Definition same_but (q : str) (r r' : result metar) : Prop :=
  match r, r' with
  | Ok x, Ok x' => read_part x' = read_part x /\ inserted q (me_unparsed x) (me_unparsed x')
  | Raise a, Raise b => a = b
  | _, _ => False
  end.

Definition same_forecast_but (q : str) (r r' : result taf) : Prop :=
  match r, r' with
  | Ok x, Ok x' => read_forecast x' = read_forecast x /\ inserted q (ta_unparsed x) (ta_unparsed x')
  | Raise a, Raise b => a = b
  | _, _ => False
  end.

(** The same of one section: its state and its unparsed groups. *)
Definition related {S} (q : str) (r r' : result (S * list str)) : Prop :=
  match r, r' with
  | Ok (s, u), Ok (s', u') => s' = s /\ inserted q u u'
  | Raise a, Raise b => a = b
  | _, _ => False
  end.

(** The words of a body that begins with [w]. *)
Definition body_words (w : str) (l : list mtok) : list str := flat_map m_words (MWord w :: l).

(** Groups that the program keeps apart as they were meant (C28, C41), none of
    which opens a section. *)
Definition kept_apart (w : str) (l : list mtok) : Prop :=
  Forall mtok_wf l /\ unmixed l /\ unsheared (MWord w :: l) /\ is_mixed (last l (MWord w)) = false
  /\ length (filter is_mixed l) <= 3 /\ length (filter is_runway_ws l) <= 3
  /\ Forall plain_word (body_words w l) /\ Forall (fun v => ~ opening v) (body_words w l).

(** Trends and remark: nothing, or words the first of which opens a section. *)
Definition appendix (ts : list str) : Prop := Forall plain_word ts /\ match ts with [] => True | v :: _ => opening v end.

(** Characters no group begins with. *)
Definition odd_characters : list N := map N_of_ascii (list_ascii_of_string "$#*%&!?.,:;()[]{}<>@~abcdefghijklmnopqrstuvwxyz").

(** The patterns of the groups of a TAF body. *)
Definition taf_patterns : list regex :=
  [r_TYPE; r_T_AMD_COR; r_STATION; r_TIME; r_T_NIL; r_T_VALID; r_T_CANCELLED; r_T_WIND; r_T_VISIBILITY; r_WEATHER; r_CLOUD; r_T_TEMPERATURE].

(** TAF, a word, the words of the body and the changes: cut as they were meant
    (C37), the changes beginning with a word that opens one. *)
Definition forecast_words (w : str) (ws : list str) (ms : list ctok) : list str :=
  py "TAF" :: w :: ws ++ flat_map ct_words ms.
Definition forecast_apart (w : str) (ws : list str) (ms : list ctok) : Prop :=
  no_stray_pair (Plain (py "TAF") :: Plain w :: map Plain ws ++ ms) /\ length (filter is_pair ms) <= 5
  /\ Forall plain_tok (Plain w :: map Plain ws ++ ms) /\ Forall (fun v => opens (Plain v) = false) ws
  /\ match ms with [] => True | t :: _ => opens t = true end
  /\ taf_apart w (map Plain ws) (snd (chunks ms))
  /\ Forall plain_word (forecast_words w ws ms).

(** The word stands neither inside nor at the edge of a number of miles written
    in two words. *)
Definition off_miles (before : list str) (q : str) (after : list str) : Prop :=
  number q = false /\ frac_like q = false
  /\ match after with v :: _ => frac_like v = false | [] => frac_like (last before []) = false end.
