(** * The texts of the remaining groups (C80): specification vocabulary *)
From Coq Require Import String Ascii.
From Coq Require Import List NArith ZArith Bool.
From Verif Require Import PyBase PyTime Base MetarGroups Trend Taf SpecNum SpecGroups SpecTime SpecGrammar SpecSay.
Import ListNotations.
Local Open Scope string_scope.
Local Open Scope nat_scope.
Local Open Scope list_scope.

(** ** Header *)

Definition type_phrase (c t : str) : Prop := exists x, In x types /\ c = code_of x /\ t = text_of x ++ py " (" ++ code_of x ++ py ")".
Definition modifier_phrases : table :=
  [("COR", "correction"); ("CORR", "correction"); ("AMD", "amendment"); ("NIL", "missing report"); ("AUTO", "automatic report");
   ("TEST", "testing report"); ("FINO", "missing report")].
Definition modifier_phrase (c t : str) : Prop := exists x, In x modifier_phrases /\ c = code_of x /\ t = text_of x.

(** ** Windshear *)

(** A runway is named whether or not the group says ALL; a runway without a
    name leaves the text empty. *)
Definition shear_phrase (c t : str) : Prop :=
  (c = py "WS ALL RWY" /\ t = py "all")
  \/ (exists r, runway_wf r /\ (c = py "WS R" ++ runway_code r \/ c = py "WS ALL R" ++ runway_code r) /\ t = ws_runway_name r)
  \/ (c = py "WS RWY" /\ t = []).
(** One single group with ALL speaks for all runways, also when it names one. *)
Definition shears_phrase (cs : list str) (t : str) : Prop :=
  (exists c, cs = [c] /\ begins (py "WS ALL") c /\ t = py "all runways")
  \/ (~ (exists c, cs = [c] /\ begins (py "WS ALL") c) /\ exists ts, Forall2 shear_phrase cs ts /\ t = join (py " | ") ts).

(** ** Runway state *)

Definition name_phrase (r : option runway_g) : str := match r with Some r => runway_name r | None => py "None" end.
(** Nothing but the reason is said of a depth of 99 or of a missing one. *)
Definition special_depth (h : option N) : bool := match h with Some n => N.eqb n 99 | None => true end.
Definition deposit_phrase (d : string * string) (h : option N) : str :=
  let known := negb (String.eqb (fst d) "/") in
  match known, special_depth h with
  | true, true => depth_text h ++ py " of " ++ text_of d
  | true, false => py "deposits of " ++ depth_text h ++ py " of " ++ text_of d
  | false, true => depth_text h ++ py " and " ++ text_of d
  | false, false => py "depth of " ++ depth_text h ++ py " but " ++ text_of d
  end.
Definition friction_phrase (f : option N) : str :=
  match f with
  | Some n => if (n <=? 90)%N then py "estimated surface friction 0." ++ digits 2 n else friction_text f
  | None => friction_text f
  end.
(** 88 and 99 stand for all runways and for the one before. *)
Definition cleared_phrase (r : option runway_g) : str :=
  match option_map (fun r => (rn_number r, rn_side r)) r with
  | Some (n, None) => if N.eqb n 88 then py "all runways" else if N.eqb n 99 then py "previous runway" else py "runway " ++ digits 2 n
  | _ => py "runway " ++ name_phrase r
  end.
Definition state_phrase (g : rs_g) : str :=
  match sg_state g with
  | RsSnoclo => py "aerodrome is closed due to extreme deposit of snow"
  | RsClrd =>
      py "contaminations have ceased to exists on " ++ cleared_phrase (sg_runway g)
  | RsCodes d c h f =>
      name_phrase (sg_runway g) ++ py ", " ++ deposit_phrase d h ++ py ", contamination "
      ++ match snd c with Some t => py t | None => py "None" end ++ py ", " ++ friction_phrase f
  end.
Definition runway_phrase (c t : str) : Prop := exists g, rs_wf g /\ c = rs_code_of g /\ t = state_phrase g.

(** ** Validities, trends and changes *)

Definition span_phrase (a b : datetime) (t : str) : Prop :=
  exists u v, clock_said a u /\ clock_said b v /\ t = py "from " ++ u ++ py " until " ++ v.
Definition valid_phrase (v : valid) (t : str) : Prop := span_phrase (t_dt (va_from v)) (t_dt (va_until v)) t.

Definition change_meanings : table :=
  [("NOSIG", "no significant changes"); ("BECMG", "becoming"); ("TEMPO", "temporary");
   ("PROB30", "probability 30%"); ("PROB40", "probability 40%");
   ("PROB30 TEMPO", "probability 30% temporary"); ("PROB40 TEMPO", "probability 40% temporary")].
(** A word that is no more than begins with TEMPO or BECMG has no meaning. *)
Definition meant (c : str) (t : option str) : Prop :=
  (exists x, In x change_meanings /\ c = code_of x /\ t = Some (text_of x)) \/ (~ of_table change_meanings c /\ t = None).

(** The code of a trend: the indicator and its times; with a time AT the text
    has this one, otherwise both ends of the period. *)
Definition trend_phrase (i : trend_ind) (c t : str) : Prop :=
  exists w ws p, c = join (py " ") (w :: ws) /\ (begins (py "TEMPO") w \/ begins (py "BECMG") w \/ w = py "NOSIG")
    /\ Forall written_period ws /\ meant w p
    /\ ((exists u a, Exists (begins (py "AT")) ws /\ ti_at i = Some u /\ clock_said (t_dt u) a
          /\ t = match p with Some p => p | None => [] end ++ py " at " ++ a)
        \/ (Forall (fun w => ~ begins (py "AT") w) ws /\ ti_at i = None
            /\ match p with
               | Some p => exists s, span_phrase (t_dt (ti_from i)) (t_dt (ti_until i)) s /\ t = p ++ py " " ++ s
               | None => t = []
               end)).

(** The code of a change: FM with its time, which shows in the text only, or
    an indicator and a validity. *)
Definition change_phrase (i : taf_ind) (c t : str) : Prop :=
  (exists x u, written_from x /\ c = x ++ u /\ valid_phrase (tc_valid i) t)
  \/ exists w p, (begins (py "TEMPO") w \/ begins (py "BECMG") w \/ In w (map (fun x => py x) ["PROB30"; "PROB40"; "PROB30 TEMPO"; "PROB40 TEMPO"]))
    /\ meant w p
    /\ ((c = w /\ t = match p with Some p => p | None => [] end)
        \/ exists v s, written_validity v /\ c = w ++ py " " ++ v /\ valid_phrase (tc_valid i) s
             /\ t = match p with Some p => p | None => py "None" end ++ py " " ++ s).
