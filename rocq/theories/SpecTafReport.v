(** * Well-formed TAFs: specification

    The groups of a TAF in the documented order, the text they are written
    with, and what a parsed forecast must hold for them. *)
From Coq Require Import String Ascii.
From Coq Require Import List NArith ZArith Bool Lia QArith.
From Verif Require Import PyBase PyFloat PyTime Base MetarGroups Trend Metar Taf SpecNum SpecGroups SpecTime SpecText SpecTaf
  SpecWords SpecMetar.
Import ListNotations.
Local Open Scope string_scope.
Local Open Scope nat_scope.
Local Open Scope list_scope.

(** ** Wind, visibility, weather and clouds *)

Record wx_g := mk_wx {
  x_wind : option wind_g;
  x_vis : option vis_g;
  x_weathers : list weather_g;
  x_clouds : list cloud_g
}.

Definition wx_toks (g : wx_g) : list mtok :=
  of_option (fun x => MWord (wind_code x)) (x_wind g)
  ++ of_option vis_tok (x_vis g)
  ++ map (fun x => MWord (weather_code x)) (x_weathers g)
  ++ map (fun x => MWord (cloud_code x)) (x_clouds g).

(** A forecast wind has a direction and a speed. *)
Definition wind_given (g : wind_g) : Prop :=
  wg_dir g <> DirNone /\ match wg_speed g with Spd _ _ _ => True | SpdNone _ => False end.
Definition vis_given (g : vis_g) : Prop := match g with VisMissing _ => False | _ => True end.

Definition wx_wf (g : wx_g) : Prop :=
  opt_all (fun x => wind_wf x /\ wind_given x) (x_wind g)
  /\ opt_all (fun x => vis_wf x /\ vis_spellable x) (x_vis g)
  /\ (Forall (fun x => weather_wf x /\ weather_code x <> []) (x_weathers g) /\ length (x_weathers g) <= 3)
  /\ (Forall cloud_wf (x_clouds g) /\ length (x_clouds g) <= 4).

Definition wx_holds (g : wx_g) (c : common) : Prop :=
  holds wind_is no_wind (x_wind g) (c_wind c)
  /\ holds vis_is no_vis (x_vis g) (c_vis c)
  /\ Forall2 weather_is (x_weathers g) (gl_list (c_weathers c))
  /\ Forall2 cloud_is (x_clouds g) (gl_list (c_clouds c)).

(** ** Periods and temperatures *)

(** [u] is the hour [h] of the first day [d] from [t] on; hour 24 is midnight
    of the following day. *)
Definition falls (t : datetime) (d h : N) (u : datetime) : Prop :=
  exists b, first_with_day (date_of t) (Z.of_N d) b
    /\ if (h =? 24)%N then exists be, day_after b be /\ u = moment be 0 0 else u = moment b h 0.

(** The day is that of [t] or the next one (see [C33_validity_refuted]). *)
Definition near (t : datetime) (d : N) : Prop :=
  exists b be, first_with_day (date_of t) (Z.of_N d) b /\ (exists k, k <= 1 /\ days_later k (date_of t) b)
    /\ real b /\ day_after b be /\ real be.

(** ddhh/ddhh *)
Record period_g := mk_period { p_fd : N; p_fh : N; p_td : N; p_th : N }.
Definition span_code (p : period_g) : str := valid_code (p_fd p) (p_fh p) (p_td p) (p_th p).
Definition period_wf (t : datetime) (p : period_g) : Prop :=
  (1 <= p_fd p <= 31)%N /\ (p_fh p <= 23)%N /\ (1 <= p_td p <= 31)%N /\ (p_th p <= 24)%N
  /\ near t (p_fd p) /\ near t (p_td p).
Definition period_is (t : datetime) (p : period_g) (v : valid) : Prop :=
  va_code v = Some (span_code p)
  /\ falls t (p_fd p) (p_fh p) (t_dt (va_from v)) /\ falls t (p_td p) (p_th p) (t_dt (va_until v)).

(** TXtt/ddhhZ, TNtt/ddhhZ *)
Record ftemp_g := mk_ftemp { ft_max : bool; ft_neg : bool; ft_value : N; ft_day : N; ft_hour : N }.
Definition ftemp_text (g : ftemp_g) : str := taf_temp_code (ft_max g) (ft_neg g) (ft_value g) (ft_day g) (ft_hour g).
Definition ftemp_wf (t : datetime) (g : ftemp_g) : Prop :=
  (ft_value g < 100)%N /\ (1 <= ft_day g <= 31)%N /\ (ft_hour g <= 23)%N /\ near t (ft_day g).
Definition ftemp_is (t : datetime) (g : ftemp_g) (v : taf_temp) : Prop :=
  tt_code v = Some (ftemp_text g)
  /\ temp_is (tt_value v) (celsius (TValue (if ft_neg g then Some true else None) (ft_value g)))
  /\ falls t (ft_day g) (ft_hour g) (t_dt (tt_time v)).

(** ** Changes *)

Inductive change_kind := KBecmg | KTempo | KProb (forty : bool) | KProbTempo (forty : bool).
Inductive change_ind := IFrom (d h mi : N) | IDuring (k : change_kind) (p : period_g).
Record change_g := mk_change { h_ind : change_ind; h_wx : wx_g }.

Definition kind_tok (k : change_kind) : ctok :=
  match k with
  | KBecmg => Plain (py "BECMG")
  | KTempo => Plain (py "TEMPO")
  | KProb n => Plain (prob_code n)
  | KProbTempo n => ProbTempo n
  end.
Definition ind_toks (i : change_ind) : list ctok :=
  match i with
  | IFrom d h mi => [Plain (fm_code d h mi)]
  | IDuring k p => [kind_tok k; Plain (span_code p)]
  end.
Definition change_toks (g : change_g) : list ctok :=
  ind_toks (h_ind g) ++ map Plain (flat_map m_words (wx_toks (h_wx g))).
Definition change_text (g : change_g) : list str := flat_map ct_words (change_toks g).
Definition is_joint (g : change_g) : bool :=
  match h_ind g with IDuring (KProbTempo _) _ => true | _ => false end.

(** FM and BECMG end the FM period before them, PROB and TEMPO do not. *)
Definition is_fm (g : change_g) : Prop := match h_ind g with IFrom _ _ _ => True | _ => False end.
Definition lasting (g : change_g) : bool :=
  match h_ind g with IFrom _ _ _ => true | IDuring KBecmg _ => true | IDuring _ _ => false end.

(** Well-formed for a forecast that starts at [s]. *)
Definition ind_wf (s : datetime) (i : change_ind) : Prop :=
  match i with
  | IFrom d h mi => (1 <= d <= 31)%N /\ (h <= 23)%N /\ (mi <= 59)%N
                    /\ exists b, first_with_day (date_of s) (Z.of_N d) b /\ real b
  | IDuring _ p => period_wf s p
  end.
Definition change_wf (s : datetime) (g : change_g) : Prop :=
  ind_wf s (h_ind g) /\ wx_wf (h_wx g) /\ is_mixed (last (wx_toks (h_wx g)) (MWord [])) = false.

Definition ind_is (s : datetime) (i : change_ind) (v : taf_ind) : Prop :=
  match i with
  | IFrom d h mi => tc_code v = Some (fm_code d h mi)
      /\ exists b, first_with_day (date_of s) (Z.of_N d) b /\ t_dt (va_from (tc_valid v)) = moment b h mi
  | IDuring k p => tc_code v = Some (sentence (ct_words (kind_tok k) ++ [span_code p])) /\ period_is s p (tc_valid v)
  end.
Definition change_is (s : datetime) (g : change_g) (c : change_fc) : Prop :=
  cf_code c = Some (sentence (change_text g)) /\ cf_unparsed c = []
  /\ ind_is s (h_ind g) (cf_ind c) /\ wx_holds (h_wx g) (cf_common c).

Definition starts_at (c : change_fc) : datetime := t_dt (va_from (tc_valid (cf_ind c))).
Definition ends_at (c : change_fc) : datetime := t_dt (va_until (tc_valid (cf_ind c))).
(** The start of the first lasting change. *)
Fixpoint next_start (gs : list change_g) (cs : list change_fc) : option datetime :=
  match gs, cs with
  | g :: gs', c :: cs' => if lasting g then Some (starts_at c) else next_start gs' cs'
  | _, _ => None
  end.
(** The changes of a forecast from [s] to [u]: an FM period lasts until one
    hour before the next lasting change, or to the end of the forecast. *)
Fixpoint changes_are (s u : datetime) (gs : list change_g) (cs : list change_fc) : Prop :=
  match gs, cs with
  | [], [] => True
  | g :: gs', c :: cs' =>
      change_is s g c
      /\ (is_fm g -> match next_start gs' cs' with
                     | Some n => minutes_later 60 (ends_at c) n
                     | None => ends_at c = u
                     end)
      /\ changes_are s u gs' cs'
  | _, _ => False
  end.

(** ** The report *)

Record taf_g := mk_taf_g {
  h_modifier : option (string * string);
  h_station : str;
  h_day : N; h_hour : N; h_minute : N;
  h_nil : bool;
  h_valid : option period_g;
  h_cnl : bool;
  h_body : wx_g;
  h_temps : list ftemp_g;
  h_changes : list change_g
}.

Definition taf_modifiers : list (string * string) := [("AMD", "Amendment"); ("COR", "Correction")].

(** The groups after TAF and before the changes. *)
Definition taf_toks (g : taf_g) : list mtok :=
  of_option (fun x => MWord (code_of x)) (h_modifier g)
  ++ [MWord (h_station g); MWord (stamp_code (h_day g) (h_hour g) (h_minute g))]
  ++ (if h_nil g then [MWord (py "NIL")] else [])
  ++ of_option (fun x => MWord (span_code x)) (h_valid g)
  ++ (if h_cnl g then [MWord (py "CNL")] else [])
  ++ wx_toks (h_body g)
  ++ map (fun x => MWord (ftemp_text x)) (h_temps g).
Definition taf_body_words (g : taf_g) : list str := flat_map m_words (MWord (py "TAF") :: taf_toks g).
Definition taf_words (g : taf_g) : list str := taf_body_words g ++ flat_map change_text (h_changes g).

Definition issued (y mo : Z) (g : taf_g) : datetime :=
  mk_dt y mo (Z.of_N (h_day g)) (Z.of_N (h_hour g)) (Z.of_N (h_minute g)).

(** Weather that the visibility slot of the body takes, as in MIFG and UP. *)
Definition vis_like (g : weather_g) : bool :=
  starts_with (py "M") (weather_code g) || starts_with (py "U") (weather_code g).

Definition taf_wf (y mo : Z) (g : taf_g) : Prop :=
  opt_all (fun x => In x taf_modifiers) (h_modifier g)
  /\ (station_wf (h_station g) /\ (h_modifier g <> None -> begins_any change_words (h_station g) = false))
  /\ (1000 <= y)%Z /\ real_date y mo (Z.of_N (h_day g)) /\ (h_hour g < 24)%N /\ (h_minute g < 60)%N
  /\ opt_all (period_wf (issued y mo g)) (h_valid g)
  /\ (wx_wf (h_body g) /\ opt_all vis_given (x_vis (h_body g))
      /\ (x_vis (h_body g) = None -> Forall (fun x => vis_like x = false) (x_weathers (h_body g))))
  /\ (Forall (ftemp_wf (issued y mo g)) (h_temps g)
      /\ length (filter ft_max (h_temps g)) <= 2 /\ length (filter (fun x => negb (ft_max x)) (h_temps g)) <= 2)
  /\ is_mixed (last (taf_toks g) (MWord [])) = false
  /\ (length (h_changes g) <= 8 /\ length (filter is_joint (h_changes g)) <= 5
      /\ match h_valid g with
         | Some p => exists s, falls (issued y mo g) (p_fd p) (p_fh p) s /\ Forall (change_wf s) (h_changes g)
         | None => h_changes g = []
         end).

Definition taf_holds (y mo : Z) (g : taf_g) (x : taf) : Prop :=
  (ty_code (ta_type x) = Some (py "TAF") /\ ty_type (ta_type x) = Some (py "Terminal Aerodrome Forecast"))
  /\ holds modifier_is no_modifier (h_modifier g) (ta_modifier x)
  /\ st_code (ta_station x) = Some (h_station g)
  /\ (t_code (ta_time x) = Some (stamp_code (h_day g) (h_hour g) (h_minute g)) /\ t_dt (ta_time x) = issued y mo g)
  /\ (mi_missing (ta_missing x) = h_nil g
      /\ if h_nil g then modifier_is ("NIL", "Missing report") (mi_mod (ta_missing x)) else no_modifier (mi_mod (ta_missing x)))
  /\ match h_valid g with Some p => period_is (issued y mo g) p (ta_valid x) | None => va_code (ta_valid x) = None end
  /\ (ca_cancelled (ta_cancelled x) = h_cnl g /\ ca_code (ta_cancelled x) = if h_cnl g then Some (py "CNL") else None)
  /\ wx_holds (h_body g) (ta_common x)
  /\ Forall2 (ftemp_is (issued y mo g)) (filter ft_max (h_temps g)) (gl_list (ta_max x))
  /\ Forall2 (ftemp_is (issued y mo g)) (filter (fun t => negb (ft_max t)) (h_temps g)) (gl_list (ta_min x))
  /\ changes_are (t_dt (va_from (ta_valid x))) (t_dt (va_until (ta_valid x))) (h_changes g) (gl_list (ta_changes x)).
