(** * The texts of the groups say their values (C62): specification

    How a number, a direction, a height ... are to be written.  Numbers are
    compared with their exact rational values; the numeral is read back
    digit by digit. *)
From Coq Require Import String Ascii.
From Coq Require Import List NArith ZArith QArith Qabs Bool Lia.
From Verif Require Import PyBase PyFloat PyTime Base MetarGroups Trend Metar Taf SpecNum SpecTime SpecRules.
Import ListNotations.
Local Open Scope string_scope.
Local Open Scope nat_scope.
Local Open Scope list_scope.

(** ** Numbers *)

(** Decimal digits, read from the left, without useless zeros in front. *)
Definition numeral (t : str) (n : N) : Prop :=
  t <> [] /\ Forall (fun c => (48 <= c <= 57)%N) t
  /\ fold_left (fun a c => (10 * a + (c - 48))%N) t 0%N = n
  /\ (hd 0%N t = 48%N -> length t = 1).

(** [t] is the number with one decimal that is nearest to [q], the even one
    of the two when there are two; its sign is that of [q]. *)
Definition written (t : str) (q : Q) : Prop :=
  exists (minus : bool) (a : str) (n b : N),
    t = (if minus then py "-" else []) ++ a ++ py "." ++ [(48 + b)%N] /\ numeral a n /\ (b < 10)%N
    /\ let k := (10 * n + b)%N in
       let r := ((if minus then - Z.of_N k else Z.of_N k) # 10)%Q in
       (Qabs (q - r) <= 1 # 20)%Q /\ ((Qabs (q - r) == 1 # 20)%Q -> N.even k = true)
       /\ (if minus then (q <= 0)%Q else (0 <= q)%Q).

(** No value, or zero. *)
Definition zero (v : option float) : bool :=
  match exact v with Some q => Qeq_bool q 0 | None => true end.

(** A value and its unit.  Zero has no unit. *)
Definition quantity (unit : str) (v : option float) (t : str) : Prop :=
  match v with
  | None => t = []
  | Some x => exists q n, fvalue x = Some q /\ written n q /\ t = n ++ (if zero v then [] else unit)
  end.

(** A value in another unit, [k] of which make one: [tol] is the relative
    error of the conversion, which comes before the rounding to one
    decimal. *)
Definition rescaled (k tol : Q) (v : option float) (t : str) : Prop :=
  exists x q r, v = Some x /\ fvalue x = Some q /\ (Qabs (r - q * k) <= tol * Qabs (q * k))%Q /\ written t r.

(** ** Phrases *)

(** The parts that are not empty, with a space between any two. *)
Fixpoint phrase (l : list str) : str :=
  match l with
  | [] => []
  | p :: l' => match p, phrase l' with
               | [], r => r
               | _, [] => p
               | _, r => p ++ py " " ++ r
               end
  end.

Definition or_empty (o : option str) : str := match o with Some t => t | None => [] end.
(** Python writes an absent value so. *)
Definition or_none (o : option str) : str := match o with Some t => t | None => py "None" end.
(** Something only said if there is a text. *)
Definition if_any (o : option str) (f : str -> str) : str :=
  match o with Some (c :: k) => f (c :: k) | _ => [] end.

(** ** Directions *)

Definition degrees_mark : str := [176%N].

(** The point of the compass in whose sector the direction lies. *)
Definition compass (d : direction) (t : option str) : Prop :=
  match dir_value d with
  | None => t = None
  | Some x => exists q i p, fvalue x = Some q /\ nth_error points16 i = Some p /\ in_sector i q /\ t = Some (py p)
  end.
Definition heading (d : direction) (t : str) : Prop :=
  if dir_variable d then t = py "variable wind" else quantity degrees_mark (dir_value d) t.

(** ** Groups *)

Definition wind_said (w : metar_wind) (t : str) : Prop :=
  exists c h s g, compass (w_dir w) c /\ heading (w_dir w) h /\ quantity (py " kt") (w_speed w) s
    /\ quantity (py " kt") (w_gust w) g
    /\ t = phrase [or_empty c; if zero (dir_value (w_dir w)) then h else py "(" ++ h ++ py ")"; s]
           ++ (if zero (w_gust w) then [] else py " gust of " ++ g).

Definition wvar_said (w : wind_variation) (t : str) : Prop :=
  match dir_value (wv_from w) with
  | None => t = []
  | Some _ => exists c h c' h', compass (wv_from w) c /\ heading (wv_from w) h /\ compass (wv_to w) c' /\ heading (wv_to w) h'
      /\ t = py "from " ++ or_none c ++ py " (" ++ h ++ py ") to " ++ or_none c' ++ py " (" ++ h' ++ py ")"
  end.

(** Kilometres, with the direction the visibility is given for. *)
Definition seen_said (v : visibility) (t : str) : Prop :=
  exists s c h, compass (v_dir v) c /\ heading (v_dir v) h
    /\ match v_vis v with
       | None => s = []
       | Some _ => exists n, rescaled (1 # 1000) (1 # 10 ^ 15) (v_vis v) n /\ s = n ++ py " km"
       end
    /\ t = s ++ (if zero (dir_value (v_dir v)) then [] else py " to " ++ or_none c ++ py " (" ++ h ++ py ")").
Definition vis_said (v : visibility) (t : str) : Prop :=
  if v_cavok v then t = py "Ceiling and Visibility OK" else seen_said v t.

(** Metres, "below of" or "above of" them. *)
Definition limited (limit : option str) (v : option float) (t : str) : Prop :=
  match v with
  | None => t = []
  | Some _ => exists d, quantity (py " m") v d /\ t = phrase [or_empty limit; d]
  end.
Definition rvr_said (r : runway_range) (t : str) : Prop :=
  match rr_low r with
  | None => t = []
  | Some _ => exists a b, limited (rr_rvr_low r) (rr_low r) a /\ limited (rr_rvr_high r) (rr_high r) b
      /\ t = py "runway " ++ or_none (rr_name r) ++ py " " ++ a
             ++ (if zero (rr_high r) then [] else py " varying to " ++ b)
             ++ if_any (rr_trend r) (fun k => py ", " ++ k)
  end.

(** The terms in the order intensity, description, precipitation,
    obscuration, other. *)
Definition weather_said (w : weather) (t : str) : Prop :=
  t = phrase (map or_empty [we_int w; we_desc w; we_prec w; we_obsc w; we_other w]).
Definition recent_said (w : recent_weather) (t : str) : Prop :=
  t = phrase (map or_empty [rw_desc w; rw_prec w; rw_obsc w; rw_other w]).

(** The height is in feet, of 0.3048 metres. *)
Definition cloud_said (c : cloud) (t : str) : Prop :=
  if zero (cl_height c) then
    t = or_none (cl_cover c)
        ++ (if existsb (str_eqb (or_none (cl_cover c))) [py "clear"; py "undefined"; py "indefinite ceiling"] then []
            else py " at undefined height")
  else exists n, rescaled (10000 # 3048) (1 # 10 ^ 15) (cl_height c) n
    /\ t = or_none (cl_cover c) ++ py " at " ++ n ++ py " feet" ++ if_any (cl_type c) (fun k => py " of " ++ k).

Definition celsius_mark : str := [176%N; 67%N].
Definition temps_said (x : temperatures) (t : str) : Prop :=
  exists a b, quantity celsius_mark (te_temp x) a /\ quantity celsius_mark (te_dewpt x) b
    /\ t = match te_temp x, te_dewpt x with
           | None, None => []
           | Some _, None => py "temperature: " ++ a ++ py " | no dewpoint"
           | None, Some _ => (if zero (te_dewpt x) then py "temperature: " else py "no temperature") ++ py " | dewpoint: " ++ b
           | Some _, Some _ => py "temperature: " ++ a ++ py " | dewpoint: " ++ b
           end.

Definition press_said (p : pressure) (t : str) : Prop := quantity (py " hPa") (pr_value p) t.

(** A temperature or a wave height of zero is said to be absent. *)
Definition sea_said (x : sea_state) (t : str) : Prop :=
  exists a b, quantity celsius_mark (se_temp x) a /\ quantity (py " m") (se_height x) b
    /\ t = match se_temp x, se_height x, se_state x with
           | None, None, None => []
           | _, _, _ =>
               (if zero (se_temp x) then py "no temperature" else py "temperature " ++ a) ++ py ", "
               ++ (if zero (se_height x) then py "no significant wave height" else py "significant wave height " ++ b) ++ py ", "
               ++ (match se_state x with Some (c :: k) => c :: k | _ => py "no sea state" end)
           end.

(** Year, month and day; hours, minutes and no seconds. *)
Definition clock_said (d : datetime) (t : str) : Prop :=
  t = digits 4 (Z.to_N (dt_year d)) ++ py "-" ++ digits 2 (Z.to_N (dt_month d)) ++ py "-" ++ digits 2 (Z.to_N (dt_day d))
      ++ py " " ++ digits 2 (Z.to_N (dt_hour d)) ++ py ":" ++ digits 2 (Z.to_N (dt_minute d)) ++ py ":00".

Definition ttemp_said (x : taf_temp) (t : str) : Prop :=
  match tt_value x with
  | None => t = []
  | Some _ => exists a, quantity celsius_mark (tt_value x) a /\ t = a ++ py " at " ++ time_str (tt_time x)
  end.

(** ** Reports *)

Definition common_said (c : common) : Prop :=
  wind_said (c_wind c) (metar_wind_str (c_wind c)) /\ vis_said (c_vis c) (prevailing_str (c_vis c))
  /\ Forall (fun w => weather_said w (weather_str w)) (gl_list (c_weathers c))
  /\ Forall (fun k => cloud_said k (cloud_str k)) (gl_list (c_clouds c)).

Definition metar_said (x : metar) : Prop :=
  common_said (me_common x) /\ wvar_said (me_wvar x) (wind_variation_str (me_wvar x))
  /\ seen_said (me_minvis x) (visibility_dir_str (me_minvis x))
  /\ Forall (fun r => rvr_said r (runway_range_str r)) (gl_list (me_rvr x))
  /\ temps_said (me_temps x) (temperatures_str (me_temps x)) /\ press_said (me_press x) (pressure_str (pr_value (me_press x)))
  /\ recent_said (me_recent x) (recent_weather_str (me_recent x))
  /\ sea_said (me_sea x) (sea_state_str (me_sea x))
  /\ Forall (fun p => common_said (cp_common p)) (gl_list (me_trends x)).

Definition taf_said (x : taf) : Prop :=
  common_said (ta_common x) /\ Forall (fun t => ttemp_said t (taf_temp_str t)) (gl_list (ta_max x))
  /\ Forall (fun t => ttemp_said t (taf_temp_str t)) (gl_list (ta_min x))
  /\ Forall (fun p => common_said (cf_common p)) (gl_list (ta_changes x)).
