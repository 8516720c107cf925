(** * Python's [datetime] restricted to minutes

    Seconds and microseconds are zero everywhere in the modelled program and
    are left out ([str] prints them as ":00").  The calendar algorithms are
    those of CPython's Lib/datetime.py (_ymd2ord, _ord2ymd). *)
From Coq Require Import String Ascii.
From Coq Require Import List NArith ZArith Bool Lia.
From Verif Require Import PyBase PyRegex AeroRegex.
Import ListNotations.
Local Open Scope Z_scope.

Record datetime := mk_dt {
  dt_year : Z;
  dt_month : Z;
  dt_day : Z;
  dt_hour : Z;
  dt_minute : Z
}.

Definition is_leap (y : Z) : bool :=
  (y mod 4 =? 0) && (negb (y mod 100 =? 0) || (y mod 400 =? 0)).

Definition days_in_month (y m : Z) : Z :=
  match m with
  | 1 | 3 | 5 | 7 | 8 | 10 | 12 => 31
  | 4 | 6 | 9 | 11 => 30
  | 2 => if is_leap y then 29 else 28
  | _ => 0
  end.

Definition valid_date (y m d : Z) : bool :=
  (1 <=? y) && (y <=? 9999) && (1 <=? m) && (m <=? 12)
  && (1 <=? d) && (d <=? days_in_month y m).

Definition valid_time (h mi : Z) : bool :=
  (0 <=? h) && (h <=? 23) && (0 <=? mi) && (mi <=? 59).

Definition valid_dt (t : datetime) : bool :=
  valid_date (dt_year t) (dt_month t) (dt_day t) && valid_time (dt_hour t) (dt_minute t).

(** _days_before_year *)
Definition days_before_year (y : Z) : Z :=
  let y1 := y - 1 in y1 * 365 + y1 / 4 - y1 / 100 + y1 / 400.

(** _DAYS_BEFORE_MONTH *)
Definition days_before_month_tbl (m : Z) : Z :=
  match m with
  | 1 => 0 | 2 => 31 | 3 => 59 | 4 => 90 | 5 => 120 | 6 => 151 | 7 => 181
  | 8 => 212 | 9 => 243 | 10 => 273 | 11 => 304 | 12 => 334 | _ => 0
  end.
Definition days_before_month (y m : Z) : Z :=
  days_before_month_tbl m + (if (2 <? m) && is_leap y then 1 else 0).

Definition ymd2ord (y m d : Z) : Z :=
  days_before_year y + days_before_month y m + d.

(** _ord2ymd *)
Definition ord2ymd (o : Z) : Z * Z * Z :=
  let n := o - 1 in
  let n400 := n / 146097 in
  let n := n mod 146097 in
  let n100 := n / 36524 in
  let n := n mod 36524 in
  let n4 := n / 1461 in
  let n := n mod 1461 in
  let n1 := n / 365 in
  let n := n mod 365 in
  let year := n400 * 400 + 1 + n100 * 100 + n4 * 4 + n1 in
  if (n1 =? 4) || (n100 =? 4) then (year - 1, 12, 31)
  else
    let leap := (n1 =? 3) && (negb (n4 =? 24) || (n100 =? 3)) in
    let month := (n + 50) / 32 in
    let preceding := days_before_month_tbl month + (if (2 <? month) && leap then 1 else 0) in
    if n <? preceding then
      let month' := month - 1 in
      let preceding' := preceding - (match month' with
                                     | 2 => if leap then 29 else 28
                                     | _ => days_in_month 1 month'
                                     end) in
      (year, month', n - preceding' + 1)
    else (year, month, n - preceding + 1).

Definition max_ordinal : Z := 3652059.    (* date.max.toordinal() *)

(** Minutes since the fictitious 0001-01-00. *)
Definition dt_minutes (t : datetime) : Z :=
  ymd2ord (dt_year t) (dt_month t) (dt_day t) * 1440 + dt_hour t * 60 + dt_minute t.

(** [t + timedelta(minutes=k)]: OverflowError outside years 1..9999. *)
Definition dt_add_minutes (t : datetime) (k : Z) : result datetime :=
  let n := dt_minutes t + k in
  let o := n / 1440 in
  if (1 <=? o) && (o <=? max_ordinal) then
    let '(y, m, d) := ord2ymd o in
    Ok (mk_dt y m d ((n mod 1440) / 60) ((n mod 1440) mod 60))
  else Raise OverflowError.

Definition dt_add_hours (t : datetime) (h : Z) := dt_add_minutes t (h * 60).
Definition dt_add_days (t : datetime) (d : Z) := dt_add_minutes t (d * 1440).

(** [a - b] as a number of minutes. *)
Definition dt_diff (a b : datetime) : Z := dt_minutes a - dt_minutes b.

(** [t.replace(hour=h)], [t.replace(minute=m)] *)
Definition dt_replace_hour (t : datetime) (h : Z) : result datetime :=
  if (0 <=? h) && (h <=? 23)
  then Ok (mk_dt (dt_year t) (dt_month t) (dt_day t) h (dt_minute t))
  else Raise ValueError.
Definition dt_replace_minute (t : datetime) (m : Z) : result datetime :=
  if (0 <=? m) && (m <=? 59)
  then Ok (mk_dt (dt_year t) (dt_month t) (dt_day t) (dt_hour t) m)
  else Raise ValueError.

(** [str(t)] *)
Definition dt_str (t : datetime) : str :=
  Z_pad 4 (dt_year t) ++ py "-" ++ Z_pad 2 (dt_month t) ++ py "-" ++ Z_pad 2 (dt_day t)
  ++ py " " ++ Z_pad 2 (dt_hour t) ++ py ":" ++ Z_pad 2 (dt_minute t) ++ py ":00".

(** [int(s)] inside _strptime; the day may start with a space ("%d" accepts
    " 1"), which [int] ignores. *)
Definition int_lstrip (s : option str) : result Z :=
  match s with Some s => int_of_str (lstrip s) | None => Raise TypeError end.

(** [datetime.strptime(s, "%Y%m%d%H%M")] *)
Definition strptime (s : str) : result datetime :=
  match re_match r_STRPTIME s with
  | None => Raise ValueError
  | Some m =>
      if Nat.eqb (m_end m) (length s) then
        y <- int_lstrip (group m "Y") ;;
        mo <- int_lstrip (group m "m") ;;
        d <- int_lstrip (group m "d") ;;
        h <- int_lstrip (group m "H") ;;
        mi <- int_lstrip (group m "M") ;;
        if valid_date y mo d then Ok (mk_dt y mo d h mi) else Raise ValueError
      else Raise ValueError
  end.
