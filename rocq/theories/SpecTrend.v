(** * Well-formed trends of a METAR: specification

    The groups of a trend in the documented order, the words they are
    written with, and what a parsed trend must hold for them. *)
From Coq Require Import String Ascii.
From Coq Require Import List NArith ZArith Bool Lia.
From Verif Require Import PyBase PyTime Base MetarGroups Trend Metar SpecNum SpecGroups SpecTime SpecText SpecWords SpecMetar
  SpecTafReport.
Import ListNotations.
Local Open Scope string_scope.
Local Open Scope nat_scope.
Local Open Scope list_scope.

Inductive trend_kind := TNosig | TBecmg | TTempo.
Definition trend_name (k : trend_kind) : string * string :=
  match k with
  | TNosig => ("NOSIG", "no significant changes")
  | TBecmg => ("BECMG", "becoming")
  | TTempo => ("TEMPO", "temporary")
  end.

Record trend_g := mk_trend {
  n_kind : trend_kind;
  n_times : list (period_kind * (N * N));      (* FMhhmm, TLhhmm, AThhmm *)
  n_wx : wx_g
}.

Definition time_word (x : period_kind * (N * N)) : str := period_code (fst x) (fst (snd x)) (snd (snd x)).
Definition trend_toks (g : trend_g) : list mtok := map (fun x => MWord (time_word x)) (n_times g) ++ wx_toks (n_wx g).
(** The words as they are written. *)
Definition trend_text (g : trend_g) : list str :=
  flat_map m_words (MWord (code_of (trend_name (n_kind g))) :: trend_toks g).

(** [u] is the time hhmm in the two hours from [t] on; 2400 is midnight, in the
    trend of a report of 22 hours (see [C32_trend_period_refuted]). *)
Definition clock_at (t : datetime) (hm : N * N) (u : datetime) : Prop :=
  (exists k, k <= 120 /\ minutes_later k t u)
  /\ (Z.of_N (fst hm) = dt_hour u
      \/ (fst hm = 24%N /\ dt_hour u = 0%Z /\ dt_minute u = 0%Z /\ dt_hour t = 22%Z))
  /\ Z.of_N (snd hm) = dt_minute u.

Definition wx_none : wx_g := mk_wx None None [] [].

(** [t] is the time of the report.  A trend is NOSIG alone, or BECMG or TEMPO
    with at most two times and at least one group. *)
Definition trend_wf (t : datetime) (g : trend_g) : Prop :=
  (Forall (fun x => exists u, clock_at t (snd x) u) (n_times g) /\ NoDup (map fst (n_times g)) /\ length (n_times g) <= 2)
  /\ wx_wf (n_wx g)
  /\ is_mixed (last (trend_toks g) (MWord [])) = false
  /\ match n_kind g with
     | TNosig => n_times g = [] /\ n_wx g = wx_none
     | _ => trend_toks g <> []
     end.

(** At most two trends, NOSIG not after another one. *)
Definition trends_wf (t : datetime) (ts : list trend_g) : Prop :=
  Forall (trend_wf t) ts /\ length ts <= 2 /\ Forall (fun g => n_kind g <> TNosig) (tl ts).

(** The two hours after the report lie before the end of the year 9999. *)
Definition two_hours (t e : datetime) : Prop := minutes_later 120 t e /\ (dt_year e <= 9999)%Z.

Definition kind_eqb (a b : period_kind) : bool :=
  match a, b with PFrom, PFrom | PUntil, PUntil | PAt, PAt => true | _, _ => false end.
(** The time of a kind that is written. *)
Definition given (k : period_kind) (g : trend_g) : option (N * N) :=
  option_map snd (find (fun x => kind_eqb k (fst x)) (n_times g)).

(** What the parsed trend must hold: the written times, or the two hours from
    the report on. *)
Definition trend_is (t e : datetime) (g : trend_g) (p : change_period) : Prop :=
  cp_code p = Some (sentence (trend_text g))
  /\ cp_unparsed p = []
  /\ ti_code (cp_ind p) = Some (sentence (code_of (trend_name (n_kind g)) :: map time_word (n_times g)))
  /\ ti_trans (cp_ind p) = Some (py (snd (trend_name (n_kind g))))
  /\ (t_dt (ti_init (cp_ind p)) = t /\ t_dt (ti_end (cp_ind p)) = e)
  /\ (match given PFrom g with Some hm => clock_at t hm (t_dt (ti_from (cp_ind p))) | None => t_dt (ti_from (cp_ind p)) = t end)
  /\ (match given PUntil g with Some hm => clock_at t hm (t_dt (ti_until (cp_ind p))) | None => t_dt (ti_until (cp_ind p)) = e end)
  /\ (match given PAt g, ti_at (cp_ind p) with
      | Some hm, Some a => clock_at t hm (t_dt a)
      | None, None => True
      | _, _ => False
      end)
  /\ wx_holds (n_wx g) (cp_common p).

(** The report and its time. *)
Definition issue_of (y mo : Z) (g : metar_g) : datetime :=
  mk_dt y mo (Z.of_N (g_day g)) (Z.of_N (g_hour g)) (Z.of_N (g_minute g)).
