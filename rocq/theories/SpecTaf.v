(** * Specifications: trend periods, the changes of a forecast *)
From Coq Require Import String Ascii.
From Coq Require Import List NArith ZArith Bool Lia.
From Verif Require Import PyBase PyRegex AeroRegex PyTime Base Trend Taf SpecTime SpecText.
Import ListNotations.
Local Open Scope list_scope.

(** ** Trend periods of a METAR *)

(** The period a group sets and the ones it leaves. *)
Definition period_set (p : period_kind) (u : datetime) (i i' : trend_ind) : Prop :=
  match p with
  | PFrom => t_dt (ti_from i') = u /\ ti_until i' = ti_until i /\ ti_at i' = ti_at i
  | PUntil => t_dt (ti_until i') = u /\ ti_from i' = ti_from i /\ ti_at i' = ti_at i
  | PAt => (exists a, ti_at i' = Some a /\ t_dt a = u) /\ ti_from i' = ti_from i /\ ti_until i' = ti_until i
  end.

(** ** Changes *)

(** The code begins with a word. *)
Definition begins (w : string) (c : option str) : Prop := exists r, c = Some (py w ++ r).
Arguments begins w%string c.

Definition ind_code (c : change_fc) : option str := tc_code (cf_ind c).

(** TEMPO and PROB changes; FM changes. *)
Definition passing (c : change_fc) : Prop := begins "PROB" (ind_code c) \/ begins "TEMPO" (ind_code c).
Definition is_from (c : change_fc) : Prop := begins "FM" (ind_code c).

(** [f'] is [f] with its end moved to one hour before [start]. *)
Definition ends_before (start : datetime) (f f' : change_fc) : Prop :=
  cf_code f' = cf_code f /\ cf_valid f' = cf_valid f /\ cf_common f' = cf_common f
  /\ cf_unparsed f' = cf_unparsed f /\ ind_code f' = ind_code f
  /\ va_from (tc_valid (cf_ind f')) = va_from (tc_valid (cf_ind f))
  /\ minutes_later 60 (t_dt (va_until (tc_valid (cf_ind f')))) start.

(** What adding [new] does to the changes already there. *)
Inductive chained (new : change_fc) : list change_fc -> list change_fc -> Prop :=
| NoChain : forall l, ~ begins "FM" (cf_code new) -> ~ begins "BECMG" (cf_code new) -> chained new l l
| AllPassing : forall l, Forall passing l -> chained new l l
| LastOther : forall l1 c l2, Forall passing l2 -> ~ passing c -> ~ is_from c ->
    chained new (l1 ++ c :: l2) (l1 ++ c :: l2)
| LastFrom : forall l1 f f' l2, begins "FM" (cf_code new) \/ begins "BECMG" (cf_code new) ->
    Forall passing l2 -> is_from f -> ends_before (t_dt (va_from (tc_valid (cf_ind new)))) f f' ->
    chained new (l1 ++ f :: l2) (l1 ++ f' :: l2).

(** ** Joined changes *)

(** [ch] is the change written as the tokens [c]: its code, and for a PROB
    TEMPO pair its indicator, which a validity group may extend. *)
Definition change_of (c : list ctok) (ch : change_fc) : Prop :=
  cf_code ch = Some (sentence (flat_map ct_words c))
  /\ forall n r, c = ProbTempo n :: r -> exists tail, ind_code ch = Some (prob_code n ++ py " TEMPO" ++ tail)
    /\ (tail = [] \/ exists g, re_match r_T_VALID g <> None /\ tail = py " " ++ replace (py "_") (py " ") g).
