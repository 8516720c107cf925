(** * What C75 says: a backtracking engine that counts its steps

    [engine] is written the way a backtracking matcher works: it goes through
    the pattern from left to right, tries the alternatives in order, repeats
    greedily, and comes back to the last choice when what follows fails.  It
    counts one step for every part of the pattern it enters and for every
    character it repeats over. *)
From Coq Require Import String Ascii.
From Coq Require Import List NArith ZArith Bool.
From Verif Require Import PyBase PyRegex AeroRegex Utils Base MetarGroups Trend Metar Taf.
Import ListNotations.
Local Open Scope string_scope.
Local Open Scope nat_scope.
Local Open Scope list_scope.

Definition tick {X} (r : option X * nat) : option X * nat := (fst r, S (snd r)).
(** The second choice once the first has failed. *)
Definition orelse {X} (r1 r2 : option X * nat) : option X * nat :=
  match r1 with (Some x, n) => (Some x, n) | (None, n) => (fst r2, n + snd r2) end.

Fixpoint engine_star {X} (k : cls) (pos : nat) (s : str) (sp : spans) (next : nat -> str -> spans -> option X * nat)
  : option X * nat :=
  match s with
  | c :: s' => if in_cls c k then tick (orelse (engine_star k (S pos) s' sp next) (next pos s sp)) else tick (next pos s sp)
  | [] => tick (next pos s sp)
  end.

Fixpoint engine {X} (r : regex) (pos : nat) (s : str) (sp : spans) (next : nat -> str -> spans -> option X * nat)
  : option X * nat :=
  match r with
  | Eps => tick (next pos s sp)
  | Chr k => match s with
             | c :: s' => if in_cls c k then tick (next (S pos) s' sp) else (None, 1)
             | [] => (None, 1)
             end
  | Seq a b => tick (engine a pos s sp (fun p t sp' => engine b p t sp' next))
  | Alt a b => tick (orelse (engine a pos s sp next) (engine b pos s sp next))
  | Star k => engine_star k pos s sp next
  | Grp n a => tick (engine a pos s sp (fun p t sp' => next p t ((n, (pos, p)) :: sp')))
  | Bos => if Nat.eqb pos 0 then tick (next pos s sp) else (None, 1)
  | Eos => if at_end s then tick (next pos s sp) else (None, 1)
  end.

(** Matching at one place: the end and the groups, and the steps taken. *)
Definition attempt (r : regex) (pos : nat) (s : str) : option (nat * spans) * nat :=
  engine r pos s [] (fun p _ sp => (Some (p, sp), 0)).
Definition found (r : regex) (pos : nat) (s : str) : option (nat * spans) := fst (attempt r pos s).
Definition steps (r : regex) (pos : nat) (s : str) : nat := snd (attempt r pos s).

(** [re.search]: one place after another up to the first match. *)
Fixpoint search_steps (r : regex) (pos : nat) (s : str) : nat :=
  steps r pos s + match found r pos s, s with None, _ :: s' => search_steps r (S pos) s' | _, _ => 0 end.

(** [re.sub]: the same, going on behind each match, up to [cnt] matches. *)
Fixpoint sub_steps (r : regex) (cnt : option nat) (pos skip : nat) (s : str) : nat :=
  match s with
  | [] => match skip, cnt with O, Some O => 0 | O, _ => steps r pos [] | S _, _ => 0 end
  | c :: s' =>
      match skip, cnt with
      | S k, _ => sub_steps r cnt (S pos) k s'
      | O, Some O => 0
      | O, _ =>
          steps r pos s
          + match found r pos s with
            | None => sub_steps r cnt (S pos) 0 s'
            | Some (e, _) => sub_steps r (match cnt with Some (S n) => Some n | _ => cnt end) (S pos) (e - pos - 1) s'
            end
      end
  end.

(** ** The searches of the program

    utils/parser.py:19-25 *)
Fixpoint mixed_work (n : nat) (s : str) : nat :=
  match n with
  | O => 0
  | S k => search_steps r_SAN_VIS 0 s
           + match sanitize_visibility_step s with
             | Some s' => sub_steps r_SAN_VIS (Some 1) 0 0 s + mixed_work k s'
             | None => 0
             end
  end.
(** utils/parser.py:40-47 *)
Definition shear_step_work (s : str) : nat :=
  search_steps r_SAN_WS 0 s + match re_search r_SAN_WS s with Some _ => sub_steps r_SAN_WS (Some 1) 0 0 s | None => 0 end.
Definition shear_work (s : str) : nat :=
  let s1 := re_sub r_SAN_WS_ALL (py "WS_ALL_RWY") s None in
  let s2 := sanitize_windshear_step s1 in
  let s3 := sanitize_windshear_step s2 in
  sub_steps r_SAN_WS_ALL None 0 0 s + shear_step_work s1 + shear_step_work s2 + shear_step_work s3.
(** utils/parser.py:62-71 *)
Fixpoint prob_work (n : nat) (s : str) : nat :=
  match n with
  | O => 0
  | S k => search_steps r_SAN_PROB 0 s
           + match re_search r_SAN_PROB s with
             | Some m => sub_steps r_SAN_PROB (Some 1) 0 0 s
                         + prob_work k (re_sub r_SAN_PROB (py "PROB" ++ fmt_opt (group m "percent") ++ py "_TEMPO") s (Some 1))
             | None => 0
             end
  end.
(** utils/split.py:38-54 *)
Fixpoint split_work (s : str) (kws : list str) (cnt : option nat) (sp : space_opt) : nat :=
  match kws with
  | [] => 0
  | kw :: kws' => let kw := add_space sp kw in
                  sub_steps (literal kw) cnt 0 0 s + split_work (re_sub (literal kw) (py "|" ++ lstrip kw) s cnt) kws' cnt sp
  end.

(** base/__init__.py:38-50: the patterns tried on one group, and how many of
    them were used up; then the groups in turn.  An exception of a handler
    ends the loop earlier. *)
Fixpoint group_work (rs : list regex) (g : str) : nat * nat :=
  match rs with
  | [] => (0, 0)
  | r :: rs' => match found r 0 g with
                | Some _ => (steps r 0 g, 1)
                | None => let (n, c) := group_work rs' g in (steps r 0 g + n, match c with O => O | S _ => S c end)
                end
  end.
Fixpoint groups_work (rs : list regex) (gs : list str) (index : nat) : nat :=
  match gs with
  | [] => 0
  | g :: gs' => let (n, c) := group_work (skipn index rs) g in n + groups_work rs gs' (index + c)
  end.
Definition section_work {S} (hs : list (handler S)) (s : str) : nat := groups_work (map (@h_regexp S) hs) (split_on 32%N s) 0.

(** ** Reading a report *)

(** weather_trend.py:72-81, 101-119 *)
Definition trend_work (code : str) : nat :=
  let s := replace (py "_") (py " ") code in
  mixed_work 3 s + section_work trend_handlers (sanitize_visibility s).
(** metar.py:31-70, base/report.py:22 *)
Definition metar_work (e : env) (code : str) (year month : option Z) : nat :=
  let raw := normalise code in
  let body := section 0 (metar_sections raw) in
  let trend := section 1 (metar_sections raw) in
  sub_steps r_NORMALISE None 0 0 (strip code)
  + split_work raw [py "NOSIG"; py "TEMPO"; py "BECMG"; py "RMK"] None SpLeft
  + mixed_work 3 body + shear_work (sanitize_visibility body)
  + section_work (metar_handlers e year month) (sanitize_body body)
  + split_work trend [py "TEMPO"; py "BECMG"] (Some 1) SpBoth
  + list_sum (map trend_work (trend_codes trend)).

(** change_forecast.py:20-30, 49-67 *)
Definition change_work (code : str) : nat :=
  let s := replace (py "_") (py " ") code in
  prob_work 5 s + mixed_work 3 (sanitize_change_indicator s)
  + section_work change_handlers (sanitize_visibility (sanitize_change_indicator s)).
(** taf.py:40-90, 150-210 *)
Definition taf_work (e : env) (code : str) (year month : option Z) : nat :=
  let raw := normalise code in
  let s := sanitize_change_indicator raw in
  let s := if starts_with (py "TAF") s then replace (py "TAF ") (py "TAF_") s else s in
  let body := fst (taf_split raw) in
  sub_steps r_NORMALISE None 0 0 (strip code)
  + prob_work 5 raw + split_work s [py "FM"; py "TEMPO"; py "BECMG"; py "PROB"] None SpLeft
  + mixed_work 3 body + section_work (taf_handlers e year month) (sanitize_visibility body)
  + list_sum (map change_work (snd (taf_split raw))).
