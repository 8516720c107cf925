(** * aeromet_py/utils *)
From Coq Require Import String Ascii.
From Coq Require Import List NArith ZArith Bool Lia.
From Verif Require Import PyBase PyRegex AeroRegex PyFloat.
Import ListNotations.
Open Scope list_scope.

(** ** utils/conversions.py:4-60 (constants evaluated with binary64 arithmetic) *)

Definition FT_TO_M : float := Eval vm_compute in flit "0.3048".                     (* :7 *)
Definition SMI_TO_KM : float := Eval vm_compute in flit "1.852".                    (* :8 *)
Definition KM_TO_SMI : float := Eval vm_compute in fdiv (float_of_Z 1) SMI_TO_KM.   (* :9 *)
Definition KM_TO_M : float := Eval vm_compute in float_of_Z 1000.                   (* :10, an int *)
Definition M_TO_KM : float := Eval vm_compute in fdiv (float_of_Z 1) (float_of_Z 1000). (* :11 *)
Definition M_TO_SMI : float := Eval vm_compute in fmul M_TO_KM KM_TO_SMI.           (* :12 *)
Definition M_TO_FT : float := Eval vm_compute in fdiv (float_of_Z 1) FT_TO_M.       (* :13 *)
Definition M_TO_DM : float := Eval vm_compute in flit "10.0".                       (* :14 *)
Definition M_TO_CM : float := Eval vm_compute in flit "100.0".                      (* :15 *)
Definition M_TO_IN : float := Eval vm_compute in flit "39.3701".                    (* :16 *)
Definition PI : float := Eval vm_compute in flit "3.141592653589793".               (* math.pi *)
Definition DEGREES_TO_RADIANS : float := Eval vm_compute in fdiv PI (float_of_Z 180). (* :19 *)
Definition DEGREES_TO_GRADIANS : float := Eval vm_compute in flit "1.11111111".     (* :20 *)
Definition KNOT_TO_MPS : float := Eval vm_compute in flit "0.51444444".             (* :23 *)
Definition KNOT_TO_MIPH : float := Eval vm_compute in flit "1.15078".               (* :24 *)
Definition KNOT_TO_KPH : float := Eval vm_compute in flit "1.852".                  (* :25 *)
Definition MPS_TO_KNOT : float := Eval vm_compute in fdiv (float_of_Z 1) KNOT_TO_MPS. (* :26 *)
Definition HPA_TO_INHG : float := Eval vm_compute in flit "0.02953".                (* :29 *)
Definition INHG_TO_HPA : float := Eval vm_compute in fdiv (float_of_Z 1) HPA_TO_INHG. (* :30 *)
Definition HPA_TO_BAR : float := Eval vm_compute in flit "0.001".                   (* :31 *)
Definition BAR_TO_HPA : float := Eval vm_compute in fdiv (float_of_Z 1) HPA_TO_BAR. (* :32 *)
Definition MBAR_TO_HPA : float := Eval vm_compute in fdiv BAR_TO_HPA (float_of_Z 1000). (* :33 *)
Definition HPA_TO_MBAR : float := Eval vm_compute in fmul HPA_TO_BAR (float_of_Z 1000). (* :34 *)
Definition HPA_TO_ATM : float := Eval vm_compute in fdiv (float_of_Z 1) (flit "1013.25"). (* :35 *)

Definition f273_15 : float := Eval vm_compute in flit "273.15".
Definition f491_67 : float := Eval vm_compute in flit "491.67".
Definition f32 : float := Eval vm_compute in float_of_Z 32.
Definition f9 : float := Eval vm_compute in float_of_Z 9.
Definition f5 : float := Eval vm_compute in float_of_Z 5.

(** conversions.py:38-60 *)
Definition celsius_to_kelvin (t : float) : float := fadd t f273_15.
Definition kelvin_to_celsius (t : float) : float := fsub t f273_15.
Definition celsius_to_fahrenheit (t : float) : float := fadd (fdiv (fmul t f9) f5) f32.
Definition fahrenheit_to_celsius (t : float) : float := fdiv (fmul (fsub t f32) f5) f9.
Definition celsius_to_rankine (t : float) : float := fadd (fdiv (fmul t f9) f5) f491_67.
Definition rankine_to_celsius (t : float) : float := fdiv (fmul (fsub t f491_67) f5) f9.

(** ** utils/parser.py *)

(** One round of the loop of parser.py:19-25: [None] is the break on
    AttributeError ([match] is [None]). *)
Definition sanitize_visibility_step (report : str) : option str :=
  match re_search r_SAN_VIS report with
  | Some m =>
      match group m "int", group m "frac" with
      | Some i, Some f =>
          Some (re_sub r_SAN_VIS (py " " ++ i ++ py "_" ++ f ++ py " ") report (Some 1))
      | _, _ => None   (* unreachable: both groups take part in every match *)
      end
  | None => None
  end.

Fixpoint sanitize_visibility_n (n : nat) (report : str) : str :=
  match n with
  | O => report
  | S k => match sanitize_visibility_step report with
           | Some r => sanitize_visibility_n k r
           | None => report
           end
  end.

(** parser.py:6-27 *)
Definition sanitize_visibility (report : str) : str := sanitize_visibility_n 3 report.

(** parser.py:44-47; the loop has no break, a round without match changes nothing. *)
Definition sanitize_windshear_step (report : str) : str :=
  match re_search r_SAN_WS report with
  | Some m =>
      re_sub r_SAN_WS (py "WS_R" ++ fmt_opt (group m "name")) report (Some 1)
  | None => report
  end.

(** parser.py:30-49 *)
Definition sanitize_windshear (report : str) : str :=
  let report := re_sub r_SAN_WS_ALL (py "WS_ALL_RWY") report None in
  sanitize_windshear_step (sanitize_windshear_step (sanitize_windshear_step report)).

Fixpoint sanitize_change_indicator_n (n : nat) (report : str) : str :=
  match n with
  | O => report
  | S k =>
      match re_search r_SAN_PROB report with
      | Some m =>
          sanitize_change_indicator_n k
            (re_sub r_SAN_PROB
               (py "PROB" ++ fmt_opt (group m "percent") ++ py "_TEMPO") report (Some 1))
      | None => report
      end
  end.

(** parser.py:52-73 *)
Definition sanitize_change_indicator (report : str) : str :=
  sanitize_change_indicator_n 5 report.

(** ** utils/split.py *)

Inductive space_opt := SpNone | SpLeft | SpRight | SpBoth.

(** split.py:6-19, 39-46 *)
Definition add_space (sp : space_opt) (kw : str) : str :=
  match sp with
  | SpNone => kw
  | SpLeft => py " " ++ kw
  | SpRight => kw ++ py " "
  | SpBoth => py " " ++ kw ++ py " "
  end.

(** [re.compile(kw)] for a keyword made of letters and spaces. *)
Fixpoint literal (s : str) : regex :=
  match s with
  | [] => Eps
  | [c] => chr1 c
  | c :: s' => Seq (chr1 c) (literal s')
  end.

(** split.py:22-55; [count = None] is the default 0. *)
Definition split_sentence (sentence : str) (keywords : list str) (count : option nat)
           (sp : space_opt) : list str :=
  split_on 124%N
    (fold_left (fun s kw =>
       let kw := add_space sp kw in
       re_sub (literal kw) (py "|" ++ lstrip kw) s count) keywords sentence).
