(** * The texts of the exceptions of the reports *)
From Coq Require Import String Ascii.
From Coq Require Import List NArith ZArith Bool.
From Verif Require Import PyBase PyTime Base MetarGroups Trend Metar Taf.
Import ListNotations.
Local Open Scope string_scope.
Local Open Scope list_scope.

(** The text of a ParserError, metar.py:257-263 and taf.py:187-193 *)
Definition parser_error_text (unparsed : list str) (raw : str) : str :=
  py "failed while processing " ++ join (py ", ") unparsed ++ py " from: " ++ raw.

(** The text of the ParserError that Metar(code, year, month, truncate=True)
    raises, [None] when it raises none.  The truncation flag is read only in
    the last statement (metar.py:257), so the report at that moment is the one
    read without truncation. *)
Definition metar_error (e : env) (code : str) (year month : option Z) : option str :=
  match metar_parse e code year month false with
  | Ok x => match me_unparsed x with [] => None | l => Some (parser_error_text l (me_raw x)) end
  | Raise _ => None
  end.

(** The same for Taf, taf.py:187-193 *)
Definition taf_error (e : env) (code : str) (year month : option Z) : option str :=
  match taf_parse e code year month false with
  | Ok x => match ta_unparsed x with [] => None | l => Some (parser_error_text l (ta_raw x)) end
  | Raise _ => None
  end.
