(** * Property C69: statements only *)
From Coq Require Import String Ascii.
From Coq Require Import List NArith ZArith Bool Lia.
From Verif Require Import PyBase PyRegex AeroRegex PyFloat PyTime Utils Base MetarGroups Trend Metar SpecGroups SpecText SpecApart SpecKind
  ProofValues ProofKind PropsFailures PropsAbsent PropsApart.
Import ListNotations.
Local Open Scope string_scope.
Local Open Scope nat_scope.
Local Open Scope list_scope.

(** ** C69: the first word of a METAR *)

(** A routine and a special report with the same groups, in any layout, are
    refused with the same exception or read alike: the word decides the type,
    the first line of the readable text and the beginning of the raw code and
    of the body section, nothing else. *)
Theorem C69_speci : forall e ws t1 t2 y mo tr, Forall plain_word ws ->
  written (py "METAR" :: ws) t1 -> written (py "SPECI" :: ws) t2 ->
  differ_in_kind (metar_parse e t1 y mo tr) (metar_parse e t2 y mo tr).
Proof. exact metar_kind. Qed.
Print Assumptions C69_speci.

(** A report that begins with its station is read as if METAR stood in front;
    only the first line of the readable text is missing. *)
Theorem C69_omitted : forall e w ws t1 t2 y mo tr, Forall plain_word (w :: ws) -> is_station w ->
  written (py "METAR" :: w :: ws) t1 -> written (w :: ws) t2 ->
  announced (metar_parse e t1 y mo tr) (metar_parse e t2 y mo tr).
Proof. exact metar_announced. Qed.
Print Assumptions C69_omitted.

(** A station that ends in WS may be joined with the next group; then a later
    SPECI is read as the type of the report that has none. *)
Theorem C69_omitted_refuted : ~ (forall e w ws t1 t2 y mo tr, Forall plain_word (w :: ws) ->
  station_wf w -> starts_with (py "RMK") w = false ->
  written (py "METAR" :: w :: ws) t1 -> written (w :: ws) t2 ->
  announced (metar_parse e t1 y mo tr) (metar_parse e t2 y mo tr)).
Proof. exact announced_refuted. Qed.
Print Assumptions C69_omitted_refuted.

Definition shown_words : list str := map py ["SEQM"; "071200Z"; "01018KT"; "1"; "1/2SM"; "WS"; "R17"; "TEMPO"; "4000"; "RMK"; "A3006"].

Example C69_case :
  Forall plain_word shown_words /\ is_station (py "SEQM")
  /\ written (py "METAR" :: shown_words) (sentence (py "METAR" :: shown_words))
  /\ written (py "SPECI" :: shown_words) (sentence (py "SPECI" :: shown_words))
  /\ written shown_words (sentence shown_words)
  /\ gives (metar_parse some_env (sentence (py "SPECI" :: shown_words)) (Some 2024%Z) (Some 2%Z) true)
       (fun x => opt_str_eqb (ty_code (me_type x)) (py "SPECI") && str_eqb (section 2 (me_sections x)) (py "RMK A3006")
                 && starts_with (kind_line Special ++ py "Name: ") (c_string (me_common x))) = true
  /\ gives (metar_parse some_env (sentence shown_words) (Some 2024%Z) (Some 2%Z) true)
       (fun x => opt_str_eqb (ty_code (me_type x)) (py "METAR") && str_eqb (section 2 (me_sections x)) (py "RMK A3006")
                 && starts_with (py "Name: ") (c_string (me_common x))) = true
  /\ metar_parse some_env (sentence (py "METAR" :: shown_words ++ [py "X"; py "TEMPO"; py "X"])) (Some 2024%Z) (Some 2%Z) true = Raise ParserError
  /\ metar_parse some_env (sentence (py "SPECI" :: shown_words ++ [py "X"; py "TEMPO"; py "X"])) (Some 2024%Z) (Some 2%Z) true = Raise ParserError.
Proof.
  split; [apply plain_b_ok; vm_compute; reflexivity|].
  split; [split; [exists 83%N, 69%N, 81%N, 77%N; unfold is_alnum, is_upper; conjs; try reflexivity; try left; lia|reflexivity|reflexivity]|].
  split; [apply single_written; discriminate|]. split; [apply single_written; discriminate|]. split; [apply single_written; discriminate|].
  conjs; vm_compute; reflexivity.
Qed.
