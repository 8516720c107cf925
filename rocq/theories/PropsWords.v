(** * Properties C28 and C41 (groups of several words): statements only *)
From Coq Require Import String Ascii.
From Coq Require Import List NArith ZArith Bool Lia.
From Verif Require Import PyBase PyRegex AeroRegex PyTime Utils Base MetarGroups Trend Metar SpecNum SpecGroups SpecText SpecWords
  ProofText TextFacts MergeFacts ProofMerge ProofWords.
Import ListNotations.
Local Open Scope string_scope.
Local Open Scope nat_scope.
Local Open Scope list_scope.

(** ** METAR bodies: mixed visibilities and windshear groups *)

(** Up to three of each, anywhere but a mixed visibility at the very end:
    every written group is one group of the section and there is no other.
    Missing from the full C41: a fourth mixed visibility, and the end of the
    section (refuted below). *)
Theorem C28_C41_body_partial : forall w l, word w -> Forall mtok_wf l -> unmixed l -> unsheared (MWord w :: l) ->
  is_mixed (last l (MWord w)) = false -> length (filter is_mixed l) <= 3 -> length (filter is_runway_ws l) <= 3 ->
  sanitize_body (sentence (flat_map m_words (MWord w :: l))) = sentence (map m_joined (MWord w :: l)).
Proof. exact body_joined. Qed.
Print Assumptions C28_C41_body_partial.

Theorem C28_C41_groups_partial : forall S (hs : list (handler S)) st w l, word w ->
  Forall mtok_wf l -> unmixed l -> unsheared (MWord w :: l) ->
  is_mixed (last l (MWord w)) = false -> length (filter is_mixed l) <= 3 -> length (filter is_runway_ws l) <= 3 ->
  parse_section hs (sanitize_body (sentence (flat_map m_words (MWord w :: l)))) st
  = parse_groups hs (w :: map m_joined l) 0 [] st.
Proof. exact @body_groups. Qed.
Print Assumptions C28_C41_groups_partial.

(** ** Trends, TAF bodies and TAF changes: mixed visibilities only *)
Theorem C41_section_partial : forall w l, word w ->
  Forall (fun t => match t with MWord v => word v | MMixed _ _ _ _ => True | MWs _ _ => False end) l ->
  unmixed l -> is_mixed (last l (MWord w)) = false -> length (filter is_mixed l) <= 3 ->
  sanitize_visibility (sentence (flat_map m_words (MWord w :: l))) = sentence (map m_joined (MWord w :: l)).
Proof. exact vis_joined. Qed.
Print Assumptions C41_section_partial.

Example C28_C41_case :
  let l := [MWord (py "KJWS"); MMixed false 2 1 2; MWord (py "RA"); MMixed true 10 3 4; MWs true (WsRunway (mk_runway 24 None));
            MWs false (WsRunway (mk_runway 6 (Some ("L", "left")%string))); MWs true WsAll] in
  Forall mtok_wf l /\ unmixed l /\ unsheared (MWord (py "METAR") :: l) /\ is_mixed (last l (MWord (py "METAR"))) = false
  /\ sentence (flat_map m_words (MWord (py "METAR") :: l))
     = py "METAR KJWS 2 1/2SM RA 10 3/4SM WS RWY24 WS R06L WS ALL RWY"
  /\ sanitize_body (py "METAR KJWS 2 1/2SM RA 10 3/4SM WS RWY24 WS R06L WS ALL RWY")
     = py "METAR KJWS 2_1/2SM RA 10_3/4SM WS_R24 WS_R06L WS_ALL_RWY".
Proof.
  cbv zeta. split; [|split; [|split; [|split; [|split]]]].
  - constructor; [apply word_b_ok; reflexivity|]. constructor; [exact I|].
    constructor; [apply word_b_ok; reflexivity|]. constructor; [exact I|].
    constructor; [split; [reflexivity|exact I]|]. constructor; [split; [reflexivity|cbn; auto]|]. constructor; [exact I|constructor].
  - repeat split.
  - repeat split.
  - reflexivity.
  - vm_compute; reflexivity.
  - vm_compute; reflexivity.
Qed.

(** At the end of a section the joined group is followed by an empty group,
    which the weather pattern accepts. *)
Theorem C41_refuted :
  sanitize_body (py "METAR KJFK 2 1/2SM") = py "METAR KJFK 2_1/2SM "
  /\ exists x y, metar_parse (mk_env 2023 6 [] []) (py "METAR KJFK 2 1/2SM") (Some 2023%Z) (Some 6%Z) false = Ok x
     /\ metar_parse (mk_env 2023 6 [] []) (py "METAR KJFK 2_1/2SM") (Some 2023%Z) (Some 6%Z) false = Ok y
     /\ length (gl_list (c_weathers (me_common x))) = 1 /\ length (gl_list (c_weathers (me_common y))) = 0.
Proof.
  split; [vm_compute; reflexivity|]. do 2 eexists. split; [vm_compute; reflexivity|]. split; [vm_compute; reflexivity|].
  split; reflexivity.
Qed.
Print Assumptions C41_refuted.
