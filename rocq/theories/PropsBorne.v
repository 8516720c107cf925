(** * C81: the verdicts on every accepted report follow from its codes *)
From Coq Require Import String Ascii.
From Coq Require Import List NArith ZArith Bool Lia QArith.
From Verif Require Import PyBase PyTime Base MetarGroups Trend Metar Taf SpecNum SpecGroups SpecRules SpecCavok SpecVerdict SpecGrammar SpecByCode SpecStated SpecBorne
  ProofValues ProofBorne PropsRules PropsFailures.
Import ListNotations.
Local Open Scope string_scope.
Local Open Scope nat_scope.
Local Open Scope list_scope.

(** C81 (all METARs): the body and every trend.  Nothing is asked of the rest
    of the report: unknown groups, repeated groups, remarks or a missing header
    make no difference. *)
Theorem C81_metar : forall e code y mo tr x c vis ws gs, metar_parse e code y mo tr = Ok x -> In c (metar_parts x) ->
  bears vis ws gs c -> ruled vis ws gs c.
Proof. exact metar_ruled. Qed.
Print Assumptions C81_metar.

(** C81 (all TAFs): the body and every change. *)
Theorem C81_taf : forall e code y mo tr x c vis ws gs, taf_parse e code y mo tr = Ok x -> In c (taf_parts x) ->
  bears vis ws gs c -> ruled vis ws gs c.
Proof. exact taf_ruled. Qed.
Print Assumptions C81_taf.

(** C81: which parts of accepted reports have no such groups: those with one
    of the undocumented visibilities of C77 or with a layer 0VC. *)
Theorem C81_metar_parts : forall e code y mo tr x c, metar_parse e code y mo tr = Ok x -> In c (metar_parts x) -> typed_part c ->
  (exists vis ws gs, bears vis ws gs c) \/ (exists s, v_code (c_vis c) = Some s /\ odd_read s)
    \/ Exists (fun a => exists s, cl_code a = Some s /\ zero_vc s) (gl_list (c_clouds c)).
Proof. exact metar_bears. Qed.
Print Assumptions C81_metar_parts.

Theorem C81_taf_parts : forall e code y mo tr x c, taf_parse e code y mo tr = Ok x -> In c (taf_parts x) -> typed_part c ->
  (exists vis ws gs, bears vis ws gs c) \/ (exists s, v_code (c_vis c) = Some s /\ (odd_read s \/ run_on s))
    \/ Exists (fun a => exists s, cl_code a = Some s /\ zero_vc s) (gl_list (c_clouds c)).
Proof. exact taf_bears. Qed.
Print Assumptions C81_taf_parts.

(** A METAR with unknown groups: its body is LIFR and no CAVOK, its trend has
    a broken layer without a height, and asking it for CAVOK fails. *)
Definition untidy := py "METAR SEQM 162000Z foo 24008KT 9999 BKN004 bar Q1014 TEMPO 9999 baz BKN///".
Example C81_metar_case :
  exists x b t, metar_parse some_env untidy (Some 2026%Z) (Some 11%Z) false = Ok x
    /\ metar_parts x = [b; t] /\ me_unparsed x = [py "foo"; py "bar"; py "baz"]
    /\ bears (Some (VisMeters 9999 None)) [] [layer bkn 4] b /\ bears (Some (VisMeters 9999 None)) [] [mk_cloud_g bkn HtSlashes TyAbsent] t
    /\ flight_rules b = Some (py "LIFR") /\ flight_rules t = Some (py "VFR") /\ should_be_cavok false t = Raise TypeError.
Proof.
  do 3 eexists. split; [vm_compute; reflexivity|]. split; [vm_compute; reflexivity|]. split; [vm_compute; reflexivity|].
  split; [|split; [|conjs; vm_compute; reflexivity]].
  - split; [split; [reflexivity|exact I]|]. split; [constructor|]. split; [|conjs; vm_compute; reflexivity]. constructor; [|constructor].
    split; [cbn; intuition|]. split; [reflexivity|]. intros [H _]. discriminate H.
  - split; [split; [reflexivity|exact I]|]. split; [constructor|]. split; [|conjs; vm_compute; reflexivity]. constructor; [|constructor].
    split; [cbn; intuition|]. split; [exact I|]. intros [H _]. discriminate H.
Qed.
Example C81_taf_case :
  exists x b t, taf_parse some_env (py "TAF SEQM 161700Z foo 1618/1718 24008KT 9999 FEW060 TEMPO 1620/1622 0700") (Some 2026%Z) (Some 11%Z) false = Ok x
    /\ taf_parts x = [b; t] /\ bears (Some (VisMeters 9999 None)) [] [layer few 60] b /\ bears (Some (VisMeters 700 None)) [] [] t
    /\ typed_part b /\ flight_rules t = Some (py "VLIFR") /\ exists c, should_be_cavok false b = Ok (true, c).
Proof.
  do 3 eexists. split; [vm_compute; reflexivity|]. split; [vm_compute; reflexivity|].
  split; [|split; [|split; [|split; [vm_compute; reflexivity|eexists; vm_compute; reflexivity]]]].
  - split; [split; [reflexivity|exact I]|]. split; [constructor|]. split; [|conjs; vm_compute; reflexivity]. constructor; [|constructor].
    split; [cbn; intuition|]. split; [reflexivity|]. intros [H _]. discriminate H.
  - split; [split; [reflexivity|exact I]|]. split; [constructor|]. split; [constructor|conjs; vm_compute; reflexivity].
  - split; [|split]; cbn [gl_list c_weathers c_clouds c_vis]; repeat (constructor; try (intros s E; cbn in E; injection E as <-; repeat (constructor; [split; [reflexivity|discriminate]|]); constructor)).
    intros s E. cbn in E. injection E as <-. repeat (constructor; [split; [reflexivity|discriminate]|]). constructor.
Qed.
