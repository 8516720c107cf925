(** * Property C59, groups: statements only *)
From Coq Require Import String Ascii.
From Coq Require Import List NArith ZArith Bool Lia.
From Verif Require Import PyBase PyRegex AeroRegex PyFloat PyTime Utils Base MetarGroups Trend Metar Taf AsDict Json SpecNum SpecJson
  GroupJson SpecGroupJson ProofGroupJson PropsFailures PropsAbsent.
Import ListNotations.
Local Open Scope string_scope.
Local Open Scope nat_scope.
Local Open Scope list_scope.

(** The JSON of every group and number of an accepted report says what its
    dictionary says. *)
Theorem C59_metar_groups : forall e code y mo tr x, metar_parse e code y mo tr = Ok x ->
  Forall (fun d => faithful d (group_json d)) (metar_groups e x).
Proof. exact metar_group_json. Qed.
Print Assumptions C59_metar_groups.

Theorem C59_taf_groups : forall e code y mo tr x, taf_parse e code y mo tr = Ok x ->
  Forall (fun d => faithful d (group_json d)) (taf_groups e x).
Proof. exact taf_group_json. Qed.
Print Assumptions C59_taf_groups.

(** So does the JSON of every list of groups. *)
Definition listed {A} (f : A -> dict) (g : grouplist A) : Prop :=
  exists d t, list_dict f g = Ok d /\ list_json f g = Ok t /\ faithful d t.

Theorem C59_metar_lists : forall e code y mo tr x, metar_parse e code y mo tr = Ok x ->
  listed rvr_dict (me_rvr x) /\ listed weather_dict (c_weathers (me_common x)) /\ listed cloud_dict (c_clouds (me_common x))
  /\ listed ws_dict (me_ws x) /\ listed change_period_dict (me_trends x).
Proof. exact metar_list_json. Qed.
Print Assumptions C59_metar_lists.

Theorem C59_taf_lists : forall e code y mo tr x, taf_parse e code y mo tr = Ok x ->
  listed weather_dict (c_weathers (ta_common x)) /\ listed cloud_dict (c_clouds (ta_common x))
  /\ listed taf_temp_dict (ta_max x) /\ listed taf_temp_dict (ta_min x) /\ listed change_fc_dict (ta_changes x).
Proof. exact taf_list_json. Qed.
Print Assumptions C59_taf_lists.

Example C59_groups_case :
  gives (read_in 2024 2 "METAR SEQM 282330Z 01018KT 9999 SCT010 10/08 Q1013 TEMPO FM0030 4000")
    (fun x => str_eqb (group_json (wvar_dict (me_wvar x))) (py "{""from_"": {""cardinal"": null, ""variable"": false, ""units"": ""degrees"", ""direction"": null}, ""to"": {""cardinal"": null, ""variable"": false, ""units"": ""degrees"", ""direction"": null}, ""code"": null}")
      && str_eqb (group_json (pressure_dict (pr_value (me_press x)))) (py "{""units"": ""hectopascals"", ""pressure"": 1013.0}")
      && Nat.eqb (length (metar_groups some_env x)) 34) = true.
Proof. vm_compute. reflexivity. Qed.
Example C59_groups_taf :
  gives (read_taf 2024 2 "TAF SEQM 142300Z 1500/1524 05005KT 9999 BKN030 TX25/1516Z TEMPO 1506/1512 4000")
    (fun x => match list_json taf_temp_dict (ta_max x) with
              | Ok t => str_eqb t (py "{""first"": {""units"": ""celsius"", ""temperature"": 25.0, ""code"": null, ""datetime"": ""2024-02-15 16:00:00""}}")
              | Raise _ => false
              end) = true.
Proof. vm_compute. reflexivity. Qed.
