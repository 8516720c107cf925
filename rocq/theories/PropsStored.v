(** * Property C86: statements only *)
From Coq Require Import String Ascii.
From Coq Require Import List NArith ZArith Bool Lia.
From Verif Require Import PyBase PyRegex AeroRegex PyFloat PyTime Utils Base MetarGroups Trend Metar Taf AsDict Json SpecNum SpecJson SpecText SpecBare
  SpecAbsent SpecDict SpecMoment SpecStored ProofStored PropsFailures PropsAbsent PropsJson.
Import ListNotations.
Local Open Scope string_scope.
Local Open Scope nat_scope.
Local Open Scope list_scope.

(** ** C86: a report can be had back from its JSON *)

Theorem C86_metar_code : forall e code y mo tr x t,
  metar_parse e code y mo tr = Ok x -> metar_json e x = Ok t -> Forall scalar code -> stored t = Some (me_raw x).
Proof. exact metar_stored. Qed.
Print Assumptions C86_metar_code.

Theorem C86_taf_code : forall e code y mo tr x t,
  taf_parse e code y mo tr = Ok x -> taf_json e x = Ok t -> Forall scalar code -> stored t = Some (ta_raw x).
Proof. exact taf_stored. Qed.
Print Assumptions C86_taf_code.

Theorem C86_metar_back : forall e code y mo tr x t,
  metar_parse e code y mo tr = Ok x -> metar_json e x = Ok t -> Forall scalar code ->
  ((exists s, stored t = Some s /\ metar_parse e s y mo tr = Ok x) <-> has_ink code /\ ~ bare code).
Proof. exact metar_back. Qed.
Print Assumptions C86_metar_back.

Theorem C86_taf_back : forall e code y mo tr x t,
  taf_parse e code y mo tr = Ok x -> taf_json e x = Ok t -> Forall scalar code ->
  ((exists s, stored t = Some s /\ taf_parse e s y mo tr = Ok x) <-> has_ink code /\ ~ bare code).
Proof. exact taf_back. Qed.
Print Assumptions C86_taf_back.

Theorem C86_metar_same : forall e y mo tr code x code' x' t,
  metar_parse e code y mo tr = Ok x -> metar_parse e code' y mo tr = Ok x' ->
  metar_json e x = Ok t -> metar_json e x' = Ok t -> Forall scalar code -> Forall scalar code' ->
  has_ink code -> ~ bare code -> has_ink code' -> ~ bare code' -> x = x'.
Proof. exact metar_same. Qed.
Print Assumptions C86_metar_same.

Theorem C86_taf_same : forall e y mo tr code x code' x' t,
  taf_parse e code y mo tr = Ok x -> taf_parse e code' y mo tr = Ok x' ->
  taf_json e x = Ok t -> taf_json e x' = Ok t -> Forall scalar code -> Forall scalar code' ->
  has_ink code -> ~ bare code -> has_ink code' -> ~ bare code' -> x = x'.
Proof. exact taf_same. Qed.
Print Assumptions C86_taf_same.

(** The JSON shows the month as well, if the report has a time. *)
Theorem C86_metar_months : forall e code y mo tr x code' y' mo' tr' x' t, months_ok y mo -> months_ok y' mo' ->
  metar_parse e code (Some y) (Some mo) tr = Ok x -> metar_parse e code' (Some y') (Some mo') tr' = Ok x' ->
  metar_json e x = Ok t -> metar_json e x' = Ok t -> Forall scalar code -> Forall scalar code' ->
  has_ink code -> ~ bare code -> has_ink code' -> ~ bare code' -> y = y' /\ mo = mo' /\ x = x'.
Proof. exact metar_months. Qed.
Print Assumptions C86_metar_months.

Theorem C86_taf_months : forall e code y mo tr x code' y' mo' tr' x' t, months_ok (now_year e) (now_month e) -> months_ok y mo -> months_ok y' mo' ->
  taf_parse e code (Some y) (Some mo) tr = Ok x -> taf_parse e code' (Some y') (Some mo') tr' = Ok x' ->
  taf_json e x = Ok t -> taf_json e x' = Ok t -> Forall scalar code -> Forall scalar code' ->
  has_ink code -> ~ bare code -> has_ink code' -> ~ bare code' -> t_code (ta_time x) <> None -> y = y' /\ mo = mo' /\ x = x'.
Proof. exact taf_months. Qed.
Print Assumptions C86_taf_months.

(** Whatever the texts and months, the groups are the same. *)
Theorem C86_metar_settled : forall e code y mo tr x code' y' mo' tr' x' d d' t,
  metar_parse e code y mo tr = Ok x -> metar_parse e code' y' mo' tr' = Ok x' ->
  metar_dict e x = Ok d -> metar_dict e x' = Ok d' -> spelled (VDict d) -> spelled (VDict d') ->
  metar_json e x = Ok t -> metar_json e x' = Ok t -> same_metar x x'.
Proof. exact metar_settles. Qed.
Print Assumptions C86_metar_settled.

Theorem C86_taf_settled : forall e code y mo tr x code' y' mo' tr' x' d d' t,
  taf_parse e code y mo tr = Ok x -> taf_parse e code' y' mo' tr' = Ok x' ->
  taf_dict e x = Ok d -> taf_dict e x' = Ok d' -> spelled (VDict d) -> spelled (VDict d') ->
  taf_json e x = Ok t -> taf_json e x' = Ok t -> same_taf x x'.
Proof. exact taf_settles. Qed.
Print Assumptions C86_taf_settled.

(** The surrogates have to be left out: a Python string can hold a pair of
    them apart, and JSON spells the pair like the character. *)
Definition one_smile : str := py "METAR SEQM 071200Z 01018KT 9999 " ++ [128512]%N.
Definition two_halves : str := py "METAR SEQM 071200Z 01018KT 9999 " ++ [55357; 56832]%N.
Theorem C86_surrogates_refuted :
  gives (x <- metar_parse some_env one_smile (Some 2024%Z) (Some 2%Z) false ;; x' <- metar_parse some_env two_halves (Some 2024%Z) (Some 2%Z) false ;;
         t <- metar_json some_env x ;; t' <- metar_json some_env x' ;; Ok (str_eqb t t', str_eqb (me_raw x) (me_raw x')))
    (fun p => fst p && negb (snd p)) = true.
Proof. vm_compute. reflexivity. Qed.
Print Assumptions C86_surrogates_refuted.

(** The code of the METAR of [C59_case], with its emoji, comes back. *)
Example C86_case :
  gives (x <- metar_parse some_env odd_groups (Some 2024%Z) (Some 2%Z) false ;; t <- metar_json some_env x ;; Ok (stored t))
    (fun s => match s with Some s => str_eqb s odd_groups | None => false end) = true
  /\ gives (x <- taf_parse some_env (py "TAF SEQM 142300Z 1500/1524 05005KT 9999 BKN030 TX25/1516Z=") (Some 2024%Z) (Some 2%Z) false ;;
            t <- taf_json some_env x ;; Ok (stored t))
       (fun s => match s with Some s => str_eqb s (py "TAF SEQM 142300Z 1500/1524 05005KT 9999 BKN030 TX25/1516Z") | None => false end) = true.
Proof. vm_compute. split; reflexivity. Qed.

(** The hypotheses on the texts and on the dictionaries can be met. *)
Example C86_text : Forall scalar odd_groups /\ has_ink odd_groups /\ ~ bare odd_groups.
Proof. exact plain_odd. Qed.
Example C86_dictionary :
  gives (x <- metar_parse some_env odd_groups (Some 2024%Z) (Some 2%Z) false ;; metar_dict some_env x) (fun d => spelledb (VDict d)) = true
  /\ gives (x <- taf_parse some_env (py "TAF SEQM 142300Z 1500/1524 05005KT 9999 BKN030 TX25/1516Z") (Some 2024%Z) (Some 2%Z) false ;; taf_dict some_env x)
       (fun d => spelledb (VDict d)) = true
  /\ (forall v, spelledb v = true -> spelled v).
Proof. split; [vm_compute; reflexivity|split; [vm_compute; reflexivity|exact spelledb_ok]]. Qed.

(** A forecast without a time has the same JSON in every month. *)
Example C86_timeless :
  gives (x <- taf_parse some_env (py "TAF SEQM 1500/1524 05005KT 9999") (Some 2024%Z) (Some 2%Z) false ;;
         x' <- taf_parse some_env (py "TAF SEQM 1500/1524 05005KT 9999") (Some 2023%Z) (Some 7%Z) false ;;
         t <- taf_json some_env x ;; t' <- taf_json some_env x' ;; Ok (t, t')) (fun p => str_eqb (fst p) (snd p)) = true
  /\ gives (x <- taf_parse some_env (py "TAF SEQM 142300Z 1500/1524 05005KT 9999") (Some 2024%Z) (Some 2%Z) false ;; Ok (t_code (ta_time x)))
       (fun c => is_some c "142300Z") = true.
Proof. vm_compute. split; reflexivity. Qed.
