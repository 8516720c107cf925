(** * Property C65: statements only *)
From Coq Require Import String Ascii.
From Coq Require Import List NArith ZArith Bool Lia.
From Verif Require Import PyBase PyRegex AeroRegex PyFloat PyTime Utils Base MetarGroups Trend Metar Taf AsDict Json Queries SpecQueries
  ProofValues ProofQueriesReport PropsFailures PropsAbsent.
Import ListNotations.
Local Open Scope string_scope.
Local Open Scope nat_scope.
Local Open Scope list_scope.

(** ** C65: asking a report does not change what it says *)

(** Full statement: the same without [never_no].  It is false:
    [C65_metar_refuted] and [C65_taf_refuted]. *)
Theorem C65_metar_partial : forall e code y mo tr same x qs, metar_parse e code y mo tr = Ok x ->
  never_no (fst (in_turn (on_metar e same) qs x)) ->
  repeats (on_metar e same) x qs /\ snd (in_turn (on_metar e same) qs x) = x.
Proof. exact metar_repeats. Qed.
Print Assumptions C65_metar_partial.

Theorem C65_taf_partial : forall e code y mo tr same x qs, taf_parse e code y mo tr = Ok x ->
  never_no (fst (in_turn (on_taf e same) qs x)) -> repeats (on_taf e same) x qs.
Proof. exact taf_repeats. Qed.
Print Assumptions C65_taf_partial.

(** Whatever was asked before, the steady questions keep their answers. *)
Theorem C65_metar_steady : forall e code y mo tr same x qs q, metar_parse e code y mo tr = Ok x -> steady_metar x q = true ->
  fst (on_metar e same q (snd (in_turn (on_metar e same) qs x))) = fst (on_metar e same q x).
Proof. exact metar_steady. Qed.
Print Assumptions C65_metar_steady.

Theorem C65_taf_steady : forall e code y mo tr same x qs q, taf_parse e code y mo tr = Ok x -> steady_taf x q = true ->
  fst (on_taf e same q (snd (in_turn (on_taf e same) qs x))) = fst (on_taf e same q x).
Proof. exact taf_steady. Qed.
Print Assumptions C65_taf_steady.

(** The dictionary of the report keeps every entry but that of the trends or
    changes. *)
Theorem C65_metar_entries : forall e code y mo tr same x qs d, metar_parse e code y mo tr = Ok x ->
  fst (on_metar e same MDict x) = ADict (Ok d) ->
  exists d', fst (on_metar e same MDict (snd (in_turn (on_metar e same) qs x))) = ADict (Ok d')
    /\ forall k, k <> py "weather_trends" -> assoc k d' = assoc k d.
Proof. exact metar_body_kept. Qed.
Print Assumptions C65_metar_entries.

Theorem C65_taf_entries : forall e code y mo tr same x qs d, taf_parse e code y mo tr = Ok x ->
  fst (on_taf e same TDict x) = ADict (Ok d) ->
  exists d', fst (on_taf e same TDict (snd (in_turn (on_taf e same) qs x))) = ADict (Ok d')
    /\ forall k, k <> py "changes_forecasted" -> assoc k d' = assoc k d.
Proof. exact taf_body_kept. Qed.
Print Assumptions C65_taf_entries.

(** A METAR and a TAF whose first trend or change has two layers; asking that
    trend whether it should be CAVOK makes the dictionary lose the first. *)
Definition two_layers : str := py "METAR SEQM 071200Z 01018KT 9999 SCT060 10/08 Q1013 TEMPO 9999 FEW030 SCT040".
Definition two_layers_taf : str := py "TAF SEQM 142300Z 1500/1524 05005KT 9999 SCT060 TEMPO 1503/1505 9999 FEW030 SCT040".

Definition sizes (a : answer) : list nat :=
  match a with
  | ADict (Ok d) => flat_map (fun kv => match snd kv with
      | VDict l => flat_map (fun kv => match snd kv with
          | VDict p => flat_map (fun kv => match snd kv with VList l => [length l] | _ => [] end) p
          | _ => []
          end) l
      | _ => [] end) d
  | _ => []
  end.

Theorem C65_metar_refuted : forall same, exists x, metar_parse some_env two_layers (Some 2024%Z) (Some 2%Z) false = Ok x
  /\ ~ repeats (on_metar some_env same) x [MTrend 0 (PAttr Cavok); MDict].
Proof.
  intros same. destruct (metar_parse some_env two_layers (Some 2024%Z) (Some 2%Z) false) as [x|] eqn:E; [|vm_compute in E; discriminate E].
  exists x. split; [reflexivity|]. intros H. apply (f_equal (map sizes)) in H. vm_compute in E. injection E as <-.
  destruct same; vm_compute in H; discriminate H.
Qed.
Print Assumptions C65_metar_refuted.

Theorem C65_taf_refuted : forall same, exists x, taf_parse some_env two_layers_taf (Some 2024%Z) (Some 2%Z) false = Ok x
  /\ ~ repeats (on_taf some_env same) x [TChange 0 (PAttr Cavok); TDict].
Proof.
  intros same. destruct (taf_parse some_env two_layers_taf (Some 2024%Z) (Some 2%Z) false) as [x|] eqn:E; [|vm_compute in E; discriminate E].
  exists x. split; [reflexivity|]. intros H. apply (f_equal (map sizes)) in H. vm_compute in E. injection E as <-.
  destruct same; vm_compute in H; discriminate H.
Qed.
Print Assumptions C65_taf_refuted.

(** Questions that the partial theorems allow, with the answers of some, and
    the layers the dictionary shows before and after the question above. *)
Example C65_case :
  gives (metar_parse some_env (py "METAR SEQM 071200Z 01018KT 9999 SCT060 10/08 Q1013 TEMPO 9999 FEW060") (Some 2024%Z) (Some 2%Z) false)
    (fun x => let r := in_turn (on_metar some_env false) [MDict; MTrend 0 (PAttr Cavok); MAttr Cavok; MTrend 0 PDict; MAttr LoopClouds; MJson;
                         MTrend 1 PText; MTrend 0 (PAttr (Cloud (-1))); MCodes] x in
      negb (existsb (fun a => match a with ACavok (Ok false) => true | _ => false end) (fst r))
      && match nth 1 (fst r) ANothing, nth 6 (fst r) (AText []), nth 8 (fst r) ANothing with
         | ACavok (Ok true), ANothing, ACodes [Some c] => str_eqb c (py "TEMPO 9999 FEW060")
         | _, _, _ => false
         end) = true
  /\ gives (metar_parse some_env two_layers (Some 2024%Z) (Some 2%Z) false)
       (fun x => let r := map sizes (fst (in_turn (on_metar some_env false) [MDict; MTrend 0 (PAttr Cavok); MDict; MDict] x)) in
         match r with [[0; 2]; []; [0; 1]; [0; 2]] => true | _ => false end) = true
  /\ gives (taf_parse some_env two_layers_taf (Some 2024%Z) (Some 2%Z) false)
       (fun x => let r := in_turn (on_taf some_env false) [TDict; TChange 0 PText; TChange 0 PDict; TAttr Rules; TJson; TChange 0 PText; TLoopMax] x in
         match nth 1 (fst r) ANothing with AText t => starts_with (py "temporary from 2024-02-15 03:00:00") t | _ => false end
         && negb (existsb (fun a => match a with ACavok (Ok false) => true | _ => false end) (fst r))) = true.
Proof. conjs; vm_compute; reflexivity. Qed.

(** The other hypotheses: a report without trends has a steady dictionary. *)
Example C65_steady_case :
  gives (metar_parse some_env (py "METAR SEQM 071200Z 01018KT 9999 SCT030 10/08 Q1013") (Some 2024%Z) (Some 2%Z) false)
    (fun x => steady_metar x MDict && match fst (on_metar some_env false MDict x) with ADict (Ok _) => true | _ => false end) = true
  /\ gives (taf_parse some_env (py "TAF SEQM 142300Z 1500/1524 05005KT 9999 SCT060") (Some 2024%Z) (Some 2%Z) false)
       (fun x => steady_taf x TJson && match fst (on_taf some_env false TDict x) with ADict (Ok _) => true | _ => false end) = true.
Proof. conjs; vm_compute; reflexivity. Qed.
