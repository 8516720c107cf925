(** * Properties C36 to C42 (sections and joined groups): statements only *)
From Coq Require Import String Ascii.
From Coq Require Import List NArith ZArith Bool Lia Permutation.
From Verif Require Import PyBase PyRegex AeroRegex PyTime Utils Base Metar Taf SpecText SpecTaf ProofText ProofSections
  ProofMerge ProofTafText ProofProb.
Import ListNotations.
Open Scope list_scope.

(** ** C36: METAR sections *)

(** Every raw code has exactly one cut into pieces, and the sections are the
    first piece, the trend pieces and the last remark piece of that cut. *)
Theorem C36_sections : forall raw, ~ In 124%N raw ->
  exists ps, pieces section_words raw ps /\ (forall qs, pieces section_words raw qs -> qs = ps)
    /\ metar_sections raw = [body_of ps; strip (sentence (trends_of ps)); last_remark ps].
Proof. exact metar_sections_spec. Qed.
Print Assumptions C36_sections.

Theorem C36_nothing_lost : forall raw ps, ~ In 124%N raw -> pieces section_words raw ps ->
  length (filter (starts_with (py "RMK")) ps) <= 1 ->
  exists body rmk, length body <= 1 /\ length rmk <= 1 /\ Permutation ps (body ++ trends_of ps ++ rmk)
    /\ metar_sections raw = [sentence body; strip (sentence (trends_of ps)); sentence rmk].
Proof. exact metar_sections_all. Qed.
Print Assumptions C36_nothing_lost.

(** In the order of the text when the remark comes last.  Missing from the
    full statement: a trend after the remark moves before it. *)
Theorem C36_in_order_partial : forall body trends rmk,
  length body <= 1 -> length rmk <= 1 -> body ++ trends ++ rmk <> [] ->
  Forall (uncut section_words) (body ++ trends ++ rmk) ->
  ~ In 124%N (sentence (body ++ trends ++ rmk)) ->
  Forall (fun p => begins_any section_words p = false) body ->
  Forall (fun p => begins_any trend_words p = true) trends ->
  Forall (fun p => starts_with (py "RMK") p = true) rmk ->
  ~ blank (last (sentence trends) 0%N) ->
  metar_sections (sentence (body ++ trends ++ rmk)) = [sentence body; sentence trends; sentence rmk].
Proof. exact metar_sections_ordered. Qed.
Print Assumptions C36_in_order_partial.

Definition uncut_b (kws : list str) : str -> bool :=
  fix go p := match p with [] => true | c :: p' => negb ((c =? 32)%N && begins_any kws p') && go p' end.

Lemma uncut_b_ok : forall kws p, uncut_b kws p = true -> uncut kws p.
Proof.
  intros kws p H a b E. subst p. induction a as [|c a IH].
  - cbn in H. apply andb_true_iff in H. destruct H as [H _]. destruct (begins_any kws b); [discriminate|reflexivity].
  - cbn in H. apply andb_true_iff in H. apply IH. apply H.
Qed.

Example C36_case :
  let body := [py "METAR MROC 071200Z"] in
  let trends := [py "TEMPO 4000 RA"; py "BECMG NSW"] in
  let rmk := [py "RMK QFE1012"] in
  Forall (uncut section_words) (body ++ trends ++ rmk)
  /\ pieces section_words (py "METAR MROC 071200Z TEMPO 4000 RA BECMG NSW RMK QFE1012") (body ++ trends ++ rmk)
  /\ metar_sections (py "METAR MROC 071200Z TEMPO 4000 RA BECMG NSW RMK QFE1012")
     = [py "METAR MROC 071200Z"; py "TEMPO 4000 RA BECMG NSW"; py "RMK QFE1012"].
Proof.
  assert (U : Forall (uncut section_words)
    [py "METAR MROC 071200Z"; py "TEMPO 4000 RA"; py "BECMG NSW"; py "RMK QFE1012"]).
  { repeat constructor; apply uncut_b_ok; vm_compute; reflexivity. }
  split; [exact U|]. split; [|vm_compute; reflexivity].
  split; [vm_compute; reflexivity|]. split; [discriminate|]. split; [exact U|]. repeat constructor.
Qed.

Theorem C36_in_order_refuted :
  metar_sections (py "METAR X RMK A TEMPO B") = [py "METAR X"; py "TEMPO B"; py "RMK A"].
Proof. vm_compute. reflexivity. Qed.
Print Assumptions C36_in_order_refuted.

(** ** C37: TAF sections *)

(** Every raw code: body and change codes together are the text, up to the
    kind of separator (the joined groups carry an underscore). *)
Theorem C37_nothing_lost : forall raw, ~ In 124%N raw ->
  level (sentence (fst (taf_split raw) :: snd (taf_split raw))) = level raw.
Proof. exact taf_split_level. Qed.
Print Assumptions C37_nothing_lost.

(** Group by group: the text is cut before every group that opens a change,
    the group after TAF never does, and the sections show the text itself. *)
Theorem C37_sections : forall w l b cs, no_stray_pair (Plain (py "TAF") :: Plain w :: l) ->
  length (filter is_pair l) <= 5 -> Forall plain_tok (Plain w :: l) -> chunks l = (b, cs) -> taf_apart w b cs ->
  let s := taf_split (sentence (py "TAF" :: w :: flat_map ct_words l)) in
  fst s = sentence (py "TAF" :: w :: flat_map ct_words b)
  /\ snd s = map (fun c => sentence (map ct_joined c)) cs
  /\ taf_sections (fst s) (snd s)
     = [sentence (py "TAF" :: w :: flat_map ct_words b); sentence (flat_map ct_words (concat cs))].
Proof. exact taf_split_sections. Qed.
Print Assumptions C37_sections.

Example C37_case :
  let l := [Plain (py "FM020600"); Plain (py "9999"); ProbTempo false; Plain (py "0212/0214"); Plain (py "RA")] in
  chunks l = ([], [[Plain (py "FM020600"); Plain (py "9999")];
                   [ProbTempo false; Plain (py "0212/0214"); Plain (py "RA")]])
  /\ taf_split (py "TAF FMEE FM020600 9999 PROB30 TEMPO 0212/0214 RA")
     = (py "TAF FMEE", [py "FM020600 9999"; py "PROB30_TEMPO 0212/0214 RA"])
  /\ no_stray_pair (Plain (py "TAF") :: Plain (py "FMEE") :: l) /\ Forall plain_tok (Plain (py "FMEE") :: l)
  /\ taf_apart (py "FMEE") (fst (chunks l)) (snd (chunks l)).
Proof.
  split; [vm_compute; reflexivity|]. split; [vm_compute; reflexivity|].
  split; [apply stray_b_ok; vm_compute; reflexivity|]. split.
  - repeat constructor; vm_compute; intuition discriminate.
  - intros _. split; [reflexivity|]. repeat constructor.
Qed.

(** A station may end in TAF as long as the last group of the body and the
    groups of the changes do not. *)
Example C37_case2 :
  let l := [Plain (py "020500Z"); Plain (py "FM020600"); Plain (py "9999")] in
  taf_split (py "TAF LTAF 020500Z FM020600 9999") = (py "TAF LTAF 020500Z", [py "FM020600 9999"])
  /\ no_stray_pair (Plain (py "TAF") :: Plain (py "LTAF") :: l) /\ Forall plain_tok (Plain (py "LTAF") :: l)
  /\ taf_apart (py "LTAF") (fst (chunks l)) (snd (chunks l)).
Proof.
  split; [vm_compute; reflexivity|]. split; [apply stray_b_ok; vm_compute; reflexivity|]. split.
  - repeat constructor; vm_compute; intuition discriminate.
  - intros _. split; [reflexivity|]. repeat constructor.
Qed.

(** When the last group of the body ends in TAF the change after it is not
    cut off: every station ending in TAF in front of a change stays glued. *)
Theorem C37_glued_refuted :
  taf_split (py "TAF LTAF FM020600 9999") = (py "TAF LTAF FM020600 9999", [])
  /\ taf_split (py "TAF MROC FM020600 9999") = (py "TAF MROC", [py "FM020600 9999"]).
Proof. split; vm_compute; reflexivity. Qed.
Print Assumptions C37_glued_refuted.

(** ** C42: PROB TEMPO pairs *)

(** The text: up to five pairs anywhere become single groups, every other
    group stays. *)
Theorem C42_joined : forall l, no_stray_pair l -> length (filter is_pair l) <= 5 ->
  sanitize_change_indicator (sentence (flat_map ct_words l)) = sentence (map ct_joined l).
Proof. exact (sanitize_prob 5). Qed.
Print Assumptions C42_joined.

Example C42_joined_case :
  let l := [Plain (py "TAF"); ProbTempo false; Plain (py "0212/0214"); ProbTempo true; ProbTempo false; Plain (py "RA")] in
  length (filter is_pair l) = 3
  /\ sentence (flat_map ct_words l) = py "TAF PROB30 TEMPO 0212/0214 PROB40 TEMPO PROB30 TEMPO RA"
  /\ sanitize_change_indicator (py "TAF PROB30 TEMPO 0212/0214 PROB40 TEMPO PROB30 TEMPO RA")
     = py "TAF PROB30_TEMPO 0212/0214 PROB40_TEMPO PROB30_TEMPO RA".
Proof. repeat split; vm_compute; reflexivity. Qed.

(** The report: every change the text opens is one change of the report, in
    order, and a pair gives the indicator code PROBnn TEMPO. *)
Theorem C42_changes : forall e code y mo tr x w l b cs,
  no_stray_pair (Plain (py "TAF") :: Plain w :: l) ->
  length (filter is_pair l) <= 5 -> Forall plain_tok (Plain w :: l) -> chunks l = (b, cs) -> taf_apart w b cs ->
  report_raw_code code = Ok (sentence (py "TAF" :: w :: flat_map ct_words l)) ->
  taf_parse e code y mo tr = Ok x ->
  Forall2 change_of cs (gl_list (ta_changes x)).
Proof. exact taf_changes. Qed.
Print Assumptions C42_changes.

Example C42_case : exists x,
  taf_parse (mk_env 2023 6 [] [])
    (py "TAF FMEE 020500Z 0206/0306 9999 PROB30 TEMPO 0212/0214 RA PROB40 TEMPO 0216/0218 TSRA") (Some 2023%Z) (Some 6%Z) false = Ok x
  /\ map ind_code (gl_list (ta_changes x)) = [Some (py "PROB30 TEMPO 0212/0214"); Some (py "PROB40 TEMPO 0216/0218")].
Proof. eexists. split; vm_compute; reflexivity. Qed.
