(** * Groups written in several words, exactly (C28, C42): statements only *)
From Coq Require Import String Ascii.
From Coq Require Import List NArith ZArith Bool Lia.
From Verif Require Import PyBase PyRegex Utils Base Metar SpecText SpecWords SpecJoined SpecFused ProofValues ProofFused.
Import ListNotations.
Local Open Scope string_scope.
Local Open Scope nat_scope.
Local Open Scope list_scope.

(** Whatever the words of a METAR body: these are the groups its handlers see. *)
Theorem C28_exact_text : forall w ws, Forall solid (w :: ws) -> sanitize_body (sentence (w :: ws)) = sentence (metar_fused w ws).
Proof. exact body_exact. Qed.
Print Assumptions C28_exact_text.

Theorem C28_exact_groups : forall S (hs : list (handler S)) st w ws, Forall solid (w :: ws) ->
  parse_section hs (sanitize_body (sentence (w :: ws))) st = parse_groups hs (metar_fused w ws) 0 [] st.
Proof. exact body_groups_exact. Qed.
Print Assumptions C28_exact_groups.

(** The same of the probabilities of a forecast, and of the groups of a change. *)
Theorem C42_exact_text : forall ws, Forall solid ws -> sanitize_change_indicator (sentence ws) = sentence (probs_fused ws).
Proof. exact probs_exact. Qed.
Print Assumptions C42_exact_text.

Theorem C42_exact_groups : forall S (hs : list (handler S)) st ws, ws <> [] -> Forall solid ws ->
  parse_section hs (sanitize_visibility (sanitize_change_indicator (sentence ws))) st = parse_groups hs (change_fused ws) 0 [] st.
Proof. exact change_groups_exact. Qed.
Print Assumptions C42_exact_groups.

Definition fused_words (s : string) : list str := match split_on 32%N (py s) with w :: ws => metar_fused w ws | [] => [] end.
Definition changed_words (s : string) : list str := change_fused (split_on 32%N (py s)).

(** A runway, a fourth one left as it is, all runways twice, words glued to the
    group, a runway of one digit, and a station that ends in WS. *)
Example C28_exact_case :
  fused_words "METAR WS R24L WS RWY06 X" = map py ["METAR"; "WS_R24L"; "WS_R06"; "X"]
  /\ fused_words "METAR WS R01 WS R02 WS R03 WS R04" = map py ["METAR"; "WS_R01"; "WS_R02"; "WS_R03"; "WS"; "R04"]
  /\ fused_words "METAR WS ALL RWY WS ALL RWYWS ALL RWY24" = map py ["METAR"; "WS_ALL_RWY"; "WS_ALL_RWYWS_ALL_RWY24"]
  /\ fused_words "METAR XWS RWY24CX" = map py ["METAR"; "XWS_R24CX"]
  /\ fused_words "METAR WS RWY6 WS ALLRWY WS ALL R24" = map py ["METAR"; "WS"; "RWY6"; "WS"; "ALLRWY"; "WS"; "ALL"; "R24"]
  /\ fused_words "METAR KJWS R24/1000 2 1/2SM" = map py ["METAR"; "KJWS_R24/1000"; "2_1/2SM"; ""].
Proof. conjs; vm_compute; reflexivity. Qed.
Example C28_exact_meets : Forall solid (map py ["METAR"; "WS"; "R24L"]) /\ map py ["METAR"; "WS"; "R24L"] <> [].
Proof. split; [repeat constructor; discriminate|discriminate]. Qed.

Example C42_exact_case :
  changed_words "PROB30 TEMPO 0712/0718 2 1/2SM RA" = map py ["PROB30_TEMPO"; "0712/0718"; "2_1/2SM"; "RA"]
  /\ changed_words "PROB40 TEMPORARY" = map py ["PROB40_TEMPORARY"]
  /\ changed_words "PROB50 TEMPO" = map py ["PROB50"; "TEMPO"]
  /\ changed_words "PROB30 TEMPOPROB40 TEMPO" = map py ["PROB30_TEMPOPROB40_TEMPO"].
Proof. conjs; vm_compute; reflexivity. Qed.
