(** * The number of trends and changes (C45, C46): statements only *)
From Coq Require Import String Ascii.
From Coq Require Import List NArith ZArith Bool Lia.
From Verif Require Import PyBase PyRegex AeroRegex PyFloat PyTime Utils Base MetarGroups Trend Metar Taf SpecText SpecApart SpecCounts
  ProofValues ProofMerge ProofMetarText ProofTafText ProofCounts PropsFailures PropsAbsent PropsApart.
Import ListNotations.
Local Open Scope string_scope.
Local Open Scope nat_scope.
Local Open Scope list_scope.

(** ** C45: exactly which trends a METAR has *)

(** Body words, trend words and remark words in any layout: an accepted report
    has exactly the trends of [trend_pieces], at most two. *)
Theorem C45_exact : forall e ws ts rs t y mo tr x, Forall plain_word (ws ++ ts ++ rs) -> Forall no_underscore ts ->
  ws <> [] -> Forall (fun v => ~ opening v) ws -> trend_section ts -> remark_section rs -> written (ws ++ ts ++ rs) t ->
  metar_parse e t y mo tr = Ok x ->
  map cp_code (gl_list (me_trends x)) = map (fun p => Some (sentence p)) (trend_pieces ts) /\ length (trend_pieces ts) <= 2.
Proof. exact metar_trends_exact. Qed.
Print Assumptions C45_exact.

(** A TEMPO and later a BECMG after the first trend: always refused. *)
Theorem C45_refused : forall e ws w a b c rs t y mo tr, let ts := w :: a ++ py "TEMPO" :: b ++ py "BECMG" :: c in
  Forall plain_word (ws ++ ts ++ rs) -> Forall no_underscore ts -> ws <> [] -> Forall (fun v => ~ opening v) ws -> trend_section ts ->
  remark_section rs -> written (ws ++ ts ++ rs) t ->
  ~ In (py "TEMPO") a -> ~ In (py "BECMG") a -> ~ In (py "BECMG") b -> b <> [] -> c <> [] -> exists ex, metar_parse e t y mo tr = Raise ex.
Proof. exact tempo_becmg_refused. Qed.
Print Assumptions C45_refused.

(** Without a BECMG, every TEMPO after the second trend is a word of the
    second trend ([b] may hold any number of them). *)
Theorem C45_absorbed : forall e ws w a b rs t y mo tr x, let ts := w :: a ++ py "TEMPO" :: b in
  Forall plain_word (ws ++ ts ++ rs) -> Forall no_underscore ts -> ws <> [] -> Forall (fun v => ~ opening v) ws -> trend_section ts ->
  remark_section rs -> written (ws ++ ts ++ rs) t ->
  ~ In (py "TEMPO") a -> ~ In (py "BECMG") a -> ~ In (py "BECMG") b -> b <> [] -> metar_parse e t y mo tr = Ok x ->
  map cp_code (gl_list (me_trends x)) = [Some (sentence (w :: a)); Some (sentence (py "TEMPO" :: b))].
Proof. exact later_tempo_lost. Qed.
Print Assumptions C45_absorbed.

Definition a_body : list str := map py ["METAR"; "SEQM"; "162000Z"; "9999"].
Definition three_tempo : list str := map py ["TEMPO"; "4000"; "TEMPO"; "3000"; "TEMPO"; "2000"].
Definition three_mixed : list str := map py ["NOSIG"; "TEMPO"; "3000"; "TEMPO"; "2000"; "BECMG"; "9999"].
Definition a_remark : list str := map py ["RMK"; "A3006"].
Definition closed_b (w : str) : bool := negb (begins_any section_words w).
Example C45_exact_case :
  Forall plain_word (a_body ++ three_tempo ++ a_remark) /\ Forall no_underscore three_tempo /\ Forall no_underscore three_mixed
  /\ Forall plain_word (a_body ++ three_mixed ++ []) /\ Forall (fun v => ~ opening v) a_body
  /\ trend_section three_tempo /\ trend_section three_mixed /\ remark_section a_remark /\ remark_section []
  /\ written (a_body ++ three_tempo ++ a_remark) (sentence (a_body ++ three_tempo ++ a_remark))
  /\ trend_pieces three_tempo = [map py ["TEMPO"; "4000"]; map py ["TEMPO"; "3000"; "TEMPO"; "2000"]]
  /\ gives (read_in 2026 1 "METAR SEQM 162000Z 9999 TEMPO 4000 TEMPO 3000 TEMPO 2000 RMK A3006")
       (fun x => Nat.eqb (length (me_unparsed x)) 2) = true
  /\ fails_with (read_in 2026 1 "METAR SEQM 162000Z 9999 NOSIG TEMPO 3000 TEMPO 2000 BECMG 9999") RangeError = true.
Proof.
  assert (U : forall l, forallb (fun w => negb (existsb (N.eqb 95) w)) l = true -> Forall no_underscore l).
  { intros l H. apply Forall_forall. intros w I J. pose proof (proj1 (forallb_forall _ _) H w I) as K. cbn beta in K. rewrite negb_true_iff in K.
    rewrite <- not_true_iff_false in K. apply K. apply existsb_exists. exists 95%N. split; [exact J|reflexivity]. }
  assert (O : forall l, forallb closed_b l = true -> Forall (fun v => ~ opening v) l).
  { intros l H. apply Forall_forall. intros w I J. pose proof (proj1 (forallb_forall _ _) H w I) as K. unfold closed_b in K. unfold opening in J.
    rewrite J in K. discriminate K. }
  split; [apply plain_b_ok; vm_compute; reflexivity|]. split; [apply U; vm_compute; reflexivity|]. split; [apply U; vm_compute; reflexivity|].
  split; [apply plain_b_ok; vm_compute; reflexivity|]. split; [apply O; vm_compute; reflexivity|].
  split; [split; [eexists; eexists; split; reflexivity|repeat constructor]|]. split; [split; [eexists; eexists; split; reflexivity|repeat constructor]|].
  split; [right; eexists; eexists; split; [reflexivity|split; [reflexivity|apply O; vm_compute; reflexivity]]|]. split; [left; reflexivity|].
  split; [apply single_written; discriminate|]. conjs; vm_compute; reflexivity.
Qed.

(** ** C46: exactly which changes a TAF has *)

Theorem C46_changes : forall e w l b cs t y mo tr x,
  let words k := py "TAF" :: w :: flat_map ct_words k in
  no_stray_pair (Plain (py "TAF") :: Plain w :: l) -> length (filter is_pair l) <= 5 -> Forall plain_tok (Plain w :: l) ->
  chunks l = (b, cs) -> taf_apart w b cs -> Forall plain_word (words l) -> written (words l) t ->
  taf_parse e t y mo tr = Ok x ->
  map cf_code (gl_list (ta_changes x)) = map (fun c => Some (sentence (flat_map ct_words c))) cs /\ length cs <= 8.
Proof. exact taf_changes_exact. Qed.
Print Assumptions C46_changes.

Theorem C46_refused : forall e w l b cs t y mo tr,
  let words k := py "TAF" :: w :: flat_map ct_words k in
  no_stray_pair (Plain (py "TAF") :: Plain w :: l) -> length (filter is_pair l) <= 5 -> Forall plain_tok (Plain w :: l) ->
  chunks l = (b, cs) -> taf_apart w b cs -> Forall plain_word (words l) -> written (words l) t ->
  8 < length cs -> exists ex, taf_parse e t y mo tr = Raise ex.
Proof. exact too_many_changes. Qed.
Print Assumptions C46_refused.

Definition nine_changes : list ctok :=
  map (fun s => Plain (py s)) ["142300Z"; "1500/1524"; "05005KT"; "FM150100"; "9999"; "FM150200"; "8000"; "FM150300"; "9999"; "FM150400"; "8000";
    "FM150500"; "9999"; "FM150600"; "8000"; "FM150700"; "9999"; "FM150800"; "8000"] ++ [ProbTempo false; Plain (py "1508/1510"); Plain (py "RA")].
Example C46_refused_case :
  let words := py "TAF" :: py "SEQM" :: flat_map ct_words nine_changes in
  no_stray_pair (Plain (py "TAF") :: Plain (py "SEQM") :: nine_changes) /\ length (filter is_pair nine_changes) <= 5
  /\ Forall plain_tok (Plain (py "SEQM") :: nine_changes) /\ length (snd (chunks nine_changes)) = 9
  /\ taf_apart (py "SEQM") (fst (chunks nine_changes)) (snd (chunks nine_changes))
  /\ Forall plain_word words /\ written words (sentence words).
Proof.
  cbv zeta. split; [apply stray_b_ok; vm_compute; reflexivity|]. split; [cbn; lia|].
  split; [repeat constructor; vm_compute; intuition discriminate|]. split; [reflexivity|]. split; [intros _; split; [reflexivity|repeat constructor]|].
  split; [apply plain_b_ok; vm_compute; reflexivity|]. apply single_written; discriminate.
Qed.
