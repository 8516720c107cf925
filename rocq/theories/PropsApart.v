(** * Property C66: statements only *)
From Coq Require Import String Ascii.
From Coq Require Import List NArith ZArith Bool Lia.
From Verif Require Import PyBase PyRegex AeroRegex PyFloat PyTime Utils Base MetarGroups Trend Metar Taf SpecText SpecApart
  ProofValues ProofMerge ProofMetarText ProofTafText ProofApart PropsFailures PropsAbsent.
Import ListNotations.
Local Open Scope string_scope.
Local Open Scope nat_scope.
Local Open Scope list_scope.

(** ** C66: the parts of a report do not interfere *)

(** The same groups in any layout are the same report, accepted or refused alike. *)
Theorem C66_metar_layout : forall e ws t1 t2 y mo tr, Forall plain_word ws -> written ws t1 -> written ws t2 ->
  metar_parse e t1 y mo tr = metar_parse e t2 y mo tr.
Proof. exact metar_layout. Qed.
Print Assumptions C66_metar_layout.

Theorem C66_taf_layout : forall e ws t1 t2 y mo tr, Forall plain_word ws -> written ws t1 -> written ws t2 ->
  taf_parse e t1 y mo tr = taf_parse e t2 y mo tr.
Proof. exact taf_layout. Qed.
Print Assumptions C66_taf_layout.

(** The body depends on the body section only: not on trends, remark or the
    truncation flag. *)
Theorem C66_metar_body : forall e c1 c2 y mo tr1 tr2 x1 x2, metar_parse e c1 y mo tr1 = Ok x1 -> metar_parse e c2 y mo tr2 = Ok x2 ->
  section 0 (me_sections x1) = section 0 (me_sections x2) -> body_part x1 = body_part x2.
Proof. exact metar_body. Qed.
Print Assumptions C66_metar_body.

Theorem C66_taf_body : forall e c1 c2 y mo tr1 tr2 x1 x2, taf_parse e c1 y mo tr1 = Ok x1 -> taf_parse e c2 y mo tr2 = Ok x2 ->
  ta_body x1 = ta_body x2 -> taf_part x1 = taf_part x2.
Proof. exact taf_body_part. Qed.
Print Assumptions C66_taf_body.

(** Groups after one that opens a section leave the body as it was. *)
Theorem C66_metar_appended : forall e ws w ts t1 t2 y mo tr1 tr2 x1 x2, Forall plain_word (ws ++ w :: ts) -> ws <> [] -> opening w ->
  written ws t1 -> written (ws ++ w :: ts) t2 ->
  metar_parse e t1 y mo tr1 = Ok x1 -> metar_parse e t2 y mo tr2 = Ok x2 -> body_part x1 = body_part x2.
Proof. exact metar_appended. Qed.
Print Assumptions C66_metar_appended.

Theorem C66_taf_appended : forall e w l o m t1 t2 y mo tr1 tr2 x1 x2 b cs,
  let words k := py "TAF" :: w :: flat_map ct_words k in
  opens o = true -> no_stray_pair (Plain (py "TAF") :: Plain w :: l ++ o :: m) -> length (filter is_pair (l ++ o :: m)) <= 5 ->
  Forall plain_tok (Plain w :: l ++ o :: m) -> chunks (l ++ o :: m) = (b, cs) -> taf_apart w b cs ->
  Forall plain_word (words (l ++ o :: m)) -> written (words l) t1 -> written (words (l ++ o :: m)) t2 ->
  taf_parse e t1 y mo tr1 = Ok x1 -> taf_parse e t2 y mo tr2 = Ok x2 -> taf_part x1 = taf_part x2.
Proof. exact taf_appended. Qed.
Print Assumptions C66_taf_appended.

(** A trend is what its own text and the time of the report make of it, a
    change what its text and the validity of the report make of it, whatever
    stands beside them; only the end of an FM change depends on what follows. *)
Theorem C66_metar_trend : forall e1 e2 c1 c2 y1 y2 mo1 mo2 tr1 tr2 x1 x2 p1 p2,
  metar_parse e1 c1 y1 mo1 tr1 = Ok x1 -> metar_parse e2 c2 y2 mo2 tr2 = Ok x2 ->
  In p1 (gl_list (me_trends x1)) -> In p2 (gl_list (me_trends x2)) -> cp_code p1 = cp_code p2 ->
  t_dt (me_time x1) = t_dt (me_time x2) -> p1 = p2.
Proof. exact metar_trend_text. Qed.
Print Assumptions C66_metar_trend.

Theorem C66_taf_change : forall e1 e2 c1 c2 y1 y2 mo1 mo2 tr1 tr2 x1 x2 p1 p2,
  taf_parse e1 c1 y1 mo1 tr1 = Ok x1 -> taf_parse e2 c2 y2 mo2 tr2 = Ok x2 ->
  In p1 (gl_list (ta_changes x1)) -> In p2 (gl_list (ta_changes x2)) -> cf_code p1 = cf_code p2 ->
  ta_valid x1 = ta_valid x2 -> same_change p1 p2.
Proof. exact taf_change_text. Qed.
Print Assumptions C66_taf_change.

(** The remark is never read: neither the outcome nor anything but the raw
    code and the sections depends on it. *)
Theorem C66_metar_unread : forall e c1 c2 y mo tr r1 r2, report_raw_code c1 = Ok r1 -> report_raw_code c2 = Ok r2 ->
  section 0 (metar_sections r1) = section 0 (metar_sections r2) -> section 1 (metar_sections r1) = section 1 (metar_sections r2) ->
  on_ok but_text (metar_parse e c1 y mo tr) = on_ok but_text (metar_parse e c2 y mo tr).
Proof. exact metar_unread. Qed.
Print Assumptions C66_metar_unread.

(** In particular appending a remark changes nothing else, when none of its
    groups begins like a trend; with such a group it does:
    [C66_metar_remark_refuted]. *)
Theorem C66_metar_remark : forall e ws w ts t1 t2 y mo tr, Forall plain_word (ws ++ w :: ts) -> ws <> [] ->
  starts_with (py "RMK") w = true -> Forall (fun v => ~ opening v) ts -> written ws t1 -> written (ws ++ w :: ts) t2 ->
  on_ok but_text (metar_parse e t1 y mo tr) = on_ok but_text (metar_parse e t2 y mo tr).
Proof. exact metar_remark. Qed.
Print Assumptions C66_metar_remark.

Theorem C66_metar_remark_refuted :
  gives (metar_parse some_env (py "METAR SEQM 071200Z 01018KT RMK A TEMPO 02020KT") (Some 2024%Z) (Some 2%Z) false)
    (fun x => Nat.eqb (length (gl_list (me_trends x))) 1) = true
  /\ gives (metar_parse some_env (py "METAR SEQM 071200Z 01018KT") (Some 2024%Z) (Some 2%Z) false)
       (fun x => Nat.eqb (length (gl_list (me_trends x))) 0) = true.
Proof. conjs; vm_compute; reflexivity. Qed.
Print Assumptions C66_metar_remark_refuted.

(** Cases. *)
Definition plain_b (w : str) : bool :=
  negb (Nat.eqb (length w) 0) && forallb (fun c => negb (is_space c) && negb (c =? 61)%N && negb (c =? 124)%N) w.
Lemma plain_b_ok : forall ws, forallb plain_b ws = true -> Forall plain_word ws.
Proof.
  intros ws H. apply Forall_forall. intros w I. pose proof (proj1 (forallb_forall _ _) H w I) as K. unfold plain_b in K.
  apply andb_prop in K. destruct K as [K1 K2].
  assert (Q : forall c, In c w -> is_space c = false /\ (c =? 61)%N = false /\ (c =? 124)%N = false).
  { intros c Ic. pose proof (proj1 (forallb_forall _ _) K2 c Ic) as K. cbn beta in K. apply andb_prop in K. destruct K as [K K5].
    apply andb_prop in K. destruct K as [K3 K4]. rewrite negb_true_iff in *. auto. }
  split; [split|split].
  - intros ->. discriminate K1.
  - apply Forall_forall. intros c Ic B. unfold blank in B. rewrite (proj1 (Q c Ic)) in B. discriminate B.
  - intros Ic. destruct (Q _ Ic) as (_ & X & _). discriminate X.
  - intros Ic. destruct (Q _ Ic) as (_ & _ & X). discriminate X.
Qed.
Lemma single_written : forall ws, ws <> [] -> written ws (sentence ws).
Proof.
  intros ws N. exists (sentence ws), [], [], []. split; [exact (sentence_laid_out _ N)|]. split; [constructor|]. split; [constructor|].
  split; [left; reflexivity|]. rewrite !app_nil_r. reflexivity.
Qed.

Definition some_words : list str := map py ["METAR"; "SEQM"; "071200Z"; "01018KT"; "9999"; "SCT060"; "10/08"; "Q1013"].
Definition more_words : list str := map py ["TEMPO"; "4000"; "RA"; "RMK"; "A3006"].

Example C66_metar_case :
  Forall plain_word (some_words ++ py "NOSIG" :: more_words) /\ Forall plain_word (some_words ++ py "RMK" :: map py ["A3006"; "PP///"])
  /\ opening (py "NOSIG") /\ ~ opening (py "A3006") /\ ~ opening (py "PP///")
  /\ written some_words (py " METAR SEQM  071200Z 01018KT 9999" ++ [10%N] ++ py "SCT060 10/08 Q1013= ")
  /\ written (some_words ++ py "RMK" :: map py ["A3006"; "PP///"]) (sentence (some_words ++ py "RMK" :: map py ["A3006"; "PP///"]))
  /\ gives (metar_parse some_env (sentence some_words) (Some 2024%Z) (Some 2%Z) true) (fun _ => true) = true
  /\ gives (metar_parse some_env (sentence (some_words ++ py "NOSIG" :: more_words)) (Some 2024%Z) (Some 2%Z) true)
       (fun x => str_eqb (section 0 (me_sections x)) (sentence some_words) && Nat.eqb (length (gl_list (me_trends x))) 2) = true.
Proof.
  split; [apply plain_b_ok; vm_compute; reflexivity|]. split; [apply plain_b_ok; vm_compute; reflexivity|]. split; [reflexivity|].
  split; [discriminate|]. split; [discriminate|]. split; [|split; [apply single_written; discriminate|split; vm_compute; reflexivity]].
  exists (py "METAR SEQM  071200Z 01018KT 9999" ++ [10%N] ++ py "SCT060 10/08 Q1013"), [32%N], (py "="), [32%N].
  split; [|split; [repeat constructor|split; [repeat constructor|split; [right; reflexivity|reflexivity]]]].
  assert (S1 : separator [32%N]) by (left; reflexivity). assert (S2 : separator [10%N]) by (right; left; reflexivity).
  assert (S3 : separator [32; 32]%N) by (right; right; right; split; [cbn; lia|repeat constructor]).
  exact (next_group (py "METAR") _ _ _ S1 (next_group (py "SEQM") _ _ _ S3 (next_group (py "071200Z") _ _ _ S1 (next_group (py "01018KT") _ _ _ S1
    (next_group (py "9999") _ _ _ S2 (next_group (py "SCT060") _ _ _ S1 (next_group (py "10/08") _ _ _ S1 (one_group (py "Q1013"))))))))).
Qed.

(** The same trend in two reports, the same change in two forecasts. *)
Example C66_parts_case :
  gives (x <- metar_parse some_env (py "METAR SEQM 071200Z 01018KT TEMPO 4000 RA") (Some 2024%Z) (Some 2%Z) false ;;
         y <- metar_parse some_env (py "METAR COR MROC 071200Z BECMG 30010KT TEMPO 4000 RA RMK A") (Some 2024%Z) (Some 2%Z) false ;; Ok (x, y))
    (fun p => match gl_list (me_trends (fst p)), gl_list (me_trends (snd p)) with
              | [p1], [_; p2] => opt_str_eqb (cp_code p1) (py "TEMPO 4000 RA") && opt_str_eqb (cp_code p2) (py "TEMPO 4000 RA")
              | _, _ => false
              end) = true
  /\ gives (x <- taf_parse some_env (py "TAF SEQM 142300Z 1500/1524 05005KT FM150600 9999 TEMPO 1508/1510 RA FM151200 CAVOK") (Some 2024%Z) (Some 2%Z) false ;;
            y <- taf_parse some_env (py "TAF MROC 142300Z 1500/1524 01010KT 8000 BECMG 1502/1504 9999 FM150600 9999") (Some 2024%Z) (Some 2%Z) false ;; Ok (x, y))
    (fun p => match gl_list (ta_changes (fst p)), gl_list (ta_changes (snd p)) with
              | [p1; _; _], [_; p2] => opt_str_eqb (cf_code p1) (py "FM150600 9999") && opt_str_eqb (cf_code p2) (py "FM150600 9999")
                  && str_eqb (valid_str (ta_valid (fst p))) (valid_str (ta_valid (snd p)))
                  && str_eqb (time_str (va_until (tc_valid (cf_ind p1)))) (py "2024-02-15 11:00:00")
                  && str_eqb (time_str (va_until (tc_valid (cf_ind p2)))) (py "2024-02-16 00:00:00")
              | _, _ => false
              end) = true.
Proof. conjs; vm_compute; reflexivity. Qed.

Example C66_taf_case :
  let l := [Plain (py "142300Z"); Plain (py "1500/1524"); Plain (py "05005KT")] in
  let m := [Plain (py "1508/1510"); Plain (py "RA")] in
  opens (ProbTempo false) = true /\ no_stray_pair (Plain (py "TAF") :: Plain (py "SEQM") :: l ++ ProbTempo false :: m)
  /\ length (filter is_pair (l ++ ProbTempo false :: m)) <= 5 /\ Forall plain_tok (Plain (py "SEQM") :: l ++ ProbTempo false :: m)
  /\ taf_apart (py "SEQM") (fst (chunks (l ++ ProbTempo false :: m))) (snd (chunks (l ++ ProbTempo false :: m)))
  /\ Forall plain_word (py "TAF" :: py "SEQM" :: flat_map ct_words (l ++ ProbTempo false :: m))
  /\ written (py "TAF" :: py "SEQM" :: flat_map ct_words l) (py "TAF SEQM 142300Z 1500/1524 05005KT")
  /\ gives (taf_parse some_env (py "TAF SEQM 142300Z 1500/1524 05005KT") (Some 2024%Z) (Some 2%Z) true) (fun _ => true) = true
  /\ gives (taf_parse some_env (sentence (py "TAF" :: py "SEQM" :: flat_map ct_words (l ++ ProbTempo false :: m))) (Some 2024%Z) (Some 2%Z) true)
       (fun x => str_eqb (ta_body x) (py "TAF SEQM 142300Z 1500/1524 05005KT")) = true.
Proof.
  cbv zeta. split; [reflexivity|]. split; [apply stray_b_ok; vm_compute; reflexivity|]. split; [cbn; lia|].
  split; [repeat constructor; vm_compute; intuition discriminate|]. split; [intros _; split; [reflexivity|repeat constructor]|].
  split; [apply plain_b_ok; vm_compute; reflexivity|]. split; [apply (single_written (map py ["TAF"; "SEQM"; "142300Z"; "1500/1524"; "05005KT"])); discriminate|].
  split; vm_compute; reflexivity.
Qed.
