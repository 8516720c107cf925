(** * Flight rules and CAVOK follow from the text of a report (C71) *)
From Coq Require Import String Ascii.
From Coq Require Import List NArith ZArith Bool Lia QArith.
From Verif Require Import PyBase PyTime Base MetarGroups Trend Metar Taf SpecNum SpecGroups SpecTime SpecText SpecWords SpecMetar
  SpecTafReport SpecTrend SpecRules SpecCavok SpecVerdict ProofVerdict PropsMetar PropsTrend PropsTaf.
Import ListNotations.
Local Open Scope string_scope.
Local Open Scope nat_scope.
Local Open Scope list_scope.

(** Every METAR in the documented form, in whatever layout: its flight rules
    are the category of the written ceiling and visibility, and
    should_be_cavok answers True exactly when the written groups allow it. *)
Theorem C71_metar : forall e y mo g rmk tr code,
  clock_wf e -> metar_wf y mo g -> not_last g -> remark_wf rmk -> shows (metar_words g ++ rmk) code ->
  exists x, metar_parse e code (Some y) (Some mo) tr = Ok x
    /\ judged (g_vis g) (g_weathers g) (g_clouds g) (me_common x).
Proof. exact metar_judged. Qed.
Print Assumptions C71_metar.

(** 12 1/4SM with BKN007CB is IFR, and no CAVOK. *)
Example C71_metar_case :
  exists x, metar_parse (mk_env 2026 11 [] []) (sentence (metar_words full_report ++ [py "RMK"; py "A02"; py "SLP982"]))
      (Some 2024%Z) (Some 2%Z) true = Ok x
    /\ flight_rules (me_common x) = Some (py "IFR")
    /\ ~ exists c', should_be_cavok false (me_common x) = Ok (true, c').
Proof.
  destruct C47_case as (H1 & H2 & H3 & _ & H4 & H5).
  destruct (C71_metar _ _ _ _ _ true _ H5 H1 H2 H3 H4) as (x & E & F & C). exists x. split; [exact E|]. split.
  - rewrite F. vm_compute. reflexivity.
  - rewrite C. intros (K & _). discriminate K.
Qed.

(** The same with trends, and for each trend by itself. *)
Theorem C71_trends : forall e y mo g ts rmk tr code te,
  clock_wf e -> metar_wf y mo g -> not_last g -> remark_wf rmk ->
  two_hours (issue_of y mo g) te -> trends_wf (issue_of y mo g) ts ->
  shows (metar_words g ++ flat_map trend_text ts ++ rmk) code ->
  exists x, metar_parse e code (Some y) (Some mo) tr = Ok x
    /\ judged (g_vis g) (g_weathers g) (g_clouds g) (me_common x)
    /\ Forall2 (fun t p => judged (x_vis (n_wx t)) (x_weathers (n_wx t)) (x_clouds (n_wx t)) (cp_common p)) ts (gl_list (me_trends x)).
Proof. exact trends_judged. Qed.
Print Assumptions C71_trends.

(** 9999 alone is VFR; 2 1/2SM with BKN007CB is IFR; 0800 is LIFR. *)
Example C71_trends_case :
  exists x, metar_parse (mk_env 2026 11 [] []) (sentence (metar_words eve ++ flat_map trend_text changes ++ [py "RMK"; py "A02"]))
      (Some 2023%Z) (Some 12%Z) true = Ok x
    /\ flight_rules (me_common x) = Some (py "VFR")
    /\ map (fun p => flight_rules (cp_common p)) (gl_list (me_trends x)) = [Some (py "IFR"); Some (py "LIFR")].
Proof.
  destruct C56_case as (H1 & H2 & H3 & H4 & H5 & H6 & _ & H7).
  destruct (C71_trends _ _ _ _ _ _ true _ _ H1 H2 H3 H4 H5 H6 H7) as (x & E & F & T). exists x. split; [exact E|]. split.
  - rewrite (proj1 F). vm_compute. reflexivity.
  - inversion T as [|t1 p1 l1 q1 J1 T1 Q1 Q2]. inversion T1 as [|t2 p2 l2 q2 J2 T2 Q3 Q4]. inversion T2.
    cbn [map]. rewrite (proj1 J1), (proj1 J2). vm_compute. reflexivity.
Qed.

(** Every TAF in the documented form, and each of its changes by itself. *)
Theorem C71_taf : forall e y mo g tr code, clock_wf e -> taf_wf y mo g -> shows (taf_words g) code ->
  exists x, taf_parse e code (Some y) (Some mo) tr = Ok x
    /\ judged (x_vis (h_body g)) (x_weathers (h_body g)) (x_clouds (h_body g)) (ta_common x)
    /\ Forall2 (fun h p => judged (x_vis (h_wx h)) (x_weathers (h_wx h)) (x_clouds (h_wx h)) (cf_common p))
         (h_changes g) (gl_list (ta_changes x)).
Proof. exact taf_judged. Qed.
Print Assumptions C71_taf.

(** A change says nothing about what it does not mention: BECMG with a wind
    alone has no flight rules. *)
Example C71_taf_case :
  exists x, taf_parse (mk_env 2026 11 [] []) (sentence (taf_words full_taf)) (Some 2024%Z) (Some 2%Z) true = Ok x
    /\ flight_rules (ta_common x) = Some (py "IFR")
    /\ map (fun p => flight_rules (cf_common p)) (gl_list (ta_changes x))
       = [Some (py "VFR"); Some (py "LIFR"); None; None; Some (py "MVFR"); Some (py "MVFR")].
Proof.
  destruct C48_case as (H1 & _ & H2 & H3).
  destruct (C71_taf _ _ _ _ true _ H3 H1 H2) as (x & E & F & T). exists x. split; [exact E|]. split.
  - rewrite (proj1 F). vm_compute. reflexivity.
  - unfold full_taf in T. cbn [h_changes] in T.
    revert T. generalize (gl_list (ta_changes x)). intros l T.
    repeat match goal with
    | T : Forall2 _ (_ :: _) _ |- _ => let J := fresh "J" in let U := fresh "U" in
        inversion T as [|? ? ? ? J U]; subst; clear T; destruct J as [J _]
    | T : Forall2 _ [] _ |- _ => inversion T; subst; clear T
    end.
    cbn [map].
    repeat match goal with J : flight_rules (cf_common _) = _ |- _ => rewrite J; clear J end. vm_compute. reflexivity.
Qed.

(** CAVOK as the groups have it: 10 km, FEW050 and no weather call for it. *)
Example C71_cavok : cavok_written false (Some (VisMeters 9999 None)) [] [mk_cloud_g ("FEW", "a few", "1-2") (HtHundreds 50) TyAbsent].
Proof.
  split; [reflexivity|]. split; [eexists; split; [reflexivity|discriminate]|]. split; [discriminate|].
  split; repeat constructor; try discriminate. intros n H. injection H as <-. lia.
Qed.
