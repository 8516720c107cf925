(** * Setting CAVOK changes one entry (C74): proof *)
From Coq Require Import String Ascii.
From Coq Require Import List NArith ZArith Bool Lia.
From Verif Require Import PyBase PyRegex AeroRegex PyFloat PyTime Utils Base MetarGroups Trend Metar Taf AsDict Json Queries Setter SpecNum SpecDict SpecSetter StrFacts
  ProofLists ProofDict.
Import ListNotations.
Local Open Scope string_scope.
Local Open Scope nat_scope.
Local Open Scope list_scope.

Definition common_with (b : bool) (c : common) : common :=
  mk_common (c_string c) (c_wind c) (mk_vis (v_code (c_vis c)) (v_vis (c_vis c)) (v_dir (c_vis c)) b) (c_weathers c) (c_clouds c).

Lemma set_inv : forall value c c', common_set_cavok value c = Ok c' -> exists b, value = VBool b /\ c' = common_with b c.
Proof.
  intros value c c' E. unfold common_set_cavok, set_cavok in E. destruct value as [|b| | | |]; cbn [bind] in E; try discriminate E.
  exists b. injection E as <-. split; reflexivity.
Qed.

Lemma attrs_same : forall same q b c, fst (on_attrs same q (common_with b c)) = fst (on_attrs same q c).
Proof.
  intros same q b [s w v ws cs]. destruct q; try reflexivity.
  - unfold on_attrs, should_be_cavok, common_with. cbn [c_string c_wind c_vis c_weathers c_clouds v_vis].
    destruct (Nat.ltb _ _); [reflexivity|]. destruct (ceiling_of _) as [[|]|]; cbn [bind]; try reflexivity.
    destruct (v_vis v) as [x|]; [|reflexivity]. destruct (Nat.eqb _ _); [reflexivity|]. destruct (fltb x f10000); [reflexivity|].
    destruct (gl_for _ cs) as [[|] g]; reflexivity.
  - unfold on_attrs, common_with. cbn [c_weathers]. destruct (gl_collect ws). reflexivity.
  - unfold on_attrs, common_with. cbn [c_clouds]. destruct (gl_collect cs). reflexivity.
Qed.

Lemma told_other : forall b k l, str_eqb k (py "prevailing_visibility") = false -> map (told b) (under (Key k) l) = under (Key k) l.
Proof.
  intros b k l H. induction l as [|[p v] l IH]; [reflexivity|]. cbn [under map fst snd] in *. f_equal; [|exact IH].
  unfold told. cbn [fst]. destruct p as [|[m|i] [|s p]]; try reflexivity. rewrite H. reflexivity.
Qed.

Lemma told_vis : forall b v, map (told b) (under (Key (py "prevailing_visibility")) (leaves (VDict (prevailing_dict v))))
  = under (Key (py "prevailing_visibility")) (leaves (VDict (prevailing_dict (mk_vis (v_code v) (v_vis v) (v_dir v) b)))).
Proof.
  intros b v. unfold prevailing_dict, vis_dict, group_dict. joined. cbn [v_code v_vis v_dir v_cavok].
  lay. rewrite ?direction_rows_ok, ?distance_rows_ok. lay. rewrite ?direction_rows_ok, ?distance_rows_ok. cbn [leaves]. unfold direction_rows, metres_rows, quantity_rows, field, under.
  cbn [app map fst snd told].
  repeat match goal with |- context [str_eqb ?a ?c] => let r := eval vm_compute in (str_eqb a c) in change (str_eqb a c) with r end.
  reflexivity.
Qed.

Ltac tell := repeat first [rewrite told_vis | rewrite told_other by (vm_compute; reflexivity) | rewrite map_app]; reflexivity.

Theorem metar_set : forall e same value x x', metar_set_cavok value x = Ok x' -> exists b, value = VBool b
  /\ v_cavok (c_vis (me_common x')) = b
  /\ (forall q, apart_metar q -> fst (on_metar e same q x') = fst (on_metar e same q x))
  /\ (forall d, metar_dict e x = Ok d -> exists d', metar_dict e x' = Ok d' /\ leaves (VDict d') = map (told b) (leaves (VDict d))).
Proof.
  intros e same value x x' E. unfold metar_set_cavok in E. destruct (common_set_cavok value (me_common x)) as [c|] eqn:C; cbn [bind] in E; [|discriminate E].
  destruct (set_inv _ _ _ C) as (b & -> & ->). clear C. injection E as <-. exists b. split; [reflexivity|]. split; [reflexivity|]. split.
  - intros q Q. destruct q; try contradiction; try reflexivity.
    + cbn [on_metar]. cbn [upd_common me_common]. pose proof (attrs_same same q b (me_common x)) as H.
      destruct (on_attrs same q (common_with b (me_common x))), (on_attrs same q (me_common x)). exact H.
    + cbn [on_metar upd_common me_rvr]. destruct (gl_collect (me_rvr x)). reflexivity.
    + cbn [on_metar upd_common me_ws]. destruct (gl_collect (me_ws x)). reflexivity.
    + cbn [on_metar upd_common me_trends]. destruct (gl_collect (me_trends x)). reflexivity.
    + cbn [on_metar upd_common me_trends]. destruct (ask_item _ i (me_trends x)). reflexivity.
  - intros d D. unfold metar_dict in *. cbn [upd_common me_common common_with me_raw me_sections me_unparsed me_type me_station me_time me_modifier me_wvar me_minvis me_rvr
      me_temps me_press me_recent me_ws me_sea me_rwy me_trends c_weathers c_clouds c_wind c_vis].
    destruct (list_dict rvr_dict _) as [rvr|]; cbn [bind] in *; [|discriminate D].
    destruct (list_dict weather_dict _) as [wea|]; cbn [bind] in *; [|discriminate D].
    destruct (list_dict cloud_dict _) as [clo|]; cbn [bind] in *; [|discriminate D].
    destruct (list_dict ws_dict _) as [ws|]; cbn [bind] in *; [|discriminate D].
    destruct (list_dict change_period_dict _) as [trd|]; cbn [bind] in *; [|discriminate D].
    injection D as <-. eexists. split; [reflexivity|].
    change (flight_rules (common_with b (me_common x))) with (flight_rules (me_common x)).
    unfold report_dict. rewrite !dupdate_new by (lazy; reflexivity). cbn [app]. rewrite !leaves_dict by discriminate.
    cbn [key_rows]. tell.
Qed.

Theorem taf_set : forall e same value x x', taf_set_cavok value x = Ok x' -> exists b, value = VBool b
  /\ v_cavok (c_vis (ta_common x')) = b
  /\ (forall q, apart_taf q -> fst (on_taf e same q x') = fst (on_taf e same q x))
  /\ (forall d, taf_dict e x = Ok d -> exists d', taf_dict e x' = Ok d' /\ leaves (VDict d') = map (told b) (leaves (VDict d))).
Proof.
  intros e same value x x' E. unfold taf_set_cavok in E. destruct (common_set_cavok value (ta_common x)) as [c|] eqn:C; cbn [bind] in E; [|discriminate E].
  destruct (set_inv _ _ _ C) as (b & -> & ->). clear C. injection E as <-. exists b. split; [reflexivity|]. split; [reflexivity|]. split.
  - intros q Q. destruct q; try contradiction; try reflexivity.
    + cbn [on_taf]. cbn [tupd_common ta_common]. pose proof (attrs_same same q b (ta_common x)) as H.
      destruct (on_attrs same q (common_with b (ta_common x))), (on_attrs same q (ta_common x)). exact H.
    + cbn [on_taf tupd_common ta_max]. destruct (gl_collect (ta_max x)). reflexivity.
    + cbn [on_taf tupd_common ta_min]. destruct (gl_collect (ta_min x)). reflexivity.
    + cbn [on_taf tupd_common ta_changes]. destruct (gl_collect (ta_changes x)). reflexivity.
    + cbn [on_taf tupd_common ta_changes]. destruct (ask_item _ i (ta_changes x)). reflexivity.
  - intros d D. unfold taf_dict in *. cbn [tupd_common ta_common common_with ta_raw ta_sections ta_unparsed ta_type ta_station ta_time ta_modifier ta_missing ta_valid
      ta_cancelled ta_max ta_min ta_changes c_weathers c_clouds c_wind c_vis].
    destruct (list_dict weather_dict _) as [wea|]; cbn [bind] in *; [|discriminate D].
    destruct (list_dict cloud_dict _) as [clo|]; cbn [bind] in *; [|discriminate D].
    destruct (list_dict taf_temp_dict (ta_max x)) as [mx|]; cbn [bind] in *; [|discriminate D].
    destruct (list_dict taf_temp_dict (ta_min x)) as [mn|]; cbn [bind] in *; [|discriminate D].
    destruct (list_dict change_fc_dict _) as [ch|]; cbn [bind] in *; [|discriminate D].
    injection D as <-. eexists. split; [reflexivity|].
    unfold report_dict. rewrite !dupdate_new by (lazy; reflexivity). cbn [app]. rewrite !leaves_dict by discriminate.
    cbn [key_rows]. tell.
Qed.

Lemma metar_set_accepts : forall value x, (exists x', metar_set_cavok value x = Ok x') <-> (exists b, value = VBool b).
Proof.
  intros value x. split.
  - intros [x' E]. destruct (metar_set (mk_env 2026 1 [] []) true _ _ _ E) as (b & H & _). exists b. exact H.
  - intros [b ->]. eexists. reflexivity.
Qed.

Lemma taf_set_accepts : forall value x, (exists x', taf_set_cavok value x = Ok x') <-> (exists b, value = VBool b).
Proof.
  intros value x. split.
  - intros [x' E]. destruct (taf_set (mk_env 2026 1 [] []) true _ _ _ E) as (b & H & _). exists b. exact H.
  - intros [b ->]. eexists. reflexivity.
Qed.

Lemma set_rejects : forall value, (forall b, value <> VBool b) ->
  (forall x, metar_set_cavok value x = Raise TypeError) /\ (forall x, taf_set_cavok value x = Raise TypeError).
Proof. intros value H. destruct value as [|b| | | |]; try (split; reflexivity). exfalso. exact (H b eq_refl). Qed.
