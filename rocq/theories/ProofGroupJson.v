(** * The JSON of groups and lists of groups (C59): proof *)
From Coq Require Import String Ascii.
From Coq Require Import List NArith ZArith Bool Lia.
From Verif Require Import PyBase PyRegex PyFloat PyTime Base MetarGroups Trend Metar Taf AsDict Json SpecJson GroupJson SpecGroupJson
  ProofJson ProofRange ProofRangeReport ProofJsonReport.
Import ListNotations.
Local Open Scope string_scope.
Local Open Scope nat_scope.
Local Open Scope list_scope.

Lemma part_good : forall c, common_ok c -> Forall (fun d => good (VDict d)) (part_groups c).
Proof.
  intros c (W & V & C & _). unfold part_groups. destruct W as (W1 & W2 & W3). destruct V as [V1 V2].
  apply Forall_app. split; [|apply Forall_app; split; apply Forall_map, Forall_forall].
  - repeat apply Forall_cons; try apply Forall_nil; [exact (wind_good _ (conj W1 (conj W2 W3)))|eapply direction_good; exact W1|eapply speed_good; exact W2
      |eapply speed_good; exact W3|exact (prevailing_good _ _ (conj V1 V2))|eapply distance_good; exact V1|eapply direction_good; exact V2].
  - intros w _. apply readable_good, weather_good.
  - intros k I. rewrite Forall_forall in C. apply readable_good, cloud_good, C, I.
Qed.

Lemma valid_good : forall v, good (VDict (valid_dict v)).
Proof. intro v. apply readable_good. unfold valid_dict. apply dupdate_readable; [|apply group_entries]. lit_dict; apply time_good. Qed.

Lemma label_entries : forall t c, entries (dupdate [(py "translation", vopt t)] (group_dict c)).
Proof. intros t c. assert (R : readable (dupdate [(py "translation", vopt t)] (group_dict c))).
  { apply dupdate_readable; [lit_dict; apply vopt_good|apply group_entries]. } exact (proj2 R). Qed.

Lemma trend_ind_good : forall i, good (VDict (trend_ind_dict i)).
Proof.
  intro i. apply readable_good. unfold trend_ind_dict. apply dupdate_readable; [|apply label_entries].
  lit_dict; try apply time_good.
  - apply readable_good. lit_dict; apply time_good.
  - destruct (ti_at i) as [a|]; [destruct (time_truthy a); [apply time_good|constructor]|constructor].
Qed.

Lemma taf_ind_good : forall i, good (VDict (taf_ind_dict i)).
Proof.
  intro i. apply readable_good. unfold taf_ind_dict. apply dupdate_readable; [|apply label_entries]. lit_dict. apply valid_good.
Qed.

Lemma flat_good : forall A (f : A -> list dict) l, Forall (fun a => Forall (fun d => good (VDict d)) (f a)) l ->
  Forall (fun d => good (VDict d)) (flat_map f l).
Proof. intros A f l H. induction H as [|a l Ha H IH]; [constructor|]. cbn [flat_map]. apply Forall_app. auto. Qed.

Lemma metar_groups_good : forall e code y mo tr x, metar_parse e code y mo tr = Ok x -> Forall (fun d => good (VDict d)) (metar_groups e x).
Proof.
  intros e code y mo tr x P. destruct (metar_ok _ _ _ _ _ _ P) as [(A & B & C & D & G & H & _ & K) T].
  unfold metar_groups. apply Forall_app. split.
  { repeat apply Forall_cons; try apply Forall_nil.
    - apply type_good.
    - apply station_good.
    - apply time_good.
    - apply readable_good, modifier_readable.
    - exact (wvar_good _ B).
    - exact (readable_good _ (vis_readable _ _ C)).
    - exact (temps_good _ G).
    - exact (temperature_good _ _ _ (proj1 G)).
    - exact (temperature_good _ _ _ (proj2 G)).
    - exact (pressure_good _ _ _ H).
    - apply recent_good.
    - exact (sea_good _ K).
    - apply rs_good. }
  apply Forall_app. split; [exact (part_good _ A)|]. apply Forall_app. split.
  { apply Forall_map. eapply Forall_impl; [|exact D]. intros r R. exact (readable_good _ (rvr_good _ R)). }
  apply Forall_app. split; [apply Forall_map, Forall_forall; intros w _; apply readable_good, ws_good|].
  apply flat_good. eapply Forall_impl; [|exact T]. intros p Hp. unfold trend_groups. apply Forall_app. split; [|exact (part_good _ Hp)].
  constructor; [exact (readable_good _ (forecast_readable _ _ Hp))|]. constructor; [apply trend_ind_good|].
  repeat (constructor; [apply time_good|]). constructor.
Qed.

Lemma taf_groups_good : forall e code y mo tr x, taf_parse e code y mo tr = Ok x -> Forall (fun d => good (VDict d)) (taf_groups e x).
Proof.
  intros e code y mo tr x P. destruct (taf_parsed_ok _ _ _ _ _ _ P) as (A & B & C & D).
  assert (Tt : forall t, ttemp_ok t -> good (VDict (taf_temp_dict t))).
  { intros t Ht. apply readable_good. unfold taf_temp_dict. apply dupdate_readable; [|apply time_readable].
    apply dupdate_readable; [exact (temperature_readable _ _ _ Ht)|apply group_entries]. }
  unfold taf_groups. apply Forall_app. split.
  { repeat apply Forall_cons; try apply Forall_nil.
    - apply type_good.
    - apply station_good.
    - apply time_good.
    - apply readable_good, modifier_readable.
    - apply readable_good. unfold missing_dict. apply dupdate_readable; [lit_dict; constructor|apply modifier_readable].
    - apply valid_good.
    - apply time_good.
    - apply time_good.
    - apply readable_good. unfold cancelled_dict. apply dupdate_readable; [|apply group_entries]. lit_dict. constructor. }
  apply Forall_app. split; [exact (part_good _ A)|]. apply Forall_app. split; [apply Forall_map; eapply Forall_impl; [|exact B]; exact Tt|].
  apply Forall_app. split; [apply Forall_map; eapply Forall_impl; [|exact C]; exact Tt|].
  apply flat_good. eapply Forall_impl; [|exact D]. intros p Hp. unfold change_groups. apply Forall_app. split; [|exact (part_good _ Hp)].
  constructor; [exact (readable_good _ (forecast_readable _ _ Hp))|]. constructor; [apply taf_ind_good|].
  constructor; [apply valid_good|]. constructor.
Qed.

Theorem metar_group_json : forall e code y mo tr x, metar_parse e code y mo tr = Ok x ->
  Forall (fun d => faithful d (group_json d)) (metar_groups e x).
Proof. intros e code y mo tr x P. eapply Forall_impl; [|exact (metar_groups_good _ _ _ _ _ _ P)]. exact dumps_faithful. Qed.

Theorem taf_group_json : forall e code y mo tr x, taf_parse e code y mo tr = Ok x ->
  Forall (fun d => faithful d (group_json d)) (taf_groups e x).
Proof. intros e code y mo tr x P. eapply Forall_impl; [|exact (taf_groups_good _ _ _ _ _ _ P)]. exact dumps_faithful. Qed.

(** ** Lists *)

Definition listed_well {A} (f : A -> dict) (g : grouplist A) : Prop :=
  exists d t, list_dict f g = Ok d /\ list_json f g = Ok t /\ faithful d t.

Lemma list_well : forall A (f : A -> dict) g, few g -> Forall (fun x => readable (f x)) (gl_list g) -> listed_well f g.
Proof.
  intros A f g F R. destruct (list_good A f g F R) as (d & E & G). exists d, (dumps (VDict d)). split; [exact E|].
  unfold list_json. rewrite E. split; [reflexivity|exact (dumps_faithful d G)].
Qed.

Theorem metar_list_json : forall e code y mo tr x, metar_parse e code y mo tr = Ok x ->
  listed_well rvr_dict (me_rvr x) /\ listed_well weather_dict (c_weathers (me_common x)) /\ listed_well cloud_dict (c_clouds (me_common x))
  /\ listed_well ws_dict (me_ws x) /\ listed_well change_period_dict (me_trends x).
Proof.
  intros e code y mo tr x P. destruct (metar_short _ _ _ _ _ _ P) as ((F1 & F2) & F3 & F4 & F5).
  destruct (metar_ok _ _ _ _ _ _ P) as [((_ & _ & A3 & _) & _ & _ & D & _) T].
  split; [apply list_well; [exact F3|eapply Forall_impl; [|exact D]; exact rvr_good]|].
  split; [apply list_well; [exact F1|apply Forall_forall; intros w _; apply weather_good]|].
  split; [apply list_well; [exact F2|eapply Forall_impl; [|exact A3]; exact cloud_good]|].
  split; [apply list_well; [exact F4|apply Forall_forall; intros w _; apply ws_good]|].
  apply list_well; [exact F5|]. eapply Forall_impl; [|exact T]. intros p Hp. exact (forecast_readable _ _ Hp).
Qed.

Theorem taf_list_json : forall e code y mo tr x, taf_parse e code y mo tr = Ok x ->
  listed_well weather_dict (c_weathers (ta_common x)) /\ listed_well cloud_dict (c_clouds (ta_common x))
  /\ listed_well taf_temp_dict (ta_max x) /\ listed_well taf_temp_dict (ta_min x) /\ listed_well change_fc_dict (ta_changes x).
Proof.
  intros e code y mo tr x P. destruct (taf_short _ _ _ _ _ _ P) as ((F1 & F2) & F3 & F4 & F5).
  destruct (taf_parsed_ok _ _ _ _ _ _ P) as ((_ & _ & A3 & _) & B & C & D).
  assert (Tt : forall t, ttemp_ok t -> readable (taf_temp_dict t)).
  { intros t Ht. unfold taf_temp_dict. apply dupdate_readable; [|apply time_readable].
    apply dupdate_readable; [exact (temperature_readable _ _ _ Ht)|apply group_entries]. }
  split; [apply list_well; [exact F1|apply Forall_forall; intros w _; apply weather_good]|].
  split; [apply list_well; [exact F2|eapply Forall_impl; [|exact A3]; exact cloud_good]|].
  split; [apply list_well; [exact F3|eapply Forall_impl; [|exact B]; exact Tt]|].
  split; [apply list_well; [exact F4|eapply Forall_impl; [|exact C]; exact Tt]|].
  apply list_well; [exact F5|]. eapply Forall_impl; [|exact D]. intros p Hp. exact (forecast_readable _ _ Hp).
Qed.
