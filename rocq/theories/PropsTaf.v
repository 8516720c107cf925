(** * Properties C38 and C48: statements only *)
From Coq Require Import String Ascii.
From Coq Require Import List NArith ZArith Bool Lia.
From Verif Require Import PyBase PyRegex AeroRegex PyFloat PyTime Utils Base MetarGroups Trend Metar Taf SpecNum SpecGroups SpecTime SpecTaf
  SpecText SpecWords SpecMetar SpecTafReport TimeFacts ProofMetarText ProofTafReport ProofTafHead.
Import ListNotations.
Local Open Scope string_scope.
Local Open Scope nat_scope.
Local Open Scope list_scope.

(** ** C48: the round trip *)

(** Missing from the full statement: validity, change periods and temperatures
    on a day later than the one after the day they are counted from
    ([C33_validity_refuted]), a body without visibility whose weather the
    visibility slot takes ([C48_refuted]), a mixed number of miles as the last
    group of the body or of a change, a station that opens a change after AMD
    or COR ([C38_refuted]), more than three weathers and four clouds in a
    section, two temperatures of each kind, five PROB TEMPO and eight changes. *)
Theorem C48_round_trip_partial : forall e y mo g tr code, clock_wf e -> taf_wf y mo g -> shows (taf_words g) code ->
  exists x, taf_parse e code (Some y) (Some mo) tr = Ok x
    /\ taf_holds y mo g x /\ ta_unparsed x = []
    /\ ta_raw x = sentence (taf_words g)
    /\ ta_sections x = [sentence (taf_body_words g); sentence (flat_map change_text (h_changes g))].
Proof. exact taf_round_trip. Qed.
Print Assumptions C48_round_trip_partial.

Definition knots (d s : N) (gust : option N) : wind_g :=
  mk_wind_g (DirDeg d) (Spd false false s) (option_map (fun n => (false, false, n)) gust) KT.
Definition light (p : string * string) : weather_g := mk_weather_g (Some ("-", "light")) None (Some (PhPrec p)).

(** A forecast over the end of February with every kind of group. *)
Definition full_taf : taf_g :=
  mk_taf_g (Some ("AMD", "Amendment")) (py "ATAF") 29 23 40 false (Some (mk_period 1 0 1 24)) false
    (mk_wx (Some (knots 36 12 (Some 35%N))) (Some (VisMiles None (Some (true, 12%N)) (Some (1%N, 4%N))))
       [mk_weather_g (Some ("+", "heavy")) (Some ("TS", "thunderstorm")) (Some (PhPrec ("RA", "rain")))]
       [mk_cloud_g ("BKN", "broken", "5-7") (HtHundreds 7) TyCB])
    [mk_ftemp true true 3 1 12; mk_ftemp false false 12 1 5]
    [mk_change (IFrom 1 3 0) (mk_wx (Some (knots 27 8 None)) (Some (VisMeters 9999 None)) [] []);
     mk_change (IDuring (KProbTempo false) (mk_period 1 6 1 8)) (mk_wx None (Some (VisMeters 800 None)) [light ("DZ", "drizzle")] []);
     mk_change (IDuring KBecmg (mk_period 1 10 1 12)) (mk_wx (Some (knots 18 5 None)) None [] []);
     mk_change (IDuring (KProb true) (mk_period 1 14 1 16)) (mk_wx None None [light ("RA", "rain")] []);
     mk_change (IDuring KTempo (mk_period 1 14 1 16)) (mk_wx None None [] [mk_cloud_g ("BKN", "broken", "5-7") (HtHundreds 20) TyAbsent]);
     mk_change (IFrom 1 18 30) (mk_wx None (Some (VisMeters 5000 None)) [] [])].

Lemma near_march : forall t, t = mk_dt 2024 2 29 23 40 \/ t = mk_dt 2024 3 1 0 0 -> near t 1.
Proof.
  intros t H. exists (2024, 3, 1)%Z, (2024, 3, 2)%Z.
  assert (D : day_after (2024, 3, 1)%Z (2024, 3, 2)%Z).
  { apply (InMonth 2024 3 1 31); [constructor; cbn; tauto|lia]. }
  destruct H as [-> | ->].
  - split; [apply (first_valid 1); vm_compute; reflexivity|].
    split; [exists 1; split; [lia|apply days_valid; vm_compute; reflexivity]|].
    split; [apply valid_date_spec; reflexivity|]. split; [exact D|apply valid_date_spec; reflexivity].
  - split; [apply (first_valid 0); vm_compute; reflexivity|].
    split; [exists 0; split; [lia|apply days_valid; vm_compute; reflexivity]|].
    split; [apply valid_date_spec; reflexivity|]. split; [exact D|apply valid_date_spec; reflexivity].
Qed.

Example C48_case :
  taf_wf 2024 2 full_taf
  /\ sentence (taf_words full_taf)
     = py "TAF AMD ATAF 292340Z 0100/0124 36012G35KT 12 1/4SM +TSRA BKN007CB TXM03/0112Z TN12/0105Z FM010300 27008KT 9999 PROB30 TEMPO 0106/0108 0800 -DZ BECMG 0110/0112 18005KT PROB40 0114/0116 -RA TEMPO 0114/0116 BKN020 FM011830 5000"
  /\ shows (taf_words full_taf) (sentence (taf_words full_taf))
  /\ clock_wf (mk_env 2026 11 [] []).
Proof.
  split; [|split; [reflexivity|split]].
  - unfold taf_wf, full_taf. cbn [h_modifier h_station h_day h_hour h_minute h_nil h_valid h_cnl h_body h_temps h_changes].
    split; [cbn; auto|]. split; [split; [|reflexivity]|].
    { exists 65%N, 84%N, 65%N, 70%N. split; [reflexivity|]. unfold is_alnum, is_upper. lia. }
    split; [lia|]. split; [apply valid_date_spec; reflexivity|]. split; [lia|]. split; [lia|].
    assert (N1 : near (mk_dt 2024 2 29 23 40) 1) by (apply near_march; auto).
    assert (N2 : near (mk_dt 2024 3 1 0 0) 1) by (apply near_march; auto).
    assert (F2 : exists b, first_with_day (date_of (mk_dt 2024 3 1 0 0)) 1 b /\ real b).
    { exists (2024, 3, 1)%Z. split; [apply (first_valid 0); vm_compute; reflexivity|apply valid_date_spec; reflexivity]. }
    split; [unfold opt_all, period_wf, issued; cbn [p_fd p_fh p_td p_th]; intuition (try lia); assumption|].
    split; [split; [|split; [exact I|discriminate]]|].
    { unfold wx_wf, knots. cbn [x_wind x_vis x_weathers x_clouds opt_all option_map]. split.
      - split; [unfold wind_wf; cbn; repeat split; lia|split; [discriminate|exact I]].
      - split; [cbn; intuition (try discriminate; try lia)|].
        split; [split; [|cbn; lia]; repeat constructor; cbn; auto 12; discriminate|].
        split; [|cbn; lia]. repeat constructor; cbn; auto 12; intros [K _]; discriminate K. }
    split; [split; [|cbn; lia]; repeat (apply Forall_cons; [split; [cbn; lia|split; [cbn; lia|split; [cbn; lia|exact N1]]]|]); apply Forall_nil|].
    split; [reflexivity|]. split; [cbn; lia|]. split; [cbn; lia|].
    exists (mk_dt 2024 3 1 0 0). split.
    { exists (2024, 3, 1)%Z. split; [apply (first_valid 1); vm_compute; reflexivity|reflexivity]. }
    assert (P : forall a b : N, (a <= 23)%N -> (b <= 24)%N -> period_wf (mk_dt 2024 3 1 0 0) (mk_period 1 a 1 b)).
    { intros a b Ha Hb. unfold period_wf. cbn [p_fd p_fh p_td p_th]. intuition lia. }
    assert (E0 : forall (A : Type) (Q : A -> Prop) n, Forall Q [] /\ length (@nil A) <= n) by (intros; split; [constructor|cbn; lia]).
    apply Forall_cons; [|apply Forall_cons; [|apply Forall_cons; [|apply Forall_cons; [|apply Forall_cons; [|apply Forall_cons; [|apply Forall_nil]]]]]];
      (split; [first [apply P; lia|split; [lia|split; [lia|split; [lia|exact F2]]]]|split; [|reflexivity]]);
      unfold wx_wf, knots; cbn [h_wx x_wind x_vis x_weathers x_clouds opt_all option_map];
      (split; [first [exact I|split; [unfold wind_wf; cbn; repeat split; lia|split; [discriminate|exact I]]]|]);
      (split; [first [exact I|cbn; intuition (try discriminate; try lia)]|]); (split; [try apply E0|try apply E0]).
    + split; [|cbn; lia]. repeat constructor; cbn; auto 12; discriminate.
    + split; [|cbn; lia]. repeat constructor; cbn; auto 12; discriminate.
    + split; [|cbn; lia]. repeat constructor; cbn; auto 12; intros [K _]; discriminate K.
  - exists [], (sentence (taf_words full_taf)), [], [].
    split; [rewrite app_nil_r; reflexivity|]. split; [|split; [constructor|split; [constructor|left; reflexivity]]].
    apply sentence_laid_out. discriminate.
  - cbv. intuition discriminate.
Qed.

(** Documented forecasts it gets wrong: weather taken for the visibility, the
    empty group after a mixed visibility taken for a weather, the station
    taken for a change. *)
Theorem C48_refuted :
  (exists x, taf_parse (mk_env 2024 1 [] []) (py "TAF MROC 071130Z 0712/0812 18005KT MIFG") (Some 2024%Z) (Some 1%Z) false = Ok x
     /\ v_code (c_vis (ta_common x)) = Some (py "MIFG") /\ gl_list (c_weathers (ta_common x)) = [])
  /\ (exists x, taf_parse (mk_env 2024 1 [] []) (py "TAF MROC 071130Z 0712/0812 18005KT 2 1/2SM") (Some 2024%Z) (Some 1%Z) false = Ok x
     /\ map we_code (gl_list (c_weathers (ta_common x))) = [Some []])
  /\ taf_parse (mk_env 2024 1 [] []) (py "TAF AMD FMCH 071130Z 0712/0812 18005KT") (Some 2024%Z) (Some 1%Z) false = Raise AttributeError.
Proof. exact taf_mistakes. Qed.
Print Assumptions C48_refuted.

(** ** C38: the station survives the header *)

(** Whatever words follow.  Missing: after AMD or COR, stations that begin
    with FM and PROB; they are always lost, see [C38_refuted]. *)
Theorem C38_header_partial : forall e md s dd h mi rest y mo tr code x,
  opt_all (fun w => In w taf_modifiers) md -> station_wf s -> (md <> None -> begins_any change_words s = false) ->
  (1 <= dd <= 31)%N -> (h <= 24)%N -> (mi <= 59)%N -> Forall (fun w => word w /\ ~ In 61%N w) rest ->
  shows (py "TAF" :: of_option code_of md ++ s :: stamp_code dd h mi :: rest) code ->
  taf_parse e code y mo tr = Ok x -> st_code (ta_station x) = Some s /\ t_code (ta_time x) = Some (stamp_code dd h mi).
Proof. exact taf_head. Qed.
Print Assumptions C38_header_partial.

Theorem C38_refuted : forall e m s dd h mi rest y mo tr code x,
  In m taf_modifiers -> station_wf s -> begins_any change_words s = true ->
  Forall (fun w => word w /\ ~ In 61%N w) rest ->
  shows (py "TAF" :: code_of m :: s :: stamp_code dd h mi :: rest) code ->
  taf_parse e code y mo tr = Ok x -> st_code (ta_station x) = None /\ t_code (ta_time x) = None.
Proof. exact taf_head_lost. Qed.
Print Assumptions C38_refuted.

Definition returns (s : string) : bool :=
  match taf_parse (mk_env 2024 1 [] []) (py s) (Some 2024%Z) (Some 1%Z) false with Ok _ => true | Raise _ => false end.

(** Prince Said Ibrahim airport without and with AMD, and odd text. *)
Example C38_case : 
  station_wf (py "FMCH") /\ begins_any change_words (py "FMCH") = true
  /\ sentence (py "TAF" :: of_option code_of None ++ py "FMCH" :: stamp_code 7 11 30 :: [py "0712/0812"; py "FM|__"; py "TAF_"])
     = py "TAF FMCH 071130Z 0712/0812 FM|__ TAF_"
  /\ returns "TAF FMCH 071130Z 0712/0812 FM|__ TAF_" = true
  /\ sentence (py "TAF" :: code_of ("AMD", "Amendment") :: py "FMCH" :: stamp_code 7 11 30 :: [py "18005KT"])
     = py "TAF AMD FMCH 071130Z 18005KT"
  /\ returns "TAF AMD FMCH 071130Z 18005KT" = true.
Proof.
  split; [|split; [reflexivity|split; [reflexivity|split; [vm_compute; reflexivity|split; [reflexivity|vm_compute; reflexivity]]]]].
  exists 70%N, 77%N, 67%N, 72%N. split; [reflexivity|]. unfold is_alnum, is_upper. lia.
Qed.
