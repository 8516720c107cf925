(** * The words of a METAR: its body is cut into exactly its groups (C47). *)
From Coq Require Import String Ascii.
From Coq Require Import List NArith ZArith Bool Lia.
From Verif Require Import PyBase PyRegex AeroRegex PyFloat PyTime Utils Base MetarGroups Trend Metar.
From Verif Require Import SpecNum SpecGroups SpecTime TimeFacts ProofTime SymRegex ProofGroups ProofValues SpecText StrFacts TextFacts
  ProofText ProofSections ProofTafText SpecWords ProofWords GroupShapes ProofSlots SpecMetar ProofMetar.
Import ListNotations.
Local Open Scope string_scope.
Local Open Scope nat_scope.
Local Open Scope list_scope.

(** ** Tokens *)

Definition no_dig (t : mtok) : Prop := match t with MWord w => forallb is_digit w = false | _ => True end.
Definition no_frac (t : mtok) : Prop := match t with MWord w => frac_like w = false | _ => True end.
Definition no_ws (t : mtok) : Prop := match t with MWord w => ends_with (py "WS") w = false | _ => True end.

Lemma unmixed_no_frac : forall l, Forall no_frac l -> unmixed l.
Proof.
  intros l H. induction H as [|t l Ht H IH]; [exact I|]. destruct t as [w| |]; cbn [unmixed]; [|exact IH|exact IH].
  split; [|exact IH]. destruct H as [|[v| |] l Hv H]; [exact I| |exact I|exact I].
  unfold mixed_like. cbn in Hv. rewrite Hv. apply andb_false_r.
Qed.
Lemma unmixed_mid : forall A V B, Forall no_dig A -> length V <= 1 -> Forall no_frac B -> unmixed (A ++ V ++ B).
Proof.
  intros A V B HA HV HB. induction HA as [|t A Ht HA IH].
  - cbn [app]. pose proof (unmixed_no_frac B HB) as U. destruct V as [|v [|v2 V]]; [exact U| |cbn in HV; lia].
    cbn [app]. destruct v as [w| |]; cbn [unmixed]; [|exact U|exact U]. split; [|exact U].
    destruct HB as [|[v| |] l Hv H]; [exact I| |exact I|exact I]. unfold mixed_like. cbn in Hv. rewrite Hv. apply andb_false_r.
  - cbn [app]. destruct t as [w| |]; cbn [unmixed]; [|exact IH|exact IH]. split; [|exact IH].
    destruct (A ++ V ++ B) as [|[v| |] l]; try exact I. unfold mixed_like. cbn in Ht. rewrite Ht. reflexivity.
Qed.
Lemma unsheared_no_ws : forall l, Forall no_ws l -> unsheared l.
Proof.
  intros l H. induction H as [|t l Ht H IH]; [exact I|]. destruct t as [w| |]; cbn [unsheared]; [|exact IH|exact IH].
  split; [|exact IH]. destruct l as [|[v| |] l]; try exact I. unfold sheared_like. unfold no_ws in Ht. rewrite Ht. reflexivity.
Qed.

(** A word that does not begin a section. *)
Definition inner (w : str) : Prop :=
  word w /\ ~ In 61%N w /\ ~ In 124%N w /\ begins_any section_words w = false.
(** A group of the body after the time. *)
Definition tok_ok (t : mtok) : Prop := mtok_wf t /\ no_ws t /\ Forall inner (m_words t).

Lemma ordinary_inner : forall w, ordinary w -> inner w.
Proof.
  intros w (Hw & H1 & H3 & _ & H2 & _). unfold inner. conjs; [exact Hw|exact H3|exact H1|].
  unfold begins_any, some_keywords in *. rewrite existsb_app in H2. apply orb_false_iff in H2. apply H2.
Qed.
Lemma ordinary_tok : forall w, ordinary w -> tok_ok (MWord w).
Proof.
  intros w H. split; [apply H|]. split; [apply H|]. constructor; [apply ordinary_inner; exact H|constructor].
Qed.
Lemma inst_inner : forall w y, inst w y -> ordinary_b y = true -> inner w.
Proof. intros w y Hi H. apply ordinary_inner. exact (ordinary_inst w y Hi H). Qed.

Lemma int_inner : forall two n, inner (one_or_two two n).
Proof.
  intros two n. apply (inst_inner _ (dsym (if two then 2 else 1))); [|destruct two; vm_compute; reflexivity].
  destruct two; apply inst_digits.
Qed.
Lemma frac_inner : forall a b, inner (frac_word a b).
Proof.
  intros a b. apply (inst_inner _ (dsym 1 ++ lit "/" ++ dsym 1 ++ lit "SM")); [|vm_compute; reflexivity].
  unfold frac_word. auto with inst.
Qed.
Lemma runway_inner : forall (wy : bool) r, runway_wf r -> inner (py (if wy then "RWY" else "R") ++ runway_code r).
Proof.
  intros wy r H. apply (inst_inner _ (lit (if wy then "RWY" else "R") ++ runway_sym r)).
  - apply inst_app; [apply inst_lit|apply inst_runway; exact H].
  - destruct r as [n [s|]]; unfold runway_sym; cbn [rn_side]; destruct wy; vm_compute; reflexivity.
Qed.
Lemma const_inner : forall w, ordinary_b (map (fun c => [c]) w) = true -> inner w.
Proof.
  intros w H. apply (inst_inner _ (map (fun c => [c]) w)); [|exact H].
  clear H. induction w as [|c w IH]; constructor; [left; reflexivity|exact IH].
Qed.
Lemma ws_inner : inner (py "WS").
Proof. unfold inner, word. conjs; [discriminate|repeat constructor; discriminate| | |reflexivity]; cbn; intuition discriminate. Qed.

Lemma mixed_tok : forall two n a b, tok_ok (MMixed two n a b).
Proof.
  intros two n a b. split; [exact I|]. split; [exact I|]. constructor; [apply int_inner|]. constructor; [apply frac_inner|constructor].
Qed.
Lemma ws_tok : forall wy g, ws_wf g -> tok_ok (MWs wy g).
Proof.
  intros wy g H. split; [exact H|]. split; [exact I|]. destruct g as [|r]; cbn [m_words].
  - constructor; [exact ws_inner|]. constructor; [apply const_inner; vm_compute; reflexivity|].
    constructor; [apply const_inner; vm_compute; reflexivity|constructor].
  - constructor; [exact ws_inner|]. constructor; [apply runway_inner; exact H|constructor].
Qed.
Lemma plain_ok : forall w, plain_word w -> tok_ok (MWord w).
Proof. intros w [H1 _]. apply ordinary_tok. exact H1. Qed.
Lemma vis_tok_ok : forall g, vis_wf g -> vis_spellable g -> tok_ok (vis_tok g) /\ m_joined (vis_tok g) = vis_code g.
Proof.
  intros g H Hs. destruct (two_words g) eqn:E.
  - destruct g as [| | |[l|] [[two n]|] [[a b]|]|]; try discriminate E; [destruct Hs|].
    split; [apply mixed_tok|]. cbn [vis_tok m_joined vis_code]. unfold frac_word. reflexivity.
  - assert (K : vis_tok g = MWord (vis_code g)) by (destruct g as [| | |l [[two n]|] [[a b]|]|]; try reflexivity; discriminate E).
    rewrite K. split; [|reflexivity]. apply ordinary_tok. apply vis_ordinary; assumption.
Qed.

Lemma of_opt : forall A B (P : A -> Prop) (Q : B -> Prop) (f : A -> B) o, opt_all P o -> (forall x, P x -> Q (f x)) ->
  Forall Q (of_option f o).
Proof. intros A B P Q f [x|] H K; cbn in *; auto. Qed.
Lemma of_list : forall A B (P : A -> Prop) (Q : B -> Prop) (f : A -> B) l, Forall P l -> (forall x, P x -> Q (f x)) ->
  Forall Q (map f l).
Proof. intros A B P Q f l H K. apply Forall_map. eapply Forall_impl; [|exact H]. exact K. Qed.

Definition stamp_shape : list sym := dsym 2 ++ dsym 2 ++ dsym 2 ++ lit "Z".
Lemma stamp_inst : forall d h mi, inst (stamp_code d h mi) stamp_shape.
Proof. intros. unfold stamp_code, stamp_shape. auto 8 with inst. Qed.

(** The groups after the time. *)
Definition before_vis (g : metar_g) : list mtok :=
  of_option (fun x => MWord (code_of x)) (g_modifier g) ++ of_option (fun x => MWord (wind_code x)) (g_wind g)
  ++ of_option (fun x => MWord (wvar_code x)) (g_wvar g).
Definition after_vis (g : metar_g) : list mtok :=
  of_option (fun x => MWord (vis_code x)) (g_minvis g)
  ++ map (fun x => MWord (rvr_code x)) (g_rvrs g)
  ++ map (fun x => MWord (weather_code x)) (g_weathers g)
  ++ map (fun x => MWord (cloud_code x)) (g_clouds g)
  ++ of_option (fun x => MWord (temps_code x)) (g_temps g)
  ++ map (fun x => MWord (press_code x)) (g_press g)
  ++ of_option (fun x => MWord (recent_code x)) (g_recent g)
  ++ map (fun x => MWs (fst x) (snd x)) (g_ws g)
  ++ of_option (fun x => MWord (sea_code x)) (g_sea g)
  ++ of_option (fun x => MWord (rs_code_of x)) (g_rwy g).

Lemma toks_parts : forall g, metar_toks g = MWord (g_station g) :: MWord (stamp_code (g_day g) (g_hour g) (g_minute g))
  :: before_vis g ++ of_option vis_tok (g_vis g) ++ after_vis g.
Proof. intro g. unfold metar_toks, before_vis, after_vis. rewrite <- !app_assoc. reflexivity. Qed.

Ltac parts := repeat (apply Forall_app; split).

Lemma before_ok : forall y mo g, metar_wf y mo g -> Forall (fun t => tok_ok t /\ no_dig t /\ is_mixed t = false /\ is_runway_ws t = false) (before_vis g).
Proof.
  intros y mo g (_ & _ & _ & _ & _ & _ & Hmod & Hwi & Hwv & _). unfold before_vis. parts.
  - apply (of_opt _ _ _ _ _ _ Hmod). intros x Hx. conjs; try reflexivity.
    + apply ordinary_tok. cbn in Hx. repeat (destruct Hx as [<-|Hx];
        [apply (ordinary_inst _ (lit _) (inst_lit _)); vm_compute; reflexivity|]). destruct Hx.
    + cbn in Hx. repeat (destruct Hx as [<-|Hx]; [reflexivity|]). destruct Hx.
  - apply (of_opt _ _ _ _ _ _ Hwi). intros x Hx. destruct (wind_plain x Hx) as [K1 K2].
    conjs; [apply plain_ok; exact K1|exact K2|reflexivity|reflexivity].
  - apply (of_opt _ _ _ _ _ _ Hwv). intros x Hx. destruct (wvar_plain x Hx) as [K1 K2].
    conjs; [apply plain_ok; exact K1|exact K2|reflexivity|reflexivity].
Qed.

Lemma plain_after : forall w, plain_word w -> tok_ok (MWord w) /\ no_frac (MWord w) /\ is_mixed (MWord w) = false.
Proof. intros w H. split; [apply plain_ok; exact H|]. split; [apply H|reflexivity]. Qed.

Lemma after_ok : forall y mo g, metar_wf y mo g -> Forall (fun t => tok_ok t /\ no_frac t /\ is_mixed t = false) (after_vis g).
Proof.
  intros y mo g (_ & _ & _ & _ & _ & _ & _ & _ & _ & _ & (Hmv & _) & (Hrv & _) & (Hwx & _)
    & (Hcl & _) & Hte & (Hpr & _) & Hre & (Hws & _) & Hse & Hrw). unfold after_vis. parts.
  - apply (of_opt _ _ _ _ _ _ Hmv). intros x [H1 H2]. apply plain_after. apply min_vis_plain; assumption.
  - apply (of_list _ _ _ _ _ _ Hrv). intros x H1. apply plain_after. apply rvr_plain; assumption.
  - apply (of_list _ _ _ _ _ _ Hwx). intros x [H1 H2]. apply plain_after. apply weather_plain; assumption.
  - apply (of_list _ _ _ _ _ _ Hcl). intros x H1. apply plain_after. apply cloud_plain; assumption.
  - apply (of_opt _ _ _ _ _ _ Hte). intros x H1. apply plain_after. apply temps_plain; assumption.
  - apply (of_list _ _ _ _ _ _ Hpr). intros x [H1 H2]. apply plain_after. apply press_plain; assumption.
  - apply (of_opt _ _ _ _ _ _ Hre). intros x H1. apply plain_after. apply recent_plain; assumption.
  - apply (of_list _ _ _ _ _ _ Hws). intros x H1. split; [apply ws_tok; exact H1|]. split; [exact I|reflexivity].
  - apply (of_opt _ _ _ _ _ _ Hse). intros x H1. apply plain_after. apply sea_plain; assumption.
  - apply (of_opt _ _ _ _ _ _ Hrw). intros x H1. apply plain_after. apply rs_plain; assumption.
Qed.

Lemma vis_part : forall y mo g, metar_wf y mo g -> Forall tok_ok (of_option vis_tok (g_vis g)).
Proof.
  intros y mo g (_ & _ & _ & _ & _ & _ & _ & _ & _ & Hvi & _). apply (of_opt _ _ _ _ _ _ Hvi).
  intros x [H1 H2]. apply vis_tok_ok; assumption.
Qed.

Lemma filter_zero : forall A (f : A -> bool) l, Forall (fun x => f x = false) l -> length (filter f l) = 0.
Proof. intros A f l H. rewrite filter_none by exact H. reflexivity. Qed.
Lemma filter_len : forall A (f : A -> bool) l, length (filter f l) <= length l.
Proof. intros A f l. induction l as [|x l IH]; [cbn; lia|]. cbn [filter]. destruct (f x); cbn [length]; lia. Qed.

Lemma station_word : forall s, station_wf s -> starts_with (py "RMK") s = false ->
  inner s /\ forallb is_digit s = false.
Proof.
  intros s H Hr. pose proof (station_inst s H) as Hi. destruct H as (a & b & c & d & E & Ha & Hb & Hc & Hd).
  assert (P : forall k, In k s -> In k alnum_sym).
  { intros k Hk. subst s. cbn [In] in Hk.
    destruct Hk as [<-|[<-|[<-|[<-|[]]]]]; apply alnum_in; [left; exact Ha|assumption|assumption|assumption]. }
  assert (F : forall f : N -> bool, forallb f alnum_sym = true -> Forall (fun k => f k = true) s).
  { intros f Hf. apply Forall_forall. intros k Hk. rewrite forallb_forall in Hf. apply Hf. apply P. exact Hk. }
  assert (N0 : forall k, has k alnum_sym = false -> ~ In k s).
  { intros k Hk K. apply P in K. rewrite has_in in Hk by exact K. discriminate. }
  split; [unfold inner, word; conjs|].
  - subst s. discriminate.
  - eapply Forall_impl; [|apply (F (fun k => negb (is_space k))); vm_compute; reflexivity].
    intros k K1 K2. cbv beta in K1. unfold blank in K2. rewrite K2 in K1. discriminate.
  - apply N0. vm_compute. reflexivity.
  - apply N0. vm_compute. reflexivity.
  - assert (L : forall p, length p = 5 -> starts_with p s = false).
    { intros p Hp. destruct (starts_with p s) eqn:K; [|reflexivity]. apply starts_with_app in K. destruct K as (u & K).
      apply (f_equal (@length N)) in K. rewrite E, app_length, Hp in K. cbn in K. lia. }
    unfold section_words, trend_words, begins_any. cbn [app existsb]. rewrite Hr, !L by reflexivity. reflexivity.
  - subst s. cbn [forallb]. assert (K : is_digit a = false); [|rewrite K; reflexivity].
    destruct (is_digit a) eqn:K; [|reflexivity]. apply upper_in in Ha.
    assert (Q : forallb (fun k => negb (is_digit k)) upper_sym = true) by (vm_compute; reflexivity).
    rewrite forallb_forall in Q. apply Q in Ha. rewrite K in Ha. discriminate.
Qed.

Lemma Forall_and_l : forall A (P Q : A -> Prop) l, Forall (fun x => P x /\ Q x) l -> Forall P l.
Proof. intros A P Q l H. eapply Forall_impl; [|exact H]. intros x K. apply K. Qed.

Lemma type_inner : forall w, In w [("METAR", "Meteorological Aerodrome Report"); ("SPECI", "Special Aerodrome Report")] ->
  inner (code_of w) /\ ends_with (py "WS") (code_of w) = false.
Proof.
  intros w H. cbn in H. repeat (destruct H as [<-|H];
    [split; [apply const_inner; vm_compute; reflexivity|vm_compute; reflexivity]|]). destruct H.
Qed.
Lemma stamp_inner : forall d h mi, inner (stamp_code d h mi) /\ ends_with (py "WS") (stamp_code d h mi) = false
  /\ forallb is_digit (stamp_code d h mi) = false /\ starts_with (py "R") (stamp_code d h mi) = false
  /\ starts_with (py "ALL") (stamp_code d h mi) = false.
Proof.
  intros d h mi. pose proof (stamp_inst d h mi) as Hi.
  assert (O : ordinary (stamp_code d h mi)) by (apply (ordinary_inst _ _ Hi); vm_compute; reflexivity).
  split; [apply ordinary_inner; exact O|]. split; [apply O|]. split.
  - apply (shaped_letters [stamp_shape]); [exists stamp_shape; split; [left; reflexivity|exact Hi]|vm_compute; reflexivity].
  - assert (N0 : forall p, may_start p stamp_shape = false -> starts_with p (stamp_code d h mi) = false).
    { intros p Hp. destruct (starts_with p (stamp_code d h mi)) eqn:E; [|reflexivity].
      apply (may_start_ok _ _ _ Hi) in E. congruence. }
    split; apply N0; vm_compute; reflexivity.
Qed.

Lemma toks_ok : forall y mo g, metar_wf y mo g ->
  Forall mtok_wf (metar_toks g) /\ unmixed (metar_toks g) /\ unsheared (MWord (code_of (g_type g)) :: metar_toks g)
  /\ length (filter is_mixed (metar_toks g)) <= 3 /\ length (filter is_runway_ws (metar_toks g)) <= 3
  /\ Forall inner (metar_words g) /\ code_of (g_type g) :: map m_joined (metar_toks g) = metar_groups g.
Proof.
  intros y mo g H. pose proof (before_ok y mo g H) as HB. pose proof (after_ok y mo g H) as HA.
  pose proof (vis_part y mo g H) as HV.
  pose proof H as (Hty & (Hst & Hr) & _ & _ & _ & _ & _ & _ & _ & Hvi & _ & _ & _ & _ & _ & _ & _ & (_ & Lws) & _ & _).
  destruct (station_word _ Hst Hr) as [Is Ds].
  destruct (stamp_inner (g_day g) (g_hour g) (g_minute g)) as (It & Et & Dt & Rt & At).
  destruct (type_inner _ Hty) as [Iy Ey].
  assert (LV : length (of_option vis_tok (g_vis g)) <= 1) by apply of_option_length.
  assert (OK : Forall tok_ok (before_vis g ++ of_option vis_tok (g_vis g) ++ after_vis g)).
  { apply Forall_app. split; [exact (Forall_and_l _ _ _ _ HB)|]. apply Forall_app.
    split; [exact HV|exact (Forall_and_l _ _ _ _ HA)]. }
  conjs.
  - rewrite toks_parts. constructor; [apply Is|]. constructor; [apply It|]. exact (Forall_and_l _ _ _ _ OK).
  - rewrite toks_parts. change (unmixed ((MWord (g_station g) :: MWord (stamp_code (g_day g) (g_hour g) (g_minute g))
      :: before_vis g) ++ of_option vis_tok (g_vis g) ++ after_vis g)). apply unmixed_mid; [|exact LV|].
    + constructor; [exact Ds|]. constructor; [exact Dt|]. eapply Forall_impl; [|exact HB]. intros t K. apply K.
    + eapply Forall_impl; [|exact HA]. intros t K. apply K.
  - rewrite toks_parts.
    assert (U : unsheared (MWord (stamp_code (g_day g) (g_hour g) (g_minute g)) :: before_vis g
      ++ of_option vis_tok (g_vis g) ++ after_vis g)).
    { apply unsheared_no_ws. constructor; [exact Et|]. eapply Forall_impl; [|exact OK]. intros t K. apply K. }
    split; [unfold sheared_like; rewrite Ey; reflexivity|]. split; [|exact U].
    unfold sheared_like. rewrite Rt, At. apply andb_false_r.
  - rewrite toks_parts. cbn [filter is_mixed]. rewrite !filter_app, !app_length.
    rewrite (filter_zero _ _ (before_vis g)) by (eapply Forall_impl; [|exact HB]; intros t K; apply K).
    rewrite (filter_zero _ _ (after_vis g)) by (eapply Forall_impl; [|exact HA]; intros t K; apply K).
    pose proof (filter_len _ is_mixed (of_option vis_tok (g_vis g))). lia.
  - rewrite toks_parts. cbn [filter is_runway_ws]. rewrite !filter_app, !app_length.
    rewrite (filter_zero _ _ (before_vis g)) by (eapply Forall_impl; [|exact HB]; intros t K; apply K).
    rewrite (filter_zero _ _ (of_option vis_tok (g_vis g)))
      by (destruct (g_vis g) as [[| | |[l|] [[two n]|] [[a b]|]|]|]; repeat constructor).
    unfold after_vis. rewrite !filter_app, !app_length.
    assert (Z : forall A (f : A -> str) l, length (filter is_runway_ws (map (fun x => MWord (f x)) l)) = 0)
      by (intros A f l; induction l as [|x l IH]; [reflexivity|exact IH]).
    assert (Z2 : forall A (f : A -> str) o, length (filter is_runway_ws (of_option (fun x => MWord (f x)) o)) = 0)
      by (intros A f [x|]; reflexivity).
    rewrite !Z, !Z2.
    pose proof (filter_len _ is_runway_ws (map (fun x => MWs (fst x) (snd x)) (g_ws g))) as K.
    rewrite map_length in K. lia.
  - unfold metar_words. rewrite toks_parts. cbn [flat_map m_words app]. constructor; [exact Iy|]. constructor; [exact Is|].
    constructor; [exact It|]. apply Forall_flat_map. eapply Forall_impl; [|exact OK]. intros t K. apply K.
  - unfold metar_toks, metar_groups. cbn [app map m_joined]. do 3 f_equal. rewrite !map_app, !map_map, app_nil_r.
    assert (Z2 : forall A (f : A -> str) o, map m_joined (of_option (fun x => MWord (f x)) o) = of_option f o)
      by (intros A f [x|]; reflexivity).
    rewrite !Z2. cbn [m_joined].
    assert (Ev : map m_joined (of_option vis_tok (g_vis g)) = of_option vis_code (g_vis g)).
    { destruct (g_vis g) as [v|]; [|reflexivity]. destruct Hvi as [V1 V2]. cbn [of_option map].
      rewrite (proj2 (vis_tok_ok v V1 V2)). reflexivity. }
    rewrite Ev. reflexivity.
Qed.

(** ** The whole report *)

Lemma inner_no32 : forall w, inner w -> ~ In 32%N w.
Proof. intros w H. apply words_no32. apply H. Qed.

Lemma metar_cut : forall w ws rmk, Forall inner (w :: ws) -> remark_wf rmk ->
  metar_sections (sentence ((w :: ws) ++ rmk)) = [sentence (w :: ws); []; sentence rmk].
Proof.
  intros w ws rmk Hw Hr. set (W := w :: ws) in *.
  assert (N32 : Forall (fun w => ~ In 32%N w) W) by (eapply Forall_impl; [|exact Hw]; intros v K; apply inner_no32; exact K).
  assert (U : uncut section_words (sentence W)).
  { apply uncut_sentence; [exact section_words_ok|exact N32|]. inversion Hw as [|a b H1 H2]; subst.
    eapply Forall_impl; [|exact H2]. intros v K. apply K. }
  assert (B : begins_any section_words (sentence W) = false).
  { unfold W. rewrite begins_sentence by exact section_words_ok. inversion Hw as [|a b H1 H2]; subst. apply H1. }
  assert (N124 : ~ In 124%N (sentence W)).
  { apply sentence_no; [discriminate|]. eapply Forall_impl; [|exact Hw]. intros v K. apply K. }
  destruct Hr as [->|(us & -> & Hu)].
  - rewrite app_nil_r. change [sentence W; []; sentence []] with [sentence [sentence W]; sentence []; sentence []].
    change (sentence W) with (sentence ([sentence W] ++ [] ++ [])) at 1. apply metar_sections_ordered.
    + cbn; lia.
    + cbn; lia.
    + discriminate.
    + constructor; [exact U|constructor].
    + exact N124.
    + constructor; [exact B|constructor].
    + constructor.
    + constructor.
    + discriminate.
  - set (R := py "RMK" :: us).
    assert (Es : sentence (W ++ R) = sentence ([sentence W] ++ [] ++ [sentence R])).
    { cbn [app]. change [sentence W; sentence R] with (map sentence [W; R]). rewrite sentence_concat.
      - cbn [concat]. rewrite app_nil_r. reflexivity.
      - repeat constructor; discriminate. }
    rewrite Es. change [sentence W; []; sentence R] with [sentence [sentence W]; sentence []; sentence [sentence R]].
    apply metar_sections_ordered.
    + cbn; lia.
    + cbn; lia.
    + discriminate.
    + constructor; [exact U|]. constructor; [|constructor]. apply uncut_sentence; [exact section_words_ok| |].
      * constructor; [cbn; intuition discriminate|]. eapply Forall_impl; [|exact Hu]. intros v K. apply words_no32. apply K.
      * eapply Forall_impl; [|exact Hu]. intros v K. apply K.
    + rewrite <- Es. apply sentence_no; [discriminate|]. apply Forall_app. split.
      * eapply Forall_impl; [|exact Hw]. intros v K. apply K.
      * constructor; [cbn; intuition discriminate|]. eapply Forall_impl; [|exact Hu]. intros v K. apply K.
    + constructor; [exact B|constructor].
    + constructor.
    + constructor; [|constructor]. unfold R. destruct us; reflexivity.
    + discriminate.
Qed.

Lemma default_time : forall e y mo, (1000 <= opt_default (now_year e) y <= 9999)%Z ->
  (1 <= opt_default (now_month e) mo <= 12)%Z -> exists t, time_new e None None None None mo y = Ok t.
Proof.
  intros e y mo Hy Hm. unfold time_new. cbn [opt_default].
  set (y1 := opt_default (now_year e) y) in *. set (m1 := opt_default (now_month e) mo) in *.
  remember (Z.to_N y1) as y' eqn:Ey. remember (Z.to_N m1) as mo' eqn:Emo.
  assert (E1 : y1 = Z.of_N y') by lia. assert (E2 : m1 = Z.of_N mo') by lia. rewrite E1, E2 in *. clear Ey Emo.
  rewrite Z_str_year, Z_pad_month by lia.
  replace (digits 4 y' ++ digits 2 mo' ++ py "01" ++ py "00" ++ py "00")
    with (tcode (stamp_text y' mo' 1 0 0))
    by (unfold tcode, stamp_text; cbn [map concat snd]; rewrite app_nil_r; reflexivity).
  rewrite strptime_ok by lia.
  replace (valid_date (Z.of_N y') (Z.of_N mo') (Z.of_N 1)) with true; [eexists; reflexivity|].
  symmetry. unfold valid_date. rewrite !andb_true_iff, !Z.leb_le.
  assert (K : (1 <= days_in_month (Z.of_N y') (Z.of_N mo'))%Z); [|lia].
  assert (M : (mo' = 1 \/ mo' = 2 \/ mo' = 3 \/ mo' = 4 \/ mo' = 5 \/ mo' = 6 \/ mo' = 7 \/ mo' = 8 \/ mo' = 9 \/ mo' = 10
    \/ mo' = 11 \/ mo' = 12)%N) by lia.
  repeat (destruct M as [->|M]; [cbn; try destruct (is_leap (Z.of_N y')); discriminate|]). subst mo'. discriminate.
Qed.

Lemma init_fresh : forall e raw y mo, clock_wf e -> (1000 <= y <= 9999)%Z -> (1 <= mo <= 12)%Z ->
  exists x, metar_init e raw (Some y) (Some mo) = Ok x /\ fresh_metar x /\ me_unparsed x = [] /\ me_trends x = gl_new 2
    /\ me_out x = [] /\ me_raw x = raw /\ me_sections x = metar_sections raw.
Proof.
  intros e raw y mo [C1 C2] H2 H3. unfold metar_init, time_from_metar.
  destruct (default_time e None None C1 C2) as (t0 & ->).
  destruct (default_time e (Some y) (Some mo) H2 H3) as (t & ->).
  eexists. split; [reflexivity|]. unfold fresh_metar, no_modifier, no_wind, no_wvar, no_vis, no_temps, no_press,
    no_recent, no_sea, no_rs. conjs; reflexivity.
Qed.

Lemma last_default : forall {A} (x : A) l d d', last (x :: l) d = last (x :: l) d'.
Proof. intros A x l. revert x. induction l as [|y l IH]; intros x d d'; [reflexivity|]. rewrite !last_cons2. apply IH. Qed.

Lemma metar_round_trip : forall e y mo g rmk tr code, clock_wf e -> metar_wf y mo g -> not_last g -> remark_wf rmk ->
  shows (metar_words g ++ rmk) code ->
  exists x, metar_parse e code (Some y) (Some mo) tr = Ok x
    /\ metar_holds y mo g x /\ me_unparsed x = [] /\ gl_list (me_trends x) = [] /\ me_out x = []
    /\ me_raw x = sentence (metar_words g ++ rmk) /\ me_sections x = [sentence (metar_words g); []; sentence rmk].
Proof.
  intros e y mo g rmk tr code Hc Hg Hl Hr (a & t & q & b & -> & Ht & Ha & Hb & Hq).
  destruct (toks_ok y mo g Hg) as (T1 & T2 & T3 & T4 & T5 & T6 & T7).
  assert (Hmo : (1000 <= y <= 9999)%Z /\ (1 <= mo <= 12)%Z).
  { destruct Hg as (_ & _ & Hy & Hd & _). apply real_date_range in Hd. lia. }
  unfold metar_parse. rewrite (raw_layout (metar_words g ++ rmk)); [|exact Ht| | |exact Ha|exact Hb|exact Hq].
  2:{ apply Forall_app. split; [eapply Forall_impl; [|exact T6]; intros w K; apply K|].
      destruct Hr as [->|(us & -> & Hu)]; [constructor|]. constructor; [split; [discriminate|repeat constructor; discriminate]|].
      eapply Forall_impl; [|exact Hu]. intros w K. apply K. }
  2:{ apply Forall_app. split; [eapply Forall_impl; [|exact T6]; intros w K; apply K|].
      destruct Hr as [->|(us & -> & Hu)]; [constructor|]. constructor; [cbn; intuition discriminate|].
      eapply Forall_impl; [|exact Hu]. intros w K. apply K. }
  cbn [bind].
  destruct (init_fresh e (sentence (metar_words g ++ rmk)) y mo Hc (proj1 Hmo) (proj2 Hmo))
    as (x0 & E0 & F0 & U0 & R0 & O0 & W0 & S0). rewrite E0. cbn [bind].
  assert (Sec : metar_sections (sentence (metar_words g ++ rmk)) = [sentence (metar_words g); []; sentence rmk])
    by (apply metar_cut; assumption).
  unfold parse_body. rewrite S0, Sec. change (section 0 [sentence (metar_words g); []; sentence rmk]) with (sentence (metar_words g)).
  unfold metar_words.
  rewrite (body_groups _ x0 (code_of (g_type g)) (metar_toks g)).
  - rewrite T7. destruct (metar_body e y mo g x0 Hg F0) as (x' & E' & H' & U' & R' & S' & O' & W').
    rewrite E'. cbn [bind]. rewrite app_nil_r. unfold parse_weather_trend.
    cbn [me_sections upd_unparsed]. rewrite S', S0, Sec. change (section 1 [sentence (metar_words g); []; sentence rmk]) with (@nil N).
    change (trend_codes []) with [@nil N]. cbn [handle_trends bind].
    cbn [me_trends upd_unparsed]. rewrite R', R0. cbn [gl_collect gl_new]. cbn [me_unparsed upd_unparsed upd_trends flat_map].
    rewrite U', U0. cbn [app]. eexists. split; [reflexivity|]. split; [exact H'|]. split; [reflexivity|]. split; [reflexivity|].
    split; [|split].
    + transitivity (me_out x'); [reflexivity|]. rewrite O'. exact O0.
    + transitivity (me_raw x'); [reflexivity|]. rewrite W'. exact W0.
    + transitivity (me_sections x'); [reflexivity|]. rewrite S', S0. exact Sec.
  - apply (Forall_inv T6).
  - exact T1.
  - exact T2.
  - exact T3.
  - unfold not_last in Hl. rewrite toks_parts in Hl |- *. rewrite (last_default _ _ _ (MWord [])). exact Hl.
  - exact T4.
  - exact T5.
Qed.

Lemma sentence_laid_out : forall ws, ws <> [] -> laid_out ws (sentence ws).
Proof.
  intros [|w ws] H; [congruence|]. clear H. revert w. induction ws as [|v ws IH]; intro w; [apply one_group|].
  change (sentence (w :: v :: ws)) with (w ++ [32%N] ++ sentence (v :: ws)). apply next_group; [left; reflexivity|apply IH].
Qed.
