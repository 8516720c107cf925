(** * Proofs: the texts of the remaining groups (C80) *)
From Coq Require Import String Ascii.
From Coq Require Import List NArith ZArith Bool Lia QArith.
From Verif Require Import PyBase PyRegex AeroRegex PyFloat PyTime Utils Base MetarGroups Trend Metar Taf ListText SpecNum SpecFailures SpecVision SpecKept SpecByCode
  StrFacts RegexPaths Captures GroupShapes ProofStation ReprFacts ProofGroups ProofGroups2 ProofValues ProofValues2 ProofValues3 ProofExact ProofFailures ProofVision ProofKeptReport ProofKeptTaf ProofVerdict ProofAgree ProofByCode
  SpecGroups SpecTime SpecGrammar TimeFacts ProofTime ProofMeans ProofGrammar ProofGrammarRest SpecStated ProofStated SpecPhrase.
Import ListNotations.
Local Open Scope string_scope.
Local Open Scope nat_scope.
Local Open Scope list_scope.
Local Opaque dt_add_minutes dt_add_hours dt_add_days.

(** ** Windshear *)

Definition all_runway_codes : list runway_g := flat_map (fun n => map (mk_runway n) (options sides)) (upto 100).
Lemma in_runways : forall r, runway_wf r -> In r all_runway_codes.
Proof.
  intros [n s] [H1 H2]. cbn [rn_number rn_side] in *. apply in_flat_map. exists n. split; [apply in_upto; exact H1|]. apply in_map. apply in_options. destruct s; exact H2.
Qed.
Lemma odd_shear_ok : forall r, runway_wf r ->
  let w := windshear_new (re_match r_WINDSHEAR (py "WS_ALL_R" ++ runway_code r)) in windshear_str w = ws_runway_name r /\ ws_all_ w = true.
Proof.
  intros r W. assert (K : forallb (fun r => let w := windshear_new (re_match r_WINDSHEAR (py "WS_ALL_R" ++ runway_code r)) in
    if str_eqb (windshear_str w) (ws_runway_name r) then ws_all_ w else false) all_runway_codes = true) by (vm_compute; reflexivity).
  rewrite forallb_forall in K. specialize (K r (in_runways r W)). cbv zeta in *. destruct (str_eqb _ _) eqn:E in K; [|discriminate K]. apply str_eqb_eq in E. auto.
Qed.

Lemma name_some : forall r, runway_wf r -> ws_runway_name r <> [].
Proof. intros [n s] _ E. unfold ws_runway_name in E. cbn [rn_number] in E. apply app_eq_nil in E. destruct E as [E _]. pose proof (digits_length 2 n) as L. rewrite E in L. discriminate L. Qed.
Lemma truthy_some : forall s : str, s <> [] -> truthy (Some s) = true.
Proof. intros [|c s] H; [contradiction|reflexivity]. Qed.

(** The text, and whether the group says ALL. *)
Definition shear_told (c : str) (a : windshear) : Prop := shear_phrase c (windshear_str a) /\ (ws_all_ a = true <-> begins (py "WS ALL") c).

Lemma shear_told_ok : forall w m a, unspaced w -> typed w -> re_match r_WINDSHEAR w = Some m -> shear_made (Some m) = Ok a -> shear_told (blanked w) a.
Proof.
  intros w m a _ T M E. assert (K : a = windshear_new (re_match r_WINDSHEAR w)) by (unfold shear_made in E; rewrite M; congruence). subst a.
  destruct (proj1 (shear_words w T) (matched _ _ _ M)) as [(g & W & ->)|[->|(r & W & ->)]].
  - destruct (ws_ok g W) as (C & V1 & V2).
    assert (B : blanked (ws_token g) = SpecGroups.ws_code g).
    { destruct g as [|r]; [reflexivity|]. cbn [ws_token SpecGroups.ws_code]. unfold blanked at 1. rewrite map_app. f_equal. exact (runway_blank r W). }
    rewrite B. destruct g as [|r]; [split; [left; split; [reflexivity|vm_compute; reflexivity]|]|].
    + rewrite V2. split; [intros _; exists (py " RWY"); reflexivity|reflexivity].
    + cbn [ws_name_of ws_is_all ws_wf] in *. split.
      * right. left. exists r. split; [exact W|]. split; [left; reflexivity|]. unfold windshear_str. rewrite V1, (truthy_some _ (name_some r W)). reflexivity.
      * rewrite V2. split; [discriminate|]. intros (t & Et). cbn [SpecGroups.ws_code] in Et. discriminate Et.
  - split; [right; right; split; vm_compute; reflexivity|]. replace (ws_all_ _) with false by (vm_compute; reflexivity). split; [discriminate|]. intros (t & Et). vm_compute in Et. discriminate Et.
  - destruct (odd_shear_ok r W) as [O1 O2]. assert (B : blanked (py "WS_ALL_R" ++ runway_code r) = py "WS ALL R" ++ runway_code r).
    { unfold blanked at 1. rewrite map_app. f_equal. exact (runway_blank r W). }
    rewrite B. split.
    + right. left. exists r. split; [exact W|]. split; [right; reflexivity|exact O1].
    + rewrite O2. split; [intros _; exists (py " R" ++ runway_code r); reflexivity|reflexivity].
Qed.

Theorem shears_told : forall e code y mo tr x cs, metar_parse e code y mo tr = Ok x -> map MetarGroups.ws_code (gl_list (me_ws x)) = map Some cs -> Forall typed cs ->
  Forall2 shear_phrase cs (map windshear_str (gl_list (me_ws x))) /\ shears_phrase cs (windshear_list_str (me_ws x)).
Proof.
  intros e code y mo tr x cs E C T. apply metar_drawn_parsed in E. destruct E as (_ & (_ & _ & _ & F & _) & _).
  assert (H : Forall2 shear_told cs (gl_list (me_ws x))).
  { revert F cs C T. generalize (gl_list (me_ws x)). intro l. induction l as [|a l IH]; intros F [|c cs] C T; cbn [map] in C; try discriminate C; [constructor|].
    injection C as C1 C2. constructor; [|exact (IH (Forall_inv_tail F) cs C2 (Forall_inv_tail T))].
    exact (list_says r_WINDSHEAR shear_made MetarGroups.ws_code shear_told (made_code _ _ _ ProofKeptReport.shear_code) shear_told_ok (a :: l) F a c (or_introl eq_refl) C1 (Forall_inv T)). }
  assert (P : Forall2 shear_phrase cs (map windshear_str (gl_list (me_ws x)))).
  { clear - H. induction H as [|c a cs l Hc Hl IH]; [constructor|]. cbn [map]. constructor; [exact (proj1 Hc)|exact IH]. }
  split; [exact P|]. unfold windshear_list_str, list_str. unfold all_runways. unfold shears_phrase.
  destruct H as [|c a cs l Hc Hl].
  - right. split; [intros (c & N0 & _); discriminate N0|]. eexists. split; [exact P|reflexivity].
  - destruct Hl as [|c2 a2 cs l Hc2 Hl].
    + destruct (ws_all_ a) eqn:A.
      * left. exists c. split; [reflexivity|]. split; [apply (proj2 Hc); exact A|reflexivity].
      * right. split; [|eexists; split; [exact P|reflexivity]]. intros (d & Ed & B). injection Ed as <-. apply (proj2 Hc) in B. congruence.
    + right. split; [intros (d & Ed & _); discriminate Ed|]. eexists. split; [exact P|reflexivity].
Qed.

(** ** Runway state *)

Lemma rs_raw_ok : forall g, rs_wf g -> rs_raw (runway_state_new (re_match r_RUNWAY_STATE (rs_code_of g)))
  = Some (match sg_state g with RsCodes d c h f => (Some (code_of d), Some (two_code h), Some (two_code f)) | _ => (None, None, None) end).
Proof.
  intros g H. destruct (rs_captures g H) as (m & Em & Es & Hc). rewrite Em.
  unfold runway_state_new. captured Hc ["name"; "deposit"; "cont"; "depth"; "fric"; "snoclo"; "clrd"]. cbn [rs_raw]. clear Em Es Hc m. f_equal.
  destruct g as [r s]. destruct s as [d c h f| |], r as [r|]; reflexivity.
Qed.

Lemma special_ok : forall h, opt_all (fun n => (n < 100)%N) h ->
  opt_str_eqb (Some (two_code h)) (py "99") || opt_str_eqb (Some (two_code h)) (py "//") = special_depth h.
Proof.
  intros h H. apply Bool.eqb_prop.
  assert (K : forallb (fun h => Bool.eqb (opt_str_eqb (Some (two_code h)) (py "99") || opt_str_eqb (Some (two_code h)) (py "//")) (special_depth h)) (options (upto 100)) = true)
    by (vm_compute; reflexivity).
  rewrite forallb_forall in K. exact (K h (ProofValues3.in_two h H)).
Qed.
Lemma friction_told : forall r f, opt_all (fun n => (n < 100)%N) f -> rs_friction r = Some (friction_text f) ->
  surface_friction_to_str r (Some (two_code f)) = Some (friction_phrase f).
Proof.
  intros r f H E. unfold surface_friction_to_str. rewrite E. cbn [fmt_opt]. apply opt_str_b_sound.
  assert (K : forallb (fun f => opt_str_b (match int_of_str (two_code f) with
    | Ok n => if (n <? 91)%Z then Some (py "estimated surface friction " ++ friction_text f) else Some (friction_text f) | Raise _ => Some (friction_text f) end)
    (Some (friction_phrase f))) (options (upto 100)) = true) by (vm_compute; reflexivity).
  rewrite forallb_forall in K. exact (K f (ProofValues3.in_two f H)).
Qed.
Lemma deposit_told : forall r d h, In d deposits -> opt_all (fun n => (n < 100)%N) h -> rs_deposits r = Some (text_of d) -> rs_depth r = Some (depth_text h) ->
  deposits_to_str r (Some (code_of d)) (Some (two_code h)) = Some (deposit_phrase d h).
Proof.
  intros r d h D H E1 E2. unfold deposits_to_str. rewrite (special_ok h H), E1, E2. cbv zeta. cbn [fmt_opt]. unfold deposit_phrase.
  assert (K : opt_str_eqb (Some (code_of d)) (py "/") = String.eqb (fst d) "/").
  { unfold deposits in D. cbn [In] in D. repeat (destruct D as [<-|D]; [vm_compute; reflexivity|]). contradiction. }
  rewrite K. destruct (String.eqb (fst d) "/"), (special_depth h); reflexivity.
Qed.

Lemma cleared_told : forall r, opt_all runway_wf r ->
  let n := option_map runway_name r in
  (if opt_str_eqb n (py "repeated") then py " on previous runway" else if opt_str_eqb n (py "all runways") then py " on " ++ fmt_opt n else py " on runway " ++ fmt_opt n)
  = py " on " ++ cleared_phrase r.
Proof.
  intros r W. destruct r as [r|]; [|vm_compute; reflexivity]. cbv zeta. cbn [option_map opt_all] in *.
  assert (K : forallb (fun r => let n := Some (runway_name r) in str_eqb
    (if opt_str_eqb n (py "repeated") then py " on previous runway" else if opt_str_eqb n (py "all runways") then py " on " ++ fmt_opt n else py " on runway " ++ fmt_opt n)
    (py " on " ++ cleared_phrase (Some r)))
    all_runway_codes = true) by (vm_compute; reflexivity).
  rewrite forallb_forall in K. exact (proj1 (str_eqb_eq _ _) (K r (in_runways r W))).
Qed.

Lemma state_told : forall g, rs_wf g -> runway_state_str (runway_state_new (re_match r_RUNWAY_STATE (rs_code_of g))) = state_phrase g.
Proof.
  intros g H. pose proof (rs_raw_ok g H) as R. destruct (rs_ok g H) as (_ & V1 & V2 & V3 & V4 & V5 & V6 & V7).
  set (a := runway_state_new _) in *. clearbody a. unfold runway_state_str. rewrite R. unfold rs_clrd_text. destruct g as [r s]. destruct H as [H1 H2].
  cbn [sg_runway sg_state] in *. unfold state_phrase. cbn [sg_runway sg_state].
  destruct s as [d c h f| |]; cbn [rs_deposit_of rs_cont_of rs_depth_of rs_friction_of is_snoclo is_clrd] in *; rewrite V6; [|reflexivity|]; rewrite V7.
  - destruct H2 as (Hd & Hc & Hh & Hf). rewrite (deposit_told a d h Hd Hh V2 V4), (friction_told a f Hf V5), V1, V3. cbn [fmt_opt].
    f_equal; [destruct r; reflexivity|]. do 3 f_equal. f_equal. destruct (snd c); reflexivity.
  - pose proof (cleared_told r H1) as K. cbv zeta in K. rewrite V1. change (py "contaminations have ceased to exists on ") with (py "contaminations have ceased to exists" ++ py " on "). rewrite <- app_assoc, <- K. clear K.
    destruct (opt_str_eqb _ (py "repeated")); [reflexivity|]. destruct (opt_str_eqb _ (py "all runways")); reflexivity.
Qed.
Lemma runway_told : forall w m a, unspaced w -> typed w -> re_match r_RUNWAY_STATE w = Some m -> runway_made (Some m) = Ok a -> runway_phrase (blanked w) (runway_state_str a).
Proof.
  intros w m a _ T M E. assert (K : a = runway_state_new (re_match r_RUNWAY_STATE w)) by (unfold runway_made in E; rewrite M; congruence). subst a.
  destruct (proj1 (rwy_words w T) (matched _ _ _ M)) as (g & W & ->). exists g. split; [exact W|]. split; [|exact (state_told g W)].
  destruct (rs_ok g W) as (C & _). rewrite M in C. rewrite ProofKeptReport.runway_code in C. rewrite (re_match_string _ _ _ M) in C. congruence.
Qed.

(** ** Header *)

Lemma modifier_told : forall w, of_table modifiers w -> modifier_phrase w (modifier_str (modifier_new (Some w))).
Proof.
  intros w (x & I & ->).
  assert (K : forallb (fun x => existsb (fun y => if str_eqb (code_of x) (code_of y) then str_eqb (modifier_str (modifier_new (Some (code_of x)))) (text_of y) else false)
    modifier_phrases) modifiers = true) by (vm_compute; reflexivity).
  rewrite forallb_forall in K. specialize (K x I). apply existsb_exists in K. destruct K as (y & Iy & Ey). destruct (str_eqb (code_of x) _) eqn:E in Ey; [|discriminate Ey].
  apply str_eqb_eq in E, Ey. exists y. auto.
Qed.
Lemma type_told : forall w, of_table types w -> type_phrase w (type_str (type_new w)).
Proof.
  intros w (x & I & ->).
  assert (K : forallb (fun x => str_eqb (type_str (type_new (code_of x))) (text_of x ++ py " (" ++ code_of x ++ py ")")) types = true) by (vm_compute; reflexivity).
  rewrite forallb_forall in K. specialize (K x I). apply str_eqb_eq in K. exists x. auto.
Qed.

Definition type_read (t : report_type) : Prop := exists w m, unspaced w /\ re_match r_TYPE w = Some m /\ t = type_new (m_string m).
Lemma type_read_told : forall t, type_read t -> explained ty_code (fun c t => type_phrase c (type_str t)) [t].
Proof.
  intros t (w & m & U & M & ->) b c [<-|[]] C T. rewrite (re_match_string _ _ _ M) in *.
  assert (K : ty_code (type_new w) = Some (blanked w)) by exact (ProofKeptReport.type_code w).
  assert (Ec : c = blanked w) by congruence. subst c. pose proof (typed_word _ T) as Tw. rewrite (plain_blank r_TYPE w m eq_refl Tw M) in *.
  apply type_told. exact (proj1 (type_words_ok w Tw) (matched _ _ _ M)).
Qed.

(** ** METAR *)

Lemma type_step : forall e y mo h g m x x', In h (metar_handlers e y mo) -> unspaced g -> re_match (h_regexp h) g = Some m -> h_handle h m x = Ok x' ->
  type_read (me_type x) -> type_read (me_type x').
Proof.
  intros e y mo h g m x x' I U M E H. unfold metar_handlers in I. cbn [In] in I.
  assert (L : forall f, lift f m x = Ok x' -> type_read (me_type x')).
  { intros f Ef. unfold lift in Ef. destruct (f m (me_common x)) as [c|] eqn:Ec; [|discriminate Ef]. cbn [bind] in Ef.
    assert (K : x' = upd_common c x) by congruence. rewrite K. exact H. }
  repeat (destruct I as [<-|I]; [cbn [h_handle h_regexp] in E, M|]); try contradiction; try exact (L _ E); clear L.
  all: unfold handle_type, handle_station, handle_modifier, handle_time, handle_recent_weather, handle_runway_state, handle_windshear,
      handle_wind_variation, handle_minimum_visibility, handle_runway_range, handle_temperatures, handle_pressure, handle_sea_state in E; cbv zeta in E.
  all: repeat match type of E with bind ?t _ = Ok _ => let v := fresh "v" in let Ev := fresh "Ev" in destruct t as [v|] eqn:Ev; [cbn [bind] in E|discriminate E] end.
  all: match type of E with Ok ?a = Ok _ => assert (K : x' = a) by congruence; rewrite K; clear K E end.
  all: first [exact H|exists g, m; auto].
Qed.
Lemma trends_type : forall l x x', handle_trends l x = Ok x' -> me_type x' = me_type x.
Proof.
  intros l. induction l as [|w l IH]; intros x x' E; cbn [handle_trends] in E; [injection E as <-; reflexivity|].
  destruct w as [|c w]; [exact (IH _ _ E)|]. unfold handle_weather_trend in E.
  destruct (change_period_new (c :: w) _) as [p|]; [|discriminate E]. cbn [bind] in E.
  destruct (gl_add p (me_trends x)) as [g|]; [|discriminate E]. cbn [bind] in E. rewrite (IH _ _ E). reflexivity.
Qed.
Lemma first_type : forall s, s = "METAR" \/ s = "TAF" -> type_read (type_new (py s)).
Proof.
  intros s H. assert (K : exists m, re_match r_TYPE (py s) = Some m) by (destruct H as [-> | ->]; eexists; vm_compute; reflexivity). destruct K as (m & M). exists (py s), m.
  split; [destruct H as [-> | ->]; intro I; cbn in I; repeat (destruct I as [I|I]; [discriminate I|]); contradiction|]. split; [exact M|]. rewrite (re_match_string _ _ _ M). reflexivity.
Qed.
Lemma metar_type : forall e code y mo tr x, metar_parse e code y mo tr = Ok x -> type_read (me_type x).
Proof.
  intros e code y mo tr x E. unfold metar_parse in E. destruct (report_raw_code code) as [raw|]; [|discriminate E]. cbn [bind] in E.
  destruct (metar_init e raw y mo) as [x0|] eqn:E0; [|discriminate E]. cbn [bind] in E.
  assert (T0 : type_read (me_type x0)).
  { unfold metar_init in E0.
    repeat match type of E0 with bind ?t _ = Ok _ => let v := fresh "v" in let Ev := fresh "Ev" in destruct t as [v|] eqn:Ev; [cbn [bind] in E0|discriminate E0] end.
    match type of E0 with Ok ?a = Ok _ => assert (K : x0 = a) by congruence; rewrite K end. exact (first_type "METAR" (or_introl eq_refl)). }
  unfold parse_body in E. destruct (parse_section (metar_handlers e y mo) _ x0) as [[x1 un]|] eqn:E1; [|discriminate E].
  cbn [bind] in E. apply (parse_section_from _ (fun x => type_read (me_type x))) in E1; [|exact (type_step e y mo)|exact T0].
  unfold parse_weather_trend in E. destruct (handle_trends _ _) as [x2|] eqn:E2; [|discriminate E]. cbn [bind] in E. apply trends_type in E2.
  destruct (gl_collect (me_trends x2)) as [l g]. cbv zeta in E.
  assert (X : x = upd_unparsed (me_unparsed x2 ++ flat_map cp_unparsed l) (upd_trends g x2)).
  { destruct (me_unparsed (upd_unparsed _ _)) as [|u us] in E; [congruence|]. destruct tr; [discriminate E|congruence]. }
  rewrite X. change (type_read (me_type x2)). rewrite E2. exact E1.
Qed.

Lemma modifier_sound_told : forall r w m a, (r = r_MODIFIER \/ r = r_T_AMD_COR) -> unspaced w -> typed w -> re_match r w = Some m -> modifier_made (Some m) = Ok a ->
  modifier_phrase (blanked w) (modifier_str a).
Proof.
  intros r w m a Hr _ T M E. assert (K : a = modifier_new (Some w)).
  { unfold modifier_made in E. cbn [option_map] in E. rewrite (re_match_string _ _ _ M) in E. congruence. }
  subst a. assert (B : blanked w = w) by (destruct Hr as [-> | ->]; [exact (plain_blank r_MODIFIER w m eq_refl T M)|exact (plain_blank r_T_AMD_COR w m eq_refl T M)]).
  rewrite B. apply modifier_told. destruct Hr as [-> | ->].
  - exact (proj1 (modifier_words w T) (matched _ _ _ M)).
  - destruct (proj1 (amd_words w T) (matched _ _ _ M)) as [->| ->]; [exists ("COR", "Correction")|exists ("AMD", "Amendment")]; (split; [|reflexivity]); unfold modifiers; cbn [In]; auto.
Qed.

Theorem metar_told : forall e code y mo tr x, metar_parse e code y mo tr = Ok x ->
  explained ty_code (fun c t => type_phrase c (type_str t)) [me_type x]
  /\ explained mo_code (fun c a => modifier_phrase c (modifier_str a)) [me_modifier x]
  /\ explained rs_code (fun c a => runway_phrase c (runway_state_str a)) [me_rwy x].
Proof.
  intros e code y mo tr x E. split; [exact (type_read_told _ (metar_type e code y mo tr x E))|].
  apply metar_drawn_parsed in E. destruct E as ((_ & _ & A3 & _) & (_ & _ & _ & _ & _ & B6) & _).
  split; [revert A3; apply one_says; [exact modifier_coded|intros a E; none E|intros w m a; apply modifier_sound_told; auto]|].
  revert B6; apply one_says; [exact (made_code _ _ _ ProofKeptReport.runway_code)|intros a E; none E|exact runway_told].
Qed.
