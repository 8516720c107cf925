(** * Proofs: what the groups of an accepted report say (C78) *)
From Coq Require Import String Ascii.
From Coq Require Import List NArith ZArith Bool Lia QArith.
From Verif Require Import PyBase PyRegex AeroRegex PyFloat PyTime Utils Base MetarGroups Trend Metar Taf SpecNum SpecFailures SpecVision SpecKept SpecByCode
  StrFacts RegexPaths ProofStation ReprFacts ProofGroups ProofGroups2 ProofValues ProofValues2 ProofValues3 ProofExact ProofFailures ProofVision ProofKeptReport ProofKeptTaf ProofVerdict ProofAgree ProofByCode
  SpecGroups SpecTime SpecGrammar TimeFacts ProofTime ProofMeans ProofGrammar ProofGrammarRest SpecStated.
Import ListNotations.
Local Open Scope string_scope.
Local Open Scope nat_scope.
Local Open Scope list_scope.
Local Opaque dt_add_minutes dt_add_hours dt_add_days.

Lemma typed_word : forall w, typed (blanked w) -> typed w.
Proof.
  intro w. unfold typed, blanked. rewrite Forall_map. apply Forall_impl. intros c H. destruct (N.eqb_spec c 95) as [E|N0]; [subst c; split; [reflexivity|discriminate]|exact H].
Qed.
Section Says.
  Context {A : Type} (r : regex) (new : option rmatch -> result A) (code : A -> option str) (says : str -> A -> Prop).
  Hypothesis coded : forall m a, new (Some m) = Ok a -> code a = Some (blanked (m_string m)).
  Hypothesis absent : forall a, new None = Ok a -> code a = None.
  Hypothesis sound : forall w m a, unspaced w -> typed w -> re_match r w = Some m -> new (Some m) = Ok a -> says (blanked w) a.

  Lemma read_says : forall a c, read r new a -> code a = Some c -> typed c -> says c a.
  Proof.
    intros a c (w & m & U & M & E) C T. rewrite (coded _ _ E), (re_match_string _ _ _ M) in C. injection C as <-. exact (sound w m a U (typed_word _ T) M E).
  Qed.
  Lemma from_says : forall a c, from r new a -> code a = Some c -> typed c -> says c a.
  Proof. intros a c [H|H] C T; [rewrite (absent _ H) in C; discriminate C|exact (read_says a c H C T)]. Qed.
  Lemma list_says : forall l, Forall (read r new) l -> explained code says l.
  Proof. intros l F a c I. apply read_says. exact (proj1 (Forall_forall _ _) F a I). Qed.
  Lemma one_says : forall a, from r new a -> explained code says [a].
  Proof. intros a F b c [<-|[]]. exact (from_says a c F). Qed.
End Says.

Lemma matched : forall r w m, re_match r w = Some m -> accepts r w.
Proof. intros r w m M. unfold accepts. rewrite M. discriminate. Qed.

(** A documented word: the constructor gives what the decoding theorem says. *)
Section Documented.
  Context {A : Type} (r : regex) (new : option rmatch -> result A) (code : A -> option str) {G : Type} (wf : G -> Prop) (token spelled : G -> str) (is : G -> A -> Prop).
  Hypothesis coded : forall m a, new (Some m) = Ok a -> code a = Some (blanked (m_string m)).
  Hypothesis decode : forall g, wf g -> exists a, new (re_match r (token g)) = Ok a /\ code a = Some (spelled g) /\ is g a.
  Lemma documented_says : forall w m a, documented wf token w -> re_match r w = Some m -> new (Some m) = Ok a -> stated wf spelled is (blanked w) a.
  Proof.
    intros w m a (g & W & ->) M E. destruct (decode g W) as (b & Eb & Cb & Vb). rewrite M in Eb.
    assert (K : a = b) by congruence. subst b. rewrite (coded _ _ E), (re_match_string _ _ _ M) in Cb. injection Cb as Cb. exists g. auto.
  Qed.
End Documented.

(** ** Winds *)

Lemma wind_decode : forall g, wind_wf g -> exists w, metar_wind_new (re_match r_WIND (wind_code g)) = Ok w /\ w_code w = Some (wind_code g) /\ wind_is g w.
Proof.
  intros g W. destruct (wg_units g) eqn:U.
  - destruct (wind_kt g W U) as (w & E & C & D & V & S & Gu). exists w. split; [exact E|]. split; [exact C|]. unfold wind_is, speed_is. rewrite U. auto.
  - destruct (wind_mps g W U) as (w & E & C & D & V & S & Gu & _). exists w. split; [exact E|]. split; [exact C|]. unfold wind_is, speed_is. rewrite U. auto.
Qed.
(** A pattern without an underscore. *)
Fixpoint avoids (c : N) (r : regex) : bool :=
  match r with
  | Chr k => negb (in_cls c k)
  | Seq a b | Alt a b => avoids c a && avoids c b
  | Grp _ a => avoids c a
  | Star _ => false
  | _ => true
  end.
Lemma avoids_ok : forall c r x, avoids c r = true -> den r x -> ~ In c x.
Proof.
  intros c r. induction r as [|k|a IHa b IHb|a IHa b IHb|k|n a IHa| |]; intros x H D; cbn [avoids den] in *; try (subst x; intros []).
  - destruct D as (d & -> & K). intros [E|[]]. subst d. rewrite K in H. discriminate H.
  - apply andb_prop in H. destruct H as [Ha Hb]. destruct D as (x1 & x2 & -> & D1 & D2). intro I. apply in_app_or in I. destruct I as [I|I]; [exact (IHa _ Ha D1 I)|exact (IHb _ Hb D2 I)].
  - apply andb_prop in H. destruct H as [Ha Hb]. destruct D as [D|D]; [exact (IHa _ Ha D)|exact (IHb _ Hb D)].
  - discriminate H.
  - exact (IHa _ H D).
Qed.
Lemma plain_blank : forall r w m, placed true true r && closed_end r && avoids 95 r = true -> typed w -> re_match r w = Some m -> blanked w = w.
Proof.
  intros r w m H T M. apply andb_prop in H. destruct H as [H A]. apply andb_prop in H. destruct H as [P C].
  pose proof (proj1 (accepts_closed r w P C T) (matched _ _ _ M)) as D. pose proof (avoids_ok 95 r w A D) as N0. clear - N0.
  unfold blanked. induction w as [|c w IH]; [reflexivity|]. cbn [map]. destruct (N.eqb_spec c 95) as [E|_]; [elim N0; left; exact E|].
  f_equal. apply IH. intro I. apply N0. right. exact I.
Qed.
Lemma wind_sound : forall w m a, unspaced w -> typed w -> re_match r_WIND w = Some m -> metar_wind_new (Some m) = Ok a -> wind_says (blanked w) a.
Proof.
  intros w m a _ T M E. destruct (proj1 (wind_words w T) (matched _ _ _ M)) as [D|D].
  - left. exact (documented_says _ _ _ _ _ _ _ ProofKeptReport.wind_code wind_decode w m a D M E).
  - right. rewrite (plain_blank r_WIND w m eq_refl T M). exact D.
Qed.
Lemma also : forall r w, accepts r w -> exists m, re_match r w = Some m.
Proof. intros r w H. unfold accepts in H. destruct (re_match r w) as [m|]; [exists m; reflexivity|elim (H eq_refl)]. Qed.
(** The wind pattern of the TAF takes the same groups. *)
Lemma twind_sound : forall w m a, unspaced w -> typed w -> re_match r_T_WIND w = Some m -> metar_wind_new (Some m) = Ok a -> taf_wind_says (blanked w) a.
Proof.
  intros w m a _ T M E. pose proof (proj1 (twind_words w T) (matched _ _ _ M)) as D.
  destruct (also r_WIND w) as (m1 & M1); [apply (wind_words w T); left; destruct D as (g & W & Eg); exists g; split; [exact (proj1 W)|exact Eg]|].
  assert (E1 : metar_wind_new (Some m1) = Ok a).
  { rewrite <- E. apply wind_grouped; [rewrite (re_match_string _ _ _ M1), (re_match_string _ _ _ M); reflexivity|exact (agree_ok _ _ _ _ _ winds_alike M1 M)]. }
  exact (documented_says _ _ _ _ _ _ _ ProofKeptReport.wind_code (fun g W => wind_decode g (proj1 W)) w m1 a D M1 E1).
Qed.
Lemma wvar_sound : forall w m a, unspaced w -> typed w -> re_match r_WIND_VARIATION w = Some m -> wind_variation_new (Some m) = Ok a -> stated wvar_wf wvar_code wvar_is (blanked w) a.
Proof.
  intros w m a _ T M E. exact (documented_says _ _ _ _ _ _ _ ProofKeptReport.wvar_code wvar_ok w m a (proj1 (wvar_words w T) (matched _ _ _ M)) M E).
Qed.

(** ** Visibilities *)

Lemma vis_decode : forall g, vis_wf g -> exists v, prevailing_new (re_match r_VISIBILITY (vis_code g)) = Ok v /\ v_code v = Some (vis_spelled g) /\ vis_is g v.
Proof. intros g W. exact (prevailing_ok g W). Qed.
Lemma digits_read : forall k n, (1 <= k)%nat -> (n < 10 ^ N.of_nat k)%N -> reads (digits k n) n.
Proof.
  intros k n Hk Hn. destruct (digits_cons k n Hk) as (c & s & E). pose proof (digits_val_dval (digits k n) 0 (digits_are k n)) as D. rewrite dval_digits in D by exact Hn.
  split; [rewrite E; discriminate|exact D].
Qed.
Lemma odd_direction_bad : forall w, odd_direction w -> exists x, contains w x /\ no_direction x.
Proof.
  intros w (d & Id & H). assert (K : In (py d) [py "EE"; py "EW"; py "WE"; py "WW"]) by exact (in_map (fun x => py x) _ _ Id).
  exists w. split; [exists [], []; rewrite app_nil_r; reflexivity|]. destruct H as [(n & B & ->)| ->].
  - exists (digits 4 n), (py d). split; [reflexivity|]. split; [exact K|]. right. split; [apply ProofGroups.digits_length|]. exists n. apply digits_read; [lia|exact B].
  - exists (py "////"), (py d). split; [reflexivity|]. split; [exact K|]. left. reflexivity.
Qed.
Lemma zero_bad : forall g a, long_wf g -> lo_unit g = "SM" -> lo_frac g = Some (a, 0%N) -> exists x, contains (long_code g) x /\ over_zero x.
Proof.
  intros [l i k f u] a (_ & Bf & _) U F. cbn [lo_frac lo_unit] in *. subst u f. exists (digits 1 a ++ py "/" ++ digits 1 0 ++ py "SM"). split.
  - unfold long_code. cbn [lo_limit lo_int lo_link lo_frac lo_unit opt]. exists (limit_code l ++ opt (fun '(two, n) => one_or_two two n) i ++ flag k "_"), [].
    rewrite <- !app_assoc, app_nil_r. reflexivity.
  - exists (digits 1 a), (digits 1 0), a. split; [reflexivity|]. split; [apply digits_read; [lia|exact (proj1 Bf)]|apply digits_read; [lia|reflexivity]].
Qed.
Lemma bare_bad : forall g, long_wf g -> lo_unit g = "KM" -> lo_int g = None -> lo_frac g <> None -> bare_km (long_code g).
Proof.
  intros [l i k f u] (_ & Bf & _) U I F. cbn [lo_frac lo_unit lo_int] in *. subst u i. destruct f as [[a b]|]; [|elim (F eq_refl)].
  exists (limit_code l), (flag k "_"), (digits 1 a), (digits 1 b), a, b, []. split.
  - unfold long_code. cbn [lo_limit lo_int lo_link lo_frac lo_unit opt app]. rewrite <- !app_assoc. reflexivity.
  - split; [destruct l as [[]|]; cbn; auto|]. split; [destruct k; cbn; auto|]. split; [apply digits_read; [lia|exact (proj1 Bf)]|]. split; [apply ProofGroups.digits_length|].
    split; [apply digits_read; [lia|exact (proj2 Bf)]|]. split; [apply ProofGroups.digits_length|]. left. reflexivity.
Qed.
Lemma vis_sound : forall w m a, unspaced w -> typed w -> re_match r_VISIBILITY w = Some m -> prevailing_new (Some m) = Ok a -> vis_says (blanked w) a.
Proof.
  intros w m a _ T M E.
  assert (Fine : forall e, ~ vision_fails w e) by (intros e F; apply (prevailing_exact w m e M) in F; rewrite E in F; discriminate F).
  destruct (proj1 (vis_words w T) (matched _ _ _ M)) as [D|[O|(g & W & O & Eg)]].
  - left. exact (documented_says _ _ _ _ _ _ _ ProofKeptReport.vis_code vis_decode w m a D M E).
  - elim (Fine ValueError). exact (odd_direction_bad w O).
  - right. exists g. split; [exact W|]. split; [exact O|]. split; [rewrite Eg; reflexivity|]. subst w. split.
    + intros (U & b & F). elim (Fine ZeroDivisionError). exact (zero_bad g b W U F).
    + intros (U & I & F). elim (Fine TypeError). exact (bare_bad g W U I F).
Qed.
Lemma tvis_sound : forall w m a, unspaced w -> typed w -> re_match r_T_VISIBILITY w = Some m -> prevailing_new (Some m) = Ok a -> taf_vis_says (blanked w) a.
Proof.
  intros w m a U T M E. destruct (re_match r_VISIBILITY w) as [m1|] eqn:M1.
  - left. apply (vis_sound w m1 a U T M1). rewrite <- E.
    apply vis_grouped; [rewrite (re_match_string _ _ _ M1), (re_match_string _ _ _ M); reflexivity|exact (agree_ok _ _ _ _ _ sights_alike M1 M)].
  - assert (N0 : ~ accepts r_VISIBILITY w) by (intro K; exact (K M1)). rewrite (vis_words w T) in N0.
    right. destruct (proj1 (tvis_words w T) (matched _ _ _ M)) as [(n & t & B & ->)|[(g & t & W & ->)| ->]].
    + exists (digits 4 n), t. split; [left; exists n; auto|]. split; [|reflexivity]. intros ->. apply N0. left. exists (VisMeters n None). split; [split; [exact B|exact I]|reflexivity].
    + exists (long_code g), t. split; [right; exists g; auto|]. split; [|reflexivity]. intros ->. apply N0. rewrite app_nil_r. destruct (long_split g W) as [D|O]; [left; exact D|].
      right. right. exists g. auto.
    + elim N0. left. exists VisCavok. split; [exact I|reflexivity].
Qed.
Lemma minvis_sound : forall w m a, unspaced w -> typed w -> re_match r_MINIMUM_VISIBILITY w = Some m -> minimum_visibility_new (Some m) = Ok a ->
  stated min_wf vis_code vis_is (blanked w) a.
Proof.
  intros w m a _ T M E. destruct (proj1 (minvis_words w T) (matched _ _ _ M)) as [D|O].
  - refine (documented_says _ _ _ _ _ _ _ ProofKeptReport.minvis_code _ w m a D M E). intros g (W & K). destruct (minimum_ok g W K) as (v & Ev & Cv & V1 & V2 & V3 & V4).
    exists v. split; [exact Ev|]. split; [exact Cv|]. split; [|split; [exact V2|split; [exact V3|]]]; destruct g; try contradiction; first [exact V1|exact V4].
  - exfalso. assert (F : minimum_visibility_new (Some m) = Raise ValueError) by (apply (minimum_exact w m ValueError M); split; [reflexivity|exact (odd_direction_bad w O)]).
    rewrite E in F. discriminate F.
Qed.

(** ** The others *)

Lemma rvr_sound : forall w m a, unspaced w -> typed w -> re_match r_RUNWAY_RANGE w = Some m -> runway_range_new (Some m) = Ok a -> stated rvr_wf rvr_code rvr_is (blanked w) a.
Proof.
  intros w m a _ T M E. exact (documented_says _ _ _ _ _ _ _ ProofKeptReport.rvr_code rvr_ok w m a (proj1 (rvr_words w T) (matched _ _ _ M)) M E).
Qed.
Lemma made_code : forall A (new : option rmatch -> A) (code : A -> option str), (forall m, code (new (Some m)) = Some (blanked (m_string m))) ->
  forall m a, Ok (new (Some m)) = Ok a -> code a = Some (blanked (m_string m)).
Proof. intros A new code H m a E. assert (K : a = new (Some m)) by congruence. rewrite K. apply H. Qed.
Lemma weather_sound : forall w m a, unspaced w -> typed w -> re_match r_WEATHER w = Some m -> weather_made (Some m) = Ok a -> stated weather_wf weather_code weather_is (blanked w) a.
Proof.
  intros w m a _ T M E. refine (documented_says r_WEATHER weather_made we_code _ _ _ _ (made_code _ _ _ ProofKeptReport.weather_code) _ w m a (proj1 (weather_words w T) (matched _ _ _ M)) M E).
  intros g W. destruct (weather_ok g W) as (C & V1 & V2 & V3 & V4 & V5 & _). eexists. split; [reflexivity|]. split; [exact C|]. unfold weather_is. auto.
Qed.
Lemma recent_sound : forall w m a, unspaced w -> typed w -> re_match r_RECENT_WEATHER w = Some m -> recent_made (Some m) = Ok a -> stated recent_wf recent_code recent_is (blanked w) a.
Proof.
  intros w m a _ T M E. refine (documented_says r_RECENT_WEATHER recent_made rw_code _ _ _ _ (made_code _ _ _ ProofKeptReport.recent_code) _ w m a (proj1 (recent_words w T) (matched _ _ _ M)) M E).
  intros g W. destruct (recent_ok g W) as (C & V). eexists. split; [reflexivity|]. split; [exact C|exact V].
Qed.
Lemma cloud_sound : forall w m a, unspaced w -> typed w -> re_match r_CLOUD w = Some m -> cloud_from_metar (Some m) = Ok a -> cloud_says (blanked w) a.
Proof.
  intros w m a _ T M E. destruct (proj1 (cloud_words w T) (matched _ _ _ M)) as [D|D].
  - left. exact (documented_says _ _ _ _ _ _ _ ProofKeptReport.cloud_code cloud_ok w m a D M E).
  - right. rewrite (plain_blank r_CLOUD w m eq_refl T M). exact D.
Qed.
Lemma temps_sound : forall w m a, unspaced w -> typed w -> re_match r_TEMPERATURES w = Some m -> temperatures_new (Some m) = Ok a -> temps_says (blanked w) a.
Proof.
  intros w m a _ T M E. destruct (proj1 (temps_words w T) (matched _ _ _ M)) as [D|D].
  - left. exact (documented_says _ _ _ _ _ _ _ ProofKeptReport.temps_code temps_ok w m a D M E).
  - right. rewrite (plain_blank r_TEMPERATURES w m eq_refl T M). exact D.
Qed.
Lemma press_decode : forall g, press_wf g -> exists p, metar_pressure_new (re_match r_PRESSURE (press_code g)) = Ok p /\ hectopascals g (pr_value p).
Proof.
  intros [pf v b] W. destruct (match pf, b with PfA, _ | _, true => true | _, _ => false end) eqn:K.
  - destruct (press_A_ok (mk_press_g pf v b) W) as (p & E & C & V); [destruct pf, b; try discriminate K; cbn; auto|]. exists p. split; [exact E|].
    destruct pf, b; try discriminate K; exact V.
  - assert (Q : forall pf, pf = PfQ \/ pf = PfQNH -> exists p, metar_pressure_new (re_match r_PRESSURE (press_code (mk_press_g pf v false))) = Ok p /\ opt_num (pr_value p) (option_map ofN v)).
    { intros pf' Hp. destruct (press_Q_ok (mk_press_g pf' v false) W Hp eq_refl) as (p & E & _ & V). exists p. auto. }
    destruct pf; try discriminate K; destruct b; try discriminate K; [|exact (Q PfQ (or_introl eq_refl))|exact (Q PfQNH (or_intror eq_refl))].
    destruct v as [n|].
    + unfold press_wf in W. cbn [pg_value opt_all] in W. unfold hectopascals. cbn [pg_prefix pg_ins pg_value]. destruct (N.leb_spec n 2500) as [L|L].
      * destruct (press_none_ok n L) as (p & q & E & Eq & V). destruct (Q PfQ (or_introl eq_refl)) as (q' & Eq' & V').
        exists p. split; [exact E|]. rewrite V. assert (Kq : q = q') by congruence. rewrite Kq. exact V'.
      * exact (press_none_above n (conj L W)).
    + eexists. split; [vm_compute; reflexivity|]. vm_compute. reflexivity.
Qed.
Lemma press_sound : forall w m a, unspaced w -> typed w -> re_match r_PRESSURE w = Some m -> metar_pressure_new (Some m) = Ok a ->
  stated press_wf press_code (fun g p => hectopascals g (pr_value p)) (blanked w) a.
Proof.
  intros w m a _ T M E. rewrite (plain_blank r_PRESSURE w m eq_refl T M). destruct (proj1 (press_words w T) (matched _ _ _ M)) as (g & W & ->).
  destruct (press_decode g W) as (p & Ep & V). rewrite M in Ep. assert (K : a = p) by congruence. subst p. exists g. auto.
Qed.
Lemma runway_blank : forall r, runway_wf r -> blanked (runway_code r) = runway_code r.
Proof.
  intros [n s] (_ & W). unfold runway_code, blanked. cbn [rn_number rn_side] in *. rewrite map_app. f_equal.
  - pose proof (digits_are 2 n) as D. induction D as [|c l Hc D IH]; [reflexivity|]. cbn [map]. rewrite IH. f_equal. destruct (N.eqb_spec c 95) as [->|_]; [|reflexivity]. destruct Hc. lia.
  - destruct s as [x|]; [|reflexivity]. cbn [opt_all opt] in *. unfold sides in W. cbn [In] in W. destruct W as [<-|[<-|[<-|[]]]]; reflexivity.
Qed.
Lemma shear_sound : forall w m a, unspaced w -> typed w -> re_match r_WINDSHEAR w = Some m -> shear_made (Some m) = Ok a -> shear_says (blanked w) a.
Proof.
  intros w m a _ T M E. destruct (proj1 (shear_words w T) (matched _ _ _ M)) as [D|[->|(r & W & ->)]].
  - left. refine (documented_says r_WINDSHEAR shear_made MetarGroups.ws_code _ _ _ _ (made_code _ _ _ ProofKeptReport.shear_code) _ w m a D M E).
    intros g W. destruct (ws_ok g W) as (C & V). eexists. split; [reflexivity|]. split; [exact C|exact V].
  - right. left. vm_compute. reflexivity.
  - right. right. exists r. split; [exact W|]. unfold blanked at 1. rewrite map_app. f_equal. exact (runway_blank r W).
Qed.
Lemma sea_sound : forall w m a, unspaced w -> typed w -> re_match r_SEA_STATE w = Some m -> sea_state_new (Some m) = Ok a -> stated sea_wf sea_code sea_is (blanked w) a.
Proof.
  intros w m a _ T M E. exact (documented_says _ _ _ _ _ _ _ ProofKeptReport.sea_code sea_ok w m a (proj1 (sea_words w T) (matched _ _ _ M)) M E).
Qed.
Lemma rwy_sound : forall w m a, unspaced w -> typed w -> re_match r_RUNWAY_STATE w = Some m -> runway_made (Some m) = Ok a -> stated rs_wf rs_code_of rwy_is (blanked w) a.
Proof.
  intros w m a _ T M E. refine (documented_says r_RUNWAY_STATE runway_made rs_code _ _ _ _ (made_code _ _ _ ProofKeptReport.runway_code) _ w m a (proj1 (rwy_words w T) (matched _ _ _ M)) M E).
  intros g W. destruct (rs_ok g W) as (C & V). eexists. split; [reflexivity|]. split; [exact C|exact V].
Qed.

(** ** Whole reports *)

Lemma map_says : forall A B (f : A -> B) (P : A -> Prop) code (says : str -> B -> Prop) l,
  (forall a, P a -> explained code says [f a]) -> Forall P l -> explained code says (map f l).
Proof.
  intros A B f P code says l H F b c I C T. apply in_map_iff in I. destruct I as (a & <- & I).
  exact (H a (proj1 (Forall_forall _ _) F a I) (f a) c (or_introl eq_refl) C T).
Qed.
Lemma flat_says : forall A B (f : A -> list B) (P : A -> Prop) code (says : str -> B -> Prop) l,
  (forall a, P a -> explained code says (f a)) -> Forall P l -> explained code says (flat_map f l).
Proof.
  intros A B f P code says l H F b c I C T. apply in_flat_map in I. destruct I as (a & Ia & I).
  exact (H a (proj1 (Forall_forall _ _) F a Ia) b c I C T).
Qed.
Lemma wind_one : forall a, from r_WIND metar_wind_new a -> explained w_code wind_says [a].
Proof. apply one_says; [exact ProofKeptReport.wind_code|intros a E; none E|exact wind_sound]. Qed.
Lemma twind_one : forall a, from r_T_WIND metar_wind_new a -> explained w_code taf_wind_says [a].
Proof. apply one_says; [exact ProofKeptReport.wind_code|intros a E; none E|exact twind_sound]. Qed.
Lemma vis_one : forall a, from r_VISIBILITY prevailing_new a -> explained v_code vis_says [a].
Proof. apply one_says; [exact ProofKeptReport.vis_code|intros a E; none E|exact vis_sound]. Qed.
Lemma tvis_one : forall a, from r_T_VISIBILITY prevailing_new a -> explained v_code taf_vis_says [a].
Proof. apply one_says; [exact ProofKeptReport.vis_code|intros a E; none E|exact tvis_sound]. Qed.
Lemma weather_all : forall l, Forall (read r_WEATHER weather_made) l -> explained we_code (stated weather_wf weather_code weather_is) l.
Proof. apply list_says; [exact (made_code _ _ _ ProofKeptReport.weather_code)|exact weather_sound]. Qed.
Lemma cloud_all : forall l, Forall (read r_CLOUD cloud_from_metar) l -> explained cl_code cloud_says l.
Proof. apply list_says; [exact ProofKeptReport.cloud_code|exact cloud_sound]. Qed.

Lemma drawn_say : forall rw rv (wind : str -> metar_wind -> Prop) (vis : str -> visibility -> Prop) l,
  (forall a, from rw metar_wind_new a -> explained w_code wind [a]) -> (forall a, from rv prevailing_new a -> explained v_code vis [a]) ->
  Forall (drawn rw rv) l -> parts_say wind vis l.
Proof.
  intros rw rv wind vis l Hw Hv F. split; [|split; [|split]].
  - apply (map_says _ _ _ (drawn rw rv)); [|exact F]. intros c D. exact (Hw _ (proj1 D)).
  - apply (map_says _ _ _ (drawn rw rv)); [|exact F]. intros c D. exact (Hv _ (proj1 (proj2 D))).
  - apply (flat_says _ _ _ (drawn rw rv)); [|exact F]. intros c D. exact (weather_all _ (proj1 (proj2 (proj2 D)))).
  - apply (flat_says _ _ _ (drawn rw rv)); [|exact F]. intros c D. exact (cloud_all _ (proj2 (proj2 (proj2 D)))).
Qed.

Theorem metar_says : forall e code y mo tr x, metar_parse e code y mo tr = Ok x ->
  parts_say wind_says vis_says (metar_parts x)
  /\ explained wv_code (stated wvar_wf wvar_code wvar_is) [me_wvar x]
  /\ explained v_code (stated min_wf vis_code vis_is) [me_minvis x]
  /\ explained rr_code (stated rvr_wf rvr_code rvr_is) (gl_list (me_rvr x))
  /\ explained te_code temps_says [me_temps x]
  /\ explained pr_code (stated press_wf press_code (fun g p => hectopascals g (pr_value p))) [me_press x]
  /\ explained rw_code (stated recent_wf recent_code recent_is) [me_recent x]
  /\ explained MetarGroups.ws_code shear_says (gl_list (me_ws x))
  /\ explained se_code (stated sea_wf sea_code sea_is) [me_sea x]
  /\ explained rs_code (stated rs_wf rs_code_of rwy_is) [me_rwy x].
Proof.
  intros e code y mo tr x E. apply metar_drawn_parsed in E.
  destruct E as ((_ & _ & _ & A4 & A5 & A6) & (B1 & B2 & B3 & B4 & B5 & B6) & D & Ts).
  split; [apply (drawn_say _ _ _ _ _ wind_one vis_one); constructor; [exact D|]; apply Forall_map; exact Ts|].
  split; [revert A4; apply one_says; [exact ProofKeptReport.wvar_code|intros a E; none E|exact wvar_sound]|].
  split; [revert A5; apply one_says; [exact ProofKeptReport.minvis_code|intros a E; none E|exact minvis_sound]|].
  split; [revert A6; apply list_says; [exact ProofKeptReport.rvr_code|exact rvr_sound]|].
  split; [revert B1; apply one_says; [exact ProofKeptReport.temps_code|intros a E; none E|exact temps_sound]|].
  split; [revert B2; apply one_says; [exact ProofKeptReport.press_code|intros a E; none E|exact press_sound]|].
  split; [revert B3; apply one_says; [exact (made_code _ _ _ ProofKeptReport.recent_code)|intros a E; none E|exact recent_sound]|].
  split; [revert B4; apply list_says; [exact (made_code _ _ _ ProofKeptReport.shear_code)|exact shear_sound]|].
  split; [revert B5; apply one_says; [exact ProofKeptReport.sea_code|intros a E; none E|exact sea_sound]|].
  revert B6; apply one_says; [exact (made_code _ _ _ ProofKeptReport.runway_code)|intros a E; none E|exact rwy_sound].
Qed.

Theorem taf_says : forall e code y mo tr x, taf_parse e code y mo tr = Ok x ->
  parts_say taf_wind_says taf_vis_says [ta_common x] /\ parts_say taf_wind_says vis_says (map cf_common (gl_list (ta_changes x))).
Proof.
  intros e code y mo tr x E. apply taf_drawn_parsed in E. destruct E as (_ & D & Cs). split.
  - apply (drawn_say _ _ _ _ _ twind_one tvis_one). constructor; [exact D|constructor].
  - apply (drawn_say _ _ _ _ _ twind_one vis_one). apply Forall_map. exact Cs.
Qed.

(** ** Header *)

Lemma time_sound : forall e y mo w m a, (1000 <= opt_default (now_year e) y <= 9999)%Z -> (1 <= opt_default (now_month e) mo <= 12)%Z ->
  typed w -> re_match r_TIME w = Some m -> time_from_metar e (Some m) y mo = Ok a -> time_says (opt_default (now_year e) y) (opt_default (now_month e) mo) (blanked w) a.
Proof.
  intros e y mo w m a Y Mo T M E. rewrite (plain_blank r_TIME w m eq_refl T M).
  destruct (proj1 (time_words w T) (matched _ _ _ M)) as (d & h & mi & D & H & Mi & Ew). change (w = stamp_code d h mi) in Ew. subst w.
  change (time_from_metar e (Some m) (Some (opt_default (now_year e) y)) (Some (opt_default (now_month e) mo)) = Ok a) in E.
  destruct (report_time e _ _ d h mi Y Mo D H Mi) as [R1 R2]. rewrite M in R1, R2.
  assert (K : (h < 24)%N) by (destruct (N.lt_ge_cases h 24) as [L|L]; [exact L|]; exfalso; rewrite R2 in E; [discriminate E|]; intros [_ L2]; lia).
  destruct (valid_date (opt_default (now_year e) y) (opt_default (now_month e) mo) (Z.of_N d)) eqn:V.
  - apply valid_date_spec in V. destruct (R1 (conj V K)) as (t & Et & _ & Dt). rewrite E in Et. assert (Ka : a = t) by congruence. subst t. exists d, h, mi. auto 8.
  - exfalso. rewrite R2 in E; [discriminate E|]. intros [L _]. apply valid_date_spec in L. rewrite V in L. discriminate L.
Qed.
Lemma station_sound : forall e w m a, unspaced w -> typed w -> re_match r_STATION w = Some m -> station_made e (Some m) = Ok a -> station_says (stations e) (blanked w) a.
Proof.
  intros e w m a _ T M E. rewrite (plain_blank r_STATION w m eq_refl T M). unfold station_made in E. cbn [option_map] in E. rewrite (re_match_string _ _ _ M) in E.
  assert (K : a = station_new e (Some w)) by congruence. subst a. split; [exact (proj1 (station_words w T) (matched _ _ _ M))|]. unfold station_new. cbn [st_row].
  match goal with |- context [find ?p (stations e)] => destruct (find p (stations e)) as [row|] eqn:F end.
  - left. apply find_some in F. destruct F as [I F]. exists row. split; [exact I|]. split; [|reflexivity]. unfold row_of.
    destruct (nth_error row 1) as [z|]; [|discriminate F]. apply str_eqb_eq in F. subst z. reflexivity.
  - right. split; [|reflexivity]. intros row I R. pose proof (find_none _ _ F row I) as N0. unfold row_of in R. cbn beta in N0. rewrite R, str_eqb_refl in N0. discriminate N0.
Qed.
Lemma modifier_sound : forall w m a, unspaced w -> typed w -> re_match r_MODIFIER w = Some m -> modifier_made (Some m) = Ok a -> modifier_says modifiers (blanked w) a.
Proof.
  intros w m a _ T M E. rewrite (plain_blank r_MODIFIER w m eq_refl T M). unfold modifier_made in E. cbn [option_map] in E. rewrite (re_match_string _ _ _ M) in E.
  assert (K : a = modifier_new (Some w)) by congruence. subst a. destruct (proj1 (modifier_words w T) (matched _ _ _ M)) as (x & I & ->). exists x. split; [exact I|]. split; [reflexivity|].
  unfold modifiers in I. cbn [In] in I. repeat (destruct I as [<-|I]; [vm_compute; reflexivity|]). contradiction.
Qed.
Lemma amd_sound : forall w m a, unspaced w -> typed w -> re_match r_T_AMD_COR w = Some m -> modifier_made (Some m) = Ok a -> modifier_says taf_modifiers (blanked w) a.
Proof.
  intros w m a _ T M E. rewrite (plain_blank r_T_AMD_COR w m eq_refl T M). unfold modifier_made in E. cbn [option_map] in E. rewrite (re_match_string _ _ _ M) in E.
  assert (K : a = modifier_new (Some w)) by congruence. subst a. destruct (proj1 (amd_words w T) (matched _ _ _ M)) as [->| ->].
  - exists ("COR", "Correction"). split; [left; reflexivity|]. split; vm_compute; reflexivity.
  - exists ("AMD", "Amendment"). split; [right; left; reflexivity|]. split; vm_compute; reflexivity.
Qed.
Lemma modifier_coded : forall m a, modifier_made (Some m) = Ok a -> mo_code a = Some (blanked (m_string m)).
Proof. intros m a E. assert (K : a = modifier_new (Some (m_string m))) by (unfold modifier_made in E; cbn [option_map] in E; congruence). rewrite K. apply ProofKeptReport.modifier_code. Qed.
Lemma station_coded : forall e m a, station_made e (Some m) = Ok a -> st_code a = Some (blanked (m_string m)).
Proof. intros e m a E. assert (K : a = station_new e (Some (m_string m))) by (unfold station_made in E; cbn [option_map] in E; congruence). rewrite K. apply ProofKeptReport.station_code. Qed.
Lemma station_absent : forall e a, station_made e None = Ok a -> st_code a = None.
Proof. intros e a E. assert (K : a = station_new e None) by (unfold station_made in E; cbn [option_map] in E; congruence). rewrite K. reflexivity. Qed.

Theorem metar_head_says : forall e code y mo tr x, metar_parse e code y mo tr = Ok x ->
  explained st_code (station_says (stations e)) [me_station x] /\ explained mo_code (modifier_says modifiers) [me_modifier x]
  /\ ((1000 <= opt_default (now_year e) y <= 9999)%Z -> (1 <= opt_default (now_month e) mo <= 12)%Z ->
      explained t_code (time_says (opt_default (now_year e) y) (opt_default (now_month e) mo)) [me_time x]).
Proof.
  intros e code y mo tr x E. apply metar_drawn_parsed in E. destruct E as ((A1 & A2 & A3 & _) & _).
  split; [revert A1; apply one_says; [exact (station_coded e)|exact (station_absent e)|exact (station_sound e)]|].
  split; [revert A3; apply one_says; [exact modifier_coded|intros a E; none E|exact modifier_sound]|].
  intros Y Mo. revert A2. apply (one_says r_TIME (fun m => time_from_metar e m y mo)); [intros m a; apply ProofKeptReport.time_code| |].
  - intros a E. unfold time_from_metar, time_new in E. destruct (strptime _) as [t|]; [|discriminate E]. cbn [bind] in E.
    match type of E with Ok ?b = Ok a => assert (K : a = b) by congruence end. rewrite K. reflexivity.
  - intros w m a _ T M E. exact (time_sound e y mo w m a Y Mo T M E).
Qed.
Theorem taf_head_says : forall e code y mo tr x, taf_parse e code y mo tr = Ok x ->
  explained st_code (station_says (stations e)) [ta_station x] /\ explained mo_code (modifier_says taf_modifiers) [ta_modifier x].
Proof.
  intros e code y mo tr x E. apply taf_drawn_parsed in E. destruct E as ((A1 & A2) & _).
  split; [revert A1; apply one_says; [exact (station_coded e)|exact (station_absent e)|exact (station_sound e)]|].
  revert A2; apply one_says; [exact modifier_coded|intros a E; none E|exact amd_sound].
Qed.
