(** * The first word of a METAR: proofs for C69 *)
From Coq Require Import String Ascii.
From Coq Require Import List NArith ZArith Bool Lia.
From Verif Require Import PyBase PyRegex PyFloat PyTime AeroRegex Utils Base MetarGroups Trend Metar SpecText SpecApart SpecKind
  SpecGroups ProofSlots StrFacts MergeFacts ProofValues ProofMetar ProofMetarText ProofText ProofSections ProofWords ProofApart SpecText SpecApart SpecKind.
Import ListNotations.
Local Open Scope string_scope.
Local Open Scope nat_scope.
Local Open Scope list_scope.

(** ** Searching behind a quiet beginning *)

Lemma match_or_none : forall r s, mlen r s = None \/ exists m, re_match r s = Some m.
Proof.
  intros r s. unfold mlen, re_match. destruct (run r 0 s) as [|[[e t] sp] l]; [left; reflexivity|right; eexists; reflexivity].
Qed.

Lemma first_place : forall r t, (quiet r t [] /\ mlen r [] = None)
  \/ exists a t' m, t = a ++ t' /\ quiet r a t' /\ re_match r t' = Some m.
Proof.
  intros r t. induction t as [|c t IH].
  - destruct (match_or_none r []) as [N|(m & M)]; [left; split; [apply quiet_nil|exact N]|].
    right. exists [], [], m. split; [reflexivity|]. split; [apply quiet_nil|exact M].
  - destruct (match_or_none r (c :: t)) as [N|(m & M)].
    + destruct IH as [(Q & N0)|(a & t' & m & -> & Q & M)].
      * left. split; [|exact N0]. apply quiet_cons; [rewrite app_nil_r; exact N|exact Q].
      * right. exists (c :: a), t', m. split; [reflexivity|]. split; [|exact M]. apply quiet_cons; assumption.
    + right. exists [], (c :: t), m. split; [reflexivity|]. split; [apply quiet_nil|exact M].
Qed.

Lemma search_behind : forall r w t, nobos r = true -> quiet r w t ->
  (re_search r (w ++ t) = None /\ re_search r t = None)
  \/ exists m1 m2, re_search r (w ++ t) = Some m1 /\ re_search r t = Some m2 /\ forall n, group m1 n = group m2 n.
Proof.
  intros r w t B Q. destruct (first_place r t) as [(Qt & N)|(a & t' & m & -> & Qa & M)].
  - left. split; apply re_search_none; try assumption. apply quiet_app; [rewrite app_nil_r; exact Q|exact Qt].
  - right. destruct (re_search_some r (w ++ a) t' m B) as (m1 & S1 & G1 & _); [apply quiet_app; assumption|exact M|].
    destruct (re_search_some r a t' m B Qa M) as (m2 & S2 & G2 & _). exists m1, m2. rewrite <- app_assoc in S1.
    split; [exact S1|]. split; [exact S2|]. intros n. rewrite G1, G2. reflexivity.
Qed.

(** ** A text that begins with a blank keeps doing so *)

Definition led (s : str) : Prop := s = [] \/ exists t, s = 32%N :: t.

Lemma blank_ws_all : forall t, quiet r_SAN_WS_ALL [32%N] t.
Proof. intros t. apply quiet_cons; [reflexivity|apply quiet_nil]. Qed.
Lemma blank_ws : forall t, quiet r_SAN_WS [32%N] t.
Proof. intros t. apply quiet_cons; [reflexivity|apply quiet_nil]. Qed.

Lemma vis_step_led : forall t t', led t -> sanitize_visibility_step t = Some t' -> led t'.
Proof.
  intros t t' L E. destruct L as [->|(t0 & ->)]; [discriminate E|]. unfold sanitize_visibility_step in E.
  destruct (re_search r_SAN_VIS (32%N :: t0)) as [m|]; [|discriminate E].
  destruct (group m "int") as [i|]; [|discriminate E]. destruct (group m "frac") as [f|]; [|discriminate E]. injection E as <-.
  right. destruct (mlen r_SAN_VIS (32%N :: t0)) as [k|] eqn:K.
  - destruct (mlen_den _ _ _ K) as (x & t & X & -> & D). rewrite X in K |- *.
    rewrite re_sub_hit; [eexists; reflexivity|reflexivity|reflexivity|discriminate| |exact K].
    destruct (vis_den x D) as (b & i' & b2 & a & c0 & t1 & -> & _). discriminate.
  - rewrite re_sub_copy by (reflexivity || exact K). eexists. reflexivity.
Qed.

Lemma vis_led : forall n t, led t -> led (sanitize_visibility_n n t).
Proof.
  intros n. induction n as [|n IH]; intros t L; [exact L|]. cbn [sanitize_visibility_n].
  destruct (sanitize_visibility_step t) as [t'|] eqn:E; [|exact L]. apply IH. exact (vis_step_led _ _ L E).
Qed.

Lemma ws_step_led : forall t, led t -> led (sanitize_windshear_step t).
Proof.
  intros t [->|(t0 & ->)]; [left; reflexivity|]. unfold sanitize_windshear_step. destruct (re_search r_SAN_WS (32%N :: t0)) as [m|].
  - right. change (32%N :: t0) with ([32%N] ++ t0). rewrite re_sub_quiet by (reflexivity || apply blank_ws). eexists. reflexivity.
  - right. eexists. reflexivity.
Qed.

Lemma all_led : forall t, led t -> led (re_sub r_SAN_WS_ALL (py "WS_ALL_RWY") t None).
Proof.
  intros t [->|(s & ->)]; [left; reflexivity|]. right. change (32%N :: s) with ([32%N] ++ s).
  rewrite re_sub_quiet by (reflexivity || apply blank_ws_all). eexists. reflexivity.
Qed.

Lemma body_led : forall t, led t -> led (sanitize_body t).
Proof.
  intros t L. unfold sanitize_body, sanitize_visibility, sanitize_windshear. cbv zeta. repeat apply ws_step_led. apply all_led, vis_led, L.
Qed.

(** ** A beginning the sanitizers do not touch *)

Definition inert (w : str) : Prop :=
  forall t, led t -> quiet r_SAN_VIS w t /\ quiet r_SAN_WS_ALL w t /\ quiet r_SAN_WS w t.

Lemma vis_step_behind : forall w t, inert w -> led t ->
  sanitize_visibility_step (w ++ t) = option_map (app w) (sanitize_visibility_step t).
Proof.
  intros w t In L. destruct (In t L) as (V & _). unfold sanitize_visibility_step.
  destruct (search_behind r_SAN_VIS w t eq_refl V) as [(-> & ->)|(m1 & m2 & -> & -> & G)]; [reflexivity|].
  rewrite !G. destruct (group m2 "int") as [i|]; [|reflexivity]. destruct (group m2 "frac") as [f|]; [|reflexivity].
  rewrite re_sub_quiet by (reflexivity || exact V). reflexivity.
Qed.

Lemma vis_behind : forall n w t, inert w -> led t -> sanitize_visibility_n n (w ++ t) = w ++ sanitize_visibility_n n t.
Proof.
  intros n w. induction n as [|n IH]; intros t I L; [reflexivity|]. cbn [sanitize_visibility_n]. rewrite vis_step_behind by assumption.
  destruct (sanitize_visibility_step t) as [t'|] eqn:E; cbn [option_map]; [|reflexivity]. apply IH; [exact I|]. exact (vis_step_led _ _ L E).
Qed.

Lemma ws_step_behind : forall w t, inert w -> led t -> sanitize_windshear_step (w ++ t) = w ++ sanitize_windshear_step t.
Proof.
  intros w t In L. destruct (In t L) as (_ & _ & V). unfold sanitize_windshear_step.
  destruct (search_behind r_SAN_WS w t eq_refl V) as [(-> & ->)|(m1 & m2 & -> & -> & G)]; [reflexivity|].
  rewrite !G. apply re_sub_quiet; [reflexivity|exact V].
Qed.

Lemma body_behind : forall w t, inert w -> led t -> sanitize_body (w ++ t) = w ++ sanitize_body t.
Proof.
  intros w t I L. unfold sanitize_body, sanitize_visibility, sanitize_windshear. cbv zeta. rewrite vis_behind by assumption.
  apply (vis_led 3) in L. generalize dependent (sanitize_visibility_n 3 t). intros s L.
  rewrite re_sub_quiet by (reflexivity || apply (I s L)). pose proof (all_led _ L) as L1.
  rewrite ws_step_behind by assumption. pose proof (ws_step_led _ L1) as L2.
  rewrite ws_step_behind by assumption. pose proof (ws_step_led _ L2) as L3.
  apply ws_step_behind; assumption.
Qed.

(** ** The two words *)

Ltac unseen := repeat (apply quiet_cons; [reflexivity|]); apply quiet_nil.

Lemma kind_inert : forall k, inert (kind_word k).
Proof.
  intros k t _. split; [|destruct k; split; unseen]. apply vis_quiet_ink. destruct k; repeat constructor; vm_compute; discriminate.
Qed.

Lemma kind_plain : forall k, plain_word (kind_word k).
Proof.
  intros k. split; [|destruct k; split; vm_compute; intuition discriminate].
  destruct k; (split; [discriminate|repeat constructor; vm_compute; discriminate]).
Qed.

Lemma kind_no_blank : forall k, ~ In 32%N (kind_word k).
Proof. intros k. destruct k; vm_compute; intuition discriminate. Qed.

(** ** The sections *)

Lemma word_prefix : forall w p r t, ~ In 32%N w -> p ++ 32%N :: r = w ++ t -> exists p', p = w ++ p' /\ t = p' ++ 32%N :: r.
Proof.
  intros w. induction w as [|c w IH]; intros p r t N E; [exists p; split; [reflexivity|symmetry; exact E]|].
  destruct p as [|d p]; cbn [app] in E; injection E as E1 E2; [exfalso; apply N; left; symmetry; exact E1|].
  destruct (IH p r t (fun I => N (or_intror I)) E2) as (p' & -> & ->). exists p'. rewrite E1. split; reflexivity.
Qed.

Definition after (ws : list str) : str := match ws with [] => [] | _ => 32%N :: sentence ws end.

Lemma sentence_after : forall w ws, sentence (w :: ws) = w ++ after ws.
Proof. intros w ws. destruct ws; [cbn [after]; rewrite app_nil_r; reflexivity|reflexivity]. Qed.

Lemma after_led : forall ws, led (after ws).
Proof. intros ws. destruct ws; [left; reflexivity|right; eexists; reflexivity]. Qed.

Lemma uncut_behind : forall kws w v p, ~ In 32%N v -> uncut kws (w ++ p) -> uncut kws (v ++ p).
Proof.
  intros kws w v p N U a b E. symmetry in E. destruct (word_prefix _ _ _ _ N E) as (a' & _ & ->). apply (U (w ++ a') b).
  rewrite <- app_assoc. reflexivity.
Qed.

Lemma kind_pieces : forall w t ps, ~ In 32%N w -> led t -> pieces section_words (w ++ t) ps ->
  exists p ps', led p /\ ps = (w ++ p) :: ps' /\ forall v, ~ In 32%N v -> pieces section_words (v ++ t) ((v ++ p) :: ps').
Proof.
  intros w t ps N L (S & Ne & U & B). destruct ps as [|p0 ps]; [contradiction|]. cbn [tl] in B.
  assert (X : exists p, led p /\ p0 = w ++ p /\ t = p ++ after ps).
  { rewrite sentence_after in S. destruct ps as [|p1 ps].
    - exists t. split; [exact L|]. cbn [after] in *. rewrite app_nil_r in *. split; [symmetry; exact S|reflexivity].
    - cbn [after] in *. symmetry in S. destruct (word_prefix _ _ _ _ N S) as (p & Ep & Et). exists p. split; [|split; assumption].
      destruct p as [|c p]; [left; reflexivity|]. right. destruct L as [L|(t0 & L)]; rewrite L in Et; [discriminate Et|].
      injection Et as <- _. exists p. reflexivity. }
  destruct X as (p & Lp & -> & ->). exists p, ps. split; [exact Lp|]. split; [reflexivity|]. intros v Nv.
  split; [rewrite sentence_after, <- app_assoc; reflexivity|]. split; [discriminate|]. split; [|exact B].
  constructor; [exact (uncut_behind _ _ _ _ Nv (Forall_inv U))|exact (Forall_inv_tail U)].
Qed.

Lemma kind_sections : forall ws, Forall plain_word ws ->
  exists p trend remark, led p /\ forall k, metar_sections (kind_word k ++ after ws) = [kind_word k ++ p; trend; remark].
Proof.
  intros ws P.
  assert (B : forall k, ~ In 124%N (kind_word k ++ after ws)).
  { intros k. rewrite <- sentence_after. apply plain_bars. constructor; [apply kind_plain|exact P]. }
  destruct (metar_sections_spec _ (B Routine)) as (ps & S & _ & _).
  destruct (kind_pieces _ _ _ (kind_no_blank Routine) (after_led ws) S) as (p & ps' & L & _ & T).
  exists p, (strip (sentence (trends_of ps'))), (last_remark ps'). split; [exact L|]. intros k.
  destruct (metar_sections_spec _ (B k)) as (qs & _ & U & ->). rewrite <- (U _ (T _ (kind_no_blank k))).
  destruct k; reflexivity.
Qed.

(** ** The state *)

(** The state with the type of the report and its line in front. *)
Definition as_kind (k : kind) (x : metar) : metar :=
  mk_metar (me_raw x) (me_sections x) (me_unparsed x) (type_new (kind_word k)) (me_station x) (me_time x)
    (me_modifier x)
    (mk_common (kind_line k ++ c_string (me_common x)) (c_wind (me_common x)) (c_vis (me_common x)) (c_weathers (me_common x)) (c_clouds (me_common x)))
    (me_wvar x) (me_minvis x) (me_rvr x) (me_temps x) (me_press x)
    (me_recent x) (me_ws x) (me_sea x) (me_rwy x) (me_trends x) (me_out x).

Lemma as_kind_out : forall k s x, out_string s (as_kind k x) = as_kind k (out_string s x).
Proof.
  intros k s x. unfold out_string, upd_common, as_kind, add_string, concat_string. cbn.
  rewrite <- app_assoc. reflexivity.
Qed.

Lemma as_kind_lift : forall k f m x, In f [handle_wind; handle_prevailing; handle_weather; handle_cloud] ->
  lift f m (as_kind k x) = on_ok (as_kind k) (lift f m x).
Proof.
  intros k f m x I. unfold lift. cbn [In] in I.
  destruct I as [<-|[<-|[<-|[<-|[]]]]];
    unfold handle_wind, handle_prevailing, handle_weather, handle_cloud; cbv zeta; cbn [me_common as_kind c_weathers c_clouds];
    repeat (match goal with |- bind (bind ?r _) _ = on_ok _ (bind (bind ?r _) _) => destruct r; cbn [bind]; [|reflexivity] end);
    cbn [on_ok]; unfold upd_common, as_kind, concat_string; cbn; rewrite <- app_assoc; reflexivity.
Qed.

Lemma as_kind_handlers : forall k e y mo h m x, In h (skipn 1 (metar_handlers e y mo)) ->
  h_handle h m (as_kind k x) = on_ok (as_kind k) (h_handle h m x).
Proof.
  intros k e y mo h m x I. unfold metar_handlers in I. cbn [In skipn] in I.
  repeat (destruct I as [<-|I]; [cbn [h_handle]|]); try contradiction;
    try (apply as_kind_lift; cbn [In]; tauto);
    unfold handle_station, handle_time, handle_modifier, handle_wind_variation, handle_minimum_visibility,
      handle_runway_range, handle_temperatures, handle_pressure, handle_recent_weather, handle_windshear, handle_sea_state,
      handle_runway_state; cbv zeta; cbn [me_rvr me_ws me_press as_kind];
    repeat (match goal with |- bind ?r _ = on_ok _ (bind ?r _) => destruct r; cbn [bind]; [|reflexivity] end);
    cbn [on_ok]; rewrite <- as_kind_out; reflexivity.
Qed.

Lemma as_kind_trends : forall k l x, handle_trends l (as_kind k x) = on_ok (as_kind k) (handle_trends l x).
Proof.
  intros k l. induction l as [|w l IH]; intros x; cbn [handle_trends]; [reflexivity|].
  destruct w as [|c w]; [apply IH|]. unfold handle_weather_trend. cbn [me_time me_trends as_kind].
  destruct (change_period_new (c :: w) _) as [p|]; cbn [bind]; [|reflexivity].
  destruct (gl_add p (me_trends x)) as [g|]; cbn [bind]; [|reflexivity].
  rewrite <- IH, <- as_kind_out. reflexivity.
Qed.

Lemma as_kind_trended : forall k tr trend x, metar_trended tr trend (as_kind k x) = on_ok (as_kind k) (metar_trended tr trend x).
Proof.
  intros k tr trend x. unfold metar_trended. rewrite as_kind_trends.
  destruct (handle_trends _ x) as [x3|]; cbn [on_ok bind]; [|reflexivity].
  cbn [me_trends me_unparsed as_kind]. destruct (gl_collect (me_trends x3)) as [l g]. cbv zeta. cbn [me_unparsed upd_unparsed].
  destruct (me_unparsed x3 ++ flat_map cp_unparsed l); [reflexivity|]. destruct tr; reflexivity.
Qed.

(** ** The walk behind the first group *)

Lemma walk_skip : forall S (hs : list (handler S)) gs i j un st,
  parse_groups hs gs (i + j) un st = parse_groups (skipn i hs) gs j un st.
Proof.
  intros S hs gs. induction gs as [|g gs IH]; intros i j un st; cbn [parse_groups]; [reflexivity|]. cbv zeta.
  assert (K : skipn (i + j) hs = skipn j (skipn i hs)).
  { clear. revert hs. induction i as [|i IH]; intros hs; [reflexivity|].
    destruct hs; [cbn [skipn]; rewrite !skipn_nil; reflexivity|apply IH]. }
  rewrite K. destruct (first_match _ 0 g) as [[[n h] m]|].
  - destruct (h_handle h m st); cbn [bind]; [|reflexivity]. rewrite <- Nat.add_assoc. apply IH.
  - apply IH.
Qed.

Definition groups_after (s : str) : list str := match s with [] => [] | _ :: t => split_on 32%N t end.

Lemma split_led : forall w s, ~ In 32%N w -> led s -> split_on 32%N (w ++ s) = w :: groups_after s.
Proof.
  intros w s N [->|(t & ->)]; [rewrite app_nil_r; apply split_on_nosep; exact N|]. cbn [groups_after].
  induction w as [|c w IH]; [reflexivity|]. cbn [app split_on]. destruct (N.eqb_spec c 32) as [->|_]; [exfalso; apply N; left; reflexivity|].
  rewrite IH by (intros I; apply N; right; exact I). reflexivity.
Qed.

(** What the groups behind the first make of a new report. *)
Definition bodied_after (e : env) (y mo : option Z) (s : str) : result metar :=
  x <- metar_init e [] y mo ;;
  r <- parse_groups (skipn 1 (metar_handlers e y mo)) (groups_after s) 0 [] x ;;
  let (x', unparsed) := (r : metar * list str) in
  Ok (upd_unparsed (me_unparsed x' ++ unparsed) x').

Lemma init_string : forall e raw y mo x, metar_init e raw y mo = Ok x -> c_string (me_common x) = [].
Proof.
  intros e raw y mo x I. unfold metar_init in I.
  destruct (time_new e None None None None None None); cbn [bind] in I; [|discriminate I].
  destruct (common_new []) as [c|] eqn:C; cbn [bind] in I; [|discriminate I].
  repeat (match type of I with bind ?r _ = _ => destruct r; cbn [bind] in I; [|discriminate I] end).
  injection I as <-. cbn [me_common]. unfold common_new in C.
  destruct (metar_wind_new None); cbn [bind] in C; [|discriminate C]. destruct (prevailing_new None); cbn [bind] in C; [|discriminate C].
  injection C as <-. reflexivity.
Qed.

Lemma kind_first : forall k x, c_string (me_common x) = [] ->
  exists m, re_match r_TYPE (kind_word k) = Some m /\ handle_type m x = Ok (as_kind k x).
Proof.
  intros k x C. destruct k; (eexists; split; [reflexivity|]); unfold handle_type, out_string, upd_common, as_kind, add_string, set_string;
    cbn [me_common upd_type]; rewrite C; reflexivity.
Qed.

Lemma bodied_kind : forall k e y mo p, led p ->
  metar_bodied e y mo (kind_word k ++ p) = on_ok (as_kind k) (bodied_after e y mo (sanitize_body p)).
Proof.
  intros k e y mo p L. unfold metar_bodied, bodied_after, parse_section. rewrite body_behind by (apply kind_inert || exact L).
  rewrite split_led by (apply kind_no_blank || apply body_led; exact L).
  destruct (metar_init e [] y mo) as [x0|] eqn:I; cbn [bind on_ok]; [|reflexivity]. apply init_string in I.
  destruct (kind_first k x0 I) as (m & M & H).
  cbn [parse_groups skipn]. cbv zeta. unfold metar_handlers at 1. cbn [first_match h_regexp]. rewrite M. cbn [h_handle]. rewrite H. cbn [bind].
  change (0 + 1) with (1 + 0). rewrite walk_skip.
  assert (R : list_remove (kind_word k) ([] ++ [kind_word k]) = []) by (destruct k; reflexivity). rewrite R.
  rewrite (parse_groups_map _ _ (as_kind k) (fun h m s => as_kind_handlers k e y mo h m s)).
  destruct (parse_groups _ _ 0 [] x0) as [[x1 un]|]; reflexivity.
Qed.

(** ** The reading *)

Lemma kind_read : forall k e ws t y mo tr p trend remark, Forall plain_word ws -> written (kind_word k :: ws) t -> led p ->
  metar_sections (kind_word k ++ after ws) = [kind_word k ++ p; trend; remark] ->
  metar_parse e t y mo tr
  = on_ok (fun x => swap (kind_word k ++ after ws) [kind_word k ++ p; trend; remark] (as_kind k x))
      (x <- bodied_after e y mo (sanitize_body p) ;; metar_trended tr trend x).
Proof.
  intros k e ws t y mo tr p trend remark P W L S.
  rewrite (metar_factor _ _ _ _ _ _ (written_raw _ _ W (Forall_cons _ (kind_plain k) P))), sentence_after, S. cbn [section nth].
  unfold metar_read. rewrite bodied_kind by exact L. destruct (bodied_after _ _ _ _) as [x|]; cbn [on_ok bind]; [|reflexivity].
  rewrite as_kind_trended. destruct (metar_trended _ _ x); reflexivity.
Qed.

Lemma kind_shows : forall k raw body trend remark x,
  shows k raw body trend remark (c_string (me_common x)) (swap (kind_word k ++ raw) [kind_word k ++ body; trend; remark] (as_kind k x)).
Proof. intros k raw body trend remark x. split; try reflexivity. destruct k; split; reflexivity. Qed.

Lemma metar_kind : forall e ws t1 t2 y mo tr, Forall plain_word ws ->
  written (py "METAR" :: ws) t1 -> written (py "SPECI" :: ws) t2 ->
  differ_in_kind (metar_parse e t1 y mo tr) (metar_parse e t2 y mo tr).
Proof.
  intros e ws t1 t2 y mo tr P W1 W2. destruct (kind_sections ws P) as (p & trend & remark & L & S).
  rewrite (kind_read Routine e ws t1 y mo tr p trend remark P W1 L (S Routine)),
    (kind_read Special e ws t2 y mo tr p trend remark P W2 L (S Special)).
  destruct (bodied_after _ _ _ _) as [x0|]; cbn [bind on_ok differ_in_kind]; [|reflexivity].
  destruct (metar_trended _ _ x0) as [x|]; cbn [on_ok differ_in_kind]; [|reflexivity].
  split; [reflexivity|]. exists (after ws), p, trend, remark, (c_string (me_common x)). split; apply kind_shows.
Qed.

(** ** Without the first word *)

Lemma link_quiet : forall r (lt rt : str -> bool),
  (forall x, den r x -> exists l b m1 m2, x = l ++ b :: m1 ++ m2 /\ l <> [] /\ ink l
    /\ is_space b = true /\ ink m1 /\ (forall w, lt (w ++ l) = true) /\ (forall v, rt (m1 ++ v) = true)) ->
  forall w t, ink w -> lt w = false -> led t -> quiet r w t.
Proof.
  intros r lt rt H w t Hw N [->|(t2 & ->)]; [exact (quiet_ink r lt rt H w Hw)|].
  intros a1 c a2 E. apply mlen_none. intros x t' Ex D.
  destruct (H x D) as (l & b & m1 & m2 & -> & _ & Hl & Hb & _ & HL & _). rewrite <- app_assoc in Ex.
  change (c :: a2 ++ 32%N :: t2) with ((c :: a2) ++ 32%N :: t2) in Ex. cbn [app] in Ex.
  destruct (first_blank (c :: a2) l 32%N b t2 ((m1 ++ m2) ++ t')) as (F & _); try assumption; try reflexivity.
  - apply (ink_app_r a1). rewrite <- E. exact Hw.
  - pose proof (HL a1) as K. rewrite <- F, <- E, N in K. discriminate K.
Qed.

Lemma word_inert : forall w, ink w -> ends_with (py "WS") w = false -> inert w.
Proof.
  intros w Hw N t L. split; [apply vis_quiet_ink; exact Hw|].
  split; [exact (link_quiet _ _ _ all_link w t Hw N L)|exact (link_quiet _ _ _ ws_link w t Hw N L)].
Qed.

Lemma blank_vis : forall c w t, is_digit c = false -> quiet r_SAN_VIS [32%N] ((c :: w) ++ t).
Proof.
  intros c w t N. apply quiet_cons; [|apply quiet_nil]. apply mlen_none. intros x t' E D. cbn [app] in E.
  unfold r_SAN_VIS in D. cbn [den] in D. destruct D as (x1 & x2 & -> & (b & -> & _) & (x3 & x4 & -> & (x5 & x6 & -> & (d & -> & Hd) & _) & _)).
  cbn [app] in E. injection E as _ E _. rewrite in_digit in Hd. congruence.
Qed.

Lemma blank_inert : forall c w, is_digit c = false -> inert (c :: w) -> inert (32%N :: c :: w).
Proof.
  intros c w N I t L. destruct (I t L) as (A & B & C). change (32%N :: c :: w) with ([32%N] ++ c :: w).
  conjs; (apply quiet_app; [|assumption]); [apply blank_vis; exact N|apply blank_ws_all|apply blank_ws].
Qed.

Lemma station_ink : forall w, station_wf w -> starts_with (py "RMK") w = false -> word w /\ ~ In 32%N w /\ begins_any section_words w = false.
Proof.
  intros w H R. destruct (station_word w H R) as ((W & _) & _). split; [exact W|]. split.
  - intros K. apply (proj1 (Forall_forall _ _) (proj2 W) _ K). reflexivity.
  - destruct H as (a & b & c & d & -> & _). unfold begins_any, section_words, trend_words. cbn [app existsb].
    rewrite R. cbn. rewrite !andb_false_r. reflexivity.
Qed.

Lemma station_digit : forall c w, station_wf (c :: w) -> is_digit c = false.
Proof.
  intros c w (a & b & d & f & E & Ha & _). injection E as -> _. unfold is_upper in Ha.
  assert (K : forallb (fun c => negb (is_digit c)) upper_sym = true) by (vm_compute; reflexivity).
  rewrite forallb_forall in K. specialize (K a (upper_in a Ha)). destruct (is_digit a); [discriminate K|reflexivity].
Qed.

Lemma station_not_type : forall s, station_wf s -> re_match r_TYPE s = None.
Proof.
  intros s H. refine (free_none [r_TYPE] [station_shape] s _ _ r_TYPE _).
  - exists station_shape. split; [left; reflexivity|apply station_inst; exact H].
  - vm_compute. reflexivity.
  - left. reflexivity.
Qed.

Lemma station_pieces : forall w t ps v, ~ In 32%N w -> begins_any section_words w = false -> ~ In 32%N v ->
  led t -> pieces section_words (w ++ t) ps ->
  exists p ps', led p /\ ps = (w ++ p) :: ps' /\ begins_any section_words (w ++ p) = false
    /\ pieces section_words (v ++ 32%N :: w ++ t) ((v ++ 32%N :: w ++ p) :: ps').
Proof.
  intros w t ps v N O Nv L P. destruct (kind_pieces _ _ _ N L P) as (p & ps' & Lp & -> & _). exists p, ps'.
  destruct P as (S & _ & U & B). cbn [tl] in B.
  assert (K : begins_any section_words (w ++ p) = false).
  { destruct (begins_any section_words (w ++ p)) eqn:X; [|reflexivity]. exfalso. rewrite <- not_true_iff_false in O. apply O.
    destruct Lp as [->|(q & ->)]; [rewrite app_nil_r in X; exact X|]. unfold begins_any in *. rewrite existsb_exists in *.
    destruct X as (k & I & X). exists k. split; [exact I|]. exact (starts_cut _ _ _ (proj1 (Forall_forall _ _) section_words_plain _ I) X). }
  split; [exact Lp|]. split; [reflexivity|]. split; [exact K|].
  split; [rewrite sentence_after in *; rewrite S, <- (app_assoc v); cbn [app]; reflexivity|]. split; [discriminate|]. split; [|exact B].
  constructor; [|exact (Forall_inv_tail U)]. intros a b E. symmetry in E. destruct (word_prefix _ _ _ _ Nv E) as (a' & _ & E').
  destruct a' as [|c a']; cbn [app] in E'; [injection E' as <-; exact K|]. injection E' as _ E2. exact (Forall_inv U _ _ E2).
Qed.

Lemma station_sections : forall w ws, Forall plain_word (w :: ws) -> station_wf w -> starts_with (py "RMK") w = false ->
  exists p trend remark, led p /\ metar_sections (w ++ after ws) = [w ++ p; trend; remark]
    /\ metar_sections (py "METAR" ++ 32%N :: w ++ after ws) = [py "METAR" ++ 32%N :: w ++ p; trend; remark].
Proof.
  intros w ws P H R. destruct (station_ink w H R) as (_ & N & O).
  assert (B : ~ In 124%N (w ++ after ws)).
  { rewrite <- sentence_after. apply plain_bars. exact P. }
  assert (B2 : ~ In 124%N (kind_word Routine ++ 32%N :: w ++ after ws)).
  { rewrite <- sentence_after. change (32%N :: sentence (w :: ws)) with (after (w :: ws)). rewrite <- sentence_after. apply plain_bars.
    constructor; [apply kind_plain|exact P]. }
  destruct (metar_sections_spec _ B) as (ps & S & _ & ->). destruct (metar_sections_spec _ B2) as (qs & _ & U & M2).
  destruct (station_pieces _ _ _ (kind_word Routine) N O (kind_no_blank Routine) (after_led ws) S) as (p & ps' & L & -> & K & T).
  apply U in T. subst qs. change (kind_word Routine) with (py "METAR") in M2. rewrite M2.
  exists p, (strip (sentence (trends_of ps'))), (last_remark ps'). split; [exact L|].
  assert (K1 : begins_any trend_words (w ++ p) = false /\ starts_with (py "RMK") (w ++ p) = false).
  { unfold begins_any, section_words in *. rewrite existsb_app in K. apply orb_false_elim in K. destruct K as [K1 K2]. split; [exact K1|].
    cbn [existsb] in K2. rewrite orb_false_r in K2. exact K2. }
  split.
  - unfold body_of, trends_of, last_remark. cbn [filter]. rewrite K, (proj1 K1), (proj2 K1). reflexivity.
  - reflexivity.
Qed.

(** *** The type of a report without its first word *)

Lemma typed_handlers : forall v e y mo h m x, In h (skipn 1 (metar_handlers e y mo)) ->
  h_handle h m (upd_type v x) = on_ok (upd_type v) (h_handle h m x).
Proof.
  intros v e y mo h m x I. unfold metar_handlers in I. cbn [In skipn] in I.
  assert (L : forall f, lift f m (upd_type v x) = on_ok (upd_type v) (lift f m x)).
  { intros f. unfold lift. cbn [me_common upd_type]. destruct (f m (me_common x)); reflexivity. }
  repeat (destruct I as [<-|I]; [cbn [h_handle]|]); try contradiction; try apply L;
    unfold handle_station, handle_time, handle_modifier, handle_wind_variation, handle_minimum_visibility,
      handle_runway_range, handle_temperatures, handle_pressure, handle_recent_weather, handle_windshear, handle_sea_state,
      handle_runway_state; cbv zeta; cbn [me_rvr me_ws me_press upd_type]; try reflexivity;
    repeat (match goal with |- bind ?r _ = on_ok _ (bind ?r _) => destruct r; cbn [bind]; [|reflexivity] end); reflexivity.
Qed.

Lemma typed_trends : forall v l x, handle_trends l (upd_type v x) = on_ok (upd_type v) (handle_trends l x).
Proof.
  intros v l. induction l as [|w l IH]; intros x; cbn [handle_trends]; [reflexivity|].
  destruct w as [|c w]; [apply IH|]. unfold handle_weather_trend. cbn [me_time me_trends upd_type].
  destruct (change_period_new (c :: w) _) as [p|]; cbn [bind]; [|reflexivity].
  destruct (gl_add p (me_trends x)) as [g|]; cbn [bind]; [|reflexivity].
  exact (IH (out_string (change_period_str p) (upd_out (me_out x ++ cp_out p) (upd_trends g x)))).
Qed.

Lemma after_type : forall e y mo tr s trend x,
  (x <- bodied_after e y mo s ;; metar_trended tr trend x) = Ok x -> me_type x = type_new (kind_word Routine).
Proof.
  intros e y mo tr s trend x E. unfold bodied_after in E. destruct (metar_init e [] y mo) as [x0|] eqn:I; cbn [bind] in E; [|discriminate E].
  assert (X0 : x0 = upd_type (type_new (kind_word Routine)) x0).
  { unfold metar_init in I.
    repeat (match type of I with bind ?r _ = _ => destruct r; cbn [bind] in I; [|discriminate I] end). injection I as <-. reflexivity. }
  rewrite X0, (parse_groups_map _ _ (upd_type (type_new (kind_word Routine))) (fun h m s => typed_handlers _ e y mo h m s)) in E.
  destruct (parse_groups _ _ 0 [] x0) as [[x1 un]|]; cbn [on_ok bind fst snd] in E; [|discriminate E].
  change (upd_unparsed (me_unparsed (upd_type (type_new (kind_word Routine)) x1) ++ un) (upd_type (type_new (kind_word Routine)) x1))
    with (upd_type (type_new (kind_word Routine)) (upd_unparsed (me_unparsed x1 ++ un) x1)) in E.
  unfold metar_trended in E. rewrite typed_trends in E. destruct (handle_trends _ _) as [x3|]; cbn [on_ok bind] in E; [|discriminate E].
  destruct (gl_collect _) as [l g] in E. cbv zeta in E.
  destruct (me_unparsed _) in E; [|destruct tr; [discriminate E|]]; injection E as <-; reflexivity.
Qed.

Lemma bodied_station : forall e y mo w p, is_station w -> led p ->
  metar_bodied e y mo (w ++ p) = bodied_after e y mo (32%N :: w ++ sanitize_body p).
Proof.
  intros e y mo w p [H R C] L. destruct (station_ink w H R) as (W & N & _).
  unfold metar_bodied, bodied_after, parse_section. rewrite body_behind by (first [exact L|apply word_inert; [apply word_ink; exact W|exact C]]).
  cbn [groups_after]. rewrite split_led by (try apply body_led; assumption).
  destruct (metar_init e [] y mo) as [x0|]; cbn [bind]; [|reflexivity].
  destruct (station_match w H) as (m & M & _). unfold metar_handlers at 1 2. cbn [parse_groups skipn]. cbv zeta. cbn [first_match h_regexp].
  rewrite (station_not_type w H), M. cbn [h_handle]. destruct (handle_station e m x0) as [x1|]; cbn [bind]; [|reflexivity].
  change (0 + 2) with (1 + 1). rewrite walk_skip. reflexivity.
Qed.

Lemma metar_announced : forall e w ws t1 t2 y mo tr, Forall plain_word (w :: ws) -> is_station w ->
  written (py "METAR" :: w :: ws) t1 -> written (w :: ws) t2 ->
  announced (metar_parse e t1 y mo tr) (metar_parse e t2 y mo tr).
Proof.
  intros e w ws t1 t2 y mo tr P St W1 W2. pose proof St as St'. destruct St' as [H R C]. destruct (station_sections w ws P H R) as (p & trend & remark & L & S2 & S1).
  assert (Lp : led (32%N :: w ++ p)) by (right; eexists; reflexivity).
  rewrite (kind_read Routine e (w :: ws) t1 y mo tr (32%N :: w ++ p) trend remark P W1 Lp);
    [|cbn [after]; rewrite sentence_after; exact S1].
  rewrite (metar_factor _ _ _ _ _ _ (written_raw _ _ W2 P)), sentence_after, S2. cbn [section nth]. unfold metar_read.
  rewrite bodied_station by (exact St || exact L).
  assert (B : sanitize_body (32%N :: w ++ p) = 32%N :: w ++ sanitize_body p).
  { destruct (station_ink w H R) as (W & _). destruct w as [|c w]; [destruct W as [W _]; contradiction|].
    change (32%N :: (c :: w) ++ p) with ((32%N :: c :: w) ++ p). rewrite body_behind; [reflexivity| |exact L].
    apply blank_inert; [exact (station_digit _ _ H)|]. apply word_inert; [apply word_ink; exact W|exact C]. }
  rewrite B. destruct (_ <- bodied_after _ _ _ _ ;; _) as [x|] eqn:E; cbn [on_ok announced]; [|reflexivity].
  apply after_type in E. conjs.
  - reflexivity.
  - symmetry. exact E.
  - cbn [after me_raw swap]. rewrite sentence_after. reflexivity.
  - exists (w ++ p), trend, remark. split; reflexivity.
  - reflexivity.
Qed.

(** ** A station word that joins the next group *)

Definition types_apart (r1 r2 : result metar) : bool :=
  match r1, r2 with
  | Ok x1, Ok x2 => negb (str_eqb (type_str (me_type x1)) (type_str (me_type x2)))
  | _, _ => false
  end.

Lemma types_apart_not : forall r1 r2, types_apart r1 r2 = true -> ~ announced r1 r2.
Proof.
  intros [x1|] [x2|] H; try discriminate H. cbn [types_apart announced] in *. intros (_ & E & _). rewrite E in H.
  rewrite str_eqb_refl in H. discriminate H.
Qed.

Lemma laid_single : forall ws, ws <> [] -> laid_out ws (sentence ws).
Proof.
  intros ws. induction ws as [|w ws IH]; intros N; [contradiction|]. destruct ws as [|v ws]; [constructor|].
  change (sentence (w :: v :: ws)) with (w ++ [32%N] ++ sentence (v :: ws)). constructor; [left; reflexivity|]. apply IH. discriminate.
Qed.

Lemma written_single : forall ws, ws <> [] -> written ws (sentence ws).
Proof.
  intros ws N. exists (sentence ws), [], [], []. split; [apply laid_single; exact N|]. split; [constructor|]. split; [constructor|].
  split; [left; reflexivity|]. cbn [app]. rewrite app_nil_r. reflexivity.
Qed.

Lemma announced_refuted : ~ (forall e w ws t1 t2 y mo tr, Forall plain_word (w :: ws) ->
  station_wf w -> starts_with (py "RMK") w = false ->
  written (py "METAR" :: w :: ws) t1 -> written (w :: ws) t2 ->
  announced (metar_parse e t1 y mo tr) (metar_parse e t2 y mo tr)).
Proof.
  intros H. assert (P : forall w, In w [py "XXWS"; py "R09"; py "SPECI"] -> plain_word w).
  { intros w I. cbn [In] in I. destruct I as [<-|[<-|[<-|[]]]];
      (split; [split; [discriminate|repeat constructor; vm_compute; discriminate]|split; vm_compute; intuition discriminate]). }
  apply (types_apart_not (metar_parse (mk_env 2026 11 [] []) (py "METAR XXWS R09 SPECI") None None false)
    (metar_parse (mk_env 2026 11 [] []) (py "XXWS R09 SPECI") None None false)); [vm_compute; reflexivity|].
  apply (H (mk_env 2026 11 [] []) (py "XXWS") [py "R09"; py "SPECI"]).
  - apply Forall_forall. exact P.
  - exists 88%N, 88%N, 87%N, 83%N. unfold is_alnum, is_upper. conjs; try reflexivity; try left; lia.
  - reflexivity.
  - apply (written_single [py "METAR"; py "XXWS"; py "R09"; py "SPECI"]). discriminate.
  - apply (written_single [py "XXWS"; py "R09"; py "SPECI"]). discriminate.
Qed.
