(** * Proofs: verdicts on every accepted report (C81) *)
From Coq Require Import String Ascii.
From Coq Require Import List NArith ZArith Bool Lia QArith.
From Verif Require Import PyBase PyRegex AeroRegex PyFloat PyTime Utils Base MetarGroups Trend Metar Taf SpecNum SpecFailures SpecKept SpecByCode
  StrFacts RegexPaths ProofGroups ProofGroups2 ProofValues ProofValues2 ProofValues3 ProofExact ProofFailures ProofRules ProofCavok ProofKeptReport ProofVerdict ProofAgree ProofSlots ProofFields ProofByCode
  SpecGroups SpecRules SpecCavok SpecVerdict SpecTime SpecGrammar ProofStated SpecStated SpecBorne.
Import ListNotations.
Local Open Scope string_scope.
Local Open Scope nat_scope.
Local Open Scope list_scope.
Local Opaque dt_add_minutes dt_add_hours dt_add_days.

Lemma borne_vis : forall r vis v, r = r_VISIBILITY \/ r = r_T_VISIBILITY -> from r prevailing_new v -> opt_all vis_wf vis ->
  v_code v = option_map vis_spelled vis -> shows_vis vis v.
Proof.
  intros r vis v R F W C. destruct vis as [g|]; cbn [option_map opt_all shows_vis] in *.
  - split; [exact W|]. destruct F as [F|(s & m & U & M & E)]; [exfalso; vm_compute in F; injection F as <-; discriminate C|].
    assert (S0 : s = vis_code g).
    { assert (K := ProofKeptReport.vis_code m v E). rewrite (re_match_string _ _ _ M) in K.
      assert (K2 := vis_group_code g W). rewrite ProofKeptReport.code_blanked in K2.
      apply blanked_same; [exact U|exact (vis_unspaced g W)|]. congruence. }
    subst s. destruct R as [->| ->]; [rewrite M; exact E|].
    destruct (r_VISIBILITY_decodes g W) as (m0 & w & Em & _). rewrite Em. rewrite <- E.
    apply vis_grouped; [rewrite (re_match_string _ _ _ Em), (re_match_string _ _ _ M); reflexivity|exact (agree_ok _ _ _ _ _ sights_alike Em M)].
  - destruct F as [F|(s & m & U & M & E)]; [vm_compute in F; injection F as <-; reflexivity|].
    rewrite (ProofKeptReport.vis_code m v E) in C. discriminate C.
Qed.
Lemma borne_clouds : forall gs l, Forall (read r_CLOUD cloud_from_metar) l -> Forall cloud_wf gs ->
  map cl_code l = map (fun g => Some (cloud_code g)) gs -> shows_clouds gs l.
Proof.
  intro gs. unfold shows_clouds. induction gs as [|g gs IH]; intros [|c l] M W C; cbn [map] in C; try discriminate C; [constructor|].
  injection C as C0 C. assert (M0 := Forall_inv M). assert (W0 := Forall_inv W). apply Forall_inv_tail in M. apply Forall_inv_tail in W.
  constructor; [|exact (IH l M W C)]. split; [exact W0|]. destruct M0 as (s & m & U & Em & E).
  assert (S0 : s = cloud_code g).
  { assert (K := ProofKeptReport.cloud_code m c E). rewrite (re_match_string _ _ _ Em) in K.
    apply blanked_plain; [|congruence]. apply word_unspaced. exact (proj1 (proj1 (cloud_plain g W0))). }
  rewrite <- S0, Em. exact E.
Qed.
Lemma borne_ruled : forall rw r vis ws gs c, r = r_VISIBILITY \/ r = r_T_VISIBILITY -> drawn rw r c -> gl_n (c_clouds c) = 0 ->
  bears vis ws gs c -> ruled vis ws gs c.
Proof.
  intros rw r vis ws gs c R (_ & Dv & _ & Dc) N0 (Wv & _ & Wc & Cv & Cw & Cc).
  assert (Sv := borne_vis r vis _ R Dv Wv Cv). assert (Sc := borne_clouds gs _ Dc Wc Cc).
  assert (K : gl_list (c_weathers c) = [] <-> ws = []).
  { split; intro K; rewrite K in Cw; cbn [map] in Cw.
    - destruct ws; [reflexivity|discriminate Cw].
    - destruct (gl_list (c_weathers c)); [reflexivity|discriminate Cw]. }
  split; [|split].
  - split; [exact (flight_rules_coded vis gs _ _ Sv Sc)|]. intro same. rewrite (cavok_exact same c vis gs Sv Sc), N0. cbn [skipn]. unfold cavok_written. rewrite K. tauto.
  - exact (coded_none vis gs _ _ Sv Sc).
  - intros same e. rewrite (cavok_raises same c gs e Sc), K. unfold trips. tauto.
Qed.

Theorem metar_ruled : forall e code y mo tr x c vis ws gs, metar_parse e code y mo tr = Ok x -> In c (metar_parts x) ->
  bears vis ws gs c -> ruled vis ws gs c.
Proof.
  intros e code y mo tr x c vis ws gs E I B.
  destruct (metar_drawn_parsed _ _ _ _ _ _ E) as (_ & _ & D & Ts). destruct (metar_made_parsed _ _ _ _ _ _ E) as [(_ & _ & M0) M].
  destruct I as [<-|I]; [exact (borne_ruled _ _ vis ws gs _ (or_introl eq_refl) D M0 B)|].
  apply in_map_iff in I. destruct I as (p & <- & I). pose proof (proj1 (Forall_forall _ _) Ts p I) as Dp. destruct (proj1 (Forall_forall _ _) M p I) as (_ & _ & Mp).
  exact (borne_ruled _ _ vis ws gs _ (or_introl eq_refl) Dp Mp B).
Qed.
Theorem taf_ruled : forall e code y mo tr x c vis ws gs, taf_parse e code y mo tr = Ok x -> In c (taf_parts x) ->
  bears vis ws gs c -> ruled vis ws gs c.
Proof.
  intros e code y mo tr x c vis ws gs E I B.
  destruct (taf_drawn_parsed _ _ _ _ _ _ E) as (_ & D & Cs). destruct (taf_made_parsed _ _ _ _ _ _ E) as [(_ & _ & M0) M].
  destruct I as [<-|I]; [exact (borne_ruled _ _ vis ws gs _ (or_intror eq_refl) D M0 B)|].
  apply in_map_iff in I. destruct I as (p & <- & I). pose proof (proj1 (Forall_forall _ _) Cs p I) as Dp. destruct (proj1 (Forall_forall _ _) M p I) as (_ & _ & Mp).
  exact (borne_ruled _ _ vis ws gs _ (or_introl eq_refl) Dp Mp B).
Qed.

(** ** Which parts bear documented groups *)

Lemma list_borne : forall A G (code : A -> option str) (wf : G -> Prop) (spelled : G -> str) (is : G -> A -> Prop) (other : str -> Prop) l,
  Forall (fun a => code a <> None) l -> Forall (fun a => typed_code (code a)) l ->
  explained code (fun c a => stated wf spelled is c a \/ other c) l ->
  (exists gs, Forall wf gs /\ map code l = map (fun g => Some (spelled g)) gs) \/ Exists (fun a => exists c, code a = Some c /\ other c) l.
Proof.
  intros A G code wf spelled is other l. induction l as [|a l IH]; intros N0 T X; [left; exists []; split; [constructor|reflexivity]|].
  destruct (code a) as [c|] eqn:C; [|elim (Forall_inv N0 C)].
  destruct (X a c (or_introl eq_refl) C (Forall_inv T c C)) as [(g & W & Eg & _)|O]; [|right; left; exists c; auto].
  destruct (IH (Forall_inv_tail N0) (Forall_inv_tail T) (fun b d I => X b d (or_intror I))) as [(gs & Wg & Gs)|O]; [|right; right; exact O].
  left. exists (g :: gs). split; [constructor; assumption|]. cbn [map]. rewrite C, Eg, Gs. reflexivity.
Qed.
Lemma read_coded : forall A r new (code : A -> option str) l, (forall m a, new (Some m) = Ok a -> code a = Some (blanked (m_string m))) ->
  Forall (read r new) l -> Forall (fun a => code a <> None) l.
Proof. intros A r new code l H. apply Forall_impl. intros a (g & m & _ & _ & E). rewrite (H m a E). discriminate. Qed.
Lemma part_bears : forall rw rv (odd : str -> Prop) c, drawn rw rv c -> (forall a, from rv prevailing_new a -> explained v_code (fun c v => stated vis_wf vis_spelled vis_is c v \/ odd c) [a]) ->
  typed_part c -> (exists vis ws gs, bears vis ws gs c) \/ (exists s, v_code (c_vis c) = Some s /\ odd s)
    \/ Exists (fun a => exists s, cl_code a = Some s /\ zero_vc s) (gl_list (c_clouds c)).
Proof.
  intros rw rv odd c (_ & Dv & Dw & Dc) Hv (Tv & Tw & Tc).
  destruct (list_borne _ _ cl_code cloud_wf cloud_code cloud_is zero_vc _ (read_coded _ _ _ _ _ ProofKeptReport.cloud_code Dc) Tc (cloud_all _ Dc)) as [(gs & Wg & Gs)|O]; [|right; right; exact O].
  destruct (list_borne _ _ we_code weather_wf weather_code weather_is (fun _ => False) _ (read_coded _ _ _ _ _ (made_code _ _ _ ProofKeptReport.weather_code) Dw) Tw) as [(ws & Ww & Ws)|O].
  { intros a s I C T. left. exact (weather_all _ Dw a s I C T). }
  - destruct (v_code (c_vis c)) as [s|] eqn:C.
    + destruct (Hv _ Dv _ s (or_introl eq_refl) C (Tv s eq_refl)) as [(g & W & Eg & _)|O]; [|right; left; exists s; auto].
      left. exists (Some g), ws, gs. split; [exact W|]. split; [exact Ww|]. split; [exact Wg|]. split; [rewrite C, Eg; reflexivity|]. split; assumption.
    + left. exists None, ws, gs. split; [exact I|]. split; [exact Ww|]. split; [exact Wg|]. split; [exact C|]. split; assumption.
  - exfalso. apply Exists_exists in O. destruct O as (a & _ & s & _ & []).
Qed.
Theorem metar_bears : forall e code y mo tr x c, metar_parse e code y mo tr = Ok x -> In c (metar_parts x) -> typed_part c ->
  (exists vis ws gs, bears vis ws gs c) \/ (exists s, v_code (c_vis c) = Some s /\ odd_read s)
    \/ Exists (fun a => exists s, cl_code a = Some s /\ zero_vc s) (gl_list (c_clouds c)).
Proof.
  intros e code y mo tr x c E I. destruct (metar_drawn_parsed _ _ _ _ _ _ E) as (_ & _ & D & Ts).
  destruct I as [<-|I]; [exact (part_bears _ _ _ _ D vis_one)|].
  apply in_map_iff in I. destruct I as (p & <- & I). exact (part_bears _ _ _ _ (proj1 (Forall_forall _ _) Ts p I) vis_one).
Qed.
Theorem taf_bears : forall e code y mo tr x c, taf_parse e code y mo tr = Ok x -> In c (taf_parts x) -> typed_part c ->
  (exists vis ws gs, bears vis ws gs c) \/ (exists s, v_code (c_vis c) = Some s /\ (odd_read s \/ run_on s))
    \/ Exists (fun a => exists s, cl_code a = Some s /\ zero_vc s) (gl_list (c_clouds c)).
Proof.
  intros e code y mo tr x c E I. destruct (taf_drawn_parsed _ _ _ _ _ _ E) as (_ & D & Cs).
  destruct I as [<-|I].
  - apply (part_bears _ _ _ _ D). intros a F b s Ib C T. destruct (tvis_one a F b s Ib C T) as [[H|H]|H]; auto.
  - apply in_map_iff in I. destruct I as (p & <- & I). apply (part_bears _ _ _ _ (proj1 (Forall_forall _ _) Cs p I)).
    intros a F b s Ib C T. destruct (vis_one a F b s Ib C T) as [H|H]; auto.
Qed.
