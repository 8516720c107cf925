(** * What a JSON text keeps of a report (C86): proof *)
From Coq Require Import String Ascii.
From Coq Require Import List NArith ZArith Bool Lia.
From Verif Require Import PyBase PyRegex AeroRegex PyFloat PyTime Utils Base MetarGroups Trend Metar Taf AsDict Json SpecNum SpecJson SpecText SpecBare
  SpecAbsent SpecDict SpecTime SpecMoment SpecStored StrFacts ProofText ProofJson ProofJsonReport ProofReparse ProofAbsentTaf ProofDict ProofDictSame PropsFailures PropsMoment PropsAbsent PropsDict PropsJson.
Import ListNotations.
Local Open Scope string_scope.
Local Open Scope nat_scope.
Local Open Scope list_scope.

(** ** Characters *)

Lemma characters_first : forall a u, high a = false -> characters (a :: u) = a :: characters u.
Proof. intros a [|b u] H; [reflexivity|]. cbn [characters]. rewrite H. reflexivity. Qed.

Lemma characters_utf16 : forall s, Forall scalar s -> characters (utf16 s) = s.
Proof.
  induction s as [|c s IH]; intro H; [reflexivity|]. inversion H as [|? ? Hc Hs]; subst.
  unfold utf16. cbn [flat_map]. fold (utf16 s). destruct (units_scalar c Hc) as [[-> N]|(a & b & -> & A & B & E)]; cbn [app].
  - rewrite characters_first, (IH Hs); [reflexivity|]. unfold high.
    destruct (N.leb_spec 55296 c); [|reflexivity]. cbn [andb]. apply N.leb_gt. lia.
  - cbn [characters]. replace (high (55296 + a)) with true by (symmetry; apply andb_true_intro; split; apply N.leb_le; lia).
    replace (low (56320 + b)) with true by (symmetry; apply andb_true_intro; split; apply N.leb_le; lia).
    cbn [andb]. rewrite (IH Hs). f_equal. lia.
Qed.

(** ** The member [code] *)

Lemma find_once : forall (m : list (list N * jval)) k v, NoDup (map fst m) -> In (k, v) m ->
  find (fun p => str_eqb (fst p) k) m = Some (k, v).
Proof.
  induction m as [|[k' v'] m IH]; intros k v N I; [destruct I|]. cbn [map fst] in N. inversion N as [|? ? N1 N2]; subst.
  cbn [find fst]. destruct I as [I|I].
  - injection I as -> ->. rewrite (proj2 (str_eqb_eq k k) eq_refl). reflexivity.
  - destruct (str_eqb k' k) eqn:Q; [|exact (IH k v N2 I)]. apply str_eqb_eq in Q. subst k'.
    exfalso. apply N1. exact (in_map fst _ _ I).
Qed.

Lemma stored_code : forall d t raw, faithful d t -> entry d (py "code") (VStr raw) -> Forall scalar raw -> stored t = Some raw.
Proof.
  intros d t raw (_ & j & J & D & O) (a & b & -> & _ & _) R. unfold stored. rewrite J.
  inversion D as [| | | | |? m F]; subst. inversion O as [| | | | |? Nd _]; subst.
  apply Forall2_app_inv_l in F. destruct F as (ma & mb & _ & F & ->). inversion F as [|? [k v] ? mb' [Fk Fv] _]; subst.
  cbn [fst snd] in Fk, Fv. inversion Fv; subst.
  rewrite (find_once _ (py "code") (JStr (utf16 raw)) Nd); [rewrite (characters_utf16 raw R); reflexivity|].
  apply in_or_app. right. left. reflexivity.
Qed.

(** ** Characters of the raw code *)

Lemma remove_scalar : forall c s, Forall scalar s -> Forall scalar (remove_char c s).
Proof. intros c s H. rewrite Forall_forall in *. intros d I. apply filter_In in I. exact (H d (proj1 I)). Qed.

Lemma squeeze_scalar : forall s, Forall scalar s -> Forall scalar (squeeze s).
Proof.
  assert (B : scalar 32%N) by (left; reflexivity).
  intros [|c [|d s]] H; cbn [squeeze]; try (constructor; [exact B|constructor]).
  destruct (N.eqb c 10 || N.eqb c 9); [constructor; [exact B|constructor]|exact H].
Qed.

Lemma raw_scalar : forall code raw, report_raw_code code = Ok raw -> Forall scalar code -> Forall scalar raw.
Proof.
  intros code raw E H. unfold report_raw_code in E. destruct code as [|c0 code0]; [discriminate E|].
  remember (c0 :: code0) as code eqn:Ec. clear Ec c0 code0. injection E as <-. rewrite normalise_eq. apply remove_scalar.
  destruct (has_ink_dec code) as [Hi|Hb].
  - destruct (text_split code Hi) as (a & w & l & b & -> & Ha & Hb & Hw & Hl).
    rewrite strip_text by assumption. rewrite norm_word by apply Hw. rewrite norm_tail by exact Hl.
    apply Forall_app in H. destruct H as [_ H]. apply Forall_app in H. destruct H as [H _]. apply Forall_app in H. destruct H as [Sw Sl].
    apply Forall_app. split; [exact Sw|]. clear Hw Sw Ha Hb Hi w a b.
    unfold tail_text in *. induction l as [|[s v] l IH]; [constructor|]. cbn [map flat_map fst snd] in *.
    inversion Hl as [|? ? _ Hl']; subst. apply Forall_app in Sl. destruct Sl as [Sl Sr]. apply Forall_app in Sl. destruct Sl as [S1 S2].
    apply Forall_app. split; [apply Forall_app; split; [exact (squeeze_scalar _ S1)|exact S2]|exact (IH Sr Hl')].
  - assert (E := strip_pad code [] [] Hb (Forall_nil _) I). rewrite app_nil_r in E. cbn [app] in E. rewrite E. constructor.
Qed.

(** ** Reports *)

Lemma metar_stored : forall e code y mo tr x t, metar_parse e code y mo tr = Ok x -> metar_json e x = Ok t -> Forall scalar code ->
  stored t = Some (me_raw x).
Proof.
  intros e code y mo tr x t P J H. destruct (C59_metar _ _ _ _ _ _ P) as (d & t' & D & J' & F).
  assert (Q : t' = t) by congruence. subst t'. destruct (C51_metar_partial _ _ _ D) as [N _].
  exact (stored_code d t _ F N (raw_scalar _ _ (metar_raw _ _ _ _ _ _ P) H)).
Qed.

Lemma taf_stored : forall e code y mo tr x t, taf_parse e code y mo tr = Ok x -> taf_json e x = Ok t -> Forall scalar code ->
  stored t = Some (ta_raw x).
Proof.
  intros e code y mo tr x t P J H. destruct (C59_taf _ _ _ _ _ _ P) as (d & t' & D & J' & F).
  assert (Q : t' = t) by congruence. subst t'. destruct (C51_taf_partial _ _ _ D) as [N _].
  exact (stored_code d t _ F N (raw_scalar _ _ (taf_raw _ _ _ _ _ _ P) H)).
Qed.

Theorem metar_back : forall e code y mo tr x t, metar_parse e code y mo tr = Ok x -> metar_json e x = Ok t -> Forall scalar code ->
  ((exists s, stored t = Some s /\ metar_parse e s y mo tr = Ok x) <-> has_ink code /\ ~ bare code).
Proof.
  intros e code y mo tr x t P J H. rewrite <- (metar_again _ _ _ _ _ _ P), (metar_stored _ _ _ _ _ _ _ P J H). split.
  - intros (s & E & A). injection E as <-. exact A.
  - intro A. exists (me_raw x). auto.
Qed.

Theorem taf_back : forall e code y mo tr x t, taf_parse e code y mo tr = Ok x -> taf_json e x = Ok t -> Forall scalar code ->
  ((exists s, stored t = Some s /\ taf_parse e s y mo tr = Ok x) <-> has_ink code /\ ~ bare code).
Proof.
  intros e code y mo tr x t P J H. rewrite <- (taf_again _ _ _ _ _ _ P), (taf_stored _ _ _ _ _ _ _ P J H). split.
  - intros (s & E & A). injection E as <-. exact A.
  - intro A. exists (ta_raw x). auto.
Qed.

Theorem metar_same : forall e y mo tr code x code' x' t, metar_parse e code y mo tr = Ok x -> metar_parse e code' y mo tr = Ok x' ->
  metar_json e x = Ok t -> metar_json e x' = Ok t -> Forall scalar code -> Forall scalar code' ->
  has_ink code -> ~ bare code -> has_ink code' -> ~ bare code' -> x = x'.
Proof.
  intros e y mo tr code x code' x' t P P' J J' H H' I B I' B'.
  destruct (proj2 (metar_back _ _ _ _ _ _ _ P J H) (conj I B)) as (s & E & A).
  destruct (proj2 (metar_back _ _ _ _ _ _ _ P' J' H') (conj I' B')) as (s' & E' & A'). congruence.
Qed.

Theorem taf_same : forall e y mo tr code x code' x' t, taf_parse e code y mo tr = Ok x -> taf_parse e code' y mo tr = Ok x' ->
  taf_json e x = Ok t -> taf_json e x' = Ok t -> Forall scalar code -> Forall scalar code' ->
  has_ink code -> ~ bare code -> has_ink code' -> ~ bare code' -> x = x'.
Proof.
  intros e y mo tr code x code' x' t P P' J J' H H' I B I' B'.
  destruct (proj2 (taf_back _ _ _ _ _ _ _ P J H) (conj I B)) as (s & E & A).
  destruct (proj2 (taf_back _ _ _ _ _ _ _ P' J' H') (conj I' B')) as (s' & E' & A'). congruence.
Qed.

(** ** The whole dictionary *)

Lemma denotes_inj : forall v, spelled v -> forall w j, spelled w -> denotes v j -> denotes w j -> v = w.
Proof.
  apply (pyval_rect' (fun v => spelled v -> forall w j, spelled w -> denotes v j -> denotes w j -> v = w)).
  - intros _ w j _ D D'. inversion D; subst. inversion D'; reflexivity.
  - intros b _ w j _ D D'. inversion D; subst. inversion D'; reflexivity.
  - intros s V w j W D D'. inversion D; subst. inversion D' as [| |s' E1 E2| | |]; subst. f_equal.
    inversion V; subst. inversion W; subst. apply utf16_inj; auto.
  - intros x _ w j _ D D'. inversion D as [| | |? u E| |]; subst. inversion D' as [| | |? u' E' E1 E2| |]; subst. congruence.
  - intros l IH V w j W D D'. inversion D as [| | | |? m F|]; subst. inversion D' as [| | | |l' ? F' E1 E2|]; subst. f_equal.
    inversion V as [| | | |? Vl|]; subst. inversion W as [| | | |? Wl|]; subst. clear V W D D'.
    revert l' F' Wl IH Vl. induction F as [|v a l m Hv F IHF]; intros l' F' Wl IH Vl; inversion F' as [|v' ? l'' ? Hv' F'']; subst; [reflexivity|].
    inversion IH as [|? ? I1 I2]; inversion Vl as [|? ? V1 V2]; inversion Wl as [|? ? W1 W2]; subst. f_equal; [exact (I1 V1 _ _ W1 Hv Hv')|auto].
  - intros l IH V w j W D D'. inversion D as [| | | | |? m F]; subst. inversion D' as [| | | | |l' ? F' E1 E2]; subst. f_equal.
    inversion V as [| | | | |? Vl]; subst. inversion W as [| | | | |? Wl]; subst. clear V W D D'.
    revert l' F' Wl IH Vl. induction F as [|[k v] [ku a] l m [Hk Hv] F IHF]; intros l' F' Wl IH Vl;
      inversion F' as [|[k' v'] ? l'' ? [Hk' Hv'] F'']; subst; [reflexivity|].
    inversion IH as [|? ? I1 I2]; inversion Vl as [|? ? [V1 V1'] V2]; inversion Wl as [|? ? [W1 W1'] W2]; subst. cbn [fst snd] in *.
    f_equal; [|auto]. f_equal; [apply utf16_inj; congruence|exact (I1 V1' _ _ W1' Hv Hv')].
Qed.

Theorem faithful_inj : forall d d' t, spelled (VDict d) -> spelled (VDict d') -> faithful d t -> faithful d' t -> d = d'.
Proof.
  intros d d' t V V' (_ & j & J & D & _) (_ & j' & J' & D' & _). assert (Q : j' = j) by congruence. subst j'.
  assert (E := denotes_inj _ V _ _ V' D D'). congruence.
Qed.

Theorem metar_settles : forall e code y mo tr x code' y' mo' tr' x' d d' t,
  metar_parse e code y mo tr = Ok x -> metar_parse e code' y' mo' tr' = Ok x' ->
  metar_dict e x = Ok d -> metar_dict e x' = Ok d' -> spelled (VDict d) -> spelled (VDict d') ->
  metar_json e x = Ok t -> metar_json e x' = Ok t -> same_metar x x'.
Proof.
  intros e code y mo tr x code' y' mo' tr' x' d d' t P P' D D' V V' J J'.
  destruct (C59_metar _ _ _ _ _ _ P) as (d1 & t1 & D1 & J1 & F1). destruct (C59_metar _ _ _ _ _ _ P') as (d2 & t2 & D2 & J2 & F2).
  assert (d1 = d) by congruence. assert (t1 = t) by congruence. assert (d2 = d') by congruence. assert (t2 = t) by congruence. subst d1 t1 d2 t2.
  assert (Q := faithful_inj _ _ _ V V' F1 F2). subst d'. exact (C64_metar_settled _ _ _ _ _ _ _ _ _ _ _ _ P P' D D').
Qed.

Theorem taf_settles : forall e code y mo tr x code' y' mo' tr' x' d d' t,
  taf_parse e code y mo tr = Ok x -> taf_parse e code' y' mo' tr' = Ok x' ->
  taf_dict e x = Ok d -> taf_dict e x' = Ok d' -> spelled (VDict d) -> spelled (VDict d') ->
  taf_json e x = Ok t -> taf_json e x' = Ok t -> same_taf x x'.
Proof.
  intros e code y mo tr x code' y' mo' tr' x' d d' t P P' D D' V V' J J'.
  destruct (C59_taf _ _ _ _ _ _ P) as (d1 & t1 & D1 & J1 & F1). destruct (C59_taf _ _ _ _ _ _ P') as (d2 & t2 & D2 & J2 & F2).
  assert (d1 = d) by congruence. assert (t1 = t) by congruence. assert (d2 = d') by congruence. assert (t2 = t) by congruence. subst d1 t1 d2 t2.
  assert (Q := faithful_inj _ _ _ V V' F1 F2). subst d'. exact (C64_taf_settled _ _ _ _ _ _ _ _ _ _ _ _ P P' D D').
Qed.

(** ** The month *)

Definition scalarb (c : N) : bool := (c <? 55296)%N || ((57343 <? c)%N && (c <? 1114112)%N).
Lemma scalarb_ok : forall s, forallb scalarb s = true -> Forall scalar s.
Proof.
  intros s H. apply Forall_forall. intros c I. rewrite forallb_forall in H. specialize (H c I). unfold scalarb in H. unfold scalar.
  apply orb_prop in H. destruct H as [H|H]; [left; apply N.ltb_lt; exact H|right].
  apply andb_prop in H. split; apply N.ltb_lt; apply H.
Qed.

Lemma member_once : forall (m : list (list N * jval)) k v w, NoDup (map fst m) -> In (k, v) m -> In (k, w) m -> v = w.
Proof.
  intros m k v w N I J. assert (A := find_once m k v N I). rewrite (find_once m k w N J) in A. congruence.
Qed.

Lemma member_says : forall d d' t k a b, faithful d t -> faithful d' t -> entry d k a -> entry d' k b -> exists j, denotes a j /\ denotes b j.
Proof.
  assert (M : forall d m k a, Forall2 (fun p q => fst q = utf16 (fst p) /\ denotes (snd p) (snd q)) d m -> entry d k a ->
    exists j, In (utf16 k, j) m /\ denotes a j).
  { intros d m k a F (u & v & -> & _). apply Forall2_app_inv_l in F. destruct F as (mu & mv & _ & F & ->).
    inversion F as [|? [k' j] ? mv' [Fk Fj] _]; subst. cbn [fst snd] in Fk, Fj. subst k'. exists j. split; [|exact Fj].
    apply in_or_app. right. left. reflexivity. }
  intros d d' t k a b (_ & j & J & D & O) (_ & j' & J' & D' & _) A B. assert (Q : j' = j) by congruence. subst j'.
  inversion D as [| | | | |? m F]; subst. inversion D' as [| | | | |? ? F']; subst. inversion O as [| | | | |? Nd _]; subst.
  destruct (M _ _ _ _ F A) as (v & I & Dv). destruct (M _ _ _ _ F' B) as (w & I' & Dw).
  exists v. rewrite <- (member_once _ _ _ _ Nd I I') in Dw. auto.
Qed.

Lemma digits_scalar : forall k n, Forall scalar (digits k n).
Proof.
  induction k as [|k IH]; intro n; cbn [digits]; [constructor|]. apply Forall_app. split; [apply IH|].
  constructor; [|constructor]. left. assert (H : (n mod 10 < 10)%N) by (apply N.mod_lt; discriminate). unfold dig. lia.
Qed.

Lemma moment_scalar : forall d, Forall scalar (moment_text d).
Proof.
  intro d. unfold moment_text. do 5 (apply Forall_app; split; [apply digits_scalar|try (apply Forall_app; split; [apply scalarb_ok; reflexivity|])]).
  apply scalarb_ok. reflexivity.
Qed.

Lemma time_says_same : forall a b j, real_time (t_dt a) -> real_time (t_dt b) ->
  denotes (VDict (time_dict a)) j -> denotes (VDict (time_dict b)) j -> t_dt a = t_dt b /\ (t_code a = None -> t_code b = None).
Proof.
  intros [ca da] [cb db] j Ra Rb A B. cbn [t_dt t_code] in *.
  change (time_dict (mk_time ca da)) with [(py "datetime", VStr (time_str (mk_time ca da))); (py "code", vopt ca)] in A.
  change (time_dict (mk_time cb db)) with [(py "datetime", VStr (time_str (mk_time cb db))); (py "code", vopt cb)] in B.
  inversion A as [| | | | |? m F]; subst. inversion B as [| | | | |? ? G]; subst. clear A B.
  inversion F as [|? [k1 v1] ? m1 [_ F1] F2]; subst. inversion G as [|? ? ? ? [_ G1] G2]; subst.
  inversion F2 as [|? [k2 v2] ? m2 [_ F3] _]; subst. inversion G2 as [|? ? ? ? [_ G3] _]; subst. cbn [snd] in *. split.
  - rewrite (moment_str (mk_time ca da) Ra) in F1. rewrite (moment_str (mk_time cb db) Rb) in G1. cbn [t_dt] in F1, G1.
    inversion F1; subst. inversion G1 as [| |? H1 H2| | |]; subst. apply (moment_same _ _ Ra Rb). symmetry. apply utf16_inj; auto using moment_scalar.
  - intros ->. cbn [vopt] in F3. inversion F3; subst. destruct cb; [inversion G3|reflexivity].
Qed.

Lemma metar_time_entry : forall e x d, metar_dict e x = Ok d -> entry d (py "time") (VDict (time_dict (me_time x))).
Proof.
  intros e x d E. unfold metar_dict in E.
  destruct (list_dict rvr_dict _) as [d1|]; [|discriminate]. cbn [bind] in E.
  destruct (list_dict weather_dict _) as [d2|]; [|discriminate]. cbn [bind] in E.
  destruct (list_dict cloud_dict _) as [d3|]; [|discriminate]. cbn [bind] in E.
  destruct (list_dict ws_dict _) as [d4|]; [|discriminate]. cbn [bind] in E.
  destruct (list_dict change_period_dict _) as [d5|]; [|discriminate]. cbn [bind] in E.
  match type of E with Ok ?a = Ok d => assert (K : d = a) by congruence end. rewrite K. entry.
Qed.

Lemma taf_time_entry : forall e x d, taf_dict e x = Ok d -> entry d (py "time") (VDict (time_dict (ta_time x))).
Proof.
  intros e x d E. unfold taf_dict in E.
  destruct (list_dict weather_dict _) as [d1|]; [|discriminate]. cbn [bind] in E.
  destruct (list_dict cloud_dict _) as [d2|]; [|discriminate]. cbn [bind] in E.
  destruct (list_dict taf_temp_dict _) as [d3|]; [|discriminate]. cbn [bind] in E.
  destruct (list_dict taf_temp_dict _) as [d4|]; [|discriminate]. cbn [bind] in E.
  destruct (list_dict change_fc_dict _) as [d5|]; [|discriminate]. cbn [bind] in E.
  match type of E with Ok ?a = Ok d => assert (K : d = a) by congruence end. rewrite K. entry.
Qed.

Lemma metar_loose : forall e code y mo tr x, metar_parse e code y mo tr = Ok x -> metar_parse e code y mo false = Ok x.
Proof. intros e code y mo [|] x E; [|exact E]. apply (C40_metar_same _ _ _ _ _ E). discriminate. Qed.

Lemma taf_loose : forall e code y mo tr x, taf_parse e code y mo tr = Ok x -> taf_parse e code y mo false = Ok x.
Proof. intros e code y mo [|] x E; [|exact E]. apply (C40_taf_same _ _ _ _ _ E). discriminate. Qed.

Theorem metar_months : forall e code y mo tr x code' y' mo' tr' x' t, months_ok y mo -> months_ok y' mo' ->
  metar_parse e code (Some y) (Some mo) tr = Ok x -> metar_parse e code' (Some y') (Some mo') tr' = Ok x' ->
  metar_json e x = Ok t -> metar_json e x' = Ok t -> Forall scalar code -> Forall scalar code' ->
  has_ink code -> ~ bare code -> has_ink code' -> ~ bare code' -> y = y' /\ mo = mo' /\ x = x'.
Proof.
  intros e code y mo tr x code' y' mo' tr' x' t M M' P P' J J' H H' I B I' B'.
  destruct (C59_metar _ _ _ _ _ _ P) as (d & t1 & D & J1 & F). destruct (C59_metar _ _ _ _ _ _ P') as (d' & t2 & D' & J2 & F').
  assert (t1 = t) by congruence. assert (t2 = t) by congruence. subst t1 t2.
  destruct (member_says _ _ _ _ _ _ F F' (metar_time_entry _ _ _ D) (metar_time_entry _ _ _ D')) as (j & A & A').
  destruct (time_says_same _ _ _ (proj1 (C63_metar _ _ _ _ _ _ P)) (proj1 (C63_metar _ _ _ _ _ _ P')) A A') as [T _].
  destruct (C63_metar_month e code (Some y) (Some mo) tr x M P) as [Y1 Y2].
  destruct (C63_metar_month e code' (Some y') (Some mo') tr' x' M' P') as [Y1' Y2']. cbn [asked] in *.
  assert (Ey : y' = y) by congruence. assert (Em : mo' = mo) by congruence. rewrite Ey, Em in P'.
  split; [symmetry; exact Ey|]. split; [symmetry; exact Em|].
  exact (metar_same e _ _ _ _ _ _ _ t (metar_loose _ _ _ _ _ _ P) (metar_loose _ _ _ _ _ _ P') J J' H H' I B I' B').
Qed.

Theorem taf_months : forall e code y mo tr x code' y' mo' tr' x' t, months_ok (now_year e) (now_month e) -> months_ok y mo -> months_ok y' mo' ->
  taf_parse e code (Some y) (Some mo) tr = Ok x -> taf_parse e code' (Some y') (Some mo') tr' = Ok x' ->
  taf_json e x = Ok t -> taf_json e x' = Ok t -> Forall scalar code -> Forall scalar code' ->
  has_ink code -> ~ bare code -> has_ink code' -> ~ bare code' -> t_code (ta_time x) <> None -> y = y' /\ mo = mo' /\ x = x'.
Proof.
  intros e code y mo tr x code' y' mo' tr' x' t C M M' P P' J J' H H' I B I' B' N.
  destruct (C59_taf _ _ _ _ _ _ P) as (d & t1 & D & J1 & F). destruct (C59_taf _ _ _ _ _ _ P') as (d' & t2 & D' & J2 & F').
  assert (t1 = t) by congruence. assert (t2 = t) by congruence. subst t1 t2.
  destruct (member_says _ _ _ _ _ _ F F' (taf_time_entry _ _ _ D) (taf_time_entry _ _ _ D')) as (j & A & A').
  destruct (time_says_same _ _ _ (proj1 (C63_taf _ _ _ _ _ _ P')) (proj1 (C63_taf _ _ _ _ _ _ P)) A' A) as [T K].
  destruct (C63_taf_month e code (Some y) (Some mo) tr x C M P) as (_ & Y & _).
  destruct (C63_taf_month e code' (Some y') (Some mo') tr' x' C M' P') as (_ & Y' & _). cbn [asked] in *.
  assert (N' : t_code (ta_time x') <> None) by (intro Q; exact (N (K Q))). destruct (Y N) as [Y1 Y2]. destruct (Y' N') as [Y1' Y2'].
  assert (Ey : y' = y) by congruence. assert (Em : mo' = mo) by congruence. rewrite Ey, Em in P'.
  split; [symmetry; exact Ey|]. split; [symmetry; exact Em|].
  exact (taf_same e _ _ _ _ _ _ _ t (taf_loose _ _ _ _ _ _ P) (taf_loose _ _ _ _ _ _ P') J J' H H' I B I' B').
Qed.

(** ** Checks used by the examples *)

Fixpoint spelledb (v : pyval) : bool :=
  match v with
  | VStr s => forallb scalarb s
  | VList l => forallb spelledb l
  | VDict d => forallb (fun kv => forallb scalarb (fst kv) && spelledb (snd kv)) d
  | _ => true
  end.

Lemma spelledb_ok : forall v, spelledb v = true -> spelled v.
Proof.
  apply (pyval_rect' (fun v => spelledb v = true -> spelled v)); try (intros; constructor; fail).
  - intros s H. constructor. exact (scalarb_ok s H).
  - intros l IH H. constructor. cbn [spelledb] in H. rewrite forallb_forall in H. rewrite Forall_forall in *. auto.
  - intros d IH H. constructor. cbn [spelledb] in H. rewrite forallb_forall in H. rewrite Forall_forall in *.
    intros kv I. specialize (H kv I). apply andb_prop in H. split; [apply scalarb_ok; apply H|exact (IH kv I (proj2 H))].
Qed.

Lemma plain_odd : Forall scalar odd_groups /\ has_ink odd_groups /\ ~ bare odd_groups.
Proof.
  split; [apply scalarb_ok; vm_compute; reflexivity|]. split.
  - exists 77%N. split; [left; reflexivity|]. intro B. discriminate B.
  - intros (a & q & b & E & N & F & _). destruct q as [|c q]; [contradiction|]. inversion F as [|? ? Hc _]; subst.
    assert (I : In 61%N odd_groups) by (rewrite E; apply in_or_app; right; left; reflexivity).
    vm_compute in I. repeat (destruct I as [I|I]; [discriminate I|]). exact I.
Qed.
