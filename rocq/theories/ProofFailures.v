(** * Visibilities and clouds accepted by the patterns; proofs for PropsFailures *)
From Coq Require Import String Ascii.
From Coq Require Import List NArith ZArith Bool Lia.
From Verif Require Import PyBase PyRegex AeroRegex PyFloat PyTime Utils Base MetarGroups Trend Metar Taf SpecNum SpecTime SpecMetar SpecFailures
  StrFacts RegexPaths Captures Outcomes OutTime OutMetar Keeps OutReport OutCalm.
Import ListNotations.
Local Open Scope string_scope.
Local Open Scope nat_scope.
Local Open Scope list_scope.

Definition well_written (g : str) : Prop :=
  forall x, contains g x -> ~ over_zero x /\ ~ fraction_km x /\ ~ no_direction x.

Lemma well_written_fine : forall A g (r : result A), well_written g -> outcome (vis_cause g) any r -> exists a, r = Ok a.
Proof.
  intros A g [a|e] H O; [exists a; reflexivity|]. exfalso.
  destruct e; cbn in O; try contradiction; destruct O as (x & C & F); destruct (H x C) as (H1 & H2 & H3); auto.
Qed.

Lemma prevailing_fine : forall r g m, In r [r_VISIBILITY; r_T_VISIBILITY] -> re_match r g = Some m -> well_written g ->
  exists v, prevailing_new (Some m) = Ok v.
Proof.
  intros r g m I M H. apply (well_written_fine _ g); [exact H|].
  destruct vis_checks_ok as (C1 & C2 & _). destruct I as [<-|[<-|[]]].
  - exact (prevailing_outcome r_VISIBILITY g m C1 M).
  - exact (prevailing_outcome r_T_VISIBILITY g m C2 M).
Qed.
Lemma minimum_fine : forall g m, re_match r_MINIMUM_VISIBILITY g = Some m -> well_written g ->
  exists v, minimum_visibility_new (Some m) = Ok v.
Proof.
  intros g m M H. apply (well_written_fine _ g); [exact H|].
  destruct vis_checks_ok as (_ & _ & C). exact (minimum_outcome r_MINIMUM_VISIBILITY g m C M).
Qed.

(** ** Clouds *)

Definition cover_words : list str :=
  [py "VV"; py "CLR"; py "SKC"; py "NSC"; py "NCD"; py "BKN"; py "SCT"; py "FEW"; py "OVC"; py "///"].
Definition one_of (ws : list str) (ks : list cls) : bool :=
  existsb (fun w => spells w ks) ws.

Lemma o_or_zero : forall x k, in_cls x k = true -> single_cls [79; 48]%N k = true -> x = 79%N \/ x = 48%N.
Proof. intros x k H S. destruct (in_single _ _ _ S H) as [E|[E|[]]]; auto. Qed.

Definition ovc_path (ks : list cls) : bool :=
  match ks with k :: ks' => single_cls [79; 48]%N k && spells (py "VC") ks' | [] => false end.

Lemma cover_paths : group_ok "cover" (fun ks => one_of cover_words ks || ovc_path ks) r_CLOUD = true.
Proof. vm_compute. reflexivity. Qed.

Lemma cover_cases : forall g m c, re_match r_CLOUD g = Some m -> group m "cover" = Some c ->
  In c cover_words \/ c = py "0VC".
Proof.
  intros g m c M E. pose proof cloud_checks as C. rewrite !andb_true_iff in C. destruct C as ((F & _) & _).
  destruct (group_ok_along _ _ _ _ _ _ F cover_paths M E) as (ks & A & K). apply orb_true_iff in K. destruct K as [K|K].
  - left. unfold one_of in K. apply existsb_exists in K. destruct K as (w & I & K). rewrite (spells_ok w ks c K A). exact I.
  - destruct ks as [|k ks]; [discriminate|]. cbn [ovc_path] in K. apply andb_true_iff in K. destruct K as [K1 K2].
    apply along_cons in A. destruct A as (d & x & -> & Hd & A). rewrite (spells_ok _ _ _ K2 A).
    destruct (o_or_zero d k Hd K1) as [->| ->]; [left; unfold cover_words; cbn; tauto|right; reflexivity].
Qed.

Lemma re_match_string : forall r s m, re_match r s = Some m -> m_string m = s.
Proof.
  intros r s m H. unfold re_match in H. destruct (run r 0 s) as [|[[e t] sp] l]; [discriminate|]. injection H as <-. reflexivity.
Qed.

Lemma cover_meaning : forall g m, re_match r_CLOUD g = Some m -> ~ contains g (py "0VC") ->
  exists c d, cloud_from_metar (Some m) = Ok c /\ cl_cover c = Some d.
Proof.
  intros g m M N. destruct (cloud_fine g m M) as (c & E). exists c. pose proof E as E0. unfold cloud_from_metar in E.
  destruct (group m "cover") as [cv|] eqn:Ec; [|discriminate]. cbv zeta in E.
  assert (Cv : cl_cover c = assoc cv SKY_COVER).
  { destruct (group m "height") as [h|]; [|injection E as <-; reflexivity].
    destruct (str_eqb h (py "///")); [injection E as <-; reflexivity|].
    destruct (float_of_str (h ++ py "00")) as [x|ex]; [|discriminate]. cbn [bind] in E. injection E as <-. reflexivity. }
  rewrite Cv. destruct (cover_cases g m cv M Ec) as [I| ->].
  - unfold cover_words in I. cbn [In] in I.
    repeat (destruct I as [<-|I]; [eexists; split; [exact E0|reflexivity]|]). contradiction.
  - exfalso. apply N. apply group_part in Ec. rewrite (re_match_string _ _ _ M) in Ec. exact Ec.
Qed.

(** ** Trends *)

Lemma few_trends : forall e code year month tr, clock_wf e -> month_wf e year month ->
  places trend_words (unsigned code) <= 2 -> metar_parse e code year month tr <> Raise RangeError.
Proof.
  intros e code year month tr C W L H. pose proof (metar_outcome e code year month tr RangeError C W H) as F.
  cbn in F. destruct F as (_ & _ & F). lia.
Qed.

(** ** Truncation *)

Lemma metar_parser_error : forall e code y mo,
  metar_parse e code y mo true = Raise ParserError
  <-> exists x, metar_parse e code y mo false = Ok x /\ me_unparsed x <> [].
Proof.
  intros e code y mo. pose proof (metar_truncate e code y mo) as T. split.
  - intro H. destruct (metar_parse e code y mo false) as [x|ex].
    + exists x. split; [reflexivity|]. destruct (me_unparsed x); [congruence|discriminate].
    + destruct T as [T N]. congruence.
  - intros (x & E & N). rewrite E in T. destruct (me_unparsed x); [contradiction|exact T].
Qed.
Lemma metar_same : forall e code y mo r, metar_parse e code y mo true = r -> r <> Raise ParserError ->
  metar_parse e code y mo false = r.
Proof.
  intros e code y mo r H N. pose proof (metar_truncate e code y mo) as T. destruct (metar_parse e code y mo false) as [x|ex].
  - destruct (me_unparsed x); [congruence|]. congruence.
  - destruct T as [T _]. congruence.
Qed.
Lemma taf_parser_error : forall e code y mo,
  taf_parse e code y mo true = Raise ParserError
  <-> exists x, taf_parse e code y mo false = Ok x /\ ta_unparsed x <> [].
Proof.
  intros e code y mo. pose proof (taf_truncate e code y mo) as T. split.
  - intro H. destruct (taf_parse e code y mo false) as [x|ex].
    + exists x. split; [reflexivity|]. destruct (ta_unparsed x); [congruence|discriminate].
    + destruct T as [T N]. congruence.
  - intros (x & E & N). rewrite E in T. destruct (ta_unparsed x); [contradiction|exact T].
Qed.
Lemma taf_same : forall e code y mo r, taf_parse e code y mo true = r -> r <> Raise ParserError ->
  taf_parse e code y mo false = r.
Proof.
  intros e code y mo r H N. pose proof (taf_truncate e code y mo) as T. destruct (taf_parse e code y mo false) as [x|ex].
  - destruct (ta_unparsed x); [congruence|]. congruence.
  - destruct T as [T _]. congruence.
Qed.

(** ** Lists *)

Lemma body_no_range : forall e raw y mo x, metar_init e raw y mo = Ok x ->
  match parse_body e y mo x with
  | Ok x' => length (gl_list (me_rvr x')) <= 3 /\ length (gl_list (c_weathers (me_common x'))) <= 3
             /\ length (gl_list (c_clouds (me_common x'))) <= 4 /\ length (gl_list (me_ws x')) <= 3
  | Raise ex => ex <> RangeError
  end.
Proof.
  intros e raw y mo x H. unfold parse_body.
  pose proof (body_lists e y mo (sanitize_body (section 0 (me_sections x))) x (init_lists e raw y mo x H)) as P.
  destruct (parse_section _ _ x) as [[x' un]|ex]; cbn [bind]; exact P.
Qed.
