(** * Stations (C49) *)
From Coq Require Import String Ascii.
From Coq Require Import List NArith ZArith Bool Lia FMapPositive.
From Verif Require Import PyBase PyRegex AeroRegex PyFloat PyTime Utils Base MetarGroups Trend Metar Taf Stations
  SpecFailures SpecStation StrFacts RegexPaths Captures Outcomes ProofText ProofProb ProofGroups ProofValues OutMetar ProofAbsent ProofCor ProofTafHead.
Import ListNotations.
Local Open Scope string_scope.
Local Open Scope nat_scope.
Local Open Scope list_scope.

(** ** The tables *)

Definition none_text : str := py "None".

(** Some number for a text; no two codes of the table share theirs. *)
Definition text_key (s : str) : positive := fold_left (fun p c => (p * 128 + N.succ_pos c)%positive) s 1%positive.
Fixpoint fresh (l : list positive) (m : PositiveMap.t unit) : bool :=
  match l with
  | [] => true
  | k :: l' => match PositiveMap.find k m with Some _ => false | None => fresh l' (PositiveMap.add k tt m) end
  end.

Lemma fresh_nodup : forall l m, fresh l m = true -> NoDup l /\ forall k, In k l -> PositiveMap.find k m = None.
Proof.
  induction l as [|k l IH]; intros m H; [split; [constructor|contradiction]|]. cbn [fresh] in H.
  destruct (PositiveMap.find k m) eqn:F; [discriminate|]. destruct (IH _ H) as [N D]. split.
  - constructor; [|exact N]. intro I. apply D in I. rewrite PositiveMap.gss in I. discriminate.
  - intros j [<-|I]; [exact F|]. pose proof (D j I) as K. destruct (Pos.eq_dec j k) as [->|Ne].
    + exact F.
    + rewrite PositiveMap.gso in K by exact Ne. exact K.
Qed.

Definition row_code (r : list str) : str := nth 1 r [].
Definition coded (l : list (list str)) : list (list str) := filter (fun r => negb (str_eqb (row_code r) none_text)) l.
Definition no_country : list str := map py ["CS"; "DN"; "TP"; "AN"].
Definition eight (r : list str) : bool := Nat.eqb (length r) 8.
Definition country_ok (r : list str) : bool :=
  match assoc (nth 7 r []) COUNTRIES with Some _ => true | None => existsb (str_eqb (nth 7 r [])) no_country end.

Lemma table_rows : forallb eight STATIONS = true.
Proof. vm_compute. reflexivity. Qed.
Lemma table_codes : fresh (map (fun r => text_key (row_code r)) (coded STATIONS)) (PositiveMap.empty unit) = true.
Proof. vm_compute. reflexivity. Qed.
Lemma table_countries : forallb country_ok STATIONS = true.
Proof. vm_compute. reflexivity. Qed.

Local Opaque STATIONS COUNTRIES.

Lemma nodup_index : forall A B (f : A -> B) (P : A -> bool) l i j r r', NoDup (map f (filter P l)) ->
  nth_error l i = Some r -> nth_error l j = Some r' -> P r = true -> P r' = true -> f r = f r' -> i = j.
Proof.
  intros A B f P l. induction l as [|a l IH]; intros i j r r' N Ei Ej Hr Hr' F; [destruct i; discriminate|].
  assert (Sub : forall n x, nth_error l n = Some x -> P x = true -> In (f x) (map f (filter P l))).
  { intros n x E Hx. apply in_map, filter_In. split; [exact (nth_error_In _ _ E)|exact Hx]. }
  cbn [filter] in N. destruct i as [|i], j as [|j]; cbn [nth_error] in Ei, Ej.
  - reflexivity.
  - injection Ei as ->. rewrite Hr in N. cbn [map] in N. inversion N as [|x y K _]; subst. destruct K. rewrite F. exact (Sub _ _ Ej Hr').
  - injection Ej as ->. rewrite Hr' in N. cbn [map] in N. inversion N as [|x y K _]; subst. destruct K. rewrite <- F. exact (Sub _ _ Ei Hr).
  - f_equal. apply (IH i j r r'); try assumption. destruct (P a); [|exact N]. cbn [map] in N. inversion N; assumption.
Qed.

Lemma code_of_row : forall r c, icao_of r = Some c -> row_code r = c.
Proof. intros r c E. unfold row_code. apply nth_error_nth. exact E. Qed.

Lemma unique_row : forall i j r r' c, c <> none_text -> nth_error STATIONS i = Some r -> nth_error STATIONS j = Some r' ->
  icao_of r = Some c -> icao_of r' = Some c -> i = j.
Proof.
  intros i j r r' c Nc Ei Ej Er Er'. apply code_of_row in Er. apply code_of_row in Er'.
  pose proof (fresh_nodup _ _ table_codes) as [N _].
  refine (nodup_index _ _ _ _ _ i j r r' N Ei Ej _ _ _).
  - cbv beta. rewrite Er. apply negb_true_iff, str_eqb_neq. exact Nc.
  - cbv beta. rewrite Er'. apply negb_true_iff, str_eqb_neq. exact Nc.
  - cbv beta. rewrite Er, Er'. reflexivity.
Qed.

Lemma assoc_some : forall A k (l : list (str * A)) v, assoc k l = Some v -> In (k, v) l.
Proof.
  intros A k l v. induction l as [|[k' v'] l IH]; cbn [assoc]; intro E; [discriminate|].
  destruct (str_eqb k k') eqn:K; [|right; exact (IH E)]. apply str_eqb_eq in K. left. congruence.
Qed.
Lemma assoc_none : forall A k (l : list (str * A)) v, assoc k l = None -> ~ In (k, v) l.
Proof.
  intros A k l v. induction l as [|[k' v'] l IH]; cbn [assoc]; intros E I; [contradiction|].
  destruct (str_eqb k k') eqn:K; [discriminate|]. destruct I as [I|I]; [|exact (IH E I)].
  injection I as -> _. rewrite str_eqb_refl in K. discriminate.
Qed.

Lemma row_eight : forall r, In r STATIONS -> exists a b c d e f g h, r = [a; b; c; d; e; f; g; h].
Proof.
  intros r I. pose proof (proj1 (forallb_forall _ _) table_rows r I) as L. apply Nat.eqb_eq in L.
  destruct r as [|a [|b [|c [|d [|e [|f [|g [|h [|i r]]]]]]]]]; try discriminate L. do 8 eexists. reflexivity.
Qed.

Lemma row_country : forall r, In r STATIONS ->
  exists c, nth_error r 7 = Some c /\ ((exists n, In (c, n) COUNTRIES) \/ In c no_country).
Proof.
  intros r I. pose proof (proj1 (forallb_forall _ _) table_countries r I) as K. unfold country_ok in K.
  destruct (row_eight r I) as (a & b & c & d & e & f & g & h & ->). cbn [nth nth_error] in *. exists h. split; [reflexivity|].
  destruct (assoc h COUNTRIES) as [n|] eqn:A; [left; exists n; exact (assoc_some _ _ _ _ A)|right].
  apply existsb_exists in K. destruct K as (x & Ix & Ex). apply str_eqb_eq in Ex. subst x. exact Ix.
Qed.

(** ** The lookup *)

Definition has_code (c : str) (row : list str) : bool := match nth_error row 1 with Some x => str_eqb c x | None => false end.

Lemma find_nth : forall A (f : A -> bool) l x, find f l = Some x -> exists i, nth_error l i = Some x /\ f x = true.
Proof.
  intros A f l x E. pose proof (find_some _ _ E) as [I F]. apply In_nth_error in I. destruct I as (i & I). exists i. auto.
Qed.

Lemma station_found : forall y mo c, c <> none_text -> looked_up (database y mo) c (station_new (database y mo) (Some c)).
Proof.
  intros y mo c Nc. unfold station_new. cbn [stations database].
  change (fun row : list str => match nth_error row 1 with Some x => str_eqb c x | None => false end) with (has_code c).
  destruct (find (has_code c) STATIONS) as [row|] eqn:F.
  - left. exists row. apply find_nth in F. destruct F as (i & Ei & Hc).
    assert (Ic : icao_of row = Some c).
    { unfold has_code in Hc. unfold icao_of. destruct (nth_error row 1) as [x|]; [|discriminate]. apply str_eqb_eq in Hc. congruence. }
    split.
    + exists i. split; [exact Ei|]. split; [exact Ic|]. intros j r Ej Er. exact (unique_row j i r row c Nc Ej Ei Er Ic).
    + destruct (row_eight row (nth_error_In _ _ Ei)) as (a & b & d & f & g & h & k & l & ->).
      exists a, b, d, f, g, h, k, l. conjs; try reflexivity.
      unfold country_named, st_country, st_field. cbn [map nth_error st_row database countries dict_get].
      destruct (assoc l COUNTRIES) as [n|] eqn:A; [exact (assoc_some _ _ _ _ A)|intro n; exact (assoc_none _ _ _ _ A)].
  - right. split.
    + intros r I E. pose proof (find_none _ _ F r I) as K. unfold has_code in K. unfold icao_of in E. rewrite E in K.
      rewrite str_eqb_refl in K. discriminate.
    + unfold unknown. conjs; reflexivity.
Qed.

(** ** The station of a report *)

(** A pattern that closes with $ leaves nothing but a final newline. *)
Fixpoint closed_end (r : regex) : bool :=
  match r with
  | Eos => true
  | Seq _ b => closed_end b
  | Alt a b => closed_end a && closed_end b
  | Grp _ r => closed_end r
  | _ => false
  end.
Lemma run_end : forall r pos s p t sp, closed_end r = true -> In (p, t, sp) (run r pos s) -> at_end t = true.
Proof.
  induction r as [|k|a IHa b IHb|a IHa b IHb|k|n r IH| |]; intros pos s p t sp C H; cbn [closed_end run] in *; try discriminate C.
  - apply in_flat_map in H. destruct H as ([[p1 s1] k1] & _ & H2). apply in_map_iff in H2.
    destruct H2 as ([[p2 s2] k2] & E & H2). injection E as <- <- <-. exact (IHb _ _ _ _ _ C H2).
  - apply andb_true_iff in C. destruct C as [C1 C2]. apply in_app_or in H. destruct H as [H|H]; [exact (IHa _ _ _ _ _ C1 H)|exact (IHb _ _ _ _ _ C2 H)].
  - apply in_map_iff in H. destruct H as ([[p1 s1] k1] & E & H). injection E as <- <- <-. exact (IH _ _ _ _ _ C H).
  - destruct (at_end s) eqn:A; [|destruct H]. destruct H as [H|[]]. injection H as <- <- <-. exact A.
Qed.

Lemma app_eq_length : forall (a b c d : str), a ++ b = c ++ d -> length a = length c -> a = c /\ b = d.
Proof.
  induction a as [|x a IH]; intros b [|y c] d E L; try discriminate L; [split; [reflexivity|exact E]|].
  cbn [app] in E. injection E as <- E. cbn [length] in L. destruct (IH b c d E) as [<- <-]; [lia|]. auto.
Qed.

Theorem match_closed : forall r s m (f : cpath -> bool), starfree r = true -> closed_end r = true -> forallb f (cpaths r) = true ->
  re_match r s = Some m -> exists q x t, f q = true /\ follows s m q x t /\ at_end t = true.
Proof.
  intros r s m f F C Hf H. unfold re_match in H. destruct (run r 0 s) as [|[[e t] sp] l] eqn:E; [discriminate|].
  assert (I : In (e, t, sp) (run r 0 s)) by (rewrite E; left; reflexivity).
  assert (M : re_match r s = Some m) by (unfold re_match; rewrite E; exact H).
  pose proof (run_end r 0 s e t sp C I) as A. injection H as H.
  destruct (match_follows_end r s m F M) as (q & x & t' & Iq & Fo & En). exists q, x, t'.
  split; [exact (proj1 (forallb_forall _ _) Hf q Iq)|]. split; [exact Fo|].
  destruct (run_cpaths r s 0 e t sp F I) as (q2 & x2 & _ & Es & Ep & _ & _).
  destruct Fo as (Fs & _). rewrite <- H in En. cbn [m_end] in En. rewrite Ep in En. cbn [plus] in En.
  rewrite Es in Fs. apply app_eq_length in Fs; [|exact En]. destruct Fs as [_ <-]. exact A.
Qed.

(** The word of a station group is not None and has no underscore. *)
Definition clean_cls (k : cls) : bool := negb (in_cls 95%N k) && negb (in_cls 111%N k).
Lemma station_checks : starfree r_STATION && closed_end r_STATION
  && forallb (fun q => Nat.eqb (length (fst q)) 4 && forallb clean_cls (fst q)) (cpaths r_STATION) = true.
Proof. vm_compute. reflexivity. Qed.

Lemma station_text : forall g m, re_match r_STATION g = Some m ->
  m_string m <> none_text /\ group_code (Some (m_string m)) = Some (m_string m).
Proof.
  intros g m M. pose proof station_checks as K. rewrite !andb_true_iff in K. destruct K as ((F & C) & P).
  destruct (match_closed _ _ _ _ F C P M) as (q & x & t & Q & (Es & Em & A & _) & At).
  apply andb_true_iff in Q. destruct Q as [L Q]. apply Nat.eqb_eq in L.
  assert (Out : forall c, In c x -> c <> 95%N /\ c <> 111%N).
  { intros c Ic. clear - A Q Ic. revert A Q. generalize (fst q). intro ks. revert ks. induction x as [|d x IH]; intros ks A Q; [contradiction|].
    inversion A as [|a b u v H1 H2]; subst. cbn [forallb] in Q. apply andb_true_iff in Q. destruct Q as [Q1 Q2].
    destruct Ic as [->|Ic]; [|exact (IH Ic _ H2 Q2)]. unfold clean_cls in Q1. apply andb_true_iff in Q1.
    destruct Q1 as [Q1 Q3]. apply negb_true_iff in Q1. apply negb_true_iff in Q3. split; intros ->; congruence. }
  assert (Ot : forall c, In c t -> c = 10%N).
  { intros c Ic. destruct t as [|d [|d2 t]]; [contradiction| |discriminate At]. cbn [at_end] in At. apply N.eqb_eq in At.
    destruct Ic as [<-|[]]. exact At. }
  rewrite Em, Es. split.
  - intro K. apply along_length in A. rewrite L in A. unfold none_text in K.
    do 2 (destruct x as [|? x]; [discriminate A|]). cbn [app py] in K. 
    assert (I : In 111%N (n :: n0 :: x)) by (injection K as _ K _; right; left; exact K).
    destruct (Out _ I) as [_ H]. congruence.
  - apply group_code_id. intro I. apply in_app_or in I. destruct I as [I|I].
    + destruct (Out _ I) as [H _]. congruence.
    + apply Ot in I. discriminate.
Qed.

Lemma station_matched : forall y mo g m, re_match r_STATION g = Some m ->
  station_right (database y mo) (station_new (database y mo) (Some (m_string m))).
Proof.
  intros y mo g m M. destruct (station_text g m M) as [N E]. unfold station_right.
  change (st_code (station_new (database y mo) (Some (m_string m)))) with (group_code (Some (m_string m))). rewrite E.
  exact (station_found y mo _ N).
Qed.
Lemma station_nothing : forall y mo, station_right (database y mo) (station_new (database y mo) None).
Proof. intros y mo. unfold station_right, unknown. cbn [station_new st_code group_code option_map]. conjs; reflexivity. Qed.

(** What the handlers keep when matched by their own pattern, parsing keeps. *)
Lemma section_matched : forall S (J : S -> Prop) (hs : list (handler S)) sec st st' un',
  (forall h g m s s', In h hs -> re_match (h_regexp h) g = Some m -> h_handle h m s = Ok s' -> J s -> J s') ->
  J st -> parse_section hs sec st = Ok (st', un') -> J st'.
Proof.
  intros S J hs sec st st' un' Step H E.
  pose proof (parse_section_outcome S hs (fun _ => J) (fun _ _ => True) sec st) as K. cbv beta in K. rewrite E in K.
  destruct K as (k & K); [auto| |exact H|exact K].
  intros k h g m s Ek _ Em Hs. destruct (h_handle h m s) as [s'|] eqn:Eh; [|exact I].
  exact (Step h g m s s' (nth_error_In _ _ Ek) Em Eh Hs).
Qed.

Lemma metar_station : forall y mo code year month tr x, metar_parse (database y mo) code year month tr = Ok x ->
  station_right (database y mo) (me_station x).
Proof.
  intros y mo code year month tr x E. unfold metar_parse in E. destruct (report_raw_code code) as [raw|]; [|discriminate]. cbn [bind] in E.
  destruct (metar_init (database y mo) raw year month) as [x0|] eqn:E0; [|discriminate]. cbn [bind] in E.
  destruct (parse_body _ year month x0) as [x1|] eqn:E1; [|discriminate]. cbn [bind] in E.
  apply trend_section_keep in E. destruct E as (-> & _ & _).
  unfold parse_body in E1. destruct (parse_section _ _ x0) as [[x2 un]|] eqn:E2; [|discriminate]. cbn [bind] in E1.
  replace x1 with (upd_unparsed (me_unparsed x2 ++ un) x2) by congruence. cbn [me_station upd_unparsed].
  refine (section_matched _ (fun x => station_right (database y mo) (me_station x)) _ _ _ _ _ _ _ E2); cbv beta.
  - intros h g m s s' I M Eh Hs. unfold metar_handlers in I. cbn [In] in I.
    repeat (destruct I as [<-|I]; [cbn [h_handle h_regexp] in Eh, M|]); try contradiction;
      unfold lift, handle_type, handle_station, handle_time, handle_modifier, handle_wind_variation, handle_minimum_visibility,
        handle_runway_range, handle_temperatures, handle_pressure, handle_recent_weather, handle_windshear, handle_sea_state,
        handle_runway_state in Eh; cbv zeta in Eh; binds Eh;
      match type of Eh with Ok ?a = Ok ?z => replace (me_station z) with (me_station a) by congruence end;
      first [exact Hs|exact (station_matched y mo g m M)].
  - unfold metar_init in E0. binds E0. match type of E0 with Ok ?a = Ok ?z => replace (me_station z) with (me_station a) by congruence end.
    exact (station_nothing y mo).
Qed.

Lemma taf_station : forall y mo code year month tr x, taf_parse (database y mo) code year month tr = Ok x ->
  station_right (database y mo) (ta_station x).
Proof.
  intros y mo code year month tr x E. unfold taf_parse in E. destruct (report_raw_code code) as [raw|]; [|discriminate]. cbn [bind] in E.
  destruct (taf_init (database y mo) raw) as [x0|] eqn:E0; [|discriminate]. cbn [bind] in E.
  destruct (taf_parse_body _ year month x0) as [x1|] eqn:E1; [|discriminate]. cbn [bind] in E.
  assert (G : ta_station x = ta_station x1).
  { unfold parse_changes_forecasted in E. destruct (handle_changes (ta_codes x1) x1) as [x3|] eqn:E3; [|discriminate]. cbn [bind] in E.
    rewrite <- (changes_station _ _ _ E3). destruct (gl_collect (ta_changes x3)) as [l g]. cbv zeta in E.
    match type of E with match ?u with _ => _ end = _ => destruct u end; [|destruct tr; [discriminate E|]];
      match type of E with Ok ?a = _ => replace x with a by congruence end; reflexivity. }
  rewrite G. unfold taf_parse_body in E1. destruct (parse_section _ _ x0) as [[x2 un]|] eqn:E2; [|discriminate]. cbn [bind] in E1.
  replace x1 with (tupd_unparsed (ta_unparsed x2 ++ un) x2) by congruence. cbn [ta_station tupd_unparsed].
  refine (section_matched _ (fun x => station_right (database y mo) (ta_station x)) _ _ _ _ _ _ _ E2); cbv beta.
  - intros h g m s s' I M Eh Hs. unfold taf_handlers in I. cbn [In] in I.
    repeat (destruct I as [<-|I]; [cbn [h_handle h_regexp] in Eh, M|]); try contradiction;
      unfold tlift, thandle_type, thandle_station, thandle_time, thandle_modifier, thandle_missing, thandle_valid, thandle_cancelled,
        thandle_temperature in Eh; cbv zeta in Eh; binds Eh;
      try (destruct (opt_str_eqb (group m "type") (py "X")); binds Eh);
      match type of Eh with Ok ?a = Ok ?z => replace (ta_station z) with (ta_station a) by congruence end;
      first [exact Hs|exact (station_matched y mo g m M)].
  - unfold taf_init in E0. destruct (taf_split raw) as [b cs]. binds E0. match type of E0 with Ok ?a = Ok ?z => replace (ta_station z) with (ta_station a) by congruence end.
    exact (station_nothing y mo).
Qed.
