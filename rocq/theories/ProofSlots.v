(** * Facts about the text of the documented groups

    Each group is an ordinary word of a report, and is not taken by the slot
    of an earlier group. *)
From Coq Require Import String Ascii.
From Coq Require Import List NArith ZArith Bool Lia.
From Verif Require Import PyBase PyRegex AeroRegex SpecNum SpecGroups SpecText SpecWords SymRegex ProofGroups GroupShapes.
Import ListNotations.
Local Open Scope string_scope.
Local Open Scope nat_scope.
Local Open Scope list_scope.

Definition is_nil {A} (l : list A) : bool := match l with [] => true | _ => false end.
(** None of the patterns can match a text of the shape. *)
Definition free_of (rs : list regex) (y : list sym) : bool :=
  forallb (fun r => is_nil (smay r 0 y)) rs.

Lemma free_none : forall rs all s, shaped all s -> forallb (free_of rs) all = true ->
  forall r, In r rs -> re_match r s = None.
Proof.
  intros rs all s (y & Hy & Hi) H r Hr. rewrite forallb_forall in H. specialize (H y Hy).
  unfold free_of in H. rewrite forallb_forall in H. specialize (H r Hr).
  apply (smay_none r s y Hi). destruct (smay r 0 y); [reflexivity|discriminate H].
Qed.

(** ** Ordinary words *)

Fixpoint may_start (p : str) (y : list sym) : bool :=
  match p, y with
  | [], _ => true
  | c :: p', k :: y' => existsb (N.eqb c) k && may_start p' y'
  | _ :: _, [] => false
  end.
Lemma may_start_ok : forall p s y, inst s y -> starts_with p s = true -> may_start p y = true.
Proof.
  induction p as [|c p IH]; intros s y Hi H; [reflexivity|].
  destruct Hi as [|d k s y Hd Hi]; cbn in *; [discriminate|]. apply andb_true_iff in H. destruct H as [H1 H2].
  rewrite (IH _ _ Hi H2), andb_true_r. apply existsb_exists. exists d. split; [exact Hd|exact H1].
Qed.
Lemma inst_rev : forall s y, inst s y -> inst (rev s) (rev y).
Proof.
  intros s y H. induction H as [|c k s y Hc H IH]; [constructor|]. cbn [rev]. apply inst_app; [exact IH|].
  constructor; [exact Hc|constructor].
Qed.
Definition may_end (p : str) (y : list sym) : bool := may_start (rev p) (rev y).
Lemma may_end_ok : forall p s y, inst s y -> ends_with p s = true -> may_end p y = true.
Proof. intros p s y Hi H. exact (may_start_ok _ _ _ (inst_rev _ _ Hi) H). Qed.

Definition some_digit (k : sym) : bool := existsb is_digit k.
Definition has (c : N) (k : sym) : bool := existsb (N.eqb c) k.
Definition may_frac (y : list sym) : bool :=
  match y with
  | a :: s :: b :: m :: n :: _ => some_digit a && some_digit b && (has 47 s && has 83 m && has 77 n)%N
  | _ => false
  end.
Lemma has_in : forall c k, In c k -> has c k = true.
Proof. intros c k H. apply existsb_exists. exists c. split; [exact H|apply N.eqb_refl]. Qed.
Lemma may_frac_ok : forall s y, inst s y -> frac_like s = true -> may_frac y = true.
Proof.
  intros s y Hi H.
  destruct Hi as [|a ka s y Ha Hi]; [discriminate|]. destruct Hi as [|c kc s y Hc Hi]; [discriminate|].
  destruct Hi as [|b kb s y Hb Hi]; [discriminate|]. destruct Hi as [|m km s y Hm Hi]; [discriminate|].
  destruct Hi as [|n kn s y Hn Hi]; [discriminate|].
  cbn [frac_like] in H. apply andb_true_iff in H. destruct H as [H H3]. apply andb_true_iff in H. destruct H as [H1 H2].
  apply str_eqb_eq in H3. injection H3 as -> -> ->. cbn [may_frac].
  rewrite !has_in by assumption.
  assert (E : forall d k, In d k -> is_digit d = true -> some_digit k = true)
    by (intros d k K1 K2; apply existsb_exists; exists d; auto).
  rewrite (E a ka Ha H1), (E b kb Hb H2). reflexivity.
Qed.

Definition some_keywords : list str := section_words ++ change_words.
(** An ordinary word: printed characters only, none of them special, no
    beginning or end that the sanitizers or the splitting into sections look
    for. *)
Definition ordinary (s : str) : Prop :=
  word s /\ ~ In 124%N s /\ ~ In 61%N s /\ ~ In 95%N s /\ begins_any some_keywords s = false
  /\ ends_with (py "WS") s = false /\ ends_with (py "TAF") s = false
  /\ ends_with (py "PROB30") s = false /\ ends_with (py "PROB40") s = false.
Definition printed (c : N) : bool :=
  negb (is_space c) && negb (c =? 124)%N && negb (c =? 61)%N && negb (c =? 95)%N.
Definition ordinary_b (y : list sym) : bool :=
  negb (is_nil y) && forallb (forallb printed) y && negb (existsb (fun p => may_start p y) some_keywords)
  && negb (existsb (fun p => may_end p y) [py "WS"; py "TAF"; py "PROB30"; py "PROB40"]).
Lemma ordinary_inst : forall s y, inst s y -> ordinary_b y = true -> ordinary s.
Proof.
  intros s y Hi H. unfold ordinary_b in H. rewrite !andb_true_iff, !negb_true_iff in H.
  destruct H as (((H1 & H2) & H3) & H4).
  assert (P : Forall (fun c => printed c = true) s).
  { rewrite forallb_forall in H2. clear -Hi H2. induction Hi as [|c k s y Hc Hi IH]; constructor.
    - specialize (H2 k (or_introl eq_refl)). rewrite forallb_forall in H2. exact (H2 c Hc).
    - apply IH. intros x Hx. apply H2. right. exact Hx. }
  assert (N0 : forall c, printed c = false -> ~ In c s).
  { intros c Hc K. rewrite Forall_forall in P. rewrite (P c K) in Hc. discriminate. }
  assert (En : forall p, In p [py "WS"; py "TAF"; py "PROB30"; py "PROB40"] -> ends_with p s = false).
  { intros p Hp. destruct (ends_with p s) eqn:E; [|reflexivity]. apply (may_end_ok _ _ _ Hi) in E.
    rewrite <- not_true_iff_false in H4. destruct H4. apply existsb_exists. exists p. auto. }
  split; [split|].
  - destruct Hi; [discriminate H1|discriminate].
  - eapply Forall_impl; [|exact P]. intros c Hc K. unfold printed in Hc. unfold blank in K. rewrite K in Hc. discriminate.
  - split; [apply N0; reflexivity|]. split; [apply N0; reflexivity|]. split; [apply N0; reflexivity|]. split.
    + unfold begins_any. destruct (existsb (fun kw => starts_with kw s) some_keywords) eqn:E; [|reflexivity].
      apply existsb_exists in E. destruct E as (p & Hp & E). apply (may_start_ok _ _ _ Hi) in E.
      rewrite <- not_true_iff_false in H3. destruct H3. apply existsb_exists. exists p. auto.
    + split; [apply En; cbn; auto|]. split; [apply En; cbn; auto|]. split; apply En; cbn; auto.
Qed.
Lemma shaped_ordinary : forall all s, shaped all s -> forallb ordinary_b all = true -> ordinary s.
Proof. intros all s (y & Hy & Hi) H. rewrite forallb_forall in H. exact (ordinary_inst s y Hi (H y Hy)). Qed.
Lemma shaped_no_frac : forall all s, shaped all s -> forallb (fun y => negb (may_frac y)) all = true ->
  frac_like s = false.
Proof.
  intros all s (y & Hy & Hi) H. rewrite forallb_forall in H. specialize (H y Hy). apply negb_true_iff in H.
  destruct (frac_like s) eqn:E; [|reflexivity]. rewrite (may_frac_ok s y Hi E) in H. discriminate.
Qed.
(** Not all digits. *)
Lemma shaped_letters : forall all s, shaped all s ->
  forallb (existsb (fun k => negb (some_digit k))) all = true -> forallb is_digit s = false.
Proof.
  intros all s (y & Hy & Hi) H. rewrite forallb_forall in H. specialize (H y Hy). clear -Hi H.
  induction Hi as [|c k s y Hc Hi IH]; [discriminate|]. cbn [existsb] in H. cbn [forallb].
  destruct (is_digit c) eqn:E; [|reflexivity]. cbn [andb]. apply IH. apply orb_true_iff in H. destruct H as [H|H]; [|exact H].
  apply negb_true_iff in H. rewrite <- not_true_iff_false in H. destruct H. apply existsb_exists. exists c. auto.
Qed.

Definition plain_word (s : str) : Prop := ordinary s /\ frac_like s = false.

Ltac computed := vm_compute; reflexivity.
Lemma wind_plain : forall g, wind_wf g -> plain_word (wind_code g) /\ forallb is_digit (wind_code g) = false.
Proof.
  intros g H. pose proof (wind_shaped g H) as S. split; [split|].
  - apply (shaped_ordinary _ _ S). computed.
  - apply (shaped_no_frac _ _ S). computed.
  - apply (shaped_letters _ _ S). computed.
Qed.
Lemma wvar_plain : forall g, wvar_wf g -> plain_word (wvar_code g) /\ forallb is_digit (wvar_code g) = false.
Proof.
  intros g H. pose proof (wvar_shaped g H) as S. split; [split|].
  - apply (shaped_ordinary _ _ S). computed.
  - apply (shaped_no_frac _ _ S). computed.
  - apply (shaped_letters _ _ S). computed.
Qed.
Lemma vis_ordinary : forall g, vis_wf g -> two_words g = false -> ordinary (vis_code g).
Proof. intros g H H2. apply (shaped_ordinary _ _ (one_word_vis_shaped g H H2)). computed. Qed.
Lemma min_vis_plain : forall g, vis_wf g -> min_vis g -> plain_word (vis_code g).
Proof.
  intros g H H2. pose proof (min_vis_shaped g H H2) as S. split.
  - apply (shaped_ordinary _ _ S). computed.
  - apply (shaped_no_frac _ _ S). computed.
Qed.
Lemma rvr_plain : forall g, rvr_wf g -> plain_word (rvr_code g).
Proof.
  intros g H. pose proof (rvr_shaped g H) as S. split.
  - apply (shaped_ordinary _ _ S). computed.
  - apply (shaped_no_frac _ _ S). computed.
Qed.
Lemma weather_plain : forall g, weather_wf g -> weather_code g <> [] -> plain_word (weather_code g).
Proof.
  intros g H Hn. pose proof (weather_shaped g H Hn) as S. split.
  - apply (shaped_ordinary _ _ S). computed.
  - apply (shaped_no_frac _ _ S). computed.
Qed.
Lemma cloud_plain : forall g, cloud_wf g -> plain_word (cloud_code g).
Proof.
  intros g H. pose proof (cloud_shaped g H) as S. split.
  - apply (shaped_ordinary _ _ S). computed.
  - apply (shaped_no_frac _ _ S). computed.
Qed.
Lemma temps_plain : forall g, temps_wf g -> plain_word (temps_code g).
Proof.
  intros g H. pose proof (temps_shaped g H) as S. split.
  - apply (shaped_ordinary _ _ S). computed.
  - apply (shaped_no_frac _ _ S). computed.
Qed.
Lemma press_plain : forall g, unit_written g -> plain_word (press_code g).
Proof.
  intros g H. pose proof (press_shaped g H) as S. split.
  - apply (shaped_ordinary _ _ S). computed.
  - apply (shaped_no_frac _ _ S). computed.
Qed.
Lemma recent_plain : forall g, recent_wf g -> plain_word (recent_code g).
Proof.
  intros g H. pose proof (recent_shaped g H) as S. split.
  - apply (shaped_ordinary _ _ S). computed.
  - apply (shaped_no_frac _ _ S). computed.
Qed.
Lemma sea_plain : forall g, sea_wf g -> plain_word (sea_code g).
Proof.
  intros g H. pose proof (sea_shaped g H) as S. split.
  - apply (shaped_ordinary _ _ S). computed.
  - apply (shaped_no_frac _ _ S). computed.
Qed.
Lemma rs_plain : forall g, rs_wf g -> plain_word (rs_code_of g).
Proof.
  intros g H. pose proof (rs_shaped g H) as S. split.
  - apply (shaped_ordinary _ _ S). computed.
  - apply (shaped_no_frac _ _ S). computed.
Qed.

(** ** The METAR slots after the time, in order *)

Definition slots_wind := [r_MODIFIER].
Definition slots_wvar := slots_wind ++ [r_WIND].
Definition slots_vis := slots_wvar ++ [r_WIND_VARIATION].
Definition slots_minvis := slots_vis ++ [r_VISIBILITY].
Definition slots_rvr := slots_minvis ++ [r_MINIMUM_VISIBILITY].
Definition slots_weather := slots_rvr ++ [r_RUNWAY_RANGE].
Definition slots_cloud := slots_weather ++ [r_WEATHER].
Definition slots_temps := slots_cloud ++ [r_CLOUD].
Definition slots_press := slots_temps ++ [r_TEMPERATURES].
Definition slots_recent := slots_press ++ [r_PRESSURE].
Definition slots_ws := slots_recent ++ [r_RECENT_WEATHER].
Definition slots_sea := slots_ws ++ [r_WINDSHEAR].
Definition slots_rwy := slots_sea ++ [r_SEA_STATE].

Lemma wind_free : forall g r, wind_wf g -> In r slots_wind -> re_match r (wind_code g) = None.
Proof. intros g r H. apply (free_none _ _ _ (wind_shaped g H)). computed. Qed.
Lemma wvar_free : forall g r, wvar_wf g -> In r slots_wvar -> re_match r (wvar_code g) = None.
Proof. intros g r H. apply (free_none _ _ _ (wvar_shaped g H)). computed. Qed.
Lemma vis_free : forall g r, vis_wf g -> In r slots_vis -> re_match r (vis_code g) = None.
Proof. intros g r H. apply (free_none _ _ _ (vis_shaped g H)). computed. Qed.
Lemma rvr_free : forall g r, rvr_wf g -> In r slots_rvr -> re_match r (rvr_code g) = None.
Proof. intros g r H. apply (free_none _ _ _ (rvr_shaped g H)). computed. Qed.
Lemma weather_free : forall g r, weather_wf g -> weather_code g <> [] -> In r slots_weather ->
  re_match r (weather_code g) = None.
Proof. intros g r H Hn. apply (free_none _ _ _ (weather_shaped g H Hn)). computed. Qed.
Lemma cloud_free : forall g r, cloud_wf g -> In r slots_cloud -> re_match r (cloud_code g) = None.
Proof. intros g r H. apply (free_none _ _ _ (cloud_shaped g H)). computed. Qed.
Lemma temps_free : forall g r, temps_wf g -> In r slots_temps -> re_match r (temps_code g) = None.
Proof. intros g r H. apply (free_none _ _ _ (temps_shaped g H)). computed. Qed.
Lemma press_free : forall g r, unit_written g -> In r slots_press -> re_match r (press_code g) = None.
Proof. intros g r H. apply (free_none _ _ _ (press_shaped g H)). computed. Qed.
Lemma recent_free : forall g r, recent_wf g -> In r slots_recent -> re_match r (recent_code g) = None.
Proof. intros g r H. apply (free_none _ _ _ (recent_shaped g H)). computed. Qed.
Lemma ws_free : forall g r, ws_wf g -> In r slots_ws -> re_match r (ws_token g) = None.
Proof. intros g r H. apply (free_none _ _ _ (ws_shaped g H)). computed. Qed.
Lemma sea_free : forall g r, sea_wf g -> In r slots_sea -> re_match r (sea_code g) = None.
Proof. intros g r H. apply (free_none _ _ _ (sea_shaped g H)). computed. Qed.
Lemma rs_free : forall g r, rs_wf g -> In r slots_rwy -> re_match r (rs_code_of g) = None.
Proof. intros g r H. apply (free_none _ _ _ (rs_shaped g H)). computed. Qed.
