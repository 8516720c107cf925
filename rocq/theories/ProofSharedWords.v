(** * The words two patterns accept (C79) *)
From Coq Require Import String Ascii.
From Coq Require Import List NArith ZArith Bool Arith Lia.
From Verif Require Import PyBase PyRegex AeroRegex StrFacts RegexPaths ReprFacts ProofStation SpecNum SpecGroups SpecGrammar SpecForeign SpecShared ProofGroups ProofMeans ProofGrammar ProofGrammarRest ProofShared.
Import ListNotations.
Local Open Scope string_scope.
Local Open Scope nat_scope.
Local Open Scope list_scope.

(** ** Stations *)

Definition upper_b (c : N) : bool := ((65 <=? c) && (c <=? 90))%N.
Definition alnum_b (c : N) : bool := upper_b c || ((48 <=? c) && (c <=? 57))%N.
Definition station_b (w : str) : bool :=
  match w with [a; b; c; d] => upper_b a && alnum_b b && alnum_b c && alnum_b d | _ => false end.
Lemma upper_b_iff : forall c, upper_b c = true <-> is_upper c.
Proof. intro c. unfold upper_b, is_upper. rewrite andb_true_iff, !N.leb_le. reflexivity. Qed.
Lemma alnum_b_iff : forall c, alnum_b c = true <-> is_alnum c.
Proof. intro c. unfold alnum_b, is_alnum. rewrite orb_true_iff, upper_b_iff, andb_true_iff, !N.leb_le. reflexivity. Qed.
Lemma station_b_iff : forall w, station_b w = true <-> station_wf w.
Proof.
  intro w. unfold station_wf. split.
  - intro H. destruct w as [|a [|b [|c [|d [|e w]]]]]; try discriminate H. cbn [station_b] in H. rewrite !andb_true_iff, upper_b_iff, !alnum_b_iff in H.
    destruct H as (((A & B) & C) & D). exists a, b, c, d. auto.
  - intros (a & b & c & d & -> & A & B & C & D). cbn [station_b]. rewrite !andb_true_iff, upper_b_iff, !alnum_b_iff. auto.
Qed.
Lemma station_length : forall w, station_wf w -> length w = 4.
Proof. intros w (a & b & c & d & -> & _). reflexivity. Qed.
Lemma station_first : forall c w, station_wf (c :: w) -> is_upper c.
Proof. intros c w (a & b & c' & d & E & A & _). injection E as -> _. exact A. Qed.
Lemma station_all : forall w c, station_wf w -> In c w -> is_alnum c.
Proof. intros w x (a & b & c & d & -> & A & B & C & D) I. cbn [In] in I. destruct I as [<-|[<-|[<-|[<-|[]]]]]; try assumption. left. exact A. Qed.

(** *** Finite kinds *)

Lemma finite_words : forall r w, placed true true r = true -> closed_end r = true -> starfree r = true -> typed w -> (accepts r w <-> In w (words r)).
Proof. intros r w P C F T. rewrite (accepts_closed r w P C T). exact (means_words r F w T). Qed.
Definition both (f : str -> bool) (r : regex) (l : list str) : bool := within (filter f (words r)) l && within l (filter f (words r)).
Lemma both_ok : forall f r l w, both f r l = true -> (f w = true /\ In w (words r) <-> In w l).
Proof.
  intros f r l w B. unfold both in B. apply andb_prop in B. destruct B as [B1 B2]. split.
  - intros [F I]. apply (within_ok _ _ _ B1). apply filter_In. auto.
  - intro I. apply (within_ok _ _ _ B2) in I. apply filter_In in I. tauto.
Qed.

Definition modifier_list : list str := map (fun x => py x) ["CORR"; "AUTO"; "TEST"; "FINO"].
Theorem station_modifier : forall w, typed w -> (accepts r_STATION w /\ accepts r_MODIFIER w <-> In w modifier_list).
Proof.
  intros w T. rewrite (station_words w T), <- station_b_iff, (finite_words r_MODIFIER w) by first [reflexivity|exact T].
  apply both_ok. vm_compute. reflexivity.
Qed.

Definition glued (l l' : table) : list str := flat_map (fun a => map (fun b => code_of a ++ code_of b) l') l.
Lemma in_glued : forall l l' w, In w (glued l l') <-> exists a b, In a l /\ In b l' /\ w = code_of a ++ code_of b.
Proof.
  intros l l' w. unfold glued. rewrite in_flat_map. split.
  - intros (a & A & I). apply in_map_iff in I. destruct I as (b & E & B). exists a, b. auto.
  - intros (a & b & A & B & ->). exists a. split; [exact A|]. apply in_map_iff. exists b. auto.
Qed.
Theorem station_weather : forall w, typed w -> (accepts r_STATION w /\ accepts r_WEATHER w <-> weather_letters w).
Proof.
  intros w T. rewrite (station_words w T), <- station_b_iff, (finite_words r_WEATHER w) by first [reflexivity|exact T].
  rewrite (both_ok station_b r_WEATHER (glued nearby (descriptors ++ phenomena) ++ glued descriptors phenomena) w) by (vm_compute; reflexivity).
  rewrite in_app_iff, !in_glued. unfold weather_letters. split.
  - intros [(a & b & A & B & E)|(a & b & A & B & E)]; exists a, b; auto.
  - intros (a & b & [[A B]|[A B]] & E); [left|right]; exists a, b; auto.
Qed.
Theorem station_recent : forall w, typed w -> (accepts r_STATION w /\ accepts r_RECENT_WEATHER w <-> recent_letters w).
Proof.
  intros w T. rewrite (station_words w T), <- station_b_iff, (finite_words r_RECENT_WEATHER w) by first [reflexivity|exact T].
  rewrite (both_ok station_b r_RECENT_WEATHER (map (fun a => py "RE" ++ code_of a) (filter (fun a => negb (String.eqb (fst a) "FU")) (descriptors ++ phenomena))) w) by (vm_compute; reflexivity).
  unfold recent_letters. rewrite in_map_iff. split.
  - intros (a & E & A). apply filter_In in A. destruct A as [A N0]. exists a. split; [exact A|]. split; [|symmetry; exact E].
    intro F. rewrite F in N0. discriminate N0.
  - intros (a & A & N0 & E). exists a. split; [symmetry; exact E|]. apply filter_In. split; [exact A|]. apply negb_true_iff. apply String.eqb_neq. exact N0.
Qed.

(** *** Clouds *)

Theorem station_cloud : forall w, typed w -> (accepts r_STATION w /\ accepts r_CLOUD w <-> w = py "VVCB").
Proof.
  intros w T. rewrite (station_words w T), (accepts_closed r_CLOUD w eq_refl eq_refl T), (cloud_means w T). split.
  - intros [W0 (u1 & v1 & -> & A1 & (u2 & v2 & -> & A2 & A3))]. pose proof (station_length _ W0) as L. rewrite !app_length in L.
    apply height_ok in A2. destruct A2 as (h & _ & ->). apply type_ok in A3. destruct A3 as (t & ->).
    assert (Lc : 2 <= length u1) by (assert (K : forallb (fun u => Nat.leb 2 (length u)) cover_codes = true) by (vm_compute; reflexivity);
      apply (proj1 (forallb_forall _ _) K) in A1; apply Nat.leb_le in A1; exact A1).
    destruct h as [n| |]; cbn [cheight_code] in *; [rewrite digits_length in L; lia|change (length (py "///")) with 3 in L; lia|].
    assert (K : forallb (fun u => forallb (fun v => implb (station_b (u ++ v)) (str_eqb (u ++ v) (py "VVCB"))) [py "TCU"; py "CB"; py "///"; []]) cover_codes = true) by (vm_compute; reflexivity).
    apply (proj1 (forallb_forall _ _) K) in A1. cbn [app] in W0 |- *. apply station_b_iff in W0.
    assert (It : In (ctype_code t) [py "TCU"; py "CB"; py "///"; []]) by (destruct t; cbn [In]; auto).
    apply (proj1 (forallb_forall _ _) A1) in It. rewrite W0 in It. cbn [implb] in It. apply str_eqb_eq. exact It.
  - intros ->. split; [apply station_b_iff; reflexivity|].
    exists (py "VV"), (py "CB"). split; [reflexivity|]. split; [left; reflexivity|]. exists [], (py "CB"). split; [reflexivity|]. split; [right; reflexivity|left; cbn; auto].
Qed.

(** *** Visibilities *)

Lemma no_mark : forall w c, station_wf w -> In c w -> c <> 47%N /\ c <> 95%N.
Proof. intros w c W0 I. apply (station_all _ _ W0) in I. destruct I as [I|I]; unfold is_upper in I; lia. Qed.
Lemma digits_cons : forall k n, 0 < k -> exists c t, digits k n = c :: t /\ is_dig c.
Proof.
  intros k n P. pose proof (digits_are k n) as F. pose proof (digits_length k n) as L. destruct (digits k n) as [|c t]; [cbn in L; lia|].
  inversion F; subst. exists c, t. auto.
Qed.
(** A station begins with no digit. *)
Lemma station_digit : forall k n t, 0 < k -> ~ station_wf (digits k n ++ t).
Proof.
  intros k n t P W0. destruct (digits_cons k n P) as (c & u & E & D). rewrite E in W0. cbn [app] in W0. apply station_first in W0.
  unfold is_upper in W0. unfold is_dig in D. lia.
Qed.
Lemma station_long : forall g t, long_wf g -> station_wf (long_code g ++ t) -> lo_link g = false /\ lo_frac g = None /\ (lo_limit g = None -> lo_int g = None).
Proof.
  intros [l i k f u] t (Bi & Bf & Iu) W0. unfold long_code in W0. cbn [lo_limit lo_int lo_link lo_frac lo_unit] in *.
  assert (Ek : k = false).
  { destruct k; [|reflexivity]. exfalso. refine (proj2 (no_mark _ 95%N W0 _) eq_refl). rewrite !in_app_iff. left. right. right. left. left. reflexivity. }
  assert (Ef : f = None).
  { destruct f as [[a b]|]; [|reflexivity]. exfalso. refine (proj1 (no_mark _ 47%N W0 _) eq_refl). cbn [opt]. rewrite !in_app_iff. left. right. right. right. left. right. left. left. reflexivity. }
  split; [exact Ek|]. split; [exact Ef|]. intros ->. destruct i as [[two n]|]; [|reflexivity]. exfalso. cbn [limit_code opt app] in W0. unfold one_or_two in W0.
  rewrite <- !app_assoc in W0. revert W0. apply station_digit. destruct two; lia.
Qed.
Lemma metres_first : forall w, metres_lang w -> ~ station_wf w.
Proof.
  intros w (u & v & -> & A & _). destruct A as [(n & _ & ->)|A]; [apply station_digit; lia|]. unfold lit in A. subst u. intro W0. apply (station_first 47%N) in W0. unfold is_upper in W0. lia.
Qed.
Theorem station_vis : forall w, typed w -> (accepts r_STATION w /\ accepts r_VISIBILITY w <-> limit_letters w).
Proof.
  intros w T. rewrite (station_words w T), (accepts_closed r_VISIBILITY w eq_refl eq_refl T), (vis_means w T). split.
  - intros [W0 [M|[A|E]]].
    + elim (metres_first _ M W0).
    + apply long_ok in A. destruct A as (g & W & ->). rewrite <- (app_nil_r (long_code g)) in W0. destruct (station_long _ _ W W0) as (El & Ef & Ei). rewrite app_nil_r in W0.
      destruct g as [l i k f u]. cbn [lo_limit lo_int lo_link lo_frac lo_unit] in *. subst k f. destruct W as (Bi & _ & Iu). cbn [lo_int lo_unit] in *.
      pose proof (station_length _ W0) as L. unfold long_code in *. cbn [lo_limit lo_int lo_link lo_frac lo_unit flag opt app] in *. rewrite !app_length in L.
      destruct l as [l|].
      * assert (L1 : length (limit_code (Some l)) = 1) by (destruct l; reflexivity). destruct i as [[two n]|].
        -- cbn [opt] in L. unfold one_or_two in L. rewrite digits_length in L. exists l, two, n, u. split; [exact Bi|]. split; [|reflexivity].
           destruct Iu as [<-|[<-|[<-|[<-|[]]]]]; destruct two; cbn [py length list_ascii_of_string map] in L; try lia; cbn [In]; auto.
        -- exfalso. cbn [opt length] in L. rewrite L1 in L. destruct Iu as [<-|[<-|[<-|[<-|[]]]]]; cbn in L; lia.
      * rewrite (Ei eq_refl) in L. exfalso. cbn [opt] in L. destruct Iu as [<-|[<-|[<-|[<-|[]]]]]; cbn in L; lia.
    + unfold lit in E. subst w. apply station_length in W0. discriminate W0.
  - intros (l & two & n & u & B & Iu & ->). split.
    + assert (Fd : Forall is_dig (one_or_two two n)) by (apply digits_are). assert (Ld : length (one_or_two two n) = if two then 2 else 1) by (unfold one_or_two; apply digits_length).
      apply station_b_iff. destruct two.
      * destruct (one_or_two true n) as [|a [|b [|]]]; try discriminate Ld. inversion Fd as [|? ? D1 Fd']; subst. inversion Fd' as [|? ? D2 _]; subst. unfold is_dig in D1, D2.
        assert (K1 : alnum_b a = true) by (apply alnum_b_iff; right; exact D1). assert (K2 : alnum_b b = true) by (apply alnum_b_iff; right; exact D2).
        destruct Iu as [<-|[<-|[]]]; destruct l; cbn [limit_code app]; cbn; rewrite K1, K2; reflexivity.
      * destruct (one_or_two false n) as [|a [|]]; try discriminate Ld. inversion Fd as [|? ? D1 _]; subst. assert (K1 : alnum_b a = true) by (apply alnum_b_iff; right; exact D1).
        destruct Iu as [<-|[<-|[]]]; destruct l; cbn [limit_code app]; cbn; rewrite K1; reflexivity.
    + right. left. apply long_ok. exists (mk_long (Some l) (Some (two, n)) false None u). split.
      * split; [exact B|]. split; [exact I|]. cbn [lo_unit]. destruct two; destruct Iu as [<-|[<-|[]]]; cbn [In]; auto.
      * unfold long_code. cbn [lo_limit lo_int lo_link lo_frac lo_unit flag opt app]. reflexivity.
Qed.

(** ** Some of the paths *)

Lemma either_way : forall sel r r' w, starfree r && starfree r' && disjoint 40 (filter (fun p => negb (sel p)) (ways r)) (ways r') = true ->
  typed w -> accepts r w -> accepts r' w -> exists p, sel p = true /\ fit p w.
Proof.
  intros sel r r' w C T A A'. apply andb_prop in C. destruct C as [C D]. apply andb_prop in C. destruct C as [F F'].
  destruct (ways_ok _ _ F T A) as (p & I & X). destruct (ways_ok _ _ F' T A') as (p' & I' & X'). exists p. split; [|exact X].
  destruct (sel p) eqn:E; [reflexivity|]. exfalso. refine (disjoint_ok _ _ _ _ _ _ D _ I' X X'). apply filter_In. split; [exact I|]. rewrite E. reflexivity.
Qed.
Lemma set_range_only : forall a b c, (a <= b)%N -> N.testbit (set_range a b) c = true -> (a <= c <= b)%N.
Proof.
  intros a b c L H. unfold set_range in H. destruct (N.lt_ge_cases c a) as [K|K]; [rewrite N.shiftl_spec_low in H by exact K; discriminate H|].
  rewrite N.shiftl_spec_high' in H by exact K. destruct (N.lt_ge_cases (c - a) (b + 1 - a)) as [K'|K']; [lia|]. rewrite N.ones_spec_high in H by exact K'. discriminate H.
Qed.
Fixpoint begun (q p : list step) : bool :=
  match q, p with [], _ => true | x :: q', y :: p' => step_eqb x y && begun q' p' | _ :: _, [] => false end.
Lemma begun_fit : forall q p w, begun q p = true -> fit p w -> fit q w.
Proof.
  intro q. induction q as [|x q IH]; intros [|y p] w B F; try discriminate B; try exact I. cbn [begun] in B. apply andb_prop in B. destruct B as [E B].
  apply step_eqb_eq in E. subst y. destruct x as [m|]; cbn [fit] in *; [|exact F]. destruct w as [|c w]; [exact F|]. split; [exact (proj1 F)|exact (IH _ _ B (proj2 F))].
Qed.
Definition dig_step : step := Some (set_range 48 57).
Definition stroke_step : step := Some (set_range 47 47).
Lemma dig_num : forall c, is_dig c -> num 1 [c].
Proof.
  intros c D. exists (c - 48)%N. unfold is_dig in D. split; [cbn; lia|]. cbn [digits app]. rewrite N.mod_small by lia. unfold dig. f_equal. lia.
Qed.
Lemma digs_num : forall w, Forall is_dig w -> num (length w) w.
Proof.
  intro w. induction w as [|c w IH]; intro F; [exists 0%N; split; [reflexivity|reflexivity]|]. inversion F as [|? ? D F']; subst. change (num (1 + length w) ([c] ++ w)).
  apply num_cat. exists [c], w. split; [reflexivity|]. split; [exact (dig_num _ D)|exact (IH F')].
Qed.
Lemma four_digs : forall t w, fit (dig_step :: dig_step :: dig_step :: dig_step :: t) w -> exists n u, (n < 10000)%N /\ w = digits 4 n ++ u /\ fit t u.
Proof.
  intros t w F. destruct w as [|a [|b [|c [|d w]]]]; cbn [fit dig_step] in F; try tauto. destruct F as (A & B & C & D & F).
  assert (K : num 4 [a; b; c; d]) by (apply (digs_num [a; b; c; d]); repeat (apply Forall_cons; [apply set_range_only; [discriminate|assumption]|]); apply Forall_nil).
  destruct K as (n & L & E). exists n, w. split; [exact L|]. split; [|exact F]. rewrite <- E. reflexivity.
Qed.
Lemma four_strokes : forall t w, fit (stroke_step :: stroke_step :: stroke_step :: stroke_step :: t) w -> exists u, w = py "////" ++ u /\ fit t u.
Proof.
  intros t w F. destruct w as [|a [|b [|c [|d w]]]]; cbn [fit stroke_step] in F; try tauto. destruct F as (A & B & C & D & F).
  apply set_range_only in A; [|discriminate]. apply set_range_only in B; [|discriminate]. apply set_range_only in C; [|discriminate]. apply set_range_only in D; [|discriminate].
  exists w. split; [|exact F]. replace a with 47%N by lia. replace b with 47%N by lia. replace c with 47%N by lia. replace d with 47%N by lia. reflexivity.
Qed.

(** ** Four digits *)

Definition bare_way (p : list step) : bool :=
  begun [dig_step; dig_step; dig_step; dig_step; None] p || begun [stroke_step; stroke_step; stroke_step; stroke_step; None] p.
Lemma bare_way_ok : forall p w, bare_way p = true -> fit p w -> bare w.
Proof.
  intros p w B F. apply orb_prop in B. destruct B as [B|B]; apply (begun_fit _ _ _ B) in F.
  - apply four_digs in F. destruct F as (n & u & L & -> & E). cbn [fit] in E. subst u. left. exists n. split; [exact L|apply app_nil_r].
  - apply four_strokes in F. destruct F as (u & -> & E). cbn [fit] in E. subst u. right. reflexivity.
Qed.
Lemma bare_press : forall w, typed w -> bare w -> accepts r_PRESSURE w.
Proof.
  intros w T B. apply (press_words w T). destruct B as [(n & L & ->)| ->]; [exists (mk_press_g PfNone (Some n) false)|exists (mk_press_g PfNone None false)]; (split; [first [exact L|exact I]|]).
  - unfold press_code. cbn [pg_prefix pg_value pg_ins flag app]. rewrite app_nil_r. reflexivity.
  - reflexivity.
Qed.
Lemma bare_metres : forall w, bare w -> metres_lang w.
Proof.
  intros w [(n & L & ->)| ->]; [apply (cat_intro _ _ _ (digits 4 n) [])|apply (cat_intro _ _ _ (py "////") [])]; try (symmetry; apply app_nil_r); try (right; reflexivity).
  left. exists n. auto.
Qed.
Lemma metres_vis : forall w, typed w -> metres_lang w -> accepts r_VISIBILITY w.
Proof. intros w T M. apply (accepts_closed r_VISIBILITY w eq_refl eq_refl T). apply (vis_means w T). left. exact M. Qed.
Lemma metres_min : forall w, typed w -> (accepts r_MINIMUM_VISIBILITY w <-> metres_lang w).
Proof. intros w T. rewrite (accepts_closed r_MINIMUM_VISIBILITY w eq_refl eq_refl T). apply (minvis_means w T). Qed.
Theorem vis_press : forall w, typed w -> (accepts r_VISIBILITY w /\ accepts r_PRESSURE w <-> bare w).
Proof.
  intros w T. split.
  - intros [A P]. destruct (either_way bare_way r_PRESSURE r_VISIBILITY w) as (p & B & F); [vm_compute; reflexivity|exact T|exact P|exact A|]. exact (bare_way_ok _ _ B F).
  - intro B. split; [exact (metres_vis _ T (bare_metres _ B))|exact (bare_press _ T B)].
Qed.
Theorem min_press : forall w, typed w -> (accepts r_MINIMUM_VISIBILITY w /\ accepts r_PRESSURE w <-> bare w).
Proof.
  intros w T. split.
  - intros [A P]. apply (vis_press w T). split; [apply (metres_vis _ T), (metres_min _ T), A|exact P].
  - intro B. split; [apply (metres_min _ T), (bare_metres _ B)|exact (bare_press _ T B)].
Qed.
Theorem vis_min : forall w, typed w -> (accepts r_VISIBILITY w /\ accepts r_MINIMUM_VISIBILITY w <-> documented min_wf vis_code w \/ odd_direction w).
Proof.
  intros w T. rewrite <- (minvis_words w T). split; [intros [_ A]; exact A|]. intro A. split; [|exact A]. apply (metres_vis _ T), (metres_min _ T), A.
Qed.

(** ** The visibility of a TAF *)

Definition taken (r : regex) (w : str) : bool := match re_match r w with Some _ => true | None => false end.
Lemma taken_iff : forall r w, taken r w = true <-> accepts r w.
Proof. intros r w. unfold taken, accepts. destruct (re_match r w); split; try discriminate; try reflexivity. intro H. elim (H eq_refl). Qed.
Theorem type_tvis : forall w, typed w -> (accepts r_TYPE w /\ accepts r_T_VISIBILITY w <-> w = py "METAR").
Proof.
  intros w T. rewrite <- (taken_iff r_T_VISIBILITY w), (finite_words r_TYPE w) by first [reflexivity|exact T].
  rewrite and_comm, (both_ok (taken r_T_VISIBILITY) r_TYPE [py "METAR"] w) by (vm_compute; reflexivity). cbn [In]. split; [intros [<-|[]]; reflexivity|intros ->; left; reflexivity].
Qed.
Definition phenomenon_codes : list str := map code_of (phenomena ++ [nsw]) ++ [py "/"; []].
Lemma in_phenomenon_codes : forall u, In u phenomenon_codes <-> exists p, opt_all phenomenon_wf p /\ u = opt phenomenon_code p.
Proof.
  intro u. unfold phenomenon_codes, phenomena. rewrite in_app_iff, in_map_iff. split.
  - intros [(x & <- & I0)|[<-|[<-|[]]]]; [|exists (Some PhUnknown); split; [exact I|reflexivity]|exists None; split; [exact I|reflexivity]].
    rewrite <- !app_assoc in I0. apply in_app_or in I0. destruct I0 as [I0|I0]; [exists (Some (PhPrec x)); split; [exact I0|reflexivity]|].
    apply in_app_or in I0. destruct I0 as [I0|I0]; [exists (Some (PhObsc x))|exists (Some (PhOther x))]; split; [exact I0|reflexivity|exact I0|reflexivity].
  - intros ([[x|x|x|]|] & W & ->); cbn [opt_all phenomenon_wf opt phenomenon_code] in *.
    + left. exists x. split; [reflexivity|]. rewrite !in_app_iff. auto.
    + left. exists x. split; [reflexivity|]. rewrite !in_app_iff. auto.
    + left. exists x. split; [reflexivity|]. apply in_app_or in W. rewrite !in_app_iff. tauto.
    + right. left. reflexivity.
    + right. right. left. reflexivity.
Qed.
Theorem weather_tvis : forall w, typed w -> (accepts r_WEATHER w /\ accepts r_T_VISIBILITY w <-> shallow w).
Proof.
  intros w T. rewrite <- (taken_iff r_T_VISIBILITY w), (finite_words r_WEATHER w) by first [reflexivity|exact T].
  rewrite and_comm, (both_ok (taken r_T_VISIBILITY) r_WEATHER (py "UP" :: map (fun u => py "MI" ++ u) phenomenon_codes) w) by (vm_compute; reflexivity).
  unfold shallow. cbn [In]. rewrite in_map_iff. split.
  - intros [<-|(u & <- & I0)]; [left; reflexivity|right]. apply in_phenomenon_codes in I0. destruct I0 as (p & W & ->). exists p. auto.
  - intros [->|(p & W & ->)]; [left; reflexivity|right]. exists (opt phenomenon_code p). split; [reflexivity|]. apply in_phenomenon_codes. exists p. auto.
Qed.
Lemma four_ahead : forall a b t, (a < 100)%N -> (b < 100)%N -> exists n u, (n < 10000)%N /\ digits 2 a ++ digits 2 b ++ t = digits 4 n ++ u.
Proof.
  intros a b t A B. assert (K : num (2 + 2) (digits 2 a ++ digits 2 b)) by (apply num_cat; exists (digits 2 a), (digits 2 b); split; [reflexivity|]; split; [exists a|exists b]; auto).
  destruct K as (n & L & E). exists n, t. split; [exact L|]. rewrite app_assoc, E. reflexivity.
Qed.
Theorem time_tvis : forall w, typed w -> (accepts r_TIME w /\ accepts r_T_VISIBILITY w <-> written_time w).
Proof.
  intros w T. rewrite (time_words w T), (tvis_words w T). split; [intros [A _]; exact A|]. intro A. split; [exact A|]. left.
  destruct A as (d & h & m & D & H & M & ->). apply four_ahead; unfold day in D; lia.
Qed.
Theorem valid_tvis : forall w, typed w -> (accepts r_T_VALID w /\ accepts r_T_VISIBILITY w <-> written_validity w).
Proof.
  intros w T. rewrite (valid_words w T), (tvis_words w T). split; [intros [A _]; exact A|]. intro A. split; [exact A|]. left.
  destruct A as (d & h & d' & h' & D & H & D' & H' & ->). apply four_ahead; unfold day in D; lia.
Qed.
Theorem station_tvis : forall w, typed w -> (accepts r_STATION w /\ accepts r_T_VISIBILITY w <-> station_wf w /\ unit_ahead w).
Proof.
  intros w T. rewrite (station_words w T), (tvis_words w T). split.
  - intros [W0 [(n & t & _ & ->)|[(g & t & W & ->)| ->]]]; [elim (station_digit 4 n t ltac:(lia) W0)| |apply station_length in W0; discriminate W0].
    split; [exact W0|]. destruct (station_long g t W W0) as (K & F & L). exists g, t. auto.
  - intros [W0 (g & t & W & _ & _ & _ & ->)]. split; [exact W0|]. right. left. exists g, t. auto.
Qed.
Definition within_digs (m : N) : bool := N.eqb (N.land m (set_range 48 57)) m.
Lemma within_digs_ok : forall m c, within_digs m = true -> N.testbit m c = true -> is_dig c.
Proof.
  intros m c W0 B. apply N.eqb_eq in W0. rewrite <- W0, N.land_spec in B. apply andb_prop in B.
  destruct B as [_ B]. apply set_range_only; [discriminate|exact B].
Qed.
Definition digs_way (p : list step) : bool :=
  match p with Some a :: Some b :: Some c :: Some d :: _ => within_digs a && within_digs d | _ => false end.
Lemma digs_way_ok : forall p w, digs_way p = true -> fit p w -> exists a b c d t, w = a :: b :: c :: d :: t /\ is_dig a /\ is_dig d.
Proof.
  intros p w H F. unfold digs_way in H. destruct p as [|[ma|] [|[mb|] [|[mc|] [|[md|] p]]]]; try discriminate H. apply andb_prop in H. destruct H as [Ha Hd].
  destruct w as [|a [|b [|c [|d w]]]]; cbn [fit] in F; try tauto. destruct F as (A & _ & _ & D & _). exists a, b, c, d, w. split; [reflexivity|].
  split; [exact (within_digs_ok _ _ Ha A)|exact (within_digs_ok _ _ Hd D)].
Qed.
Theorem wind_tvis : forall w, typed w -> (accepts r_T_WIND w /\ accepts r_T_VISIBILITY w <-> wind_digits w).
Proof.
  intros w T. split.
  - intros [A B]. destruct (either_way digs_way r_T_WIND r_T_VISIBILITY w) as (p & P & F); [vm_compute; reflexivity|exact T|exact A|exact B|].
    destruct (digs_way_ok _ _ P F) as (a & b & c & d & t & E & Da & Dd). apply (twind_words w T) in A. destruct A as (g & (W & N1 & N2) & Ew).
    rewrite Ew in E. unfold wind_code in E. destruct (wg_dir g) as [k| |] eqn:Ed; [|exfalso|elim (N1 eq_refl)].
    + destruct (wg_speed g) as [above wide n|wide] eqn:Es; [|elim (N2 wide eq_refl)]. destruct above.
      * exfalso. cbn [wdir_code wspeed_code flag] in E. pose proof (digits_length 2 k) as L. destruct (digits 2 k) as [|x [|y [|]]]; try discriminate L. cbn [app] in E. injection E as _ _ _ E _. subst d. destruct Dd as [_ Dd]. apply Dd. reflexivity.
      * exists g, k, wide, n. split; [split; [exact W|split; [rewrite Ed; discriminate|rewrite Es; discriminate]]|]. auto.
    + cbn [wdir_code app] in E. apply (f_equal (hd 0%N)) in E. cbn [hd] in E. subst a. destruct Da as [_ Da]. apply Da. reflexivity.
  - intros (g & k & wide & n & W & Ed & Es & ->). split; [apply (twind_words _ T); exists g; auto|]. apply (tvis_words _ T). left.
    unfold wind_code. rewrite Ed, Es. cbn [wdir_code wspeed_code flag app].
    assert (F2 : Forall is_dig (digits (width wide) n)) by apply digits_are. assert (L2 : length (digits (width wide) n) = width wide) by apply digits_length.
    destruct (digits (width wide) n) as [|x u]; [destruct wide; discriminate L2|]. inversion F2 as [|? ? Dx _]; subst.
    assert (F1 : Forall is_dig (digits 2 k)) by apply digits_are. pose proof (digits_length 2 k) as L1. destruct (digits 2 k) as [|a [|b [|]]]; try discriminate L1.
    inversion F1 as [|? ? Da F1']; subst. inversion F1' as [|? ? Db _]; subst.
    assert (K : num 4 [a; b; 48%N; x]) by (apply (digs_num [a; b; 48%N; x]); repeat (apply Forall_cons; [first [assumption|unfold is_dig; lia]|]); apply Forall_nil).
    destruct K as (m & Lm & Em). exists m. eexists. split; [exact Lm|]. rewrite <- Em. cbn [app]. reflexivity.
Qed.

(** ** Of which kinds a shared word is *)

Theorem trend_shared : forall w, typed w -> ~ shared trend_patterns w.
Proof. intros w T (r & r' & I0 & A & A'). destruct (parted_ok _ _ _ _ _ trend_parted T I0 A A') as (i & j & [] & _). Qed.
Theorem change_shared : forall w, typed w -> ~ shared change_patterns w.
Proof. intros w T (r & r' & I0 & A & A'). destruct (parted_ok _ _ _ _ _ change_parted T I0 A A') as (i & j & [] & _). Qed.

Ltac pair_at := (* membership in the list of pairs *) cbn [pairs map app metar_patterns taf_patterns In]; tauto.
Theorem metar_shared : forall w, typed w -> (shared metar_patterns w <-> like_station w \/ documented min_wf vis_code w \/ odd_direction w).
Proof.
  intros w T. unfold like_station. split.
  - intros (r & r' & I0 & A & A'). destruct (parted_ok _ _ _ _ _ metar_parted T I0 A A') as (i & j & K & E & E'). unfold metar_but in K. cbn [In] in K.
    repeat (destruct K as [K|K]; [injection K as <- <-; cbn [nth_error metar_patterns] in E, E'; injection E as <-; injection E' as <-|]); [| | | | | | | |destruct K].
    + left. left. pose proof (proj1 (station_modifier w T) (conj A A')) as Q. unfold modifier_list in Q. cbn [map In] in *. tauto.
    + left. right. right. right. exact (proj1 (station_vis w T) (conj A A')).
    + left. right. left. exact (proj1 (station_weather w T) (conj A A')).
    + left. left. pose proof (proj1 (station_cloud w T) (conj A A')) as Q. cbn [map In]. rewrite Q. auto 10.
    + left. right. right. left. exact (proj1 (station_recent w T) (conj A A')).
    + right. exact (proj1 (vis_min w T) (conj A A')).
    + right. apply (minvis_words w T). apply (min_press w T). exact (proj1 (vis_press w T) (conj A A')).
    + right. apply (minvis_words w T). exact A.
  - assert (K : forall r r', In (r, r') (pairs metar_patterns) -> accepts r w /\ accepts r' w -> shared metar_patterns w) by (intros r r' I0 [A A']; exists r, r'; auto).
    intros [[Q|[Q|[Q|Q]]]|Q].
    + cbn [map In] in Q. destruct (in_dec (list_eq_dec N.eq_dec) w modifier_list) as [M|M].
      * refine (K r_STATION r_MODIFIER _ (proj2 (station_modifier w T) M)). pair_at.
      * refine (K r_STATION r_CLOUD _ (proj2 (station_cloud w T) _)); [pair_at|]. unfold modifier_list in M. cbn [map In] in M. destruct Q as [Q|[Q|[Q|[Q|[Q|[]]]]]]; try (symmetry; exact Q); elim M; auto 6.
    + refine (K r_STATION r_WEATHER _ (proj2 (station_weather w T) Q)). pair_at.
    + refine (K r_STATION r_RECENT_WEATHER _ (proj2 (station_recent w T) Q)). pair_at.
    + refine (K r_STATION r_VISIBILITY _ (proj2 (station_vis w T) Q)). pair_at.
    + refine (K r_VISIBILITY r_MINIMUM_VISIBILITY _ (proj2 (vis_min w T) Q)). pair_at.
Qed.
Theorem taf_shared : forall w, typed w -> (shared taf_patterns w <->
  (station_wf w /\ unit_ahead w) \/ weather_letters w \/ In w [py "VVCB"; py "METAR"] \/ written_time w \/ written_validity w \/ wind_digits w \/ shallow w).
Proof.
  intros w T. split.
  - intros (r & r' & I0 & A & A'). destruct (parted_ok _ _ _ _ _ taf_parted T I0 A A') as (i & j & K & E & E'). unfold taf_but in K. cbn [In] in K.
    repeat (destruct K as [K|K]; [injection K as <- <-; cbn [nth_error taf_patterns] in E, E'; injection E as <-; injection E' as <-|]); [| | | | | | | |destruct K].
    + pose proof (proj1 (type_tvis w T) (conj A A')) as Q. right. right. left. right. left. symmetry. exact Q.
    + left. exact (proj1 (station_tvis w T) (conj A A')).
    + right. left. exact (proj1 (station_weather w T) (conj A A')).
    + pose proof (proj1 (station_cloud w T) (conj A A')) as Q. right. right. left. left. symmetry. exact Q.
    + do 3 right. left. exact (proj1 (time_tvis w T) (conj A A')).
    + do 4 right. left. exact (proj1 (valid_tvis w T) (conj A A')).
    + do 5 right. left. exact (proj1 (wind_tvis w T) (conj A A')).
    + do 6 right. exact (proj1 (weather_tvis w T) (conj A' A)).
  - assert (K : forall r r', In (r, r') (pairs taf_patterns) -> accepts r w /\ accepts r' w -> shared taf_patterns w) by (intros r r' I0 [A A']; exists r, r'; auto).
    intros [Q|[Q|[[Q|[Q|[]]]|[Q|[Q|[Q|Q]]]]]].
    + refine (K r_STATION r_T_VISIBILITY _ (proj2 (station_tvis w T) Q)). pair_at.
    + refine (K r_STATION r_WEATHER _ (proj2 (station_weather w T) Q)). pair_at.
    + refine (K r_STATION r_CLOUD _ (proj2 (station_cloud w T) (eq_sym Q))). pair_at.
    + refine (K r_TYPE r_T_VISIBILITY _ (proj2 (type_tvis w T) (eq_sym Q))). pair_at.
    + refine (K r_TIME r_T_VISIBILITY _ (proj2 (time_tvis w T) Q)). pair_at.
    + refine (K r_T_VALID r_T_VISIBILITY _ (proj2 (valid_tvis w T) Q)). pair_at.
    + refine (K r_T_WIND r_T_VISIBILITY _ (proj2 (wind_tvis w T) Q)). pair_at.
    + refine (K r_T_VISIBILITY r_WEATHER _ _); [pair_at|]. apply and_comm. exact (proj2 (weather_tvis w T) Q).
Qed.

Theorem metar_kinds : forall w, typed w ->
  (accepts r_STATION w /\ accepts r_MODIFIER w <-> In w modifier_list)
  /\ (accepts r_STATION w /\ accepts r_VISIBILITY w <-> limit_letters w)
  /\ (accepts r_STATION w /\ accepts r_WEATHER w <-> weather_letters w)
  /\ (accepts r_STATION w /\ accepts r_CLOUD w <-> w = py "VVCB")
  /\ (accepts r_STATION w /\ accepts r_RECENT_WEATHER w <-> recent_letters w)
  /\ (accepts r_VISIBILITY w /\ accepts r_MINIMUM_VISIBILITY w <-> documented min_wf vis_code w \/ odd_direction w)
  /\ (accepts r_VISIBILITY w /\ accepts r_PRESSURE w <-> bare w)
  /\ (accepts r_MINIMUM_VISIBILITY w /\ accepts r_PRESSURE w <-> bare w)
  /\ (forall r r', In (r, r') (pairs metar_patterns) -> accepts r w -> accepts r' w ->
       In (r, r') [(r_STATION, r_MODIFIER); (r_STATION, r_VISIBILITY); (r_STATION, r_WEATHER); (r_STATION, r_CLOUD); (r_STATION, r_RECENT_WEATHER);
                   (r_VISIBILITY, r_MINIMUM_VISIBILITY); (r_VISIBILITY, r_PRESSURE); (r_MINIMUM_VISIBILITY, r_PRESSURE)]).
Proof.
  intros w T. split; [exact (station_modifier w T)|]. split; [exact (station_vis w T)|]. split; [exact (station_weather w T)|]. split; [exact (station_cloud w T)|].
  split; [exact (station_recent w T)|]. split; [exact (vis_min w T)|]. split; [exact (vis_press w T)|]. split; [exact (min_press w T)|].
  intros r r' I0 A A'. destruct (parted_ok _ _ _ _ _ metar_parted T I0 A A') as (i & j & K & E & E'). unfold metar_but in K. cbn [In] in K.
  repeat (destruct K as [K|K]; [injection K as <- <-; cbn [nth_error metar_patterns] in E, E'; injection E as <-; injection E' as <-; cbn [In]; tauto|]). destruct K.
Qed.
Theorem taf_kinds : forall w, typed w ->
  (accepts r_TYPE w /\ accepts r_T_VISIBILITY w <-> w = py "METAR")
  /\ (accepts r_STATION w /\ accepts r_T_VISIBILITY w <-> station_wf w /\ unit_ahead w)
  /\ (accepts r_STATION w /\ accepts r_WEATHER w <-> weather_letters w)
  /\ (accepts r_STATION w /\ accepts r_CLOUD w <-> w = py "VVCB")
  /\ (accepts r_TIME w /\ accepts r_T_VISIBILITY w <-> written_time w)
  /\ (accepts r_T_VALID w /\ accepts r_T_VISIBILITY w <-> written_validity w)
  /\ (accepts r_T_WIND w /\ accepts r_T_VISIBILITY w <-> wind_digits w)
  /\ (accepts r_T_VISIBILITY w /\ accepts r_WEATHER w <-> shallow w)
  /\ (forall r r', In (r, r') (pairs taf_patterns) -> accepts r w -> accepts r' w ->
       In (r, r') [(r_TYPE, r_T_VISIBILITY); (r_STATION, r_T_VISIBILITY); (r_STATION, r_WEATHER); (r_STATION, r_CLOUD); (r_TIME, r_T_VISIBILITY);
                   (r_T_VALID, r_T_VISIBILITY); (r_T_WIND, r_T_VISIBILITY); (r_T_VISIBILITY, r_WEATHER)]).
Proof.
  intros w T. split; [exact (type_tvis w T)|]. split; [exact (station_tvis w T)|]. split; [exact (station_weather w T)|]. split; [exact (station_cloud w T)|].
  split; [exact (time_tvis w T)|]. split; [exact (valid_tvis w T)|]. split; [exact (wind_tvis w T)|]. split; [rewrite and_comm; exact (weather_tvis w T)|].
  intros r r' I0 A A'. destruct (parted_ok _ _ _ _ _ taf_parted T I0 A A') as (i & j & K & E & E'). unfold taf_but in K. cbn [In] in K.
  repeat (destruct K as [K|K]; [injection K as <- <-; cbn [nth_error taf_patterns] in E, E'; injection E as <-; injection E' as <-; cbn [In]; tauto|]). destruct K.
Qed.
