(** * Every word of a TAF is accounted for (C60) *)
From Coq Require Import String Ascii.
From Coq Require Import List NArith ZArith Bool Lia Sorted.
From Verif Require Import PyBase PyRegex AeroRegex PyTime Utils Base MetarGroups Trend Metar Taf StrFacts
  SpecLists ProofLists ProofValues ProofProb ProofFailures ProofAbsent SpecText SpecKept ProofKeptText ProofKept ProofKeptReport
  ProofKeptMetar.
Import ListNotations.
Local Open Scope string_scope.
Local Open Scope nat_scope.
Local Open Scope list_scope.

Definition taf_accs (x : taf) : list (list str) :=
  [code_of_field (ty_code (ta_type x)); code_of_field (mo_code (ta_modifier x)); code_of_field (st_code (ta_station x));
   code_of_field (t_code (ta_time x)); code_of_field (mo_code (mi_mod (ta_missing x))); code_of_field (va_code (ta_valid x));
   code_of_field (ca_code (ta_cancelled x)); code_of_field (w_code (c_wind (ta_common x))); code_of_field (v_code (c_vis (ta_common x)));
   code_of_list we_code (c_weathers (ta_common x)); code_of_list cl_code (c_clouds (ta_common x)); []].
Definition taf_table : list nat := [0; 1; 2; 3; 4; 5; 6; 7; 8; 9; 9; 9; 10; 10; 10; 10; 11; 11; 11; 11].
Definition taf_fld (i : nat) (g : str) : nat := nth i taf_table 12.
Definition taf_upd (i : nat) (old : list str) (g : str) : list str :=
  if Nat.leb 16 i then old else take_upd taf_fld [9; 10] i old g.

(** The two lists of temperatures. *)
Definition temp_accs (x : taf) : list (list str) :=
  [[]; code_of_list tt_code (ta_max x); code_of_list tt_code (ta_min x)].
Definition temp_fld (i : nat) (g : str) : nat :=
  if Nat.leb 16 i
  then if match re_match r_T_TEMPERATURE g with Some m => opt_str_eqb (group m "type") (py "X") | None => false end then 1 else 2
  else 0.
Definition temp_upd (i : nat) (old : list str) (g : str) : list str := if Nat.leb 16 i then old ++ [blanked g] else old.

Lemma missing_code : forall s, mo_code (mi_mod (missing_new (Some s))) = Some (blanked s).
Proof. intro s. unfold missing_new. cbn [mi_mod]. apply modifier_code. Qed.
Lemma cancelled_code : forall m, ca_code (cancelled_new (Some m)) = Some (blanked (m_string m)).
Proof. intro m. unfold cancelled_new. cbn [ca_code]. apply code_blanked. Qed.

Lemma tlift_inv : forall f m x x', tlift f m x = Ok x' -> exists c, f m (ta_common x) = Ok c /\ x' = tupd_common c x.
Proof.
  intros f m x x' E. unfold tlift in E. destruct (f m (ta_common x)) as [c|]; [|discriminate E]. cbn [bind] in E.
  exists c. split; [reflexivity|congruence].
Qed.

Ltac taf_plain E := cbv zeta in E; ending E; unfold taf_accs; cbn -[blanked type_new station_new modifier_new missing_new cancelled_new];
  rewrite ?type_code, ?station_code, ?modifier_code, ?missing_code, ?cancelled_code; reflexivity.

Lemma taf_weather_acc : forall m x x', tlift handle_weather m x = Ok x' ->
  taf_accs x' = set_nth 9 (nth 9 (taf_accs x) [] ++ [blanked (m_string m)]) (taf_accs x).
Proof.
  intros m x x' E. destruct (tlift_inv _ _ _ _ E) as (c & F & ->). destruct (weather_taken _ _ _ F) as (A & B & C & D).
  unfold taf_accs. cbn -[blanked code_of_list]. rewrite A, B, C, D. reflexivity.
Qed.
Lemma taf_cloud_acc : forall m x x', tlift handle_cloud m x = Ok x' ->
  taf_accs x' = set_nth 10 (nth 10 (taf_accs x) [] ++ [blanked (m_string m)]) (taf_accs x).
Proof.
  intros m x x' E. destruct (tlift_inv _ _ _ _ E) as (c & F & ->). destruct (cloud_taken _ _ _ F) as (A & B & C & D).
  unfold taf_accs. cbn -[blanked code_of_list]. rewrite A, B, C, D. reflexivity.
Qed.
Lemma taf_temp_acc : forall m x x', thandle_temperature m x = Ok x' -> taf_accs x' = set_nth 11 (nth 11 (taf_accs x) []) (taf_accs x).
Proof.
  intros m x x' E. unfold thandle_temperature in E. binds E.
  destruct (opt_str_eqb _ _); binds E; ending E; reflexivity.
Qed.

Lemma taf_slots : forall e y mo, faithful_step (taf_handlers e y mo) taf_accs taf_fld taf_upd.
Proof.
  intros e y mo i h g m x x' N M E. pose proof (re_match_string _ _ _ M) as Eg. clear M.
  unfold taf_handlers in N.
  each_slot i N ltac:(cbn [h_handle] in E; unfold taf_upd, take_upd; cbn [taf_fld taf_table nth several existsb Nat.eqb orb Nat.leb]; subst g).
  - unfold thandle_type in E. taf_plain E.
  - unfold thandle_modifier in E. taf_plain E.
  - unfold thandle_station in E. taf_plain E.
  - unfold thandle_time in E. destruct (time_from_metar e (Some m) y mo) as [v|] eqn:Ev; [|discriminate E]. cbn [bind] in E. ending E.
    unfold taf_accs. cbn -[blanked time_str]. rewrite (time_code _ _ _ _ _ Ev). reflexivity.
  - unfold thandle_missing in E. taf_plain E.
  - unfold thandle_valid in E. destruct (valid_from_taf (Some m) _) as [v|] eqn:Ev; [|discriminate E]. cbn [bind] in E. ending E.
    unfold taf_accs. cbn -[blanked valid_str]. rewrite (valid_code _ _ _ Ev). reflexivity.
  - unfold thandle_cancelled in E. taf_plain E.
  - destruct (tlift_inv _ _ _ _ E) as (c & F & ->). destruct (wind_taken _ _ _ F) as (A & B & C & D).
    unfold taf_accs. cbn -[blanked]. rewrite A, B, C, D. reflexivity.
  - destruct (tlift_inv _ _ _ _ E) as (c & F & ->). destruct (vis_taken _ _ _ F) as (A & B & C & D).
    unfold taf_accs. cbn -[blanked]. rewrite A, B, C, D. reflexivity.
  - exact (taf_weather_acc _ _ _ E).
  - exact (taf_weather_acc _ _ _ E).
  - exact (taf_weather_acc _ _ _ E).
  - exact (taf_cloud_acc _ _ _ E).
  - exact (taf_cloud_acc _ _ _ E).
  - exact (taf_cloud_acc _ _ _ E).
  - exact (taf_cloud_acc _ _ _ E).
  - exact (taf_temp_acc _ _ _ E).
  - exact (taf_temp_acc _ _ _ E).
  - exact (taf_temp_acc _ _ _ E).
  - exact (taf_temp_acc _ _ _ E).
Qed.

Lemma temp_taken : forall m x x', re_match r_T_TEMPERATURE (m_string m) = Some m -> thandle_temperature m x = Ok x' ->
  temp_accs x' = set_nth (temp_fld 16 (m_string m)) (nth (temp_fld 16 (m_string m)) (temp_accs x) [] ++ [blanked (m_string m)]) (temp_accs x).
Proof.
  intros m x x' M E. unfold temp_fld. cbn [Nat.leb]. rewrite M. unfold thandle_temperature in E.
  destruct (taf_temp_new m _) as [t|] eqn:T; [|discriminate E]. cbn [bind] in E. apply taf_temp_code in T.
  destruct (opt_str_eqb _ _).
  - destruct (gl_add t (ta_max x)) as [l|] eqn:G; [|discriminate E]. cbn [bind] in E. ending E.
    unfold temp_accs. cbn -[blanked code_of_list]. rewrite (list_code _ _ _ _ _ _ G T). reflexivity.
  - destruct (gl_add t (ta_min x)) as [l|] eqn:G; [|discriminate E]. cbn [bind] in E. ending E.
    unfold temp_accs. cbn -[blanked code_of_list]. rewrite (list_code _ _ _ _ _ _ G T). reflexivity.
Qed.

Lemma temp_slots : forall e y mo, faithful_step (taf_handlers e y mo) temp_accs temp_fld temp_upd.
Proof.
  intros e y mo i h g m x x' N M E. pose proof (re_match_string _ _ _ M) as Eg.
  unfold taf_handlers in N.
  each_slot i N ltac:(cbn [h_handle h_regexp] in E, M; subst g;
    first [exact (temp_taken _ _ _ M E)
          |unfold thandle_type, thandle_modifier, thandle_station, thandle_time, thandle_missing, thandle_valid, thandle_cancelled, tlift in E;
           cbv zeta in E; binds E; ending E; reflexivity]).
Qed.

Lemma temps_weave : forall tr, below 20 tr ->
  weave (spelled (of_field temp_fld 1 tr)) (spelled (of_field temp_fld 2 tr)) (spelled (of_field taf_fld 11 tr)).
Proof.
  intros tr B. induction B as [|[i g] tr L B IH]; [constructor|]. cbn [fst] in L.
  unfold of_field in *. cbn [filter fst snd].
  destruct (Nat.leb_spec 16 i) as [H|H].
  - assert (E : taf_fld i g = 11).
    { unfold taf_fld. do 16 (destruct i as [|i]; [lia|]). do 4 (destruct i as [|i]; [reflexivity|]). lia. }
    assert (D : temp_fld i g = 1 \/ temp_fld i g = 2).
    { unfold temp_fld. apply Nat.leb_le in H. rewrite H. destruct (match re_match r_T_TEMPERATURE g with Some _ => _ | None => _ end); auto. }
    rewrite E. destruct D as [D|D]; rewrite D; cbn [Nat.eqb spelled map snd]; constructor; exact IH.
  - assert (E : taf_fld i g =? 11 = false).
    { unfold taf_fld. do 16 (destruct i as [|i]; [reflexivity|]). lia. }
    assert (D : temp_fld i g = 0) by (unfold temp_fld; apply Nat.leb_gt in H; rewrite H; reflexivity).
    rewrite E, D. cbn [Nat.eqb]. exact IH.
Qed.

Lemma taf_fresh : forall e raw x, taf_init e raw = Ok x ->
  taf_accs x = [py "TAF"] :: repeat [] 11 /\ temp_accs x = repeat [] 3 /\ ta_unparsed x = [] /\ ta_changes x = gl_new 8
  /\ ta_sections x = [ta_body x; join (py " ") (map blanked (ta_codes x))].
Proof.
  intros e raw x E. unfold taf_init in E.
  destruct (time_new e None None None None None None) as [t|] eqn:T; [|discriminate E]. cbn [bind] in E.
  assert (T1 : t_code t = None).
  { unfold time_new in T. cbv zeta in T. binds T. injection T as <-. reflexivity. }
  destruct (taf_split raw) as [body codes].
  assert (C : exists c, common_new [] = Ok c /\ w_code (c_wind c) = None /\ v_code (c_vis c) = None
            /\ c_weathers c = gl_new 3 /\ gl_list (c_clouds c) = []).
  { eexists. split; [vm_compute; reflexivity|]. vm_compute. auto. }
  destruct C as (c & Ec & C1 & C2 & C3 & C4). rewrite Ec in E. cbn [bind] in E.
  destruct (valid_from_taf None (t_dt t)) as [v|] eqn:V; [|discriminate E]. cbn [bind] in E.
  assert (V1 : va_code v = None).
  { unfold valid_from_taf in V. binds V. injection V as <-. reflexivity. }
  ending E. conjs; [|reflexivity|reflexivity|reflexivity|].
  - unfold taf_accs. cbn [ta_type ta_modifier ta_station ta_time ta_missing ta_valid ta_cancelled ta_common].
    unfold code_of_list. rewrite C1, C2, C3, C4, T1, V1. reflexivity.
  - cbn [ta_sections ta_body ta_codes]. unfold taf_sections. do 3 f_equal. apply map_ext. exact replace_blanked.
Qed.

Lemma taf_frame : forall e y mo h m s s', In h (taf_handlers e y mo) -> h_handle h m s = Ok s' ->
  ta_changes s' = ta_changes s /\ ta_sections s' = ta_sections s /\ ta_unparsed s' = ta_unparsed s /\ ta_codes s' = ta_codes s.
Proof.
  intros e y mo h m s s' I Eh. unfold taf_handlers in I. cbn [In] in I.
  repeat (destruct I as [<-|I]; [cbn [h_handle] in Eh|]); try contradiction;
    unfold thandle_type, thandle_modifier, thandle_station, thandle_time, thandle_missing, thandle_valid, thandle_cancelled, tlift,
      thandle_temperature in Eh; cbv zeta in Eh; binds Eh;
    try match type of Eh with (if ?b then _ else _) = _ => destruct b; binds Eh end; ending Eh; conjs; reflexivity.
Qed.

Lemma taf_body_words : forall e y mo x0 x1 un,
  taf_accs x0 = [py "TAF"] :: repeat [] 11 -> temp_accs x0 = repeat [] 3 ->
  parse_section (taf_handlers e y mo) (sanitize_visibility (ta_body x0)) x0 = Ok (x1, un) ->
  exists ty temps, type_codes (py "TAF") (ta_type x1) ty
    /\ weave (code_of_list tt_code (ta_max x1)) (code_of_list tt_code (ta_min x1)) temps
    /\ accounted (ta_body x0) un (ty ++ taf_codes_before x1 ++ temps).
Proof.
  intros e y mo x0 x1 un F F2 E. destruct (section_fields _ _ _ _ _ _ E) as (tr & W & R & B & K).
  pose proof (K temp_accs 3 temp_fld temp_upd (temp_slots e y mo) (fun s => eq_refl)) as K2.
  specialize (K taf_accs 12 taf_fld taf_upd (taf_slots e y mo) (fun s => eq_refl)).
  assert (Bn : below 20 tr) by exact B.
  assert (Low : forall i g f, taf_fld i g = f -> f <> 11 -> f <> 12 -> Nat.leb 16 i = false).
  { intros i g f Hf N1 N2. unfold taf_fld in Hf. do 16 (destruct i as [|i]; [reflexivity|]).
    do 4 (destruct i as [|i]; [cbn in Hf; congruence|]). destruct i; cbn in Hf; congruence. }
  assert (O : forall f lo, table_field taf_table f lo 1 = true -> length (of_field taf_fld f tr) <= 1).
  { intros f lo H. apply (field_most taf_fld 20 f lo 1 tr); [|exact R|exact Bn]. intros i g L. exact (table_field_ok taf_table 12 f lo 1 H i L). }
  assert (One : forall f lo, f < 11 -> f <> 0 -> several [9; 10] f = false -> table_field taf_table f lo 1 = true ->
            spelled (of_field taf_fld f tr) = nth f (taf_accs x1) []).
  { intros f lo L N S H. rewrite (K f), F by lia. destruct f as [|f]; [congruence|]. cbn [nth].
    rewrite nth_repeat. symmetry. apply folded_one; [|exact (O _ lo H)].
    intros i g o Hf. unfold taf_upd, take_upd. rewrite (Low i g _ Hf) by lia. rewrite Hf, S. reflexivity. }
  assert (All : forall f, f < 11 -> f <> 0 -> several [9; 10] f = true -> spelled (of_field taf_fld f tr) = nth f (taf_accs x1) []).
  { intros f L N S. rewrite (K f), F by lia. destruct f as [|f]; [congruence|]. cbn [nth]. rewrite nth_repeat. rewrite folded_all; [reflexivity|].
    intros i g o Hf. unfold taf_upd, take_upd. rewrite (Low i g _ Hf) by lia. rewrite Hf, S. reflexivity. }
  assert (Ty : type_codes (py "TAF") (ta_type x1) (spelled (of_field taf_fld 0 tr))).
  { pose proof (K 0 ltac:(lia)) as K0. rewrite F in K0. cbn [nth] in K0. rewrite folded_last in K0.
    2:{ intros i g o Hf. unfold taf_upd, take_upd. rewrite (Low i g _ Hf) by lia. rewrite Hf. reflexivity. }
    pose proof (O 0 0 eq_refl) as L. unfold type_codes. cbn [taf_accs nth] in K0.
    destruct (of_field taf_fld 0 tr) as [|p [|q l]]; [right|left|cbn in L; lia].
    - split; [reflexivity|]. cbn in K0. destruct (ty_code (ta_type x1)) as [c|]; [|discriminate K0]. cbn [code_of_field] in K0. apply (f_equal (hd [])) in K0. cbn [hd] in K0. rewrite K0. reflexivity.
    - cbn in K0. rewrite K0. reflexivity. }
  assert (Te : forall f, f < 3 -> f <> 0 -> spelled (of_field temp_fld f tr) = nth f (temp_accs x1) []).
  { intros f L N. rewrite (K2 f L), F2, nth_repeat. rewrite folded_all; [reflexivity|].
    intros i g o Hf. unfold temp_fld in Hf. unfold temp_upd. destruct (Nat.leb 16 i); [reflexivity|congruence]. }
  pose proof (temps_weave tr Bn) as Tw. rewrite (Te 1), (Te 2) in Tw by lia. cbn [temp_accs nth] in Tw.
  exists (spelled (of_field taf_fld 0 tr)), (spelled (of_field taf_fld 11 tr)). split; [exact Ty|]. split; [exact Tw|].
  destruct (split_words (sanitize_visibility (ta_body x0))) as [S1 S2].
  exists (sanitize_visibility (ta_body x0)), (split_on 32 (sanitize_visibility (ta_body x0))), (map snd tr).
  split; [apply mixed_joined|]. split; [exact S1|]. split; [exact S2|]. split; [exact W|].
  rewrite <- spelled_all.
  rewrite (spelled_fields taf_fld 20 12 tr); [| | |exact R|exact Bn].
  2:{ intros j k g h L. exact (table_mono_ok taf_table 12 eq_refl j k L). }
  2:{ intros j g L. do 20 (destruct j as [|j]; [cbn; lia|]). lia. }
  cbn [seq flat_map].
  rewrite (One 1 1), (One 2 2), (One 3 3), (One 4 4), (One 5 5), (One 6 6), (One 7 7), (One 8 8), (All 9), (All 10) by first [lia|reflexivity].
  unfold taf_codes_before, common_codes. cbn [taf_accs nth]. rewrite app_nil_r, <- !app_assoc. reflexivity.
Qed.

(** ** Changes *)

Definition change_accs (p : change_fc) : list (list str) :=
  [code_of_field (tc_code (cf_ind p)); code_of_field (w_code (c_wind (cf_common p))); code_of_field (v_code (c_vis (cf_common p)));
   code_of_list we_code (c_weathers (cf_common p)); code_of_list cl_code (c_clouds (cf_common p))].
Definition change_table : list nat := [0; 0; 1; 2; 3; 3; 3; 4; 4; 4; 4].
Definition change_fld (i : nat) (g : str) : nat := nth i change_table 5.
Definition change_upd (i : nat) (old : list str) (g : str) : list str :=
  match i with
  | 0 => [if starts_with (py "FM") g then g else blanked g]
  | 1 => match old with [] => [blanked g] | c :: _ => if starts_with (py "FM") c then [c] else [c ++ py " " ++ blanked g] end
  | 2 | 3 => [blanked g]
  | _ => old ++ [blanked g]
  end.

Lemma cf_lift_inv : forall f m x x', cf_lift f m x = Ok x' -> exists c, f m (cf_common x) = Ok c
  /\ x' = mk_cf (cf_code x) (cf_valid x) c (cf_ind x) (cf_unparsed x).
Proof.
  intros f m x x' E. unfold cf_lift in E. destruct (f m (cf_common x)) as [c|]; [|discriminate E]. cbn [bind] in E.
  exists c. split; [reflexivity|congruence].
Qed.
Lemma change_weather_acc : forall m x x', cf_lift handle_weather m x = Ok x' ->
  change_accs x' = set_nth 3 (nth 3 (change_accs x) [] ++ [blanked (m_string m)]) (change_accs x).
Proof.
  intros m x x' E. destruct (cf_lift_inv _ _ _ _ E) as (c & F & ->). destruct (weather_taken _ _ _ F) as (A & B & C & D).
  unfold change_accs. cbn -[blanked code_of_list]. rewrite A, B, C, D. reflexivity.
Qed.
Lemma change_cloud_acc : forall m x x', cf_lift handle_cloud m x = Ok x' ->
  change_accs x' = set_nth 4 (nth 4 (change_accs x) [] ++ [blanked (m_string m)]) (change_accs x).
Proof.
  intros m x x' E. destruct (cf_lift_inv _ _ _ _ E) as (c & F & ->). destruct (cloud_taken _ _ _ F) as (A & B & C & D).
  unfold change_accs. cbn -[blanked code_of_list]. rewrite A, B, C, D. reflexivity.
Qed.

Lemma change_slots : faithful_step change_handlers change_accs change_fld change_upd.
Proof.
  intros i h g m x x' N M E. pose proof (re_match_string _ _ _ M) as Eg. clear M.
  unfold change_handlers in N.
  each_slot i N ltac:(cbn [h_handle] in E; cbn [change_fld change_upd change_table nth]; subst g).
  - unfold handle_change_indicator in E. destruct (taf_ind_new _ _) as [v|] eqn:Ev; [|discriminate E]. cbn [bind] in E. ending E.
    assert (V : tc_code v = Some (if starts_with (py "FM") (m_string m) then m_string m else blanked (m_string m))).
    { unfold taf_ind_new in Ev. destruct (starts_with (py "FM") (m_string m)).
      - binds Ev. ending Ev. reflexivity.
      - destruct (change_indicator_new (Some m)) as [ct|] eqn:Ct; [|discriminate Ev]. cbn [bind] in Ev. ending Ev.
        exact (change_ind_code _ _ Ct). }
    unfold change_accs. cbn -[blanked starts_with py]. rewrite V. reflexivity.
  - unfold handle_change_valid in E. destruct (set_valid_period _ _ _) as [v|] eqn:Ev; [|discriminate E]. cbn [bind] in E. ending E.
    unfold set_valid_period in Ev. destruct (valid_from_taf (Some m) _) as [w|] eqn:Ew; [|discriminate Ev]. cbn [bind] in Ev.
    apply valid_code in Ew. unfold change_accs. cbn -[blanked starts_with py].
    destruct (tc_code (cf_ind x)) as [c|]; [|discriminate Ev]. cbn [code_of_field].
    destruct (starts_with (py "FM") c); ending Ev; cbn [tc_code]; [reflexivity|]. rewrite Ew. reflexivity.
  - destruct (cf_lift_inv _ _ _ _ E) as (c & F & ->). destruct (wind_taken _ _ _ F) as (A & B & C & D).
    unfold change_accs. cbn -[blanked]. rewrite A, B, C, D. reflexivity.
  - destruct (cf_lift_inv _ _ _ _ E) as (c & F & ->). destruct (vis_taken _ _ _ F) as (A & B & C & D).
    unfold change_accs. cbn -[blanked]. rewrite A, B, C, D. reflexivity.
  - exact (change_weather_acc _ _ _ E).
  - exact (change_weather_acc _ _ _ E).
  - exact (change_weather_acc _ _ _ E).
  - exact (change_cloud_acc _ _ _ E).
  - exact (change_cloud_acc _ _ _ E).
  - exact (change_cloud_acc _ _ _ E).
  - exact (change_cloud_acc _ _ _ E).
Qed.

Definition ind_words (c : option str) (ind : list str) : Prop :=
  match c with
  | Some c => ind <> [] /\ (c = join (py " ") ind \/ (starts_with (py "FM") c = true /\ hd [] ind = blanked c))
  | None => ind = []
  end.

Lemma change_ind_words : forall c l, rising l -> Forall (fun p => 0 <= fst p < 2) l ->
  code_of_field c = fold_left (fun o p => change_upd (fst p) o (snd p)) l [] -> ind_words c (spelled l).
Proof.
  intros c l R F E.
  assert (L : length l <= 2) by (apply (field_slots _ 0 2 R), F).
  destruct l as [|[i g] [|[j h] [|q l]]]; [| | |cbn in L; lia].
  - destruct c; [discriminate E|reflexivity].
  - inversion F as [|p0 l0 Fp F' E0]; subst. cbn [fst] in Fp. cbn [fold_left fst snd] in E. destruct c as [c|].
    2:{ destruct i as [|[|i]]; [discriminate E|discriminate E|lia]. }
    split; [discriminate|]. cbn [spelled map snd join hd]. destruct i as [|[|i]]; [| |lia].
    + cbn [change_upd code_of_field] in E. apply (f_equal (hd [])) in E. cbn [hd] in E. subst c.
      destruct (starts_with (py "FM") g) eqn:S; [right; rewrite S; split; reflexivity|left; reflexivity].
    + cbn [change_upd code_of_field] in E. apply (f_equal (hd [])) in E. cbn [hd] in E. left. exact E.
  - destruct (rising_tail _ _ R) as [_ Lt]. inversion Lt as [|p0 l0 Lp _ E0]; subst. cbn [fst] in Lp.
    inversion F as [|p0 l0 Fp F' E0]; subst. inversion F' as [|p0 l0 Fq _ E0]; subst. cbn [fst] in Fp, Fq.
    assert (i = 0) by lia. assert (j = 1) by lia. subst i j. cbn [fold_left fst snd change_upd] in E.
    destruct (starts_with (py "FM") (if starts_with (py "FM") g then g else blanked g)) eqn:S.
    + destruct c as [c|]; [|discriminate E]. cbn [code_of_field] in E. apply (f_equal (hd [])) in E. cbn [hd] in E. subst c.
      split; [discriminate|]. right. split; [exact S|]. cbn [spelled map snd hd].
      destruct (starts_with (py "FM") g); [reflexivity|symmetry; apply blanked_twice].
    + destruct c as [c|]; [|discriminate E]. cbn [code_of_field] in E. apply (f_equal (hd [])) in E. cbn [hd] in E. subst c.
      split; [discriminate|]. left. cbn [spelled map snd]. rewrite join_cons by discriminate. cbn [join].
      destruct (starts_with (py "FM") g) eqn:S2; [congruence|reflexivity].
Qed.

Lemma change_words_kept : forall code v p, change_fc_new code v = Ok p -> change_kept p /\ cf_code p = Some (blanked code).
Proof.
  intros code t p E. unfold change_fc_new in E. cbv zeta in E. rewrite replace_blanked in E.
  assert (C : exists c, common_new [] = Ok c /\ w_code (c_wind c) = None /\ v_code (c_vis c) = None
            /\ c_weathers c = gl_new 3 /\ gl_list (c_clouds c) = []).
  { eexists. split; [vm_compute; reflexivity|]. vm_compute. auto. }
  destruct C as (c & Ec & C1 & C2 & C3 & C4). rewrite Ec in E. cbn [bind taf_ind_new] in E.
  set (i := mk_tci (group_code None) None t) in E.
  assert (I1 : tc_code i = None) by reflexivity.
  set (p0 := mk_cf (Some (blanked code)) t c i []) in *.
  destruct (parse_section change_handlers _ p0) as [[p1 un]|] eqn:E1; [|discriminate E]. cbn [bind] in E.
  ending E.
  assert (Fr : cf_code p1 = cf_code p0 /\ cf_unparsed p1 = []).
  { apply (parse_section_inv _ (fun p => cf_code p = cf_code p0 /\ cf_unparsed p = [])) in E1; [exact E1| |auto].
    intros h m s s' I Eh [K1 K2]. unfold change_handlers in I. cbn [In] in I.
    repeat (destruct I as [<-|I]; [cbn [h_handle] in Eh|]); try contradiction;
      unfold handle_change_indicator, handle_change_valid, cf_lift in Eh; cbv zeta in Eh; binds Eh; ending Eh; cbn; auto. }
  destruct Fr as [Fr1 Fr2].
  destruct (section_fields _ _ _ _ _ _ E1) as (tr & W & R & B & K).
  specialize (K change_accs 5 change_fld change_upd change_slots (fun s => eq_refl)). cbn [length change_handlers] in B.
  assert (Z : forall f, nth f (change_accs p0) [] = []).
  { intro f. unfold change_accs, p0, code_of_list. cbn [cf_ind cf_common]. rewrite I1, C1, C2, C3, C4. do 6 (destruct f as [|f]; [reflexivity|]). reflexivity. }
  assert (One : forall f lo, f < 5 -> f = 1 \/ f = 2 -> table_field change_table f lo 1 = true ->
            spelled (of_field change_fld f tr) = nth f (change_accs p1) []).
  { intros f lo L N H. rewrite (K f L), Z. symmetry. apply folded_one.
    - intros j g o Hf. unfold change_fld in Hf.
      do 11 (destruct j as [|j]; [cbn [change_table nth] in Hf; first [reflexivity|lia]|]).
      assert (f = 5); [|lia]. rewrite <- Hf. destruct j; reflexivity.
    - apply (field_most change_fld 11 f lo 1 tr); [|exact R|exact B]. intros j g L1. exact (table_field_ok change_table 5 f lo 1 H j L1). }
  assert (All : forall f, f < 5 -> f = 3 \/ f = 4 -> spelled (of_field change_fld f tr) = nth f (change_accs p1) []).
  { intros f L N. rewrite (K f L), Z. rewrite folded_all; [reflexivity|]. intros j g o Hf. unfold change_fld in Hf.
    do 11 (destruct j as [|j]; [cbn [change_table nth] in Hf; first [reflexivity|lia]|]).
    assert (f = 5); [|lia]. rewrite <- Hf. destruct j; reflexivity. }
  assert (In0 : Forall (fun p => 0 <= fst p < 2) (of_field change_fld 0 tr)).
  { unfold of_field. rewrite Forall_forall. intros q Hq. apply filter_In in Hq. destruct Hq as [Hq Hf]. apply Nat.eqb_eq in Hf.
    unfold below in B. rewrite Forall_forall in B. exact (table_field_ok change_table 5 0 0 2 eq_refl _ (B q Hq) Hf). }
  pose proof (K 0 ltac:(lia)) as K0. rewrite Z in K0. unfold folded in K0.
  cbn [change_accs nth] in K0. apply change_ind_words in K0; [|apply rising_filter, R|exact In0].
  split; [|exact Fr1].
  exists (blanked code), (spelled (of_field change_fld 0 tr)). cbn [cf_code cf_ind cf_common cf_unparsed].
  split; [rewrite Fr1; reflexivity|].
  split. { unfold spelled. rewrite map_length. apply (field_slots _ 0 2); [apply rising_filter, R|exact In0]. }
  split; [exact K0|].
  rewrite Fr2. cbn [app].
  set (s := sanitize_visibility _) in *.
  destruct (split_words s) as [S1 S2].
  exists s, (split_on 32 s), (map snd tr).
  split; [exact (joined_trans _ _ _ (prob_joined 5 (blanked code)) (mixed_joined _))|]. split; [exact S1|]. split; [exact S2|]. split; [exact W|].
  rewrite <- spelled_all.
  rewrite (spelled_fields change_fld 11 5 tr); [| | |exact R|exact B].
  2:{ intros j k g h L. exact (table_mono_ok change_table 5 eq_refl j k L). }
  2:{ intros j g L. do 11 (destruct j as [|j]; [cbn; lia|]). lia. }
  cbn [seq flat_map]. rewrite (One 1 2), (One 2 3), (All 3), (All 4) by first [lia|reflexivity].
  unfold common_codes. cbn [change_accs nth]. rewrite app_nil_r. reflexivity.
Qed.

(** Putting a change in the list keeps the words of the others. *)
Definition same_words (p q : change_fc) : Prop :=
  cf_code p = cf_code q /\ cf_unparsed p = cf_unparsed q /\ cf_common p = cf_common q /\ tc_code (cf_ind p) = tc_code (cf_ind q).
Lemma same_refl : forall p, same_words p p.
Proof. intro p. unfold same_words. auto. Qed.
Lemma same_list : forall l, Forall2 same_words l l.
Proof. induction l; constructor; [apply same_refl|assumption]. Qed.
Lemma same_kept : forall p q, same_words p q -> change_kept q -> change_kept p.
Proof.
  intros p q (A & B & C & D) (text & ind & K1 & K2 & K3 & K4). exists text, ind. rewrite A, B, C, D. auto.
Qed.

Lemma pop_same : forall u rl temp rl' temp', pop_changes u rl temp = Ok (rl', temp') ->
  Forall2 same_words (rev rl' ++ temp') (rev rl ++ temp).
Proof.
  intros u rl. induction rl as [|p rl IH]; intros temp rl' temp' E; cbn [pop_changes] in E.
  - injection E as <- <-. apply same_list.
  - destruct (tc_code (cf_ind p)) as [c|] eqn:C; [|discriminate E]. cbn [rev]. rewrite <- app_assoc.
    destruct (starts_with (py "PROB") c || starts_with (py "TEMPO") c); [exact (IH _ _ _ E)|].
    destruct (starts_with (py "FM") c) eqn:S.
    + destruct (reset_until_period u (cf_ind p)) as [i|] eqn:Ri; [|discriminate E]. cbn [bind] in E. injection E as <- <-.
      apply Forall2_app; [apply same_list|]. constructor; [|apply same_list].
      unfold same_words. cbn [cf_set_ind cf_code cf_unparsed cf_common cf_ind]. conjs; try reflexivity.
      unfold reset_until_period in Ri. binds Ri. rewrite C in Ri |- *. rewrite S in Ri. cbv zeta in Ri. ending Ri. reflexivity.
    + injection E as <- <-. apply same_list.
Qed.

Lemma gl_add_all_place : forall A (l : list A) g g', gl_add_all l g = Ok g' -> gl_n g' = gl_n g.
Proof.
  intros A l. induction l as [|x l IH]; intros g g' E; cbn [gl_add_all] in E; [injection E as <-; reflexivity|].
  destruct (gl_add x g) as [g1|] eqn:G; [|discriminate E]. cbn [bind] in E. rewrite (IH _ _ E). exact (gl_add_place _ _ _ _ G).
Qed.

Lemma changes_same : forall p g g', changes_add p g = Ok g' ->
  gl_n g' = gl_n g /\ exists l, gl_list g' = l ++ [p] /\ Forall2 same_words l (gl_list g).
Proof.
  intros p g g' E. unfold changes_add in E. cbv zeta in E.
  destruct (_ && _).
  - destruct (pop_changes _ _ _) as [[rl temp]|] eqn:P; [|discriminate E]. cbn [bind] in E.
    destruct (gl_add_all _ _) as [g1|] eqn:G; [|discriminate E]. cbn [bind] in E.
    split; [rewrite (gl_add_place _ _ _ _ E); exact (gl_add_all_place _ _ _ _ G)|].
    exists (gl_list g1). split; [exact (gl_add_list _ _ _ _ E)|]. rewrite (gl_add_all_list _ _ _ _ G). cbn [gl_list].
    apply pop_same in P. rewrite rev_involutive, app_nil_r in P. exact P.
  - split; [exact (gl_add_place _ _ _ _ E)|]. exists (gl_list g). split; [exact (gl_add_list _ _ _ _ E)|apply same_list].
Qed.

Lemma same_codes : forall l l', Forall2 same_words l l' -> map cf_code l = map cf_code l' /\ (Forall change_kept l' -> Forall change_kept l).
Proof.
  intros l l' H. induction H as [|p q l l' S H [IH1 IH2]]; [split; [reflexivity|auto]|]. split.
  - cbn [map]. rewrite IH1. f_equal. apply S.
  - intro F. inversion F as [|p0 l0 Fp F' E0]; subst. constructor; [exact (same_kept _ _ S Fp)|exact (IH2 F')].
Qed.

Lemma changes_done : forall l x x', handle_changes l x = Ok x' -> Forall change_kept (gl_list (ta_changes x)) ->
  (forall left, taf_body_kept x left -> taf_body_kept x' left) /\ ta_sections x' = ta_sections x /\ ta_unparsed x' = ta_unparsed x
  /\ gl_n (ta_changes x') = gl_n (ta_changes x)
  /\ Forall change_kept (gl_list (ta_changes x'))
  /\ map cf_code (gl_list (ta_changes x')) = map cf_code (gl_list (ta_changes x)) ++ map Some (filter nonempty_part (map blanked l)).
Proof.
  induction l as [|w l IH]; intros x x' E F; cbn [handle_changes] in E.
  - injection E as <-. conjs; auto. cbn. symmetry. apply app_nil_r.
  - destruct w as [|c w]; [exact (IH _ _ E F)|]. unfold handle_change_forecasted in E.
    destruct (change_fc_new (c :: w) _) as [p|] eqn:C; [|discriminate E]. cbn [bind] in E. apply change_words_kept in C.
    destruct (changes_add p (ta_changes x)) as [g|] eqn:G; [|discriminate E]. cbn [bind] in E.
    destruct (changes_same _ _ _ G) as (Gn & l0 & Gl & Gs). destruct (same_codes _ _ Gs) as [Sc Sk].
    destruct (IH _ _ E) as (B & S & U & N & K & M).
    { cbn [tout_string tupd_common tupd_changes ta_changes]. rewrite Gl. apply Forall_app. split; [exact (Sk F)|]. constructor; [apply C|constructor]. }
    cbn [tout_string tupd_common tupd_changes ta_changes ta_sections ta_unparsed] in B, S, U, N, M.
    split; [intros left H; apply B; exact H|]. split; [exact S|]. split; [exact U|].
    split; [rewrite N; exact Gn|]. split; [exact K|]. rewrite M, Gl, map_app, Sc, <- app_assoc. f_equal.
    cbn [map app]. rewrite (proj2 C). reflexivity.
Qed.

Lemma taf_words : forall e code y mo tr x, taf_parse e code y mo tr = Ok x -> taf_words_kept x.
Proof.
  intros e code y mo tr x E. unfold taf_parse in E. destruct (report_raw_code code) as [raw|]; [|discriminate E]. cbn [bind] in E.
  destruct (taf_init e raw) as [x0|] eqn:E0; [|discriminate E]. cbn [bind] in E.
  destruct (taf_fresh _ _ _ E0) as (F1 & F2 & F3 & F4 & F5). clear E0.
  unfold taf_parse_body in E. destruct (parse_section (taf_handlers e y mo) _ x0) as [[x1 un]|] eqn:E1; [|discriminate E]. cbn [bind] in E.
  pose proof (taf_body_words _ _ _ _ _ _ F1 F2 E1) as Bd.
  assert (K : ta_changes x1 = ta_changes x0 /\ ta_sections x1 = ta_sections x0 /\ ta_unparsed x1 = ta_unparsed x0 /\ ta_codes x1 = ta_codes x0).
  { apply (parse_section_inv _ (fun x => ta_changes x = ta_changes x0 /\ ta_sections x = ta_sections x0 /\ ta_unparsed x = ta_unparsed x0
      /\ ta_codes x = ta_codes x0)) in E1; [exact E1| |auto].
    intros h m s s' I Eh (K1 & K2 & K3 & K4). destruct (taf_frame _ _ _ _ _ _ _ I Eh) as (L1 & L2 & L3 & L4).
    rewrite L1, L2, L3, L4. auto. }
  destruct K as (K1 & K2 & K3 & K4). rewrite K3, F3 in E. cbn [app] in E.
  unfold parse_changes_forecasted in E. destruct (handle_changes _ _) as [x2|] eqn:E2; [|discriminate E]. cbn [bind] in E.
  destruct (changes_done _ _ _ E2) as (B & S & U & N & P & M). { cbn [ta_changes tupd_unparsed]. rewrite K1, F4. constructor. }
  cbn [ta_changes tupd_unparsed ta_sections ta_unparsed ta_codes] in N, S, U, M.
  rewrite K1, F4 in N, M. cbn in N. rewrite (gl_collect_fresh _ N) in E. cbv zeta in E.
  set (x3 := tupd_unparsed _ _) in E.
  assert (X : x = x3) by (destruct (ta_unparsed x3); [congruence|]; destruct tr; [discriminate E|congruence]).
  rewrite X. unfold x3. clear X x3 E E1 E2.
  exists un. cbn [ta_unparsed ta_changes ta_sections tupd_unparsed tupd_changes]. rewrite U. split; [reflexivity|].
  split. { apply (B un). unfold taf_body_kept. cbn [ta_sections tupd_unparsed]. rewrite K2, F5. cbn [nth]. exact Bd. }
  split; [|exact P]. rewrite S, K2, F5. cbn [nth].
  exists (map blanked (ta_codes x0)). split; [reflexivity|]. rewrite M, K4. reflexivity.
Qed.
