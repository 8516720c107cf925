(** * The finitely many shapes of the documented groups *)
From Coq Require Import String Ascii.
From Coq Require Import List NArith ZArith Bool Lia.
From Verif Require Import PyBase PyRegex AeroRegex SpecNum SpecGroups SymRegex ProofGroups ProofGroups2.
Import ListNotations.
Local Open Scope string_scope.
Local Open Scope nat_scope.
Local Open Scope list_scope.

Fixpoint leqb {A} (f : A -> A -> bool) (a b : list A) : bool :=
  match a, b with
  | [], [] => true
  | x :: a', y :: b' => f x y && leqb f a' b'
  | _, _ => false
  end.
Lemma leqb_eq : forall A (f : A -> A -> bool), (forall x y, f x y = true -> x = y) ->
  forall a b, leqb f a b = true -> a = b.
Proof.
  intros A f Hf. induction a as [|x a IH]; intros [|y b] H; cbn in H; try discriminate; auto.
  apply andb_true_iff in H. destruct H as [H1 H2]. rewrite (Hf _ _ H1), (IH _ H2). reflexivity.
Qed.

Definition has_shape (all : list (list sym)) (y : list sym) : bool := existsb (leqb (leqb N.eqb) y) all.
Lemma has_shape_in : forall all y, has_shape all y = true -> In y all.
Proof.
  intros all y H. apply existsb_exists in H. destruct H as (x & Hx & E).
  apply leqb_eq in E; [subst; exact Hx|]. apply leqb_eq. intros a b K. apply N.eqb_eq. exact K.
Qed.

(** [s] has one of the shapes. *)
Definition shaped (all : list (list sym)) (s : str) : Prop := exists y, In y all /\ inst s y.

Lemma shaped_text : forall all t y, fits t y -> has_shape all (ssym y) = true -> shaped all (tcode t).
Proof.
  intros all t y Hf H. exists (ssym y). split; [apply has_shape_in; exact H|apply fits_inst; exact Hf].
Qed.

Definition bools := [true; false].
Definition pairs {A B} (l : list A) (m : list B) : list (A * B) := flat_map (fun a => map (pair a) m) l.

(** Wind *)
Definition wind_reps : list wind_g :=
  map (fun x => mk_wind_g (fst (fst (fst x))) (snd (fst (fst x))) (snd (fst x)) (snd x))
    (pairs (pairs (pairs [DirDeg 0; DirDeg 30; DirVrb; DirNone]
       [Spd true true 0; Spd true false 0; Spd false true 0; Spd false false 0; SpdNone true; SpdNone false])
       [None; Some (true, true, 0%N); Some (true, false, 0%N); Some (false, true, 0%N); Some (false, false, 0%N)])
       [KT; MPS]).
Definition wind_shapes := Eval vm_compute in map (fun g => ssym (wind_shape g)) wind_reps.
Lemma wind_shaped : forall g, wind_wf g -> shaped wind_shapes (wind_code g).
Proof.
  intros g H. rewrite <- wind_text_code. apply (shaped_text _ _ _ (wind_fits g H)).
  destruct g as [d s gu u]. destruct d as [t| |]; destruct s as [[|] [|] n|[|]];
    destruct gu as [[[[|] [|]] gn]|]; destruct u;
    unfold wind_shape, wdir_sym, upto2; cbn [wg_dir wg_speed wg_gust wg_units];
    try (destruct (t <? 10 * 3)%N); vm_compute; reflexivity.
Qed.

(** Wind variation *)
Definition wvar_shapes := Eval vm_compute in
  map (fun x => ssym (wvar_shape (mk_wvar_g (fst x) (snd x)))) (pairs [1; 10; 30]%N [1; 10; 30]%N).
Lemma wvar_shaped : forall g, wvar_wf g -> shaped wvar_shapes (wvar_code g).
Proof.
  intros g H. rewrite <- wvar_text_code. apply (shaped_text _ _ _ (wvar_fits g H)).
  destruct g as [a b]. unfold wvar_shape, from1. cbn [vg_from vg_to].
  destruct (a <? 10)%N; destruct (a <? 10 * 3)%N; destruct (b <? 10)%N; destruct (b <? 10 * 3)%N;
    vm_compute; reflexivity.
Qed.

(** Visibility; [two_words] is a mixed number of miles. *)
Definition two_words (g : vis_g) : bool :=
  match g with VisMiles _ (Some _) (Some _) => true | _ => false end.
Definition vis_reps : list vis_g :=
  map (VisMeters 0) (options points8) ++ map VisMissing (options points8) ++ [VisCavok]
  ++ map (fun x => VisMiles (fst (fst x)) (snd (fst x)) (snd x))
       (pairs (pairs (options bools) [None; Some (true, 0%N); Some (false, 0%N)]) [None; Some (0%N, 1%N)])
  ++ map (fun x => VisKm (fst x) (snd x) 0) (pairs (options bools) bools).
Definition vis_shapes := Eval vm_compute in map (fun g => ssym (vis_shape g)) vis_reps.
Definition one_word_vis_shapes := Eval vm_compute in
  map (fun g => ssym (vis_shape g)) (filter (fun g => negb (two_words g)) vis_reps).
Definition min_vis_shapes := Eval vm_compute in
  map (fun g => ssym (vis_shape g)) (map (VisMeters 0) (options points8) ++ map VisMissing (options points8)).
Ltac by_point H := cbn in H; repeat (destruct H as [<-|H]; [vm_compute; reflexivity|]); destruct H.
Lemma vis_shaped : forall g, vis_wf g -> shaped vis_shapes (vis_code g).
Proof.
  intros g H. rewrite <- vis_text_code. apply (shaped_text _ _ _ (vis_fits g)).
  destruct g as [n [d|]|[d|]| |l i f|l two n].
  - destruct H as [_ H]. by_point H.
  - vm_compute; reflexivity.
  - by_point H.
  - vm_compute; reflexivity.
  - vm_compute; reflexivity.
  - destruct l as [[|]|], i as [[[|] i]|], f as [[a b]|]; vm_compute; reflexivity.
  - destruct l as [[|]|], two; vm_compute; reflexivity.
Qed.
Lemma one_word_vis_shaped : forall g, vis_wf g -> two_words g = false -> shaped one_word_vis_shapes (vis_code g).
Proof.
  intros g H H2. rewrite <- vis_text_code. apply (shaped_text _ _ _ (vis_fits g)).
  destruct g as [n [d|]|[d|]| |l i f|l two n].
  - destruct H as [_ H]. by_point H.
  - vm_compute; reflexivity.
  - by_point H.
  - vm_compute; reflexivity.
  - vm_compute; reflexivity.
  - destruct l as [[|]|], i as [[[|] i]|], f as [[a b]|]; try discriminate H2; vm_compute; reflexivity.
  - destruct l as [[|]|], two; vm_compute; reflexivity.
Qed.
Lemma min_vis_shaped : forall g, vis_wf g -> min_vis g -> shaped min_vis_shapes (vis_code g).
Proof.
  intros g H H2. rewrite <- vis_text_code. apply (shaped_text _ _ _ (vis_fits g)).
  destruct g as [n [d|]|[d|]| |l i f|l two n]; try destruct H2.
  - destruct H as [_ H]. by_point H.
  - vm_compute; reflexivity.
  - by_point H.
  - vm_compute; reflexivity.
Qed.

(** Runway visual range *)
Definition letter := ("", "")%string.
Definition rvr_reps : list rvr_g :=
  flat_map (fun side => flat_map (fun lo => flat_map (fun k => flat_map (fun hi => flat_map (fun ft =>
    map (fun tr => mk_rvr_g (mk_runway 0 side) lo (k, 0%N) hi ft tr) (options [letter])) bools)
    (options (pairs (options [letter]) [(2, 0%N); (3, 0%N); (4, 0%N)]))) [2; 3; 4])
    (options [letter])) (options [letter]).
Definition rvr_shapes := Eval vm_compute in map (fun g => ssym (rvr_shape g)) rvr_reps.
Lemma rvr_shaped : forall g, rvr_wf g -> shaped rvr_shapes (rvr_code g).
Proof.
  intros g H. rewrite <- rvr_text_code. apply (shaped_text _ _ _ (rvr_fits g H)).
  destruct g as [[rn rs] l [kl lo] hi ft tr]. destruct H as (_ & _ & [H1 _] & H2 & _).
  unfold rvr_shape, runway_sym, lim_shape, oshape.
  cbn [rg_runway rg_lim_low rg_low rg_high rg_feet rg_trend rn_side fst] in *.
  assert (E : kl = 2 \/ kl = 3 \/ kl = 4) by lia. clear H1.
  destruct hi as [[lh [kh h]]|].
  - destruct H2 as [_ [H2 _]]. simpl in H2.
    assert (E' : kh = 2 \/ kh = 3 \/ kh = 4) by lia. clear H2. cbn [fst].
    destruct rs, l, lh, ft, tr; destruct E as [->|[->| ->]]; destruct E' as [->|[->| ->]];
      vm_compute; reflexivity.
  - destruct rs, l, ft, tr; destruct E as [->|[->| ->]]; vm_compute; reflexivity.
Qed.

(** Weather: the empty text is a weather group for the program, not for us. *)
Definition weather_shapes :=
  filter (fun y => negb (Nat.eqb (length y) 0)) (map (fun g => ssym (weather_shape g)) all_weather).
Lemma weather_shaped : forall g, weather_wf g -> weather_code g <> [] -> shaped weather_shapes (weather_code g).
Proof.
  intros g H Hn. pose proof (fits_inst _ _ (weather_fits g)) as Hi. rewrite weather_text_code in Hi.
  exists (ssym (weather_shape g)). split; [|exact Hi].
  assert (E : In (ssym (weather_shape g)) (map (fun g => ssym (weather_shape g)) all_weather))
    by (apply (in_map (fun g => ssym (weather_shape g))); apply in_weather; exact H).
  assert (L : length (ssym (weather_shape g)) <> 0).
  { intro L. rewrite <- (inst_length _ _ Hi) in L. destruct (weather_code g); [congruence|discriminate L]. }
  change weather_shapes with
    (filter (fun y : list sym => negb (Nat.eqb (length y) 0)) (map (fun g => ssym (weather_shape g)) all_weather)).
  apply filter_In. split; [exact E|]. apply negb_true_iff. apply Nat.eqb_neq. exact L.
Qed.

(** Clouds *)
Definition cloud_reps : list cloud_g :=
  flat_map (fun c => flat_map (fun h => map (mk_cloud_g c h) [TyTCU; TyCB; TySlashes; TyAbsent])
                       [HtHundreds 0; HtSlashes; HtAbsent]) covers.
Definition cloud_shapes := Eval vm_compute in
  map (fun g => ssym (cloud_shape g))
    (filter (fun g => match cg_height g, cg_type g with HtAbsent, TySlashes => false | _, _ => true end) cloud_reps).
Lemma cloud_shaped : forall g, cloud_wf g -> shaped cloud_shapes (cloud_code g).
Proof.
  intros g H. rewrite <- cloud_text_code. apply (shaped_text _ _ _ (cloud_fits g)).
  destruct g as [c h t]. destruct H as (H1 & _ & H2). cbn [cg_cover cg_height cg_type] in *.
  simpl in H1.
  destruct h, t; try (exfalso; apply H2; split; reflexivity); clear H2;
    repeat (destruct H1 as [<-|H1]; [vm_compute; reflexivity|]); destruct H1.
Qed.

(** Temperatures *)
Definition tside_reps : list tside :=
  [TValue None 0; TValue (Some true) 0; TValue (Some false) 0; TMissing "//"; TMissing "XX"; TMissing "MM"].
Definition temps_shapes := Eval vm_compute in
  map (fun x => ssym (temps_shape (mk_temps_g (fst x) (snd x)))) (pairs tside_reps tside_reps).
Lemma temps_shaped : forall g, temps_wf g -> shaped temps_shapes (temps_code g).
Proof.
  intros g H. rewrite <- temps_text_code. apply (shaped_text _ _ _ (temps_fits g)).
  destruct g as [a b]. destruct H as [H1 H2]. cbn [tg_temp tg_dewpt] in *.
  destruct a as [[[|]|] n|f]; destruct b as [[[|]|] n'|f'];
    cbn [tside_wf] in H1, H2;
    repeat match goal with
    | H : In _ [_; _; _] |- _ => destruct H as [<-|[<-|[<-|[]]]]
    end; vm_compute; reflexivity.
Qed.

(** Pressure with its unit: four bare digits would be a visibility. *)
Definition unit_written (g : press_g) : Prop := pg_prefix g <> PfNone \/ pg_ins g = true.
Definition press_shapes := Eval vm_compute in
  map (fun x => ssym (press_shape (mk_press_g (fst (fst x)) (snd (fst x)) (snd x))))
    (pairs (pairs [PfA; PfQ; PfQNH] (options [0%N])) bools ++ pairs (pairs [PfNone] (options [0%N])) [true]).
Lemma press_shaped : forall g, unit_written g -> shaped press_shapes (press_code g).
Proof.
  intros g H. rewrite <- press_text_code. apply (shaped_text _ _ _ (press_fits g)).
  destruct g as [[| | |] [n|] [|]]; try (vm_compute; reflexivity);
    (destruct H as [H|H]; [destruct H; reflexivity|discriminate H]).
Qed.

(** Recent weather *)
Definition recent_shapes := map (fun g => ssym (recent_shape g)) all_recent.
Lemma recent_shaped : forall g, recent_wf g -> shaped recent_shapes (recent_code g).
Proof.
  intros g H. exists (ssym (recent_shape g)). split.
  - change recent_shapes with (map (fun g => ssym (recent_shape g)) all_recent).
    apply (in_map (fun g => ssym (recent_shape g))). apply in_recent. exact H.
  - rewrite <- recent_text_code. apply fits_inst. apply recent_fits.
Qed.

(** Windshear *)
Definition ws_shapes := Eval vm_compute in
  map (fun g => ssym (ws_shape g)) [WsAll; WsRunway (mk_runway 0 None); WsRunway (mk_runway 0 (Some letter))].
Lemma ws_shaped : forall g, ws_wf g -> shaped ws_shapes (ws_token g).
Proof.
  intros g H. rewrite <- ws_text_code. apply (shaped_text _ _ _ (ws_fits g H)).
  destruct g as [|[n [s|]]]; vm_compute; reflexivity.
Qed.

(** Sea state *)
Definition sea_shapes := Eval vm_compute in
  map (fun x => ssym (sea_shape (mk_sea_g (fst x) 0 (snd x)))) (pairs bools [SeaState letter; SeaHeight 0]).
Lemma sea_shaped : forall g, sea_wf g -> shaped sea_shapes (sea_code g).
Proof.
  intros g H. rewrite <- sea_text_code. apply (shaped_text _ _ _ (sea_fits g H)).
  destruct g as [[|] t [x|n]]; vm_compute; reflexivity.
Qed.

(** Runway state *)
Definition rs_shapes := Eval vm_compute in
  map (fun x => ssym (rs_shape (mk_rs_g (fst x) (snd x))))
    (pairs [None; Some (mk_runway 0 None); Some (mk_runway 0 (Some letter))]
       ([RsSnoclo; RsClrd]
        ++ map (fun x => RsCodes (fst (fst (fst x)), "") (snd (fst (fst x)), None) (snd (fst x)) (snd x))
             (pairs (pairs (pairs ["/"; "0"] ["/"; "0"]) (options [0%N])) (options [0%N])))).
Lemma rs_shaped : forall g, rs_wf g -> shaped rs_shapes (rs_code_of g).
Proof.
  intros g H. rewrite <- rs_text_code. apply (shaped_text _ _ _ (rs_fits g H)).
  destruct g as [w s]. unfold rs_shape, oshape, runway_sym, digit_or_slash, two_sym.
  cbn [sg_runway sg_state].
  destruct w as [[n [sd|]]|]; cbn [rn_side]; (destruct s as [d c h f| |];
    [destruct (String.eqb (fst d) "/"), (String.eqb (fst c) "/"), h, f| |];
    vm_compute; reflexivity).
Qed.
