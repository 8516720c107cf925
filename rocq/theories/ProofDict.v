(** * The dictionary of a report (C64) *)
From Coq Require Import String Ascii.
From Coq Require Import List NArith ZArith Bool Lia Permutation.
From Verif Require Import PyBase PyRegex AeroRegex PyFloat PyTime Utils Base MetarGroups Trend Metar Taf AsDict SpecNum SpecTime SpecMoment SpecSay SpecDict
  ProofLists ProofProb ProofAbsent ProofAbsentTaf ProofRangeReport ProofJsonReport ProofMoment ProofMomentReport ProofSay.
Import ListNotations.
Local Open Scope string_scope.
Local Open Scope nat_scope.
Local Open Scope list_scope.

(** ** Rows *)

Lemma under_perm : forall s a b, Permutation a b -> Permutation (under s a) (under s b).
Proof. intros. apply Permutation_map. assumption. Qed.

Fixpoint key_rows (d : dict) : list row :=
  match d with [] => [] | (k, x) :: r => under (Key k) (leaves x) ++ key_rows r end.
Fixpoint item_rows (i : nat) (l : list pyval) : list row :=
  match l with [] => [] | x :: r => under (Item i) (leaves x) ++ item_rows (S i) r end.

Lemma leaves_dict : forall d, d <> [] -> leaves (VDict d) = key_rows d.
Proof. intros [|p d] H; [contradiction|]. reflexivity. Qed.
Lemma leaves_list : forall l, l <> [] -> leaves (VList l) = item_rows 0 l.
Proof. intros [|p d] H; [contradiction|]. reflexivity. Qed.

Lemma leaves_vopt : forall o, leaves (vopt o) = [([], word o)].
Proof. intros [s|]; reflexivity. Qed.
Lemma leaves_vflo : forall o, leaves (vflo o) = [([], number o)].
Proof. intros [s|]; reflexivity. Qed.

(** A dictionary of leaves and dictionaries, laid out key by key. *)
Ltac lay := rewrite leaves_dict by discriminate; cbn [key_rows]; rewrite ?leaves_vopt, ?leaves_vflo.

Lemma distance_rows_ok : forall v, leaves (VDict (distance_dict v)) = metres_rows v.
Proof. intro v. unfold distance_dict. lay. reflexivity. Qed.
Lemma pressure_rows_ok : forall v, leaves (VDict (pressure_dict v)) = hectopascals_rows v.
Proof. intro v. unfold pressure_dict. lay. reflexivity. Qed.
Lemma temperature_rows_ok : forall v, leaves (VDict (temperature_dict v)) = celsius_rows v.
Proof. intro v. unfold temperature_dict. lay. reflexivity. Qed.
Lemma speed_rows_ok : forall v, leaves (VDict (speed_dict v)) = knots_rows v.
Proof. intro v. unfold speed_dict. lay. reflexivity. Qed.
Lemma direction_rows_ok : forall v, leaves (VDict (direction_dict v)) = direction_rows v.
Proof. intro v. unfold direction_dict. lay. reflexivity. Qed.

(** Explicit lists with the same entries. *)
Inductive taken (A : Type) (a : A) : list A -> list A -> Prop :=
| taken_here : forall l, taken A a (a :: l) l
| taken_next : forall b l l', taken A a l l' -> taken A a (b :: l) (b :: l').
Lemma taken_perm : forall A (a : A) l l', taken A a l l' -> Permutation l (a :: l').
Proof.
  intros A a l l' H. induction H as [l|b l l' H IH]; [apply Permutation_refl|].
  apply (Permutation_trans (perm_skip b IH)). apply perm_swap.
Qed.
Lemma perm_take : forall A (a : A) l r r', taken A a r r' -> Permutation l r' -> Permutation (a :: l) r.
Proof.
  intros A a l r r' H P. apply Permutation_sym. apply (Permutation_trans (taken_perm _ _ _ _ H)).
  apply perm_skip. apply Permutation_sym. exact P.
Qed.
Ltac take_it := first [apply taken_here | apply taken_next; take_it].
Ltac shuffle := repeat (eapply perm_take; [take_it|]); apply perm_nil.

Ltac rows := lay; rewrite ?distance_rows_ok, ?pressure_rows_ok, ?temperature_rows_ok, ?speed_rows_ok, ?direction_rows_ok;
  cbn [leaves];
  unfold code_row, at_key, metres_rows, knots_rows, celsius_rows, hectopascals_rows, quantity_rows, direction_rows, field, under;
  cbn [app map fst snd]; shuffle.

(** ** Updates with keys that are not there *)

Fixpoint new_keys (old new : list str) : bool :=
  match new with [] => true | k :: r => negb (existsb (str_eqb k) old) && new_keys (old ++ [k]) r end.

Lemma dset_new : forall k v d, existsb (str_eqb k) (map fst d) = false -> dset k v d = d ++ [(k, v)].
Proof.
  intros k v d. induction d as [|[a b] d IH]; intro H; [reflexivity|]. cbn [map fst existsb] in H. apply orb_false_iff in H.
  destruct H as [H1 H2]. cbn [dset app]. rewrite H1. f_equal. exact (IH H2).
Qed.

Lemma dupdate_new : forall u d, new_keys (map fst d) (map fst u) = true -> dupdate d u = d ++ u.
Proof.
  unfold dupdate. induction u as [|[k v] u IH]; intros d H; [rewrite app_nil_r; reflexivity|].
  cbn [map fst new_keys] in H. apply andb_true_iff in H. destruct H as [H1 H2]. apply negb_true_iff in H1.
  cbn [fold_left fst snd]. rewrite (dset_new _ _ _ H1), IH; [rewrite <- app_assoc; reflexivity|].
  rewrite map_app. exact H2.
Qed.

Ltac joined := rewrite !dupdate_new by (lazy; reflexivity); cbn [app].

Lemma wind_rows_ok : forall w, Permutation (leaves (VDict (wind_dict w))) (wind_rows w).
Proof. intro w. unfold wind_dict, group_dict, wind_rows. joined. rows. Qed.
Lemma wvar_rows_ok : forall w, Permutation (leaves (VDict (wvar_dict w))) (wvar_rows w).
Proof. intro w. unfold wvar_dict, group_dict, wvar_rows. joined. rows. Qed.
Lemma vis_rows_ok : forall w, Permutation (leaves (VDict (vis_dict w))) (vis_rows w).
Proof. intro w. unfold vis_dict, group_dict, vis_rows. joined. rows. Qed.
Lemma prevailing_rows_ok : forall w, Permutation (leaves (VDict (prevailing_dict w))) (prevailing_rows w).
Proof. intro w. unfold prevailing_dict, vis_dict, group_dict, prevailing_rows, vis_rows. joined. rows. Qed.
Lemma cloud_rows_ok : forall w, Permutation (leaves (VDict (cloud_dict w))) (cloud_rows w).
Proof. intro w. unfold cloud_dict, group_dict, cloud_rows. joined. rows. Qed.
Lemma weather_rows_ok : forall w, Permutation (leaves (VDict (weather_dict w))) (weather_rows w).
Proof. intro w. unfold weather_dict, group_dict, weather_rows. joined. rows. Qed.
Lemma recent_rows_ok : forall w, Permutation (leaves (VDict (recent_dict w))) (recent_rows w).
Proof. intro w. unfold recent_dict, group_dict, recent_rows. joined. rows. Qed.
Lemma rvr_rows_ok : forall w, Permutation (leaves (VDict (rvr_dict w))) (rvr_rows w).
Proof. intro w. unfold rvr_dict, group_dict, rvr_rows. joined. rows. Qed.
Lemma temps_rows_ok : forall w, Permutation (leaves (VDict (temps_dict w))) (temps_rows w).
Proof. intro w. unfold temps_dict, group_dict, temps_rows. joined. rows. Qed.
Lemma ws_rows_ok : forall w, Permutation (leaves (VDict (ws_dict w))) (ws_rows w).
Proof. intro w. unfold ws_dict, group_dict, ws_rows. joined. rows. Qed.
Lemma sea_rows_ok : forall w, Permutation (leaves (VDict (sea_dict w))) (sea_rows w).
Proof. intro w. unfold sea_dict, group_dict, sea_rows. joined. rows. Qed.
Lemma rs_rows_ok : forall w, Permutation (leaves (VDict (rs_dict w))) (rs_rows w).
Proof. intro w. unfold rs_dict, group_dict, rs_rows. joined. rows. Qed.
Lemma type_rows_ok : forall w, Permutation (leaves (VDict (type_dict w))) (type_rows w).
Proof. intro w. unfold type_dict, group_dict, type_rows. joined. rows. Qed.
Lemma modifier_rows_ok : forall w, Permutation (leaves (VDict (modifier_dict w))) (modifier_rows w).
Proof. intro w. unfold modifier_dict, group_dict, modifier_rows. joined. rows. Qed.
Lemma station_rows_ok : forall e w, Permutation (leaves (VDict (station_dict e w))) (station_rows e w).
Proof. intros e w. unfold station_dict, group_dict, station_rows. joined. rows. Qed.
Lemma missing_rows_ok : forall w, Permutation (leaves (VDict (missing_dict w))) (missing_rows w).
Proof. intro w. unfold missing_dict, modifier_dict, group_dict, missing_rows, modifier_rows. joined. rows. Qed.
Lemma cancelled_rows_ok : forall w, Permutation (leaves (VDict (cancelled_dict w))) (cancelled_rows w).
Proof. intro w. unfold cancelled_dict, group_dict, cancelled_rows. joined. rows. Qed.

(** ** Moments *)

Lemma moment_str : forall t, real_time (t_dt t) -> time_str t = moment_text (t_dt t).
Proof. intros t R. exact (clock_says _ R). Qed.

Lemma time_rows_ok : forall t, real_time (t_dt t) -> Permutation (leaves (VDict (time_dict t))) (time_rows t).
Proof.
  intros t R. unfold time_dict, group_dict, time_rows, moment_row. rewrite (moment_str t R). joined.
  generalize (moment_text (t_dt t)). intro s. rows.
Qed.

Lemma taf_temp_rows_ok : forall t, real_time (t_dt (tt_time t)) -> t_code (tt_time t) = None ->
  Permutation (leaves (VDict (taf_temp_dict t))) (taf_temp_rows t).
Proof.
  intros t R C. unfold taf_temp_dict, time_dict, group_dict, temperature_dict, taf_temp_rows, moment_row.
  rewrite (moment_str _ R), C. generalize (moment_text (t_dt (tt_time t))). intro s.
  rewrite (dupdate_new [(py "code", vopt (tt_code t))]) by (lazy; reflexivity).
  rewrite (dupdate_new [(py "code", vopt None)] [(py "datetime", VStr s)]) by (lazy; reflexivity).
  change (dupdate _ _) with
    [(py "units", VStr (py "celsius")); (py "temperature", vflo (tt_value t)); (py "code", VNone); (py "datetime", VStr s)].
  rows.
Qed.
