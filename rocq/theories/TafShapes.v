(** * The groups of a TAF are not taken by earlier slots *)
From Coq Require Import String Ascii.
From Coq Require Import List NArith ZArith Bool Lia.
From Verif Require Import PyBase PyRegex AeroRegex SpecNum SpecGroups SpecTime SpecText SpecWords SpecTaf SpecMetar SpecTafReport
  SymRegex ProofGroups ProofGroups2 ProofTime GroupShapes ProofSlots.
Import ListNotations.
Local Open Scope string_scope.
Local Open Scope nat_scope.
Local Open Scope list_scope.

(** ** Shapes *)

Definition period_shapes := Eval vm_compute in
  flat_map (fun d1 => flat_map (fun h1 => flat_map (fun d2 => map (fun h2 =>
    from1 3 1 d1 ++ upto2 2 3 h1 ++ lit "/" ++ from1 3 1 d2 ++ upto2 2 4 h2) [0; 20]%N) [1; 10; 30]%N) [0; 20]%N) [1; 10; 30]%N.
Lemma period_shaped : forall t p, period_wf t p -> shaped period_shapes (span_code p).
Proof.
  intros t [fd fh td th] (H1 & H2 & H3 & H4 & _). cbn [p_fd p_fh p_td p_th] in *. unfold span_code, valid_code. cbn [p_fd p_fh p_td p_th].
  exists (from1 3 1 fd ++ upto2 2 3 fh ++ lit "/" ++ from1 3 1 td ++ upto2 2 4 th). split.
  - apply has_shape_in. unfold from1, upto2.
    destruct (fd <? 10)%N; destruct (fd <? 10 * 3)%N; destruct (fh <? 10 * 2)%N; destruct (td <? 10)%N; destruct (td <? 10 * 3)%N;
      destruct (th <? 10 * 2)%N; vm_compute; reflexivity.
  - repeat apply inst_app; auto with inst.
Qed.

Definition ftemp_shapes := Eval vm_compute in
  flat_map (fun mx : bool => flat_map (fun neg : bool => flat_map (fun d => map (fun h =>
    lit (if mx then "TX" else "TN") ++ (if neg then lit "M" else []) ++ dsym 2 ++ lit "/" ++ from1 3 1 d ++ upto2 2 3 h ++ lit "Z")
    [0; 20]%N) [1; 10; 30]%N) bools) bools.
Lemma ftemp_shaped : forall t g, ftemp_wf t g -> shaped ftemp_shapes (ftemp_text g).
Proof.
  intros t [mx neg n d h] (H1 & H2 & H3 & _). cbn [ft_max ft_neg ft_value ft_day ft_hour] in *.
  unfold ftemp_text, taf_temp_code. cbn [ft_max ft_neg ft_value ft_day ft_hour].
  exists (lit (if mx then "TX" else "TN") ++ (if neg then lit "M" else []) ++ dsym 2 ++ lit "/" ++ from1 3 1 d ++ upto2 2 3 h ++ lit "Z").
  split.
  - apply has_shape_in. unfold from1, upto2.
    destruct mx, neg, (d <? 10)%N, (d <? 10 * 3)%N, (h <? 10 * 2)%N; vm_compute; reflexivity.
  - repeat apply inst_app; auto with inst. destruct neg; [apply inst_lit|constructor].
Qed.

Definition stamp_shapes := Eval vm_compute in
  flat_map (fun d => map (fun h => from1 3 1 d ++ upto2 2 4 h ++ sym60 ++ lit "Z") [0; 20]%N) [1; 10; 30]%N.
Lemma stamp_shaped : forall d h mi, (1 <= d <= 31)%N -> (h <= 24)%N -> (mi <= 59)%N -> shaped stamp_shapes (stamp_code d h mi).
Proof.
  intros d h mi H1 H2 H3. exists (from1 3 1 d ++ upto2 2 4 h ++ sym60 ++ lit "Z"). split.
  - apply has_shape_in. unfold from1, upto2. destruct (d <? 10)%N, (d <? 10 * 3)%N, (h <? 10 * 2)%N; vm_compute; reflexivity.
  - unfold stamp_code. repeat apply inst_app; auto with inst.
Qed.

(** Weather that does not look like a visibility. *)
Definition taf_weather_shapes :=
  filter (fun y => negb (may_start (py "M") y) && negb (may_start (py "U") y)) weather_shapes.
Lemma may_start_one : forall c s y, inst s y -> (forall k, In k y -> length k = 1) -> may_start [c] y = true -> starts_with [c] s = true.
Proof.
  intros c s y Hi H1 H. destruct Hi as [|d k s y Hd Hi]; [discriminate|]. cbn in H |- *.
  rewrite andb_true_r in *. apply existsb_exists in H. destruct H as (e & He & E). apply N.eqb_eq in E. subst e.
  specialize (H1 k (or_introl eq_refl)). destruct k as [|a [|b k]]; try discriminate H1.
  destruct Hd as [->|[]]. destruct He as [->|[]]. rewrite N.eqb_refl. reflexivity.
Qed.
Lemma weather_shapes_one : forallb (forallb (fun k : sym => Nat.eqb (length k) 1)) weather_shapes = true.
Proof. vm_compute. reflexivity. Qed.
Lemma taf_weather_shaped : forall g, weather_wf g -> weather_code g <> [] -> vis_like g = false ->
  shaped taf_weather_shapes (weather_code g).
Proof.
  intros g H Hn Hv. destruct (weather_shaped g H Hn) as (y & Hy & Hi). exists y. split; [|exact Hi].
  assert (E : forall k, In k y -> length k = 1).
  { intros k Hk. pose proof weather_shapes_one as W. rewrite forallb_forall in W. specialize (W y Hy).
    rewrite forallb_forall in W. apply Nat.eqb_eq. apply W. exact Hk. }
  unfold vis_like in Hv. apply orb_false_iff in Hv. destruct Hv as [V1 V2].
  unfold taf_weather_shapes. apply filter_In. split; [exact Hy|]. apply andb_true_iff. split; apply negb_true_iff.
  - destruct (may_start (py "M") y) eqn:M; [|reflexivity]. pose proof (may_start_one _ _ _ Hi E M) as K. exact (eq_trans (eq_sym K) V1).
  - destruct (may_start (py "U") y) eqn:M; [|reflexivity]. pose proof (may_start_one _ _ _ Hi E M) as K. exact (eq_trans (eq_sym K) V2).
Qed.

(** ** The slots of the body after the time *)

Definition body_valid := [r_T_NIL].
Definition body_cnl := body_valid ++ [r_T_VALID].
Definition body_wind := body_cnl ++ [r_T_CANCELLED].
Definition body_vis := body_wind ++ [r_T_WIND].
Definition body_weather := body_vis ++ [r_T_VISIBILITY].
Definition body_cloud := body_weather ++ [r_WEATHER].
Definition body_temp := body_cloud ++ [r_CLOUD].

Lemma period_free : forall t p r, period_wf t p -> In r body_valid -> re_match r (span_code p) = None.
Proof. intros t p r H. apply (free_none _ _ _ (period_shaped t p H)). computed. Qed.
Lemma twind_free : forall g r, wind_wf g -> In r body_wind -> re_match r (wind_code g) = None.
Proof. intros g r H. apply (free_none _ _ _ (wind_shaped g H)). computed. Qed.
Lemma tvis_free : forall g r, vis_wf g -> In r body_vis -> re_match r (vis_code g) = None.
Proof. intros g r H. apply (free_none _ _ _ (vis_shaped g H)). computed. Qed.
Lemma tweather_free : forall g r, weather_wf g -> weather_code g <> [] -> vis_like g = false -> In r body_weather ->
  re_match r (weather_code g) = None.
Proof. intros g r H Hn Hv. apply (free_none _ _ _ (taf_weather_shaped g H Hn Hv)). computed. Qed.
Lemma tcloud_free : forall g r, cloud_wf g -> In r body_cloud -> re_match r (cloud_code g) = None.
Proof. intros g r H. apply (free_none _ _ _ (cloud_shaped g H)). computed. Qed.
Lemma ftemp_free : forall t g r, ftemp_wf t g -> In r body_temp -> re_match r (ftemp_text g) = None.
Proof. intros t g r H. apply (free_none _ _ _ (ftemp_shaped t g H)). computed. Qed.

(** ** The slots of a change after its indicator *)

Definition change_wind := [r_T_VALID].
Definition change_vis := change_wind ++ [r_T_WIND].
Definition change_weather := change_vis ++ [r_VISIBILITY].
Definition change_cloud := change_weather ++ [r_WEATHER].

Lemma cwind_free : forall g r, wind_wf g -> In r change_wind -> re_match r (wind_code g) = None.
Proof. intros g r H. apply (free_none _ _ _ (wind_shaped g H)). computed. Qed.
Lemma cvis_free : forall g r, vis_wf g -> In r change_vis -> re_match r (vis_code g) = None.
Proof. intros g r H. apply (free_none _ _ _ (vis_shaped g H)). computed. Qed.
Lemma cweather_free : forall g r, weather_wf g -> weather_code g <> [] -> In r change_weather ->
  re_match r (weather_code g) = None.
Proof. intros g r H Hn. apply (free_none _ _ _ (weather_shaped g H Hn)). computed. Qed.
Lemma ccloud_free : forall g r, cloud_wf g -> In r change_cloud -> re_match r (cloud_code g) = None.
Proof. intros g r H. apply (free_none _ _ _ (cloud_shaped g H)). computed. Qed.

(** ** Ordinary words *)

Lemma period_plain : forall t p, period_wf t p -> plain_word (span_code p) /\ forallb is_digit (span_code p) = false.
Proof.
  intros t p H. pose proof (period_shaped t p H) as S. split; [split|].
  - apply (shaped_ordinary _ _ S). computed.
  - apply (shaped_no_frac _ _ S). computed.
  - apply (shaped_letters _ _ S). computed.
Qed.
Lemma ftemp_plain : forall t g, ftemp_wf t g -> plain_word (ftemp_text g).
Proof.
  intros t g H. pose proof (ftemp_shaped t g H) as S. split.
  - apply (shaped_ordinary _ _ S). computed.
  - apply (shaped_no_frac _ _ S). computed.
Qed.
Lemma stamp_plain : forall d h mi, (1 <= d <= 31)%N -> (h <= 24)%N -> (mi <= 59)%N ->
  plain_word (stamp_code d h mi) /\ forallb is_digit (stamp_code d h mi) = false.
Proof.
  intros d h mi H1 H2 H3. pose proof (stamp_shaped d h mi H1 H2 H3) as S. split; [split|].
  - apply (shaped_ordinary _ _ S). computed.
  - apply (shaped_no_frac _ _ S). computed.
  - apply (shaped_letters _ _ S). computed.
Qed.
