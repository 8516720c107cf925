(** * Outcomes of the body of a TAF *)
From Coq Require Import String Ascii.
From Coq Require Import List NArith ZArith Bool Lia.
From Verif Require Import PyBase PyRegex AeroRegex PyFloat PyTime Utils Base MetarGroups Trend Taf
  SpecNum SpecTime SpecText SpecTaf SpecFailures SpecTafFailures StrFacts RegexPaths Captures ProofValues ProofText TimeFacts Outcomes OutTime
  OutMetar OutReport ProofFailures SpecMetar OutTafTime.
Import ListNotations.
Local Open Scope string_scope.
Local Open Scope nat_scope.
Local Open Scope list_scope.

(** ** Running handlers with the groups still to come in view *)

Lemma parse_groups_rest : forall S (hs : list (handler S)) (J : list str -> nat -> S -> Prop) (G : list str) (P : str -> exn -> Prop),
  (forall gs i j st, i <= j -> J gs i st -> J gs j st) ->
  (forall g gs i st, J (g :: gs) i st -> J gs i st) ->
  (forall k h g gs m st, nth_error hs k = Some h -> In g G -> re_match (h_regexp h) g = Some m -> J (g :: gs) k st ->
     outcome (P g) (J gs (Datatypes.S k)) (h_handle h m st)) ->
  forall gs index un st, incl gs G -> J gs index st ->
  outcome (fun e => exists g, In g G /\ P g e) (fun r => exists k, J [] k (fst r)) (parse_groups hs gs index un st).
Proof.
  intros S hs J G P Mono Skip Step gs. induction gs as [|g gs IH]; intros index un st Inc H; cbn [parse_groups].
  - exists index. exact H.
  - assert (Ig : In g G) by (apply Inc; left; reflexivity).
    assert (Is : incl gs G) by (intros x Hx; apply Inc; right; exact Hx).
    destruct (first_match (skipn index hs) 0 g) as [[[k h] m]|] eqn:F; [|apply IH; [exact Is|exact (Skip g gs index st H)]].
    apply first_match_nth in F. destruct F as (j & Ej & Em & ->). rewrite nth_skipn in Ej.
    pose proof (Step _ h g gs m st Ej Ig Em (Mono (g :: gs) index (index + j) st ltac:(lia) H)) as K.
    destruct (h_handle h m st) as [st1|e]; cbn [bind outcome] in *.
    + apply IH; [exact Is|]. replace (index + (0 + Datatypes.S j)) with (Datatypes.S (index + j)) by lia. exact K.
    + exists g. split; [exact Ig|exact K].
Qed.

(** ** The type of a temperature *)

Definition type_path (q : cpath) : bool :=
  span_is q "type" 1 2 && spells (py "T") (piece q 0 1) && (spells (py "X") (piece q 1 2) || spells (py "N") (piece q 1 2)).
Lemma type_paths : forallb type_path (cpaths r_T_TEMPERATURE) = true.
Proof. vm_compute. reflexivity. Qed.

Lemma substr_two : forall (x : str) a b, substr x 0 1 = [a] -> substr x 1 2 = [b] -> exists t, x = a :: b :: t.
Proof.
  intros x a b H1 H2. unfold substr in *. destruct x as [|c [|d x]]; cbn in *; try discriminate.
  injection H1 as <-. injection H2 as <-. exists x. reflexivity.
Qed.

Lemma type_match : forall g m, re_match r_T_TEMPERATURE g = Some m ->
  (opt_str_eqb (group m "type") (py "X") = true /\ starts_with (py "TX") g = true)
  \/ (opt_str_eqb (group m "type") (py "X") = false /\ starts_with (py "TN") g = true).
Proof.
  intros g m M. destruct ttemp_checks as (F & _).
  destruct (path_check r_T_TEMPERATURE g m type_path F M type_paths) as (q & x & t & P & Fo). unfold type_path in P.
  rewrite !andb_true_iff, orb_true_iff in P. destruct P as ((S & P0) & P1).
  rewrite (span_is_group _ _ _ _ _ _ _ _ Fo S).
  pose proof (spells_ok _ _ _ P0 (piece_along _ _ _ _ _ 0 1 Fo)) as E0.
  destruct P1 as [P1|P1]; pose proof (spells_ok _ _ _ P1 (piece_along _ _ _ _ _ 1 2 Fo)) as E1; rewrite E1;
    destruct (substr_two x _ _ E0 E1) as (y & Ey); destruct Fo as (-> & _); rewrite Ey.
  - left. split; reflexivity.
  - right. split; reflexivity.
Qed.

(** ** The months before the last *)

Lemma month_sound : forall (L : Prop) y mo d h mi, (2 <= y)%Z -> real_time (mk_dt y mo d h mi) -> (last_month y mo -> L) ->
  sound L 0 (mk_dt y mo d h mi).
Proof.
  intros L y mo d h mi Hy R HL. pose proof R as (D & _). cbn [dt_year dt_month dt_day] in D.
  destruct (real_date_range _ _ _ D) as (Ry & Hm & Hd).
  pose proof (days_before_month_range _ _ _ Hm Hd) as B.
  split; [exact R|]. unfold day_no. cbn [dt_year dt_month dt_day]. unfold ymd2ord, max_ordinal.
  assert (Y1 : (365 <= days_before_year y)%Z) by (unfold days_before_year; lia). split; [lia|].
  destruct (Z.eq_dec y 9999) as [->|Ny].
  - destruct (Z.eq_dec mo 12) as [->|Nm]; [left; apply HL; split; reflexivity|]. right.
    change (days_before_year 9999) with 3651694%Z.
    assert (K : (days_before_month 9999 mo + d <= 334)%Z).
    { assert (Q : (days_before_month 9999 mo + days_in_month 9999 mo <=? 334)%Z = true).
      { assert (M : (mo = 1 \/ mo = 2 \/ mo = 3 \/ mo = 4 \/ mo = 5 \/ mo = 6 \/ mo = 7 \/ mo = 8 \/ mo = 9 \/ mo = 10 \/ mo = 11)%Z) by lia.
        destruct M as [->|[->|[->|[->|[->|[->|[->|[->|[->|[->| ->]]]]]]]]]]; reflexivity. }
      apply Z.leb_le in Q. lia. }
    lia.
  - right. assert (Y2 : (days_before_year y <= 3651694 - 365)%Z).
    { unfold days_before_year. assert (y - 1 <= 9997)%Z by lia. 
      assert (((y - 1) / 4 - (y - 1) / 100 + (y - 1) / 400 <= 2424)%Z) by lia. lia. }
    destruct (is_leap y); lia.
Qed.

(** ** The body *)

Definition begun (p : str) (gs : list str) : nat := length (filter (starts_with p) gs).

Definition tb_cause (L : Prop) (y mo : Z) (nx nn : nat) (g : str) (e : exn) : Prop :=
  match e with
  | OverflowError => L
  | RangeError => 3 <= nx \/ 3 <= nn
  | _ => body_cause y mo g e
  end.

Lemma vis_tb : forall L y mo nx nn g e, vis_cause g e -> tb_cause L y mo nx nn g e.
Proof. intros L y mo nx nn g e H. destruct e; cbn in *; auto; contradiction. Qed.
Lemma over_tb : forall L y mo nx nn g e, over L e -> tb_cause L y mo nx nn g e.
Proof. intros L y mo nx nn g e H. destruct e; cbn in *; auto; contradiction. Qed.

Definition kept (n : nat) (p : str) (gs : list str) (l : grouplist taf_temp) : Prop :=
  gl_max l = 2 /\ length (gl_list l) + begun p gs <= n.

Lemma kept_skip : forall n p g gs l, kept n p (g :: gs) l -> kept n p gs l.
Proof.
  intros n p g gs l [A B]. split; [exact A|]. unfold begun in *. cbn [filter] in B. destruct (starts_with p g); cbn [length] in B; lia.
Qed.
Lemma kept_add : forall n p g gs l t, kept n p (g :: gs) l -> starts_with p g = true ->
  outcome (fun e => e = RangeError /\ 3 <= n) (kept n p gs) (gl_add t l).
Proof.
  intros n p g gs l t [A B] S. unfold begun in B. cbn [filter] in B. rewrite S in B. cbn [length] in B. unfold gl_add. rewrite A.
  destruct (Nat.leb_spec 2 (length (gl_list l))) as [K|K]; cbn [outcome].
  - split; [reflexivity|lia].
  - split; [reflexivity|]. cbn [gl_list]. rewrite app_length. cbn [length]. unfold begun. lia.
Qed.

Definition tb_inv (L : Prop) (nx nn : nat) (codes : list str) (gs : list str) (k : nat) (x : taf) : Prop :=
  room 3 (k - 9) (c_weathers (ta_common x)) /\ room 4 (k - 12) (c_clouds (ta_common x))
  /\ kept nx (py "TX") gs (ta_max x) /\ kept nn (py "TN") gs (ta_min x)
  /\ sound L 0 (t_dt (ta_time x)) /\ sound_valid L 0 (ta_valid x) /\ ta_changes x = gl_new 8 /\ ta_codes x = codes.

Lemma tb_mono : forall L nx nn codes gs i j x, i <= j -> tb_inv L nx nn codes gs i x -> tb_inv L nx nn codes gs j x.
Proof.
  intros L nx nn codes gs i j x H (A & B & R). split; [|split; [|exact R]].
  - apply (room_mono _ _ (i - 9)); [lia|exact A].
  - apply (room_mono _ _ (i - 12)); [lia|exact B].
Qed.
Lemma tb_skip : forall L nx nn codes g gs i x, tb_inv L nx nn codes (g :: gs) i x -> tb_inv L nx nn codes gs i x.
Proof.
  intros L nx nn codes g gs i x (A & B & C & D & R). split; [exact A|]. split; [exact B|].
  split; [exact (kept_skip _ _ _ _ _ C)|]. split; [exact (kept_skip _ _ _ _ _ D)|exact R].
Qed.

Section Body.
Variables (e : env) (year month : option Z) (L : Prop) (nx nn : nat) (codes : list str).
Hypothesis W : month_wf e year month.
Notation y := (opt_default (now_year e) year).
Notation mo := (opt_default (now_month e) month).
Hypothesis HL : last_month y mo -> L.
Notation inv := (tb_inv L nx nn codes).
Notation ends g := (outcome (tb_cause L y mo nx nn g)).

Lemma tb_common : forall g gs k x c, inv (g :: gs) k x -> c_weathers c = c_weathers (ta_common x) -> c_clouds c = c_clouds (ta_common x) ->
  inv gs (S k) (tupd_common c x).
Proof.
  intros g gs k x c H E1 E2. apply (tb_mono _ _ _ _ _ k); [lia|]. destruct (tb_skip _ _ _ _ _ _ _ _ H) as (A & B & R).
  unfold tb_inv. cbn [tupd_common ta_common ta_max ta_min ta_time ta_valid ta_changes ta_codes]. rewrite E1, E2. auto.
Qed.
Lemma tb_out : forall g gs k x s, inv (g :: gs) k x -> inv gs (S k) (tout_string s x).
Proof. intros g gs k x s H. unfold tout_string. apply (tb_common g); [exact H|reflexivity|reflexivity]. Qed.

Lemma tstep_weather : forall k g gs m x, 9 <= k < 12 -> inv (g :: gs) k x -> ends g (inv gs (S k)) (tlift handle_weather m x).
Proof.
  intros k g gs m x Hk H. destruct (tb_skip _ _ _ _ _ _ _ _ H) as (A & B & R). unfold tlift, handle_weather. cbv zeta.
  destruct (room_add _ _ _ (weather_new (Some m)) _ A) as (l & -> & A'); [lia|]. cbn [bind outcome].
  unfold tb_inv. cbn [tupd_common ta_common ta_max ta_min ta_time ta_valid ta_changes ta_codes c_weathers c_clouds].
  split; [apply (room_mono _ _ (S (k - 9))); [lia|exact A']|]. split; [apply (room_mono _ _ (k - 12)); [lia|exact B]|exact R].
Qed.

Lemma tstep_cloud : forall k g gs m x, 12 <= k < 16 -> re_match r_CLOUD g = Some m -> inv (g :: gs) k x ->
  ends g (inv gs (S k)) (tlift handle_cloud m x).
Proof.
  intros k g gs m x Hk M H. destruct (tb_skip _ _ _ _ _ _ _ _ H) as (A & B & R). unfold tlift, handle_cloud.
  destruct (cloud_fine g m M) as (cl & ->). cbn [bind].
  destruct (room_add _ _ _ cl _ B) as (l & -> & B'); [lia|]. cbn [bind outcome].
  unfold tb_inv. cbn [tupd_common ta_common ta_max ta_min ta_time ta_valid ta_changes ta_codes c_weathers c_clouds].
  split; [apply (room_mono _ _ (k - 9)); [lia|exact A]|]. split; [apply (room_mono _ _ (S (k - 12))); [lia|exact B']|exact R].
Qed.

Lemma tstep_time : forall k g gs m x, re_match r_TIME g = Some m -> inv (g :: gs) k x ->
  ends g (inv gs (S k)) (thandle_time e year month m x).
Proof.
  intros k g gs m x M H. unfold thandle_time.
  destruct (time_any e g m year month M W) as (z & d & h & mi & Cz & Sz & ->).
  destruct (valid_date y mo (Z.of_N d)) eqn:V.
  - destruct (N.ltb_spec h 24) as [Lh|Lh]; cbn [andb bind outcome].
    + apply (tb_out g). destruct H as (A & B & C & D & T & V' & R).
      unfold tb_inv. cbn [tupd_time ta_common ta_max ta_min ta_time ta_valid ta_changes ta_codes t_dt].
      split; [exact A|]. split; [exact B|]. split; [exact C|]. split; [exact D|]. split; [|split; [exact V'|exact R]].
      apply month_sound; [destruct W; lia| |exact HL].
      apply valid_date_spec in V. split; [exact V|]. cbn [dt_hour dt_minute].
      destruct Sz as (sa & sb & sc & _ & _ & _ & _ & _ & _ & _ & _ & _ & Bm). lia.
    + right. exists z, d, h, mi. split; [exact Cz|]. split; [exact Sz|]. right.
      destruct Sz as (sa & sb & sc & _ & _ & _ & _ & _ & _ & _ & _ & Bh & _). lia.
  - cbn [andb bind outcome]. right. exists z, d, h, mi. split; [exact Cz|]. split; [exact Sz|]. left.
    intros N. apply valid_date_spec in N. congruence.
Qed.

Lemma tstep_temp : forall k g gs m x, re_match r_T_TEMPERATURE g = Some m -> inv (g :: gs) k x ->
  ends g (inv gs (S k)) (thandle_temperature m x).
Proof.
  intros k g gs m x M H. pose proof H as (A & B & C & D & T & R). unfold thandle_temperature.
  pose proof (ttemp_outcome L 0 _ g m T ltac:(lia) M) as P.
  destruct (taf_temp_new m (t_dt (ta_time x))) as [t|ex]; cbn [bind outcome] in *; [|exact (over_tb _ _ _ _ _ _ _ P)].
  destruct (type_match g m M) as [[-> S]|[-> S]].
  - pose proof (kept_add _ _ _ _ _ t C S) as Q.
    destruct (gl_add t (ta_max x)) as [l|ex]; cbn [bind outcome] in *; [|destruct Q as [-> Q]; cbn [tb_cause]; auto].
    apply (tb_mono _ _ _ _ _ k); [lia|]. unfold tout_string, tb_inv.
    cbn [tupd_common tupd_max add_string set_string ta_common ta_max ta_min ta_time ta_valid ta_changes ta_codes c_weathers c_clouds].
    split; [exact A|]. split; [exact B|]. split; [exact Q|]. split; [exact (kept_skip _ _ _ _ _ D)|]. split; [exact T|exact R].
  - pose proof (kept_add _ _ _ _ _ t D S) as Q.
    destruct (gl_add t (ta_min x)) as [l|ex]; cbn [bind outcome] in *; [|destruct Q as [-> Q]; cbn [tb_cause]; auto].
    apply (tb_mono _ _ _ _ _ k); [lia|]. unfold tout_string, tb_inv.
    cbn [tupd_common tupd_min add_string set_string ta_common ta_max ta_min ta_time ta_valid ta_changes ta_codes c_weathers c_clouds].
    split; [exact A|]. split; [exact B|]. split; [exact (kept_skip _ _ _ _ _ C)|]. split; [exact Q|]. split; [exact T|exact R].
Qed.

Lemma taf_steps : forall k h g gs m x, nth_error (taf_handlers e year month) k = Some h ->
  re_match (h_regexp h) g = Some m -> inv (g :: gs) k x -> ends g (inv gs (S k)) (h_handle h m x).
Proof.
  intros k h g gs m x E M H. unfold taf_handlers in E.
  nth_cases k E.
  - apply (tb_out g). exact H.
  - apply (tb_out g). exact H.
  - apply (tb_out g). exact H.
  - exact (tstep_time 3 g gs m x M H).
  - apply (tb_out g). exact H.
  - unfold thandle_valid. pose proof H as (A & B & C & D & T & R).
    pose proof (valid_some L 0 _ g m T ltac:(lia) M) as P.
    destruct (valid_from_taf (Some m) (t_dt (ta_time x))) as [v|ex]; cbn [bind outcome] in *; [|exact (over_tb _ _ _ _ _ _ _ P)].
    apply (tb_out g). destruct R as (_ & R). split; [exact A|]. split; [exact B|]. split; [exact C|]. split; [exact D|].
    split; [exact T|]. split; [exact P|exact R].
  - apply (tb_out g). exact H.
  - unfold tlift, handle_wind. destruct (wind_fine r_T_WIND g m (proj2 wind_checks_ok) M) as (w & ->). cbn [bind outcome].
    apply (tb_common g); [exact H|reflexivity|reflexivity].
  - unfold tlift, handle_prevailing.
    pose proof (prevailing_outcome r_T_VISIBILITY g m (proj1 (proj2 vis_checks_ok)) M) as P.
    destruct (prevailing_new (Some m)) as [w|ex]; cbn [bind outcome] in *; [|exact (vis_tb _ _ _ _ _ _ _ P)].
    apply (tb_common g); [exact H|reflexivity|reflexivity].
  - apply tstep_weather; [lia|exact H].
  - apply tstep_weather; [lia|exact H].
  - apply tstep_weather; [lia|exact H].
  - apply tstep_cloud; [lia|exact M|exact H].
  - apply tstep_cloud; [lia|exact M|exact H].
  - apply tstep_cloud; [lia|exact M|exact H].
  - apply tstep_cloud; [lia|exact M|exact H].
  - apply tstep_temp; [exact M|exact H].
  - apply tstep_temp; [exact M|exact H].
  - apply tstep_temp; [exact M|exact H].
  - apply tstep_temp; [exact M|exact H].
  - destruct k; discriminate E.
Qed.

Lemma taf_body_outcome : forall x, inv (split_on 32%N (sanitize_visibility (ta_body x))) 0 x ->
  outcome (fun ex => exists g, In g (split_on 32%N (sanitize_visibility (ta_body x))) /\ tb_cause L y mo nx nn g ex)
    (fun x' => sound L 1 (t_dt (va_from (ta_valid x'))) /\ ta_changes x' = gl_new 8 /\ ta_codes x' = codes)
    (taf_parse_body e year month x).
Proof.
  intros x H. unfold taf_parse_body, parse_section.
  pose proof (parse_groups_rest _ (taf_handlers e year month) (tb_inv L nx nn codes)
    (split_on 32%N (sanitize_visibility (ta_body x))) (tb_cause L y mo nx nn) (tb_mono L nx nn codes) (tb_skip L nx nn codes)
    (fun k h g gs m st E _ M J => taf_steps k h g gs m st E M J)
    (split_on 32%N (sanitize_visibility (ta_body x))) 0 [] x (fun a Ha => Ha) H) as K.
  destruct (parse_groups _ _ _ _ _) as [[x' un]|ex]; cbn [bind outcome fst] in *; [|exact K].
  destruct K as (k & _ & _ & _ & _ & _ & V & R1 & R2). cbn [tupd_unparsed ta_valid ta_changes ta_codes].
  split; [|split; [exact R1|exact R2]]. destruct V as [V _]. exact V.
Qed.
End Body.

(** ** Before the body *)

Lemma taf_init_outcome : forall e raw (L : Prop), clock_wf e -> (last_month (now_year e) (now_month e) -> L) ->
  outcome (over L) (fun x => ta_body x = fst (taf_split raw)
    /\ tb_inv L (begun (py "TX") (split_on 32%N (sanitize_visibility (ta_body x))))
         (begun (py "TN") (split_on 32%N (sanitize_visibility (ta_body x))))
         (snd (taf_split raw)) (split_on 32%N (sanitize_visibility (ta_body x))) 0 x)
    (taf_init e raw).
Proof.
  intros e raw L [C1 C2] HL. unfold taf_init.
  destruct (default_first e None None C1 C2) as (t0 & -> & Et). cbn [bind opt_default] in *.
  destruct (taf_split raw) as [body codes]. destruct (common_fresh []) as (c & -> & E1 & E2). cbn [bind].
  assert (S0 : sound L 0 (t_dt t0)).
  { rewrite Et. apply month_sound; [lia| |exact HL]. split; cbn [dt_year dt_month dt_day dt_hour dt_minute]; [apply OutReport.first_real; lia|lia]. }
  pose proof (valid_none L 0 _ S0 ltac:(lia)) as P.
  destruct (valid_from_taf None (t_dt t0)) as [v|ex]; cbn [bind outcome fst snd] in *; [|exact P].
  cbn [ta_body]. split; [reflexivity|]. unfold tb_inv.
  cbn [ta_common ta_max ta_min ta_time ta_valid ta_changes ta_codes]. rewrite E1, E2.
  split; [split; [reflexivity|apply le_n]|]. split; [split; [reflexivity|apply le_n]|].
  split; [split; [reflexivity|apply le_n]|]. split; [split; [reflexivity|apply le_n]|].
  split; [exact S0|]. split; [exact P|]. split; reflexivity.
Qed.
