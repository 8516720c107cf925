(** * Values of the decoded groups: pressure, runway range and the tables *)
From Coq Require Import String Ascii.
From Coq Require Import List NArith ZArith Bool Lia QArith Qabs Lqa.
From Coq Require Import Floats.SpecFloat.
From Verif Require Import PyBase PyRegex AeroRegex PyFloat Utils Base MetarGroups SpecNum
  SpecGroups Rounding ReprFacts FloatFacts SymRegex ProofGroups ProofGroups2 ProofValues ProofValues2.
Import ListNotations.
Local Open Scope string_scope.
Local Open Scope nat_scope.
Local Open Scope list_scope.

(** ** Wind variation *)

Lemma wvar_ok : forall g, wvar_wf g ->
  exists w, wind_variation_new (re_match r_WIND_VARIATION (wvar_code g)) = Ok w
    /\ wv_code w = Some (wvar_code g)
    /\ is_num (dir_value (wv_from w)) (ofN (10 * vg_from g))
    /\ is_num (dir_value (wv_to w)) (ofN (10 * vg_to g))
    /\ dir_variable (wv_from w) = false /\ dir_variable (wv_to w) = false.
Proof.
  intros g H. destruct (wvar_captures g H) as (m & Em & Es & Hc). rewrite Em.
  unfold wind_variation_new. captured Hc ["from"; "to"]. rewrite Es, group_code_id.
  2:{ unfold wvar_code. auto 8 with nou. }
  destruct g as [a b]. destruct H as [H1 H2]. cbn [vg_from vg_to] in *.
  destruct (dir_deg a) as (x & Ex & X1 & X2); [lia|].
  destruct (dir_deg b) as (y & Ey & Y1 & Y2); [lia|].
  change (lookup "from" (wvar_text (mk_wvar_g a b))) with (Some (digits 2 a ++ py "0")).
  change (lookup "to" (wvar_text (mk_wvar_g a b))) with (Some (digits 2 b ++ py "0")).
  rewrite Ex. cbn [bind]. rewrite Ey. eexists. split; [reflexivity|].
  cbn [wv_code wv_from wv_to]. auto 8.
Qed.

(** ** Pressure *)

Lemma fN_format : forall n, (n < 1000000)%N -> parse_float (format_fixed 10 (fN n)) = Some (fN n).
Proof.
  intros [|p] H; [vm_compute; reflexivity|]. apply format_whole. lia.
Qed.

Definition inches (n : N) : float := fmul (fdiv (fN n) f100) INHG_TO_HPA.
Lemma inches_near : forall n, (n < 10000)%N ->
  near 90 7 (inches n) (ofN n / (100 # 1) / (2953 # 100000)).
Proof.
  intros n H. apply (near_weak (52 + 10 + 2 + 10 + 2) (0 + 0 + 2 + 3 + 2)); try lia.
  apply near_mul; try lia.
  - apply near_div; try lia; [apply fN_near; lia| |reflexivity].
    apply near_b_sound. vm_compute. reflexivity.
  - apply near_b_sound. vm_compute. reflexivity.
Qed.

Lemma inches_value : forall n, (n < 10000)%N ->
  within (1 # 10 ^ 9) (pressure_new (Some (format_fixed 10 (inches n))))
    (ofN n / (100 # 1) / (2953 # 100000)).
Proof.
  intros n H. assert (M := inches_near n H).
  assert (E : (ofN n / (100 # 1) / (2953 # 100000) == ofN n * (1000 # 2953))%Q) by field.
  apply (near_eq _ _ _ _ (ofN n * (1000 # 2953)) E) in M.
  destruct (scaled_range n (1000 # 2953) (2 # 1000) (900000 # 1)) as [A B];
    [reflexivity|vm_compute; discriminate|vm_compute; discriminate|lia|].
  assert (R : (ofN n * (1000 # 2953) <= ofN 9999 * (1000 # 2953))%Q)
    by (apply Qmult_le_compat_r; [apply ofN_le; lia|discriminate]).
  destruct (near_format _ _ _ _ M) as (y & q & Ey & Ny & Dy); [lia|exact A|exact B|].
  assert (D : (Qabs (q - ofN n * (1000 # 2953)) <= 6 # 10 ^ 11)%Q).
  { eapply Qle_trans; [exact Dy|].
    apply Qle_trans with ((1 # 2) * (1 # 10 ^ 10) + inject_Z 7 * u * (ofN 9999 * (1000 # 2953)))%Q.
    - apply Qplus_le_r. apply Qmult_le_l; [reflexivity|exact R].
    - vm_compute. discriminate. }
  unfold pressure_new, float_or_none. rewrite Ey.
  apply (near_within_shift 300 1 y q _ _ (4000 # 1) (6 # 10 ^ 11)); auto; [lia| | |].
  - apply Qabs_Qle_condition in D. destruct D as [_ D].
    change (6 # 10 ^ 11)%Q with (6 # 100000000000)%Q in D.
    change (ofN 9999) with (9999 # 1)%Q in R. lra.
  - setoid_replace (q - ofN n / (100 # 1) / (2953 # 100000))%Q with (q - ofN n * (1000 # 2953))%Q; [exact D|].
    rewrite E. reflexivity.
  - vm_compute. discriminate.
Qed.

Lemma press_nou : forall g, nou (press_code g).
Proof.
  intros [p v i]. unfold press_code. cbn [pg_prefix pg_value pg_ins].
  apply nou_app; [destruct p; auto with nou|]. apply nou_app; [|auto with nou].
  destruct v; auto with nou.
Qed.

Lemma fvalid_fN : forall n, (n < 1000000)%N -> fvalid (fN n) /\ finite (fN n) = true.
Proof.
  intros n H. destruct (fN_near n H) as [[E _]|[E _]].
  - rewrite E. split; reflexivity.
  - split; [apply (nrm_fvalid 52); [exact E|lia]|]. destruct E as (m & e & -> & _). reflexivity.
Qed.

Lemma val_fN : forall n, (n < 1000000)%N -> (val (fN n) == ofN n)%Q.
Proof.
  intros n H. destruct (fN_num n H) as (x & v & E & V & Q). injection E as <-.
  unfold val. rewrite V. exact Q.
Qed.

Lemma above_2500 : forall n, (n < 10000)%N -> fltb f2500 (fN n) = (2500 <? n)%N.
Proof.
  intros n H. destruct (fvalid_fN n) as [V F]; [lia|]. assert (Q := val_fN n ltac:(lia)).
  assert (C := fltb_val f2500 (fN n) eq_refl V eq_refl F).
  assert (V' : (val f2500 == ofN 2500)%Q) by (vm_compute; reflexivity).
  rewrite Q, V' in C. unfold ofN in C. rewrite <- Zlt_Qlt in C.
  destruct (N.ltb_spec 2500 n) as [L|L].
  - apply C. lia.
  - apply not_true_is_false. intro T. apply C in T. lia.
Qed.

Lemma times_one : forall n, (n < 1000000)%N -> fmul (fN n) MBAR_TO_HPA = fN n.
Proof.
  intros n H. change MBAR_TO_HPA with one.
  destruct (fN_near n H) as [[E _]|[E _]]; [rewrite E; reflexivity|].
  apply (fmul_one 52); [exact E|lia].
Qed.

(** The pressure of a group in one equation. *)
Definition is_inches (g : press_g) : bool :=
  match pg_prefix g with PfA => true | _ => pg_ins g end.
Lemma press_decodes : forall g, press_wf g ->
  metar_pressure_new (re_match r_PRESSURE (press_code g))
  = Ok (mk_press (Some (press_code g))
          (match pg_value g with
           | None => None
           | Some n =>
               if is_inches g then pressure_new (Some (format_fixed 10 (inches n)))
               else match pg_prefix g with
                    | PfNone => if (2500 <? n)%N
                                then pressure_new (Some (format_fixed 10 (fmul (fN n) INHG_TO_HPA)))
                                else Some (fN n)
                    | _ => Some (fN n)
                    end
           end)).
Proof.
  intros g H. destruct (press_captures g) as (m & Em & Es & Hc). rewrite Em.
  unfold metar_pressure_new. captured Hc ["press"; "units"; "units2"].
  rewrite Es, group_code_id by apply press_nou. clear Em Es Hc m.
  set (code := Some (press_code g)).
  destruct g as [p v i]. unfold press_wf in H. cbn [pg_prefix pg_value pg_ins] in *.
  assert (L : lookup "press" (press_text (mk_press_g p v i))
     = Some (match v with Some n => digits 4 n | None => py "////" end)).
  { unfold press_text. cbn [pg_prefix pg_value pg_ins]. destruct p; reflexivity. }
  rewrite L. destruct v as [n|]; [|reflexivity]. cbn [opt_all] in H.
  rewrite digits_neq by reflexivity. unfold float_of_str.
  rewrite parse_digits; [|lia|exact H]. cbn [bind].
  change (float_of_Z (Z.of_N n)) with (fN n). do 2 f_equal.
  unfold pressure_convert, is_inches. cbn [pg_prefix pg_ins].
  assert (W : pressure_new (Some (format_fixed 10 (fN n))) = Some (fN n)).
  { unfold pressure_new, float_or_none. apply fN_format. lia. }
  unfold press_text. cbn [pg_prefix pg_value pg_ins].
  destruct p, i; cbn [app lookup String.eqb Ascii.eqb Bool.eqb]; try reflexivity; try exact W.
  cbn [opt_str_eqb orb]. rewrite above_2500 by exact H. destruct (2500 <? n)%N; [reflexivity|].
  rewrite times_one by lia. exact W.
Qed.

Lemma press_Q_ok : forall g, press_wf g -> pg_prefix g = PfQ \/ pg_prefix g = PfQNH ->
  pg_ins g = false ->
  exists p, metar_pressure_new (re_match r_PRESSURE (press_code g)) = Ok p
    /\ pr_code p = Some (press_code g) /\ opt_num (pr_value p) (option_map ofN (pg_value g)).
Proof.
  intros g H Hp Hi. rewrite press_decodes by exact H. eexists. split; [reflexivity|].
  cbn [pr_code pr_value]. split; [reflexivity|]. unfold is_inches. rewrite Hi.
  unfold press_wf in H. destruct (pg_value g) as [n|]; [|reflexivity]. cbn [option_map opt_num opt_all] in *.
  destruct Hp as [-> | ->]; apply fN_num; lia.
Qed.

Lemma press_A_ok : forall g, press_wf g -> pg_prefix g = PfA \/ pg_ins g = true ->
  exists p, metar_pressure_new (re_match r_PRESSURE (press_code g)) = Ok p
    /\ pr_code p = Some (press_code g)
    /\ opt_within (1 # 10 ^ 9) (pr_value p)
         (option_map (fun n => ofN n / (100 # 1) / (2953 # 100000))%Q (pg_value g)).
Proof.
  intros g H Hp. rewrite press_decodes by exact H. eexists. split; [reflexivity|].
  cbn [pr_code pr_value]. split; [reflexivity|].
  assert (I : is_inches g = true) by (unfold is_inches; destruct Hp as [-> | ->]; [reflexivity|destruct (pg_prefix g); reflexivity]).
  rewrite I. unfold press_wf in H. destruct (pg_value g) as [n|]; [|reflexivity].
  cbn [option_map opt_within opt_all] in *. apply inches_value. exact H.
Qed.

Lemma press_none_ok : forall n, (n <= 2500)%N ->
  exists p q, metar_pressure_new (re_match r_PRESSURE (press_code (mk_press_g PfNone (Some n) false))) = Ok p
    /\ metar_pressure_new (re_match r_PRESSURE (press_code (mk_press_g PfQ (Some n) false))) = Ok q
    /\ pr_value p = pr_value q.
Proof.
  intros n H.
  assert (W : forall f, press_wf (mk_press_g f (Some n) false)) by (intro f; unfold press_wf; cbn; lia).
  rewrite !press_decodes by apply W. do 2 eexists. split; [reflexivity|]. split; [reflexivity|].
  cbn [pr_value pg_value pg_prefix pg_ins is_inches].
  destruct (N.ltb_spec 2500 n); [lia|reflexivity].
Qed.

(** ** Runway names *)

Definition all_runway_g : list runway_g :=
  flat_map (fun n => map (mk_runway n) (options sides)) (upto 100).
Lemma in_all_runways : forall r, runway_wf r -> In r all_runway_g.
Proof.
  intros [n s] [H1 H2]. unfold all_runway_g. apply in_flat_map. exists n. split.
  - apply in_upto. exact H1.
  - apply in_map. apply in_options. exact H2.
Qed.
Definition opt_str_b (a b : option str) : bool :=
  match a, b with Some x, Some y => str_eqb x y | None, None => true | _, _ => false end.
Lemma opt_str_b_sound : forall a b, opt_str_b a b = true -> a = b.
Proof.
  intros [a|] [b|] H; try discriminate; [|reflexivity]. apply str_eqb_eq in H. congruence.
Qed.

Lemma runway_name_ok : forall r, runway_wf r -> set_runway_name (Some (runway_code r)) = Some (runway_name r).
Proof.
  intros r H. apply opt_str_b_sound.
  assert (E : forallb (fun r => opt_str_b (set_runway_name (Some (runway_code r))) (Some (runway_name r)))
                all_runway_g = true) by (vm_compute; reflexivity).
  rewrite forallb_forall in E. apply E. apply in_all_runways. exact H.
Qed.

Lemma nou_runway : forall r, runway_wf r -> nou (runway_code r).
Proof.
  intros [n s] [_ H]. unfold runway_code. cbn [rn_number rn_side] in *. apply nou_app; [auto with nou|].
  apply (nou_opt_in _ code_of sides); [reflexivity|exact H].
Qed.

(** ** Runway visual range *)

Definition feet_value (n : N) : float := fmul (fN n) FT_TO_M.
Lemma feet_near : forall n, (n < 10000)%N -> near 64 3 (feet_value n) (ofN n * (3048 # 10000)).
Proof.
  intros n H. apply (near_weak (52 + 10 + 2) (0 + 1 + 2)); try lia.
  apply near_mul; try lia; [apply fN_near; lia|]. apply near_b_sound. vm_compute. reflexivity.
Qed.
Lemma feet_ok : forall n, (n < 10000)%N ->
  distance_new (Some (repr (feet_value n))) = Some (feet_value n)
  /\ within (1 # 10 ^ 9) (Some (feet_value n)) (ofN n * (3048 # 10000)).
Proof.
  intros n H. assert (M := feet_near n H).
  destruct (scaled_range n (3048 # 10000) (2 # 1000) (inject_Z (10 ^ 14))) as [A B];
    [reflexivity|vm_compute; discriminate|vm_compute; discriminate|lia|].
  assert (P : plain (feet_value n) = true)
    by (apply (near_plain 64 3 _ _ M); [lia|lia|exact A|exact B]).
  destruct (plain_repr _ P) as [P1 P2]. split.
  - unfold distance_new. rewrite plain_repr_9999 by exact P. exact P1.
  - apply (near_within 64 3 _ _ _ (ofN 9999 * (3048 # 10000)) M); [lia| |vm_compute; discriminate].
    apply Qmult_le_compat_r; [apply ofN_le; lia|discriminate].
Qed.

Lemma rvr_small : forall x, rvr_digits_wf x -> (snd x < 10000)%N.
Proof.
  intros [k n] [H1 H2]. cbn [fst snd] in *.
  assert (10 ^ N.of_nat k <= 10 ^ N.of_nat 4)%N by (apply N.pow_le_mono_r; lia).
  change (10 ^ N.of_nat 4)%N with 10000%N in *. lia.
Qed.

Lemma rvr_range_ok : forall (ft : bool) x, rvr_digits_wf x ->
  exists v, rvr_set_range (Some (rvr_digits_code x)) (if ft then Some (py "FT") else None) = Ok v
    /\ within (1 # 10 ^ 9) v (rvr_meters ft x).
Proof.
  intros ft x H. assert (Hs := rvr_small x H). destruct x as [k n]. destruct H as [H1 H2].
  unfold rvr_digits_code, rvr_meters, rvr_set_range. cbn [fst snd] in *. destruct ft.
  - change (opt_str_eqb (Some (py "FT")) (py "FT")) with true. cbn iota. unfold float_of_str.
    rewrite parse_digits by (lia || exact H2). cbn [bind].
    change (fmul (float_of_Z (Z.of_N n)) FT_TO_M) with (feet_value n).
    destruct (feet_ok n Hs) as [E W]. rewrite E. eexists. split; [reflexivity|exact W].
  - cbn [opt_str_eqb]. eexists. split; [reflexivity|].
    assert (D : distance_new (Some (digits k n)) = Some (fN (if N.eqb n 9999 then 10000 else n))).
    { unfold distance_new. destruct (N.eqb_spec n 9999) as [->|N9].
      - assert (k = 4).
        { destruct (Nat.eq_dec k 4); [assumption|exfalso].
          assert (10 ^ N.of_nat k <= 10 ^ N.of_nat 3)%N by (apply N.pow_le_mono_r; lia).
          change (10 ^ N.of_nat 3)%N with 1000%N in *. lia. }
        subst k. vm_compute. reflexivity.
      - replace (str_eqb (digits k n) (py "9999")) with false.
        + unfold float_or_none. rewrite parse_digits; [reflexivity|lia|exact H2].
        + symmetry. apply str_eqb_neq. intro E. apply N9.
          assert (L := f_equal (@length N) E). rewrite digits_len in L. change (k = 4) in L. subst k.
          apply (digits_inj 4); [exact H2|reflexivity|]. rewrite E. reflexivity. }
    rewrite D. assert (T : forall m q, (m < 1000000)%N -> (q == ofN m)%Q -> within (1 # 10 ^ 9) (Some (fN m)) q).
    { intros m q Hm Hq. destruct (fN_num m Hm) as (y & v & E & V & Q). injection E as <-.
      exists (fN m), v. split; [reflexivity|]. split; [exact V|].
      setoid_replace (v - q)%Q with 0%Q; [vm_compute; discriminate|]. rewrite Q, Hq. ring. }
    destruct (N.eqb n 9999); apply T; try lia; reflexivity.
Qed.

Lemma rvr_nou : forall g, rvr_wf g -> nou (rvr_code g).
Proof.
  intros [r l lo hi ft tr] (H1 & H2 & _ & H4 & H5). unfold rvr_code.
  cbn [rg_runway rg_lim_low rg_low rg_high rg_feet rg_trend] in *.
  assert (L : forall x, opt_all (fun x => In x limits) x -> nou (opt code_of x))
    by (intros x Hx; apply (nou_opt_in _ code_of limits); [reflexivity|exact Hx]).
  assert (R := nou_runway r H1). unfold rvr_digits_code.
  apply nou_app; [auto with nou|]. apply nou_app; [exact R|]. apply nou_app; [auto with nou|].
  apply nou_app; [exact (L l H2)|]. apply nou_app; [auto with nou|].
  apply nou_app; [|apply nou_app; [auto with nou|]].
  - apply nou_opt. intros [l' x] ->. cbn [opt_all] in H4. destruct H4 as [H4 _].
    apply nou_app; [auto with nou|]. apply nou_app; [exact (L l' H4)|auto with nou].
  - apply (nou_opt_in _ code_of rvr_trends); [reflexivity|exact H5].
Qed.

Lemma table_ok : forall (t : table) (d : list (str * str)),
  forallb (fun x => opt_str_b (assoc (code_of x) d) (Some (text_of x))) t = true ->
  forall o, opt_all (fun x => In x t) o -> dict_get d (option_map code_of o) = option_map text_of o.
Proof.
  intros t d H [x|] Hx; [|reflexivity]. cbn [opt_all option_map dict_get] in *.
  rewrite forallb_forall in H. apply opt_str_b_sound. apply H. exact Hx.
Qed.

Lemma lookup_skip : forall n a b, lookup n a = None -> lookup n (a ++ b) = lookup n b.
Proof.
  intros n a b H. induction a as [|[x y] a IH]; [reflexivity|]. cbn [lookup app] in *.
  destruct (String.eqb n x); [discriminate|]. auto.
Qed.
Lemma lookup_oseg : forall A n (f : A -> str) o rest,
  lookup n rest = None -> lookup n (oseg n f o ++ rest) = option_map f o.
Proof.
  intros A n f [x|] rest H; cbn [oseg app lookup option_map]; [rewrite String.eqb_refl; reflexivity|exact H].
Qed.
Lemma lookup_oseg_other : forall A n n' (f : A -> str) o,
  String.eqb n n' = false -> lookup n (oseg n' f o) = None.
Proof. intros A n n' f [x|] H; cbn [oseg lookup]; [rewrite H|]; reflexivity. Qed.

Lemma rvr_lookups : forall g,
  lookup "name" (rvr_text g) = Some (runway_code (rg_runway g))
  /\ lookup "rvrlow" (rvr_text g) = option_map code_of (rg_lim_low g)
  /\ lookup "low" (rvr_text g) = Some (rvr_digits_code (rg_low g))
  /\ lookup "rvrhigh" (rvr_text g) = match rg_high g with Some (l, _) => option_map code_of l | None => None end
  /\ lookup "high" (rvr_text g) = match rg_high g with Some (_, x) => Some (rvr_digits_code x) | None => None end
  /\ lookup "units" (rvr_text g) = (if rg_feet g then Some (py "FT") else None)
  /\ lookup "trend" (rvr_text g) = option_map code_of (rg_trend g).
Proof.
  intros [r l lo hi ft tr]. unfold rvr_text, lim_seg.
  cbn [rg_runway rg_lim_low rg_low rg_high rg_feet rg_trend].
  destruct l as [l|], hi as [[[lh|] x]|], ft, tr as [t|]; repeat split; reflexivity.
Qed.


Lemma rvr_ok : forall g, rvr_wf g ->
  exists r, runway_range_new (re_match r_RUNWAY_RANGE (rvr_code g)) = Ok r
    /\ rr_code r = Some (rvr_code g)
    /\ rr_name r = Some (runway_name (rg_runway g))
    /\ within (1 # 10 ^ 9) (rr_low r) (rvr_meters (rg_feet g) (rg_low g))
    /\ opt_within (1 # 10 ^ 9) (rr_high r) (high_meters g)
    /\ rr_rvr_low r = option_map text_of (rg_lim_low g)
    /\ rr_rvr_high r = option_map text_of (high_limit g)
    /\ rr_trend r = option_map text_of (rg_trend g).
Proof.
  intros g H. destruct (rvr_captures g H) as (m & Em & Es & Hc). rewrite Em.
  unfold runway_range_new. captured Hc ["name"; "rvrlow"; "low"; "rvrhigh"; "high"; "units"; "trend"].
  rewrite Es, group_code_id by exact (rvr_nou g H). clear Em Es Hc m.
  destruct (rvr_lookups g) as (-> & -> & -> & -> & -> & -> & ->).
  destruct H as (H1 & H2 & H3 & H4 & H5).
  destruct (rvr_range_ok (rg_feet g) _ H3) as (lo & Elo & Wlo). rewrite Elo. cbn [bind].
  assert (Hh : exists v, rvr_set_range (match rg_high g with Some (_, x) => Some (rvr_digits_code x) | None => None end)
                   (if rg_feet g then Some (py "FT") else None) = Ok v
             /\ opt_within (1 # 10 ^ 9) v (high_meters g)).
  { unfold high_meters. destruct (rg_high g) as [[l x]|].
    - destruct H4 as [_ H4]. exact (rvr_range_ok (rg_feet g) x H4).
    - exists None. split; reflexivity. }
  destruct Hh as (hi & Ehi & Whi). rewrite Ehi. cbn [bind].
  rewrite runway_name_ok by exact H1.
  rewrite (table_ok limits RVR_LIMITS eq_refl _ H2).
  rewrite (table_ok rvr_trends TRENDS eq_refl _ H5).
  replace (match rg_high g with Some (l, _) => option_map code_of l | None => None end)
    with (option_map code_of (high_limit g)) by (unfold high_limit; destruct (rg_high g) as [[l x]|]; reflexivity).
  rewrite (table_ok limits RVR_LIMITS eq_refl (high_limit g)).
  2:{ unfold high_limit. destruct (rg_high g) as [[l x]|]; [|exact I]. apply H4. }
  eexists. split; [reflexivity|]. cbn [rr_code rr_name rr_low rr_high rr_rvr_low rr_rvr_high rr_trend].
  auto 10.
Qed.

(** ** Weather *)

Lemma weather_nou : forall g, weather_wf g -> nou (weather_code g).
Proof.
  intros [i d p] (H1 & H2 & H3). unfold weather_code. cbn [xg_int xg_desc xg_phen] in *.
  repeat apply nou_app.
  - apply (nou_opt_in _ code_of intensities); [reflexivity|exact H1].
  - apply (nou_opt_in _ code_of descriptors); [reflexivity|exact H2].
  - destruct p as [[x|x|x|]|]; cbn [opt opt_all phenomenon_code phenomenon_wf] in *; auto with nou.
    + apply (nou_in _ code_of precipitations); [reflexivity|exact H3].
    + apply (nou_in _ code_of obscurations); [reflexivity|exact H3].
    + apply (nou_in _ code_of (others ++ [nsw])); [reflexivity|exact H3].
Qed.

Lemma weather_lookups : forall g,
  lookup "int" (weather_text g) = option_map code_of (xg_int g)
  /\ lookup "desc" (weather_text g) = option_map code_of (xg_desc g)
  /\ lookup "prec" (weather_text g) = match xg_phen g with Some (PhPrec x) => Some (code_of x) | _ => None end
  /\ lookup "obsc" (weather_text g) = match xg_phen g with Some (PhObsc x) => Some (code_of x) | _ => None end
  /\ lookup "other" (weather_text g)
     = match xg_phen g with Some (PhOther x) => Some (code_of x) | Some PhUnknown => Some (py "/") | _ => None end.
Proof. intros [[i|] [d|] [[x|x|x|]|]]; repeat split; reflexivity. Qed.

Lemma weather_decodes : forall g, weather_wf g ->
  weather_new (re_match r_WEATHER (weather_code g))
  = mk_weather (Some (weather_code g)) (option_map text_of (xg_int g)) (option_map text_of (xg_desc g))
      (ph_prec g) (ph_obsc g) (ph_other g).
Proof.
  intros g H. destruct (weather_captures g H) as (m & Em & Es & Hc). rewrite Em.
  unfold weather_new. captured Hc ["int"; "desc"; "prec"; "obsc"; "other"].
  rewrite Es, group_code_id by exact (weather_nou g H).
  destruct (weather_lookups g) as (-> & -> & -> & -> & ->).
  destruct H as (H1 & H2 & H3).
  rewrite (table_ok intensities INTENSITY eq_refl _ H1).
  rewrite (table_ok descriptors DESCRIPTION eq_refl _ H2).
  unfold ph_prec, ph_obsc, ph_other.
  destruct (xg_phen g) as [[x|x|x|]|]; try reflexivity; cbn [opt_all phenomenon_wf] in H3; f_equal.
  - exact (table_ok precipitations PRECIPITATION eq_refl (Some x) H3).
  - exact (table_ok obscurations OBSCURATION eq_refl (Some x) H3).
  - exact (table_ok (others ++ [nsw]) OTHER eq_refl (Some x) H3).
Qed.

Lemma weather_prints : forall g, weather_wf g ->
  weather_str (mk_weather (Some (weather_code g)) (option_map text_of (xg_int g))
                 (option_map text_of (xg_desc g)) (ph_prec g) (ph_obsc g) (ph_other g))
  = spaced [option_map text_of (xg_int g); option_map text_of (xg_desc g); ph_prec g; ph_obsc g; ph_other g].
Proof.
  intros g H. apply str_eqb_eq.
  assert (E : forallb (fun g => str_eqb
      (weather_str (mk_weather (Some (weather_code g)) (option_map text_of (xg_int g))
                 (option_map text_of (xg_desc g)) (ph_prec g) (ph_obsc g) (ph_other g)))
      (spaced [option_map text_of (xg_int g); option_map text_of (xg_desc g); ph_prec g; ph_obsc g; ph_other g]))
      all_weather = true) by (vm_compute; reflexivity).
  rewrite forallb_forall in E. apply E. apply in_weather. exact H.
Qed.

(** ** Recent weather *)

Lemma recent_nou : forall g, recent_wf g -> nou (recent_code g).
Proof.
  intros [d p o x] (H1 & H2 & H3 & H4). unfold recent_code. cbn [eg_desc eg_prec eg_obsc eg_other] in *.
  repeat apply nou_app; auto with nou.
  - apply (nou_opt_in _ code_of descriptors); [reflexivity|exact H1].
  - apply (nou_opt_in _ code_of precipitations); [reflexivity|exact H2].
  - apply (nou_opt_in _ code_of recent_obscurations); [reflexivity|exact H3].
  - apply (nou_opt_in _ code_of others); [reflexivity|exact H4].
Qed.

Lemma recent_lookups : forall g,
  lookup "desc" (recent_text g) = option_map code_of (eg_desc g)
  /\ lookup "prec" (recent_text g) = option_map code_of (eg_prec g)
  /\ lookup "obsc" (recent_text g) = option_map code_of (eg_obsc g)
  /\ lookup "other" (recent_text g) = option_map code_of (eg_other g).
Proof. intros [[d|] [p|] [o|] [x|]]; repeat split; reflexivity. Qed.

Lemma recent_decodes : forall g, recent_wf g ->
  recent_weather_new (re_match r_RECENT_WEATHER (recent_code g))
  = mk_recent (Some (recent_code g)) (option_map text_of (eg_desc g)) (option_map text_of (eg_prec g))
      (option_map text_of (eg_obsc g)) (option_map text_of (eg_other g)).
Proof.
  intros g H. destruct (recent_captures g H) as (m & Em & Es & Hc). rewrite Em.
  unfold recent_weather_new. captured Hc ["desc"; "prec"; "obsc"; "other"].
  rewrite Es, group_code_id by exact (recent_nou g H).
  destruct (recent_lookups g) as (-> & -> & -> & ->).
  destruct H as (H1 & H2 & H3 & H4).
  rewrite (table_ok descriptors DESCRIPTION eq_refl _ H1).
  rewrite (table_ok precipitations PRECIPITATION eq_refl _ H2).
  rewrite (table_ok recent_obscurations OBSCURATION eq_refl _ H3).
  rewrite (table_ok others OTHER eq_refl _ H4). reflexivity.
Qed.

(** ** Temperatures *)

Definition side_value (t : tside) : result (option float) :=
  match t with
  | TValue s n => set_temperature (Some (digits 2 n)) (option_map sign_code s)
  | TMissing f => set_temperature (Some (py f)) None
  end.


Definition opt_within_b (eps : Q) (o : option float) (q : option Q) : bool :=
  match o, q with
  | Some x, Some q => within_b eps x q
  | None, None => true
  | _, _ => false
  end.
Lemma opt_within_b_sound : forall eps o q, opt_within_b eps o q = true -> opt_within eps o q.
Proof.
  intros eps [x|] [q|] H; try discriminate; [|reflexivity]. apply within_b_sound. exact H.
Qed.

Definition temp_checks (v : option float) (q : option Q) : bool :=
  opt_num_b v q && opt_within_b (1 # 10 ^ 9) (in_kelvin v) (option_map kelvin q)
  && opt_within_b (1 # 10 ^ 9) (in_fahrenheit v) (option_map fahrenheit q)
  && opt_within_b (1 # 10 ^ 9) (in_rankine v) (option_map rankine q).


Lemma temp_checks_sound : forall v q, temp_checks v q = true -> temp_is v q.
Proof.
  intros v q H. unfold temp_checks in H. rewrite !andb_true_iff in H.
  destruct H as (((H1 & H2) & H3) & H4). split; [apply opt_num_b_sound; exact H1|].
  split; [|split]; apply opt_within_b_sound; assumption.
Qed.

Definition all_tsides : list tside :=
  flat_map (fun n => [TValue None n; TValue (Some true) n; TValue (Some false) n]) (upto 100)
  ++ map TMissing ["//"; "XX"; "MM"].
Lemma in_tsides : forall t, tside_wf t -> In t all_tsides.
Proof.
  intros [s n|f] H; unfold all_tsides; apply in_or_app; cbn [tside_wf] in H.
  - left. apply in_flat_map. exists n. split; [apply in_upto; exact H|].
    destruct s as [[|]|]; simpl; auto.
  - right. apply in_map. exact H.
Qed.

Lemma side_ok : forall t, tside_wf t -> exists v, side_value t = Ok v /\ temp_is v (celsius t).
Proof.
  intros t H.
  assert (E : forallb (fun t => match side_value t with
                                | Ok v => temp_checks v (celsius t) | Raise _ => false end) all_tsides = true)
    by (vm_compute; reflexivity).
  rewrite forallb_forall in E. specialize (E t (in_tsides t H)).
  destruct (side_value t) as [v|]; [|discriminate]. exists v. split; [reflexivity|].
  apply temp_checks_sound. exact E.
Qed.

Lemma temps_nou : forall g, temps_wf g -> nou (temps_code g).
Proof.
  assert (S : forall t, tside_wf t -> nou (tside_code t)).
  { intros [s n|f] H; cbn [tside_code tside_wf] in *.
    - apply nou_app; [|auto with nou]. destruct s as [[|]|]; auto with nou.
    - apply (nou_in _ py ["//"; "XX"; "MM"]); [reflexivity|exact H]. }
  intros [a b] [H1 H2]. unfold temps_code. cbn [tg_temp tg_dewpt] in *.
  apply nou_app; [exact (S a H1)|]. apply nou_app; [auto with nou|exact (S b H2)].
Qed.

Lemma temps_ok : forall g, temps_wf g ->
  exists t, temperatures_new (re_match r_TEMPERATURES (temps_code g)) = Ok t
    /\ te_code t = Some (temps_code g)
    /\ temp_is (te_temp t) (celsius (tg_temp g))
    /\ temp_is (te_dewpt t) (celsius (tg_dewpt g)).
Proof.
  intros g H. destruct (temps_captures g H) as (m & Em & Es & Hc). rewrite Em.
  unfold temperatures_new. captured Hc ["tsign"; "temp"; "dsign"; "dewpt"].
  rewrite Es, group_code_id by exact (temps_nou g H).
  destruct g as [a b]. destruct H as [H1 H2]. cbn [tg_temp tg_dewpt] in *.
  destruct (side_ok a H1) as (x & Ex & X). destruct (side_ok b H2) as (y & Ey & Y).
  assert (A : set_temperature (lookup "temp" (temps_text (mk_temps_g a b)))
                (lookup "tsign" (temps_text (mk_temps_g a b))) = side_value a).
  { unfold temps_text. cbn [tg_temp tg_dewpt]. destruct a as [[s|] n|f], b as [[s'|] n'|f']; reflexivity. }
  assert (B : set_temperature (lookup "dewpt" (temps_text (mk_temps_g a b)))
                (lookup "dsign" (temps_text (mk_temps_g a b))) = side_value b).
  { unfold temps_text. cbn [tg_temp tg_dewpt]. destruct a as [[s|] n|f], b as [[s'|] n'|f']; reflexivity. }
  rewrite A, Ex. cbn [bind]. rewrite B, Ey. eexists. split; [reflexivity|].
  cbn [te_code te_temp te_dewpt]. auto.
Qed.

(** ** Windshear *)

Lemma ws_group_code : forall g, ws_wf g ->
  group_code (Some (replace (py "_") (py " ") (ws_token g))) = Some (ws_code g).
Proof.
  intros [|r] H; [reflexivity|]. cbn [ws_token ws_code ws_wf] in *.
  assert (R := nou_runway r H). change (py "_") with [95%N]. change (py " ") with [32%N].
  rewrite replace_char, subst_app. rewrite (subst_char_id 95 32 (runway_code r) R).
  change (subst_char 95 32 (py "WS_R")) with (py "WS R").
  apply group_code_id. apply nou_app; [auto with nou|exact R].
Qed.


Lemma ws_runway_ok : forall r, runway_wf r ->
  (if Nat.eqb (length (runway_code r)) 2 then Some (runway_code r)
   else if Nat.eqb (length (runway_code r)) 3 then set_runway_name (Some (runway_code r)) else None)
  = Some (ws_runway_name r).
Proof.
  intros r H. apply opt_str_b_sound.
  assert (E : forallb (fun r => opt_str_b
     (if Nat.eqb (length (runway_code r)) 2 then Some (runway_code r)
      else if Nat.eqb (length (runway_code r)) 3 then set_runway_name (Some (runway_code r)) else None)
     (Some (ws_runway_name r))) all_runway_g = true) by (vm_compute; reflexivity).
  rewrite forallb_forall in E. apply (E r). apply in_all_runways. exact H.
Qed.

Lemma ws_ok : forall g, ws_wf g ->
  let w := windshear_new (re_match r_WINDSHEAR (ws_token g)) in
  MetarGroups.ws_code w = Some (ws_code g) /\ ws_name w = ws_name_of g /\ ws_all_ w = ws_is_all g.
Proof.
  intros g H. destruct (ws_captures g H) as (m & Em & Es & Hc). rewrite Em.
  unfold windshear_new. captured Hc ["all"; "name"]. rewrite Es, ws_group_code by exact H.
  destruct g as [|r]; cbn [ws_wf] in H.
  - repeat split; reflexivity.
  - change (lookup "name" (ws_text (WsRunway r))) with (Some (runway_code r)).
    change (lookup "all" (ws_text (WsRunway r))) with (@None str).
    unfold ws_all_. cbn [MetarGroups.ws_code ws_name ws_all truthy ws_name_of ws_is_all].
    cbv zeta iota. split; [reflexivity|]. split; [|reflexivity]. apply ws_runway_ok. exact H.
Qed.

(** ** Sea state *)


Definition deci (n : N) : float := fdiv (fN n) f10.
Lemma deci_near : forall n, (n < 10000)%N -> near 64 2 (deci n) (ofN n / (10 # 1)).
Proof.
  intros n H. apply (near_weak (52 + 10 + 2) (0 + 0 + 2)); try lia.
  apply near_div; try lia; [apply fN_near; lia| |reflexivity]. apply near_b_sound. vm_compute. reflexivity.
Qed.
Lemma deci_ok : forall n, (n < 1000)%N ->
  distance_new (Some (repr (deci n))) = Some (deci n)
  /\ within (1 # 10 ^ 9) (Some (deci n)) (ofN n / (10 # 1)).
Proof.
  intros n H. assert (M := deci_near n ltac:(lia)).
  destruct (scaled_range n (1 # 10) (2 # 1000) (inject_Z (10 ^ 14))) as [A B];
    [reflexivity|vm_compute; discriminate|vm_compute; discriminate|lia|].
  change (ofN n / (10 # 1))%Q with (ofN n * (1 # 10))%Q in *.
  assert (P : plain (deci n) = true)
    by (apply (near_plain 64 2 _ _ M); [lia|lia|exact A|exact B]).
  destruct (plain_repr _ P) as [P1 P2]. split.
  - unfold distance_new. rewrite plain_repr_9999 by exact P. exact P1.
  - apply (near_within 64 2 _ _ _ (ofN 9999 * (1 # 10)) M); [lia| |vm_compute; discriminate].
    apply Qmult_le_compat_r; [apply ofN_le; lia|discriminate].
Qed.

Lemma sea_nou : forall g, sea_wf g -> nou (sea_code g).
Proof.
  intros [s t p] [_ H]. unfold sea_code. cbn [sg_minus sg_temp sg_part] in *.
  apply nou_app; [auto with nou|]. apply nou_app; [auto with nou|]. apply nou_app; [auto with nou|].
  apply nou_app; [auto with nou|]. destruct p as [x|n]; (apply nou_app; [auto with nou|]).
  - apply (nou_in _ code_of sea_states); [reflexivity|exact H].
  - auto with nou.
Qed.

Lemma sea_ok : forall g, sea_wf g ->
  exists s, sea_state_new (re_match r_SEA_STATE (sea_code g)) = Ok s
    /\ se_code s = Some (sea_code g)
    /\ is_num (se_temp s) (sea_celsius g)
    /\ se_state s = sea_text_of g
    /\ opt_within (1 # 10 ^ 9) (se_height s) (sea_height_dm g).
Proof.
  intros g H. destruct (sea_captures g H) as (m & Em & Es & Hc). rewrite Em.
  unfold sea_state_new. captured Hc ["sign"; "temp"; "state"; "height"].
  rewrite Es, group_code_id by exact (sea_nou g H). clear Em Es Hc m.
  set (code := Some (sea_code g)).
  destruct g as [s t p]. destruct H as [H1 H2]. cbn [sg_minus sg_temp sg_part] in *.
  destruct (side_ok (TValue (if s then Some true else None) t) H1) as (x & Ex & X & _).
  assert (A : set_temperature (lookup "temp" (sea_text (mk_sea_g s t p)))
                (lookup "sign" (sea_text (mk_sea_g s t p)))
              = side_value (TValue (if s then Some true else None) t)).
  { destruct s, p; reflexivity. }
  rewrite A, Ex. cbn [bind]. eexists. split; [reflexivity|].
  cbn [se_code se_temp se_state se_height]. split; [reflexivity|]. split; [|split].
  - unfold sea_celsius. cbn [sg_minus sg_temp]. destruct s; exact X.
  - unfold sea_text_of. cbn [sg_part]. destruct p as [y|n].
    + replace (lookup "state" (sea_text (mk_sea_g s t (SeaState y)))) with (option_map code_of (Some y))
        by (destruct s; reflexivity).
      exact (table_ok sea_states SEA_STATE eq_refl (Some y) H2).
    + destruct s; reflexivity.
  - unfold sea_height_dm. cbn [sg_part]. destruct p as [y|n].
    + replace (lookup "height" (sea_text (mk_sea_g s t (SeaState y)))) with (@None str)
        by (destruct s; reflexivity). reflexivity.
    + replace (lookup "height" (sea_text (mk_sea_g s t (SeaHeight n)))) with (Some (digits 3 n))
        by (destruct s; reflexivity).
      unfold sea_height, int_of_opt. rewrite int_digits by (lia || exact H2).
      change (fdiv (float_of_Z (Z.of_N n)) f10) with (deci n). cbn [opt_within].
      destruct (deci_ok n H2) as [E W]. rewrite E. exact W.
Qed.

(** ** Runway state *)

Lemma in_two : forall n, opt_all (fun n => (n < 100)%N) n -> In n (options (upto 100)).
Proof. intros [n|] H; apply in_options; [|exact I]. cbn [opt_all] in *. apply in_upto. exact H. Qed.

Lemma depth_ok : forall n, opt_all (fun n => (n < 100)%N) n ->
  set_deposits_depth (Some (two_code n)) = Some (depth_text n).
Proof.
  intros n H. apply opt_str_b_sound.
  assert (E : forallb (fun n => opt_str_b (set_deposits_depth (Some (two_code n))) (Some (depth_text n)))
                (options (upto 100)) = true) by (vm_compute; reflexivity).
  rewrite forallb_forall in E. apply (E n). apply in_two. exact H.
Qed.
Lemma friction_ok : forall n, opt_all (fun n => (n < 100)%N) n ->
  set_surface_friction (Some (two_code n)) = Some (friction_text n).
Proof.
  intros n H. apply opt_str_b_sound.
  assert (E : forallb (fun n => opt_str_b (set_surface_friction (Some (two_code n))) (Some (friction_text n)))
                (options (upto 100)) = true) by (vm_compute; reflexivity).
  rewrite forallb_forall in E. apply (E n). apply in_two. exact H.
Qed.
Lemma cont_ok : forall c, In c contaminations ->
  assoc (py (fst c)) RUNWAY_CONTAMINATION = option_map (fun s => py s) (snd c).
Proof.
  intros c H. apply opt_str_b_sound.
  assert (E : forallb (fun c => opt_str_b (assoc (py (fst c)) RUNWAY_CONTAMINATION)
                (option_map (fun s => py s) (snd c))) contaminations = true) by (vm_compute; reflexivity).
  rewrite forallb_forall in E. apply (E c). exact H.
Qed.

Lemma rs_nou : forall g, rs_wf g -> nou (rs_code_of g).
Proof.
  intros [r s] [H1 H2]. unfold rs_code_of. cbn [sg_runway sg_state] in *.
  apply nou_app; [auto with nou|]. apply nou_app.
  { destruct r; cbn [opt opt_all] in *; [apply nou_runway; exact H1|auto with nou]. }
  apply nou_app; [auto with nou|].
  destruct s as [d c h f| |]; auto with nou. destruct H2 as (Hd & Hc & _ & _).
  apply nou_app; [apply (nou_in _ code_of deposits); [reflexivity|exact Hd]|].
  apply nou_app; [apply (nou_in _ (fun c => py (fst c)) contaminations); [reflexivity|exact Hc]|].
  apply nou_app; [destruct h|destruct f]; cbn [two_code]; auto with nou.
Qed.


Lemma rs_ok : forall g, rs_wf g ->
  let r := runway_state_new (re_match r_RUNWAY_STATE (rs_code_of g)) in
  rs_code r = Some (rs_code_of g)
  /\ rs_name r = option_map runway_name (sg_runway g)
  /\ rs_deposits r = rs_deposit_of (sg_state g)
  /\ rs_contamination r = rs_cont_of (sg_state g)
  /\ rs_depth r = rs_depth_of (sg_state g)
  /\ rs_friction r = rs_friction_of (sg_state g)
  /\ rs_snoclo r = is_snoclo (sg_state g)
  /\ rs_clrd r = is_clrd (sg_state g).
Proof.
  intros g H. destruct (rs_captures g H) as (m & Em & Es & Hc). rewrite Em.
  unfold runway_state_new. captured Hc ["name"; "deposit"; "cont"; "depth"; "fric"; "snoclo"; "clrd"].
  rewrite Es, group_code_id by exact (rs_nou g H). clear Em Es Hc m.
  cbv zeta. cbn [rs_code rs_name rs_deposits rs_contamination rs_depth rs_friction rs_snoclo rs_clrd].
  split; [reflexivity|]. destruct g as [r s]. destruct H as [H1 H2]. cbn [sg_runway sg_state] in *.
  assert (N : set_runway_name (lookup "name" (rs_text (mk_rs_g r s))) = option_map runway_name r).
  { destruct r as [r|]; cbn [opt_all option_map] in *.
    - rewrite <- (runway_name_ok r H1). destruct s; reflexivity.
    - destruct s; reflexivity. }
  split; [exact N|]. clear N H1.
  destruct s as [d c h f| |]; cbn [rs_deposit_of rs_cont_of rs_depth_of rs_friction_of is_snoclo is_clrd].
  - destruct H2 as (Hd & Hc & Hh & Hf).
    assert (L : forall nm, nm <> "name" -> lookup nm (rs_text (mk_rs_g r (RsCodes d c h f)))
        = lookup nm [("deposit", code_of d); ("cont", py (fst c)); ("depth", two_code h);
                           ("fric", two_code f)] \/ nm = "").
    { intros nm Hn. destruct (String.eqb_spec nm ""); [right; assumption|left].
      unfold rs_text. cbn [sg_runway sg_state]. rewrite lookup_skip.
      - rewrite lookup_skip; [rewrite lookup_skip; [reflexivity|]|apply lookup_oseg_other; apply String.eqb_neq; exact Hn].
        cbn [lookup]. apply String.eqb_neq in n. rewrite n. reflexivity.
      - cbn [lookup]. apply String.eqb_neq in n. rewrite n. reflexivity. }
    destruct (L "deposit") as [-> |]; try discriminate. destruct (L "cont") as [-> |]; try discriminate.
    destruct (L "depth") as [-> |]; try discriminate. destruct (L "fric") as [-> |]; try discriminate.
    destruct (L "snoclo") as [-> |]; try discriminate. destruct (L "clrd") as [-> |]; try discriminate.
    cbn [lookup String.eqb Ascii.eqb Bool.eqb dict_get is_some].
    split; [exact (table_ok deposits RUNWAY_DEPOSITS eq_refl (Some d) Hd)|].
    split; [exact (cont_ok c Hc)|]. split; [exact (depth_ok h Hh)|]. split; [exact (friction_ok f Hf)|].
    split; reflexivity.
  - destruct r; repeat split; reflexivity.
  - destruct r; repeat split; reflexivity.
Qed.

(** ** The forms the properties are stated in *)

Lemma weather_ok : forall g, weather_wf g ->
  let w := weather_new (re_match r_WEATHER (weather_code g)) in
  we_code w = Some (weather_code g)
  /\ we_int w = option_map text_of (xg_int g) /\ we_desc w = option_map text_of (xg_desc g)
  /\ we_prec w = ph_prec g /\ we_obsc w = ph_obsc g /\ we_other w = ph_other g
  /\ weather_str w = spaced [option_map text_of (xg_int g); option_map text_of (xg_desc g);
                             ph_prec g; ph_obsc g; ph_other g].
Proof.
  intros g H. rewrite weather_decodes by exact H. cbv zeta. rewrite weather_prints by exact H.
  repeat split; reflexivity.
Qed.

Lemma recent_ok : forall g, recent_wf g ->
  let w := recent_weather_new (re_match r_RECENT_WEATHER (recent_code g)) in
  rw_code w = Some (recent_code g)
  /\ rw_desc w = option_map text_of (eg_desc g) /\ rw_prec w = option_map text_of (eg_prec g)
  /\ rw_obsc w = option_map text_of (eg_obsc g) /\ rw_other w = option_map text_of (eg_other g).
Proof. intros g H. rewrite recent_decodes by exact H. repeat split; reflexivity. Qed.

Lemma ws_list_ok : forall gs, Forall ws_wf gs ->
  let ws := map (fun g => windshear_new (re_match r_WINDSHEAR (ws_token g))) gs in
  (all_runways ws = true <-> gs = [WsAll])
  /\ (gs <> [WsAll] -> windshear_names ws = map ws_name_of gs)
  /\ (gs = [WsAll] -> windshear_names ws = []).
Proof.
  intros gs H ws.
  assert (A : all_runways ws = true <-> gs = [WsAll]).
  { unfold ws. destruct gs as [|g [|g' gs]]; cbn [map all_runways]; try (split; discriminate).
    inversion H; subst. destruct (ws_ok g) as (_ & _ & E); [assumption|]. rewrite E.
    destruct g; split; intro K; try discriminate; reflexivity. }
  split; [exact A|]. unfold windshear_names. split; intro K.
  - destruct (all_runways ws); [destruct K; apply A; reflexivity|].
    unfold ws. rewrite map_map. clear A K ws. induction H as [|g gs Hg H IH]; [reflexivity|].
    cbn [map]. destruct (ws_ok g Hg) as (_ & E & _). rewrite E, IH. reflexivity.
  - apply A in K. rewrite K. reflexivity.
Qed.

Lemma press_2992 : exists p q,
  metar_pressure_new (re_match r_PRESSURE (py "2992")) = Ok p
  /\ metar_pressure_new (re_match r_PRESSURE (py "A2992")) = Ok q
  /\ within (1 # 1) (pr_value p) (101320 # 1) /\ within (1 # 1) (pr_value q) (1013 # 1).
Proof.
  do 2 eexists. split; [vm_compute; reflexivity|]. split; [vm_compute; reflexivity|].
  cbn [pr_value]. split; apply within_b_sound; vm_compute; reflexivity.
Qed.
