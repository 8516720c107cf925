(** * Values of the decoded groups

    The functions that turn captured text into values, on the documented
    forms.  Arithmetic over a finite range of coded values is evaluated;
    text to number and back goes through the general theorems of
    [ReprFacts]. *)
From Coq Require Import String Ascii.
From Coq Require Import List NArith ZArith Bool Lia QArith Qabs Lqa.
From Coq Require Import Floats.SpecFloat.
From Verif Require Import PyBase PyRegex AeroRegex PyFloat Utils Base MetarGroups SpecNum
  SpecGroups Rounding ReprFacts FloatFacts SymRegex ProofGroups ProofGroups2.
Import ListNotations.
Local Open Scope string_scope.
Local Open Scope nat_scope.
Local Open Scope list_scope.

(** ** Checks *)

Definition num_b (x : float) (q : Q) : bool :=
  match fvalue x with Some v => Qeq_bool v q | None => false end.
Definition within_b (eps : Q) (x : float) (q : Q) : bool :=
  match fvalue x with Some v => Qle_bool (Qabs (v - q)) eps | None => false end.

Lemma num_b_sound : forall x q, num_b x q = true -> is_num (Some x) q.
Proof.
  unfold num_b, is_num. intros x q H. destruct (fvalue x) as [v|] eqn:E; [|discriminate].
  exists x, v. split; [reflexivity|split; [exact E|]]. apply Qeq_bool_iff. exact H.
Qed.
Lemma within_b_sound : forall eps x q, within_b eps x q = true -> within eps (Some x) q.
Proof.
  unfold within_b, within. intros eps x q H. destruct (fvalue x) as [v|] eqn:E; [|discriminate].
  exists x, v. split; [reflexivity|split; [exact E|]]. apply Qle_bool_iff. exact H.
Qed.

Definition opt_num_b (o : option float) (q : option Q) : bool :=
  match q, o with
  | Some q, Some x => num_b x q
  | None, None => true
  | _, _ => false
  end.
Lemma opt_num_b_sound : forall o q, opt_num_b o q = true -> opt_num o q.
Proof.
  intros [x|] [q|] H; simpl in *; try discriminate; auto. apply num_b_sound. exact H.
Qed.

Definition fN (n : N) : float := float_of_Z (Z.of_N n).

(** ** Whole numbers *)

Lemma fN_near : forall n, (n < 1000000)%N -> near 52 0 (fN n) (ofN n).
Proof. intros n H. apply near_N. assert (2 ^ 53 = 9007199254740992)%Z by reflexivity. lia. Qed.
Lemma fN_num : forall n, (n < 1000000)%N -> is_num (Some (fN n)) (ofN n).
Proof. intros n H. exact (near_num _ _ _ (fN_near n H)). Qed.

(** Text made of digits is no text with another character in it. *)
Lemma digits_neq : forall k n s, existsb (fun c => (c <? 48) || (57 <? c))%N s = true ->
  str_eqb (digits k n) s = false.
Proof.
  intros k n s H. apply str_eqb_neq. intro E. subst s. apply existsb_exists in H.
  destruct H as (c & Hc & Hb). assert (D := digits_are k n). rewrite Forall_forall in D.
  specialize (D c Hc). unfold is_dig in D. apply orb_true_iff in Hb.
  destruct Hb as [Hb|Hb]; apply N.ltb_lt in Hb; lia.
Qed.
Lemma digits_cons : forall k n, (1 <= k)%nat -> exists c s, digits k n = c :: s.
Proof.
  intros k n Hk. destruct (digits k n) as [|c s] eqn:E; eauto.
  apply (f_equal (@length N)) in E. rewrite digits_len in E. simpl in E. lia.
Qed.
Lemma digits_truthy : forall k n, (1 <= k)%nat -> truthy (Some (digits k n)) = true.
Proof. intros k n Hk. destruct (digits_cons k n Hk) as (c & s & ->). reflexivity. Qed.

(** ** Group codes *)

Lemma subst_char_id : forall c d s, ~ In c s -> subst_char c d s = s.
Proof.
  intros c d. unfold subst_char. induction s as [|x s IH]; intro H; auto.
  cbn [map]. rewrite IH by (intro; apply H; right; auto).
  destruct (N.eqb x c) eqn:E; auto. apply N.eqb_eq in E. exfalso. apply H. left. auto.
Qed.

Definition no_char (c : N) (y : list sym) : bool := forallb (fun k => negb (existsb (N.eqb c) k)) y.
Lemma inst_no_char : forall c s y, inst s y -> no_char c y = true -> ~ In c s.
Proof.
  intros c s y H. induction H as [|x k s y Hx H IH]; intros Hn HI; [destruct HI|].
  cbn [no_char forallb] in Hn. apply andb_true_iff in Hn. destruct Hn as [Hn1 Hn2].
  destruct HI as [<-|HI]; [|exact (IH Hn2 HI)].
  apply negb_true_iff in Hn1.
  assert (E : existsb (N.eqb x) k = true) by (apply existsb_exists; exists x; split; auto; apply N.eqb_refl).
  congruence.
Qed.

(** Text without underscores. *)
Definition nou (s : str) : Prop := ~ In 95%N s.
Lemma group_code_id : forall s, nou s -> group_code (Some s) = Some s.
Proof.
  intros s H. unfold group_code. cbn [option_map]. change (py "_") with [95%N].
  change (py " ") with [32%N]. rewrite replace_char, subst_char_id; auto.
Qed.

Lemma nou_app : forall a b, nou a -> nou b -> nou (a ++ b).
Proof. intros a b Ha Hb H. apply in_app_or in H. destruct H; [exact (Ha H)|exact (Hb H)]. Qed.
Lemma nou_digits : forall k n, nou (digits k n).
Proof.
  intros k n H. assert (D := digits_are k n). rewrite Forall_forall in D. specialize (D _ H).
  unfold is_dig in D. lia.
Qed.
Lemma nou_b : forall s, existsb (N.eqb 95) s = false -> nou s.
Proof.
  intros s H HI. assert (existsb (N.eqb 95) s = true); [|congruence].
  apply existsb_exists. exists 95%N. split; auto.
Qed.
Lemma nou_flag : forall b s, nou (py s) -> nou (flag b s).
Proof. intros [|] s H; [exact H|intros []]. Qed.
Lemma nou_opt : forall A (f : A -> str) o, (forall x, o = Some x -> nou (f x)) -> nou (opt f o).
Proof. intros A f [x|] H; [apply H; reflexivity|intros []]. Qed.
Lemma nou_in : forall A (f : A -> str) l x,
  forallb (fun y => negb (existsb (N.eqb 95) (f y))) l = true -> In x l -> nou (f x).
Proof.
  intros A f l x H Hx. rewrite forallb_forall in H. apply nou_b. apply negb_true_iff. auto.
Qed.
Lemma nou_opt_in : forall A (f : A -> str) l o,
  forallb (fun y => negb (existsb (N.eqb 95) (f y))) l = true -> opt_all (fun x => In x l) o ->
  nou (opt f o).
Proof. intros A f l [x|] H Hx; [exact (nou_in A f l x H Hx)|intros []]. Qed.

#[global] Hint Resolve nou_app nou_digits nou_flag : nou.
#[global] Hint Extern 3 (nou (py _)) => apply nou_b; reflexivity : nou.
#[global] Hint Extern 3 (nou []) => (intros []) : nou.

(** ** Wind *)

Lemma dir_deg : forall t, (t <= 36)%N ->
  exists d, direction_new (Some (digits 2 t ++ py "0")) = Ok d /\ dir_variable d = false
    /\ is_num (dir_value d) (ofN (10 * t)).
Proof.
  assert (H : forallb (fun t => match direction_new (Some (digits 2 t ++ py "0")) with
                                | Ok d => negb (dir_variable d)
                                          && opt_num_b (dir_value d) (Some (ofN (10 * t)))
                                | Raise _ => false
                                end) (upto 37) = true) by (vm_compute; reflexivity).
  rewrite forallb_forall in H. intros t Ht. specialize (H t (in_upto 37 t ltac:(lia))).
  destruct (direction_new _) as [d|]; [|discriminate]. apply andb_true_iff in H.
  destruct H as [H1 H2]. exists d. split; [reflexivity|]. split; [apply negb_true_iff; exact H1|].
  exact (opt_num_b_sound _ _ H2).
Qed.

Lemma dir_value_ok : forall d, match d with DirDeg t => (t <= 36)%N | _ => True end ->
  exists x, direction_new (Some (wdir_code d)) = Ok x /\ dir_variable x = is_vrb d
    /\ opt_num (dir_value x) (degrees d).
Proof.
  intros [t| |] H; cbn [wdir_code is_vrb degrees opt_num].
  - apply dir_deg. exact H.
  - exists (mk_dir None true). repeat split.
  - exists (mk_dir None false). repeat split.
Qed.

Lemma speed_digits : forall w n, two_or_three w n ->
  speed_new (Some (digits (width w) n)) = Ok (Some (fN n)).
Proof.
  intros w n H. unfold speed_new. rewrite digits_neq by reflexivity. rewrite digits_len.
  unfold two_or_three in H. destruct w; cbn [width] in *.
  - cbn [Nat.eqb]. rewrite digits_len. cbn [Nat.leb]. unfold float_or_none.
    rewrite parse_digits by (exact H || lia). reflexivity.
  - cbn [Nat.eqb]. change (py "0" ++ digits 2 n) with (repeat 48%N 1 ++ digits 2 n).
    rewrite <- digits_pad by exact H. change (1 + 2) with 3. rewrite digits_len. cbn [Nat.leb].
    unfold float_or_none. rewrite parse_digits; [reflexivity|lia|].
    change (10 ^ N.of_nat 3)%N with 1000%N. change (10 ^ N.of_nat 2)%N with 100%N in H. lia.
Qed.

Lemma coded_small : forall w n, two_or_three w n -> (n < 1000)%N.
Proof.
  intros [|] n H; unfold two_or_three in H; cbn [width] in H.
  - change (10 ^ N.of_nat 3)%N with 1000%N in H. lia.
  - change (10 ^ N.of_nat 2)%N with 100%N in H. lia.
Qed.

(** Metres per second to knots. *)
Definition kn : Q := (/ (51444444 # 100000000))%Q.
Definition mps_value (n : N) : float := fmul (fN n) MPS_TO_KNOT.

Lemma ofN_le : forall n m, (n <= m)%N -> (ofN n <= ofN m)%Q.
Proof. intros n m H. unfold ofN. rewrite <- Zle_Qle. lia. Qed.
Lemma ofN_pos : forall n, (ofN n == 0)%Q \/ (1 <= ofN n)%Q.
Proof.
  intros [|p]; [left; reflexivity|right]. change 1%Q with (ofN 1). apply ofN_le. lia.
Qed.

Lemma mps_near : forall n, (n < 1000)%N -> near 64 5 (mps_value n) (ofN n * kn).
Proof.
  intros n H. apply (near_weak (52 + 10 + 2) (0 + 3 + 2)); try lia.
  apply near_mul; try lia; [apply fN_near; lia|]. apply near_b_sound. vm_compute. reflexivity.
Qed.

Lemma scaled_range : forall n f lo hi, (0 < f)%Q -> (lo <= f)%Q -> (ofN 1000000 * f <= hi)%Q ->
  (n < 1000000)%N -> ((ofN n * f == 0)%Q \/ (lo <= ofN n * f)%Q) /\ (ofN n * f <= hi)%Q.
Proof.
  intros n f lo hi Hf Hlo Hhi Hn. split.
  - destruct (ofN_pos n) as [E|L]; [left; rewrite E; ring|right].
    eapply Qle_trans; [exact Hlo|]. rewrite <- (Qmult_1_l f) at 1.
    apply Qmult_le_compat_r; [exact L|apply Qlt_le_weak; exact Hf].
  - eapply Qle_trans; [|exact Hhi]. apply Qmult_le_compat_r; [|apply Qlt_le_weak; exact Hf].
    apply ofN_le. lia.
Qed.

Lemma mps_plain : forall n, (n < 1000)%N -> plain (mps_value n) = true.
Proof.
  intros n H. destruct (scaled_range n kn (2 # 1000) (inject_Z (10 ^ 14))) as [A B];
    [reflexivity|vm_compute; discriminate|vm_compute; discriminate|lia|].
  apply (near_plain 64 5 _ (ofN n * kn)); [apply mps_near; exact H|lia|lia|exact A|exact B].
Qed.

Lemma speed_mps : forall w n, two_or_three w n ->
  speed_new (Some (mps2kt (Some (digits (width w) n)))) = Ok (Some (mps_value n)).
Proof.
  intros w n H. assert (Hn := coded_small w n H). unfold mps2kt.
  rewrite parse_digits; [|destruct w; cbn; lia|exact H].
  change (fmul (float_of_Z (Z.of_N n)) MPS_TO_KNOT) with (mps_value n).
  destruct (plain_repr _ (mps_plain n Hn)) as [P L].
  unfold speed_new. replace (str_eqb (repr (mps_value n)) (py "//")) with false.
  2:{ symmetry. apply str_eqb_neq. intro E. rewrite E in L. cbn in L. lia. }
  replace (Nat.eqb (length (repr (mps_value n))) 2) with false by (symmetry; apply Nat.eqb_neq; lia).
  replace (Nat.leb 3 (length (repr (mps_value n)))) with true by (symmetry; apply Nat.leb_le; lia).
  unfold float_or_none. rewrite P. reflexivity.
Qed.

(** Present and within a relative error of [eps]. *)
Lemma mps_value_ok : forall n, (n < 1000)%N ->
  is_close (1 # 10 ^ 15) (Some (mps_value n)) (ofN n / (51444444 # 100000000)).
Proof.
  intros n H. assert (M := mps_near n H).
  exists (mps_value n), (val (mps_value n)). split; [reflexivity|].
  split; [exact (near_value _ _ _ _ M)|].
  eapply Qle_trans; [apply (near_abs 64 5 _ (ofN n * kn) M); lia|].
  change (ofN n / (51444444 # 100000000))%Q with (ofN n * kn)%Q.
  apply Qmult_le_compat_r; [vm_compute; discriminate|]. exact (near_nonneg _ _ _ _ M).
Qed.

Lemma mps_back : forall n, (n < 1000)%N ->
  within (1 # 10 ^ 9) (in_mps (Some (mps_value n))) (ofN n).
Proof.
  intros n H. cbn [in_mps converted option_map].
  apply (near_within 80 9 _ _ _ (ofN 1000)); [|lia|apply ofN_le; lia|vm_compute; discriminate].
  apply (near_eq _ _ _ (ofN n * kn * (51444444 # 100000000))).
  { unfold kn. field. }
  apply (near_weak (64 + 10 + 2) (5 + 1 + 2)); try lia.
  apply near_mul; try lia; [apply mps_near; exact H|]. apply near_b_sound. vm_compute. reflexivity.
Qed.

Lemma wind_nou : forall g, nou (wind_code g).
Proof.
  intros [d s gu un]. unfold wind_code. cbn [wg_dir wg_speed wg_gust wg_units].
  repeat apply nou_app.
  - destruct d; cbn [wdir_code]; auto with nou.
  - destruct s as [p w n|[|]]; cbn [wspeed_code]; auto with nou.
  - apply nou_opt. intros [[p w] n] _. auto 6 with nou.
  - destruct un; auto with nou.
Qed.

Ltac names := simpl; tauto.

(** Rewrites the captures [H] of the listed names. *)
Ltac captured H l :=
  match l with
  | [] => idtac
  | ?n :: ?r => rewrite (H n) by names; captured H r
  end.

Lemma wind_kt : forall g, wind_wf g -> wg_units g = KT ->
  exists w, metar_wind_new (re_match r_WIND (wind_code g)) = Ok w
    /\ w_code w = Some (wind_code g)
    /\ opt_num (dir_value (w_dir w)) (degrees (wg_dir g))
    /\ dir_variable (w_dir w) = is_vrb (wg_dir g)
    /\ opt_num (w_speed w) (coded_speed (wg_speed g))
    /\ opt_num (w_gust w) (coded_gust (wg_gust g)).
Proof.
  intros g H Hu. destruct (wind_captures g H) as (m & Em & Es & Hc). rewrite Em.
  unfold metar_wind_new. captured Hc ["dir"; "speed"; "gust"; "units"].
  rewrite Es, group_code_id by apply wind_nou.
  destruct g as [d s gu un]. cbn [wg_dir wg_speed wg_gust wg_units] in *. subst un.
  destruct H as (Hd & Hs & Hg). cbn [wg_dir wg_speed wg_gust] in *.
  destruct (dir_value_ok d Hd) as (x & Ex & X1 & X2).
  assert (S : exists v, speed_new (Some (speed_text s)) = Ok v /\ opt_num v (coded_speed s)).
  { destruct s as [p w n|[|]]; cbn [speed_text coded_speed opt_num].
    - exists (Some (fN n)). split; [apply speed_digits; exact Hs|]. apply fN_num.
      apply coded_small in Hs. lia.
    - exists None. split; reflexivity.
    - exists None. split; reflexivity. }
  destruct S as (v & Ev & V).
  assert (G : exists v, speed_new (lookup "gust" (wind_text (mk_wind_g d s gu KT))) = Ok v
                        /\ opt_num v (coded_gust gu)).
  { unfold wind_text. cbn [wg_dir wg_speed wg_gust wg_units].
    destruct gu as [[[p w] n]|]; cbn [app lookup String.eqb Ascii.eqb Bool.eqb coded_gust opt_num opt_all] in *.
    - exists (Some (fN n)). split; [apply speed_digits; exact Hg|]. apply fN_num.
      apply coded_small in Hg. lia.
    - exists None. split; reflexivity. }
  destruct G as (w & Ew & W). exists (mk_wind (Some (wind_code (mk_wind_g d s gu KT))) x v w).
  split; [|cbn [w_code w_dir w_speed w_gust]; auto].
  assert (Eu : lookup "units" (wind_text (mk_wind_g d s gu KT)) = Some (py "KT")).
  { unfold wind_text. cbn [wg_dir wg_speed wg_gust wg_units]. destruct gu as [[[p q] n]|]; reflexivity. }
  rewrite Eu. change (opt_str_eqb (Some (py "KT")) (py "MPS")) with false. cbn iota.
  change (lookup "dir" (wind_text (mk_wind_g d s gu KT))) with (Some (wdir_code d)).
  change (lookup "speed" (wind_text (mk_wind_g d s gu KT))) with (Some (speed_text s)).
  rewrite Ex, Ev, Ew. reflexivity.
Qed.

Lemma wind_mps : forall g, wind_wf g -> wg_units g = MPS ->
  exists w, metar_wind_new (re_match r_WIND (wind_code g)) = Ok w
    /\ w_code w = Some (wind_code g)
    /\ opt_num (dir_value (w_dir w)) (degrees (wg_dir g))
    /\ dir_variable (w_dir w) = is_vrb (wg_dir g)
    /\ opt_close (1 # 10 ^ 15) (w_speed w) (knots (coded_speed (wg_speed g)))
    /\ opt_close (1 # 10 ^ 15) (w_gust w) (knots (coded_gust (wg_gust g)))
    /\ opt_within (1 # 10 ^ 9) (in_mps (w_speed w)) (coded_speed (wg_speed g))
    /\ opt_within (1 # 10 ^ 9) (in_mps (w_gust w)) (coded_gust (wg_gust g)).
Proof.
  intros g H Hu. destruct (wind_captures g H) as (m & Em & Es & Hc). rewrite Em.
  unfold metar_wind_new. captured Hc ["dir"; "speed"; "gust"; "units"].
  rewrite Es, group_code_id by apply wind_nou.
  destruct g as [d s gu un]. cbn [wg_dir wg_speed wg_gust wg_units] in *. subst un.
  destruct H as (Hd & Hs & Hg). cbn [wg_dir wg_speed wg_gust] in *.
  destruct (dir_value_ok d Hd) as (x & Ex & X1 & X2).
  assert (V : forall w n, two_or_three w n ->
    is_close (1 # 10 ^ 15) (Some (mps_value n)) (ofN n / (51444444 # 100000000))
    /\ within (1 # 10 ^ 9) (in_mps (Some (mps_value n))) (ofN n)).
  { intros w n Hn. apply coded_small in Hn. split; [apply mps_value_ok; exact Hn|apply mps_back; exact Hn]. }
  assert (S : exists v, speed_new (Some (mps2kt (Some (speed_text s)))) = Ok v
    /\ opt_close (1 # 10 ^ 15) v (knots (coded_speed s))
    /\ opt_within (1 # 10 ^ 9) (in_mps v) (coded_speed s)).
  { destruct s as [p w n|[|]]; cbn [speed_text coded_speed opt_close opt_within knots option_map].
    - exists (Some (mps_value n)). split; [apply speed_mps; exact Hs|]. exact (V w n Hs).
    - exists None. repeat split.
    - exists None. repeat split. }
  destruct S as (v & Ev & V1 & V2).
  assert (G : exists v, speed_new (Some (mps2kt (lookup "gust" (wind_text (mk_wind_g d s gu MPS))))) = Ok v
    /\ opt_close (1 # 10 ^ 15) v (knots (coded_gust gu))
    /\ opt_within (1 # 10 ^ 9) (in_mps v) (coded_gust gu)).
  { unfold wind_text. cbn [wg_dir wg_speed wg_gust wg_units].
    destruct gu as [[[p w] n]|]; cbn [app lookup String.eqb Ascii.eqb Bool.eqb coded_gust opt_num opt_all] in *.
    - exists (Some (mps_value n)). split; [apply speed_mps; exact Hg|]. exact (V w n Hg).
    - exists None. repeat split. }
  destruct G as (w & Ew & W1 & W2). exists (mk_wind (Some (wind_code (mk_wind_g d s gu MPS))) x v w).
  split; [|cbn [w_code w_dir w_speed w_gust]; auto 8].
  assert (Eu : lookup "units" (wind_text (mk_wind_g d s gu MPS)) = Some (py "MPS")).
  { unfold wind_text. cbn [wg_dir wg_speed wg_gust wg_units]. destruct gu as [[[p q] n]|]; reflexivity. }
  rewrite Eu. change (opt_str_eqb (Some (py "MPS")) (py "MPS")) with true. cbn iota.
  change (lookup "dir" (wind_text (mk_wind_g d s gu MPS))) with (Some (wdir_code d)).
  change (lookup "speed" (wind_text (mk_wind_g d s gu MPS))) with (Some (speed_text s)).
  rewrite Ex, Ev, Ew. reflexivity.
Qed.

(** ** Whole numbers as text *)

Lemma digit_val_dig : forall c, is_dig c -> digit_val c = Some (c - 48)%N.
Proof.
  intros c H. apply dig_cases in H. repeat (destruct H as [<-|H]; [reflexivity|]). destruct H.
Qed.
Lemma digits_val_dval : forall s acc, Forall is_dig s -> digits_val acc s = Some (dval acc s).
Proof.
  induction s as [|c s IH]; intros acc H; [reflexivity|]. inversion H; subst.
  cbn [digits_val dval fold_left]. rewrite digit_val_dig by assumption.
  rewrite IH by assumption. reflexivity.
Qed.
Lemma int_digits : forall k n, (1 <= k)%nat -> (n < 10 ^ N.of_nat k)%N ->
  int_of_str (digits k n) = Ok (Z.of_N n).
Proof.
  intros k n Hk Hn. unfold int_of_str. destruct (digits_cons k n Hk) as (c & s & E).
  assert (D := digits_val_dval (digits k n) 0 (digits_are k n)). rewrite dval_digits in D by exact Hn.
  rewrite E in *. rewrite D. reflexivity.
Qed.
Lemma digits_inj : forall k n m, (n < 10 ^ N.of_nat k)%N -> (m < 10 ^ N.of_nat k)%N ->
  digits k n = digits k m -> n = m.
Proof.
  intros k n m Hn Hm E. apply (f_equal (dval 0)) in E. rewrite !dval_digits in E by assumption. exact E.
Qed.

(** ** Visibility *)

Lemma distance_digits : forall n, (n < 10000)%N ->
  distance_new (Some (digits 4 n)) = Some (fN (if N.eqb n 9999 then 10000 else n)).
Proof.
  intros n H. unfold distance_new. destruct (N.eqb_spec n 9999) as [->|N].
  - vm_compute. reflexivity.
  - replace (str_eqb (digits 4 n) (py "9999")) with false.
    + unfold float_or_none. rewrite parse_digits; [reflexivity|lia|exact H].
    + symmetry. apply str_eqb_neq. intro E. apply N. apply (digits_inj 4); [exact H|reflexivity|].
      rewrite E. reflexivity.
Qed.
Lemma distance_digits_num : forall n, (n < 10000)%N ->
  is_num (distance_new (Some (digits 4 n))) (if N.eqb n 9999 then 10000 # 1 else ofN n).
Proof.
  intros n H. rewrite distance_digits by exact H. destruct (N.eqb n 9999).
  - apply (fN_num 10000). lia.
  - apply fN_num. lia.
Qed.

Lemma dir8_ok : forall x, In x points8 ->
  exists d, from_cardinal (py (fst x)) = Ok d /\ dir_variable d = false
    /\ is_num (dir_value d) (inject_Z (snd x)).
Proof.
  assert (H : forallb (fun x => match from_cardinal (py (fst x)) with
                                | Ok d => negb (dir_variable d)
                                          && opt_num_b (dir_value d) (Some (inject_Z (snd x)))
                                | Raise _ => false
                                end) points8 = true) by (vm_compute; reflexivity).
  rewrite forallb_forall in H. intros x Hx. specialize (H x Hx).
  destruct (from_cardinal _) as [d|]; [|discriminate]. apply andb_true_iff in H.
  destruct H as [H1 H2]. exists d. split; [reflexivity|]. split; [apply negb_true_iff; exact H1|].
  exact (opt_num_b_sound _ _ H2).
Qed.

(** The direction part of the two constructors. *)
Definition vis_direction (o : option str) : result direction :=
  d0 <- direction_new None ;;
  match o with Some (c :: k) => from_cardinal (c :: k) | _ => Ok d0 end.

Lemma vis_direction_ok : forall d, opt_all (fun x => In x points8) d ->
  exists x, vis_direction (lookup "dir" (dir8_text d)) = Ok x /\ dir_variable x = false
    /\ opt_num (dir_value x) (option_map (fun y => inject_Z (snd y)) d).
Proof.
  intros [x|] H; cbn [opt_all option_map opt_num] in *.
  - destruct (dir8_ok x H) as (d & E & D). exists d. split; [|exact D].
    unfold dir8_text, oseg. cbn [lookup String.eqb Ascii.eqb Bool.eqb].
    assert (C : forallb (fun x => truthy (Some (py (fst x)))) points8 = true) by reflexivity.
    rewrite forallb_forall in C. specialize (C x H). unfold vis_direction.
    destruct (py (fst x)) as [|c k]; [discriminate|]. rewrite <- E. reflexivity.
  - exists (mk_dir None false). repeat split.
Qed.

Definition sm_fraction (f : option (N * N)) : float :=
  match f with Some (a, b) => fdiv (fN a) (fN b) | None => float_of_Z 0 end.
Definition sm_total (i : option (bool * N)) (f : option (N * N)) : float :=
  match i with Some (_, n) => fadd (sm_fraction f) (fN n) | None => sm_fraction f end.
Definition sm_value i f : float := fmul (fmul (sm_total i f) SMI_TO_KM) KM_TO_M.

Definition sm_wf (i : option (bool * N)) (f : option (N * N)) : Prop :=
  opt_all (fun '(two, n) => (n < 10 ^ (if two : bool then 2 else 1))%N) i
  /\ opt_all (fun '(a, b) => (a < 10)%N /\ (1 <= b < 10)%N) f.

Lemma ofN_positive : forall n, (1 <= n)%N -> (0 < ofN n)%Q.
Proof. intros n H. apply Qlt_le_trans with 1%Q; [reflexivity|]. change 1%Q with (ofN 1). apply ofN_le. exact H. Qed.

Lemma two_small : forall two n, (n < 10 ^ (if two : bool then 2 else 1))%N -> (n < 100)%N.
Proof.
  intros [|] n H; [change (10 ^ 2)%N with 100%N in H|change (10 ^ 1)%N with 10%N in H]; lia.
Qed.

Lemma sm_near : forall i f, sm_wf i f -> near 132 9 (sm_value i f) (miles i f * (1852 # 1)).
Proof.
  intros i f [Hi Hf].
  assert (F : near 106 2 (sm_fraction f)
                (match f with Some (a, b) => ofN a / ofN b | None => 0 end)%Q).
  { destruct f as [[a b]|]; cbn [sm_fraction opt_all] in *; [|left; split; reflexivity].
    apply (near_weak (52 + 52 + 2) (0 + 0 + 2)); try lia.
    apply near_div; try lia; try (apply fN_near; lia). apply ofN_positive. lia. }
  assert (T : near 108 4 (sm_total i f) (miles i f)).
  { unfold miles, sm_total. destruct i as [[two n]|]; cbn [opt_all] in *.
    - apply two_small in Hi. eapply near_eq; [apply Qplus_comm|].
      apply (near_add 106 2); try lia; [exact F|].
      apply (near_weak 52 0); try lia. apply fN_near. lia.
    - eapply near_eq; [symmetry; apply Qplus_0_l|].
      apply (near_weak 106 2); try lia. exact F. }
  apply (near_eq _ _ _ (miles i f * (1852 # 1000) * (1000 # 1))); [ring|].
  apply (near_weak (108 + 10 + 2 + 10 + 2) (4 + 1 + 2 + 0 + 2)); try lia.
  apply near_mul; try lia.
  - apply near_mul; try lia; [exact T|]. apply near_b_sound. vm_compute. reflexivity.
  - apply near_b_sound. vm_compute. reflexivity.
Qed.

Lemma frac_range : forall a b, (a < 10)%N -> (1 <= b < 10)%N ->
  ((ofN a / ofN b == 0)%Q \/ ((1 # 9) <= ofN a / ofN b)%Q) /\ (ofN a / ofN b <= 9 # 1)%Q.
Proof.
  intros a b Ha Hb. assert (Pb := ofN_positive b (proj1 Hb)). split.
  - destruct (ofN_pos a) as [E|L]; [left; rewrite E; unfold Qdiv; ring|right].
    apply Qle_shift_div_l; [exact Pb|]. apply Qle_trans with ((1 # 9) * ofN 9)%Q.
    + apply Qmult_le_l; [reflexivity|apply ofN_le; lia].
    + eapply Qle_trans; [|exact L]. discriminate.
  - apply Qle_shift_div_r; [exact Pb|]. apply Qle_trans with (ofN 9); [apply ofN_le; lia|].
    rewrite <- (Qmult_1_r (ofN 9)). apply Qmult_le_l; [reflexivity|].
    change 1%Q with (ofN 1). apply ofN_le. lia.
Qed.

Lemma miles_range : forall i f, sm_wf i f ->
  ((miles i f == 0)%Q \/ ((1 # 9) <= miles i f)%Q) /\ (miles i f <= 108 # 1)%Q /\ (0 <= miles i f)%Q.
Proof.
  intros i f [Hi Hf].
  assert (F : exists q, (match f with Some (a, b) => ofN a / ofN b | None => 0 end)%Q = q
     /\ ((q == 0)%Q \/ ((1 # 9) <= q)%Q) /\ (q <= 9 # 1)%Q).
  { eexists. split; [reflexivity|]. destruct f as [[a b]|].
    - apply frac_range; apply Hf.
    - split; [left; reflexivity|discriminate]. }
  destruct F as (q & Eq & F1 & F2). unfold miles. rewrite Eq.
  assert (F0 : (0 <= q)%Q) by (destruct F1 as [F1|F1]; lra).
  destruct i as [[two n]|]; cbn [opt_all] in *.
  - apply two_small in Hi. assert (L : (ofN n <= 99 # 1)%Q) by (change (99 # 1)%Q with (ofN 99); apply ofN_le; lia).
    destruct (ofN_pos n) as [E|G].
    + split; [|split; lra]. destruct F1 as [F1|F1]; [left|right]; lra.
    + split; [right; lra|split; lra].
  - split; [|split; lra]. destruct F1 as [F1|F1]; [left|right]; lra.
Qed.

Lemma sm_distance : forall i f, sm_wf i f ->
  distance_new (Some (repr (sm_value i f))) = Some (sm_value i f)
  /\ within (1 # 10 ^ 6) (Some (sm_value i f)) (miles i f * (1852 # 1)).
Proof.
  intros i f H. assert (M := sm_near i f H). destruct (miles_range i f H) as (R1 & R2 & R3).
  assert (B : (miles i f * (1852 # 1) <= (108 # 1) * (1852 # 1))%Q)
    by (apply Qmult_le_compat_r; [exact R2|discriminate]).
  assert (P : plain (sm_value i f) = true).
  { apply (near_plain 132 9 _ _ M); [lia|lia| |].
    - destruct R1 as [R1|R1]; [left; rewrite R1; reflexivity|right; lra].
    - eapply Qle_trans; [exact B|discriminate]. }
  destruct (plain_repr _ P) as [P1 P2]. split.
  - unfold distance_new. rewrite plain_repr_9999 by exact P. exact P1.
  - apply (near_within 132 9 _ _ _ ((108 # 1) * (1852 # 1)) M); [lia|exact B|vm_compute; discriminate].
Qed.

Lemma one_or_two_len : forall two : bool, (1 <= (if two then 2 else 1) <= 300)%nat.
Proof. intros [|]; lia. Qed.
Lemma two_bound : forall (two : bool) n, (n < 10 ^ (if two then 2 else 1))%N ->
  (n < 10 ^ N.of_nat (if two then 2 else 1))%N.
Proof. intros [|] n H; exact H. Qed.

Definition int_text (i : option (bool * N)) : option str :=
  option_map (fun '(two, n) => one_or_two two n) i.
Definition frac_text (f : option (N * N)) : option str :=
  option_map (fun '(a, b) => digits 1 a ++ py "/" ++ digits 1 b) f.

Lemma sm_decodes : forall i f, sm_wf i f -> (i <> None \/ f <> None) ->
  from_sea_miles (int_text i) (frac_text f) = Ok (Some (sm_value i f)).
Proof.
  intros i f H Hn. destruct (sm_distance i f H) as [D _]. destruct H as [Hi Hf].
  assert (F : match frac_text f with
         | Some (c :: f) =>
             match split_on 47%N (c :: f) with
             | i0 :: i1 :: _ =>
                 a <- int_of_str i0 ;;
                 b <- int_of_str i1 ;;
                 int_div a b
             | i0 :: _ => a <- int_of_str i0 ;; Raise IndexError
             | [] => Raise IndexError
             end
         | _ => Ok (float_of_Z 0)
         end = Ok (sm_fraction f)).
  { destruct f as [[a b]|]; [|reflexivity]. cbn [frac_text option_map opt_all] in *.
    assert (Ea := int_digits 1 a). assert (Eb := int_digits 1 b).
    change (digits 1 a) with [dig (a mod 10)] in *. change (digits 1 b) with [dig (b mod 10)] in *.
    cbn [app].
    assert (S : split_on 47 (dig (a mod 10) :: py "/" ++ [dig (b mod 10)])
                = [[dig (a mod 10)]; [dig (b mod 10)]]).
    { assert (X := dig_in a). assert (Y := dig_in b).
      revert X Y. generalize (dig (a mod 10)) (dig (b mod 10)). intros x y X Y.
      simpl in X, Y. repeat (destruct X as [<-|X]; [|]); try destruct X;
      repeat (destruct Y as [<-|Y]; [reflexivity|]); destruct Y. }
    rewrite S. rewrite Ea, Eb by (lia || (change (10 ^ N.of_nat 1)%N with 10%N; lia)).
    cbn [bind]. unfold int_div. destruct (Z.eqb_spec (Z.of_N b) 0); [lia|]. reflexivity. }
  unfold from_sea_miles. rewrite F. cbn [bind].
  assert (T : match int_text i with
          | Some (c :: k) => x <- float_of_str (c :: k) ;; Ok (fadd (sm_fraction f) x)
          | _ => Ok (sm_fraction f)
          end = Ok (sm_total i f)).
  { destruct i as [[two n]|]; [|reflexivity]. cbn [int_text option_map opt_all] in *. unfold one_or_two.
    assert (L := one_or_two_len two). assert (P := parse_digits _ n L (two_bound two n Hi)).
    destruct (digits_cons (if two then 2 else 1) n (proj1 L)) as (c & s & E). rewrite E in *.
    unfold float_of_str. rewrite P. reflexivity. }
  rewrite T. cbn [bind]. change (fmul (fmul (sm_total i f) SMI_TO_KM) KM_TO_M) with (sm_value i f).
  rewrite D. reflexivity.
Qed.

Lemma km_ok : forall n, (n < 100)%N ->
  is_num (distance_new (Some (Z_pad 4 (Z.of_N n * 1000)))) (ofN n * (1000 # 1)).
Proof.
  assert (H : forallb (fun n => opt_num_b (distance_new (Some (Z_pad 4 (Z.of_N n * 1000))))
                                  (Some (ofN n * (1000 # 1))%Q)) (upto 100) = true)
    by (vm_compute; reflexivity).
  rewrite forallb_forall in H. intros n Hn. exact (opt_num_b_sound _ _ (H n (in_upto 100 n Hn))).
Qed.

Lemma subst_app : forall c d a b, subst_char c d (a ++ b) = subst_char c d a ++ subst_char c d b.
Proof. intros c d a b. apply map_app. Qed.

Lemma nou_limit : forall l, nou (limit_code l).
Proof. intros [[|]|]; cbn [limit_code]; auto with nou. Qed.
#[global] Hint Resolve nou_limit : nou.

Lemma vis_group_code : forall g, vis_wf g -> group_code (Some (vis_code g)) = Some (vis_spelled g).
Proof.
  intros g H. destruct g as [n d|d| |l i f|l two n].
  - apply group_code_id. cbn [vis_code]. apply nou_app; auto with nou.
    apply (nou_opt_in _ _ points8); [reflexivity|apply H].
  - apply group_code_id. cbn [vis_code]. apply nou_app; auto with nou.
    apply (nou_opt_in _ _ points8); [reflexivity|apply H].
  - reflexivity.
  - destruct i as [[two i]|]; destruct f as [[a b]|]; cbn [vis_spelled];
      [|apply group_code_id; cbn [vis_code opt app]; unfold one_or_two; auto 8 with nou..].
    unfold group_code. cbn [option_map]. change (py "_") with [95%N] at 1. change (py " ") with [32%N] at 1.
    rewrite replace_char. cbn [vis_code opt]. unfold one_or_two. rewrite !subst_app.
    assert (S : forall s, nou s -> subst_char 95 32 s = s) by (intros s; apply subst_char_id).
    rewrite (S (limit_code l)), !(fun k n => S (digits k n) (nou_digits k n)) by auto with nou.
    rewrite <- !app_assoc. reflexivity.
  - apply group_code_id. cbn [vis_code vis_spelled]. unfold one_or_two. auto 8 with nou.
Qed.


Ltac use_miles E :=
  match type of E with
  | ?l = _ => match goal with |- context [from_sea_miles ?x ?y] => change (from_sea_miles x y) with l end
  end; rewrite E; reflexivity.

Lemma near_sound : forall k j x q, near k j x q -> (k <= 900)%Z -> sound x.
Proof.
  intros k j x q H Hk. split.
  - destruct H as [[-> _]|[H _]]; [reflexivity|exact (nrm_fvalid k x H Hk)].
  - exists (val x). exact (near_value _ _ _ _ H).
Qed.

Lemma fN_sound : forall n, (n < 1000000)%N -> sound (fN n).
Proof. intros n H. apply (near_sound _ _ _ _ (fN_near n H)). lia. Qed.

Definition sound_b (x : float) : bool :=
  valid_binary 53 1024 x && match fvalue x with Some _ => true | None => false end.
Lemma sound_b_sound : forall x, sound_b x = true -> sound x.
Proof.
  intros x H. apply andb_true_iff in H. destruct H as [H1 H2]. split; [exact H1|].
  destruct (fvalue x) as [q|]; [exists q; reflexivity|discriminate].
Qed.
Definition opt_sound_b (o : option float) : bool :=
  match o with Some x => sound_b x | None => true end.
Lemma opt_sound_b_sound : forall o, opt_sound_b o = true -> opt_all sound o.
Proof. intros [x|] H; [apply sound_b_sound; exact H|exact I]. Qed.

Lemma km_sound : forall n, (n < 100)%N ->
  opt_all sound (distance_new (Some (Z_pad 4 (Z.of_N n * 1000)))).
Proof.
  intros n H. apply opt_sound_b_sound.
  apply (upto_forall 100 (fun n => opt_sound_b (distance_new (Some (Z_pad 4 (Z.of_N n * 1000))))));
    [vm_compute; reflexivity|exact H].
Qed.

Ltac conjs := repeat match goal with |- _ /\ _ => split end.

Lemma prevailing_full : forall g, vis_wf g ->
  exists v, prevailing_new (re_match r_VISIBILITY (vis_code g)) = Ok v
    /\ v_code v = Some (vis_spelled g)
    /\ vis_close g (v_vis v)
    /\ opt_num (dir_value (v_dir v)) (vis_degrees g)
    /\ dir_variable (v_dir v) = false
    /\ v_cavok v = is_cavok g
    /\ opt_all sound (v_vis v).
Proof.
  intros g H. destruct (vis_captures g H) as (m & Em & Es & Hc). rewrite Em.
  unfold prevailing_new. captured Hc ["vis"; "integer"; "fraction"; "units"; "dir"; "cavok"].
  rewrite Es, vis_group_code by exact H. clear Em Es Hc m.
  assert (D0 : direction_new None = Ok (mk_dir None false)) by reflexivity. rewrite D0.
  set (code := Some (vis_spelled g)).
  destruct g as [n d|d| |l i f|l two n]; cbn [vis_text].
  - destruct H as [Hn Hd]. destruct (vis_direction_ok d Hd) as (x & Ex & X1 & X2).
    unfold vis_direction in Ex. rewrite D0 in Ex. cbn [bind] in Ex |- *.
    exists (mk_vis code (distance_new (Some (digits 4 n))) x false).
    split; [|cbn [v_code v_vis v_dir v_cavok]; conjs; auto; try reflexivity].
    + cbn [lookup String.eqb Ascii.eqb Bool.eqb].
      rewrite digits_truthy by lia. cbn [orb].
      assert (Hn' : forall nm, nm <> "dir" -> lookup nm (dir8_text d) = None).
      { intros nm Hnm. destruct d; cbn [dir8_text oseg lookup]; auto.
        destruct (String.eqb_spec nm "dir"); congruence. }
      rewrite !Hn' by discriminate. cbn [truthy orb bind]. rewrite Ex. cbn [bind].
    rewrite ?Hn' by discriminate. reflexivity.
    + unfold vis_close, vis_meters, opt_num. apply distance_digits_num. exact Hn.
    + rewrite distance_digits by exact Hn. apply fN_sound. destruct (n =? 9999)%N; lia.
  - destruct (vis_direction_ok d H) as (x & Ex & X1 & X2).
    unfold vis_direction in Ex. rewrite D0 in Ex. cbn [bind] in Ex |- *.
    exists (mk_vis code None x false).
    split; [|cbn [v_code v_vis v_dir v_cavok]; conjs; auto; try reflexivity; exact I].
    cbn [lookup String.eqb Ascii.eqb Bool.eqb].
    assert (Hn' : forall nm, nm <> "dir" -> lookup nm (dir8_text d) = None).
    { intros nm Hnm. destruct d; cbn [dir8_text oseg lookup]; auto.
      destruct (String.eqb_spec nm "dir"); congruence. }
    rewrite !Hn' by discriminate. cbn [truthy orb bind]. rewrite Ex. cbn [bind].
    rewrite ?Hn' by discriminate. reflexivity.
  - eexists. split; [reflexivity|]. cbn [v_code v_vis v_dir v_cavok]. conjs; auto; try reflexivity.
    + apply (fN_num 10000). lia.
    + apply (fN_sound 10000). lia.
  - destruct H as (Hi & Hf & Hn). assert (Hw : sm_wf i f) by (split; assumption).
    assert (E := sm_decodes i f Hw Hn).
    exists (mk_vis code (Some (sm_value i f)) (mk_dir None false) false).
    split; [|cbn [v_code v_vis v_dir v_cavok]; conjs; auto; try reflexivity].
    + destruct i as [[two n]|]; destruct f as [[a b]|]; cbn [int_text frac_text option_map] in E;
        cbn [oseg app lookup String.eqb Ascii.eqb Bool.eqb truthy orb bind];
        try (destruct Hn as [Hn|Hn]; congruence).
      * destruct (digits_cons (if two then 2 else 1) n) as (c & s & Ec); [destruct two; lia|].
        unfold one_or_two in *. rewrite Ec in *. cbn [truthy orb]. 
        change (opt_str_eqb (Some (py "SM")) (py "SM")) with true. cbn iota. use_miles E.
      * destruct (digits_cons (if two then 2 else 1) n) as (c & s & Ec); [destruct two; lia|].
        unfold one_or_two in *. rewrite Ec in *. cbn [truthy orb].
        change (opt_str_eqb (Some (py "SM")) (py "SM")) with true. cbn iota. use_miles E.
      * destruct (digits_cons 1 a) as (c & s & Ec); [lia|].
        rewrite Ec in *. cbn [app truthy orb].
        change (opt_str_eqb (Some (py "SM")) (py "SM")) with true. cbn iota. cbn [app] in E. use_miles E.
    + apply (sm_distance i f Hw).
    + apply (near_sound _ _ _ _ (sm_near i f Hw)). lia.
  - cbn [vis_wf] in H. assert (E : int_of_str (one_or_two two n) = Ok (Z.of_N n)).
    { unfold one_or_two. apply int_digits; [destruct two; lia|]. apply two_bound. exact H. }
    destruct (digits_cons (if two then 2 else 1) n) as (c & s & Ec); [destruct two; lia|].
    exists (mk_vis code (distance_new (Some (Z_pad 4 (Z.of_N n * 1000)))) (mk_dir None false) false).
    split; [|cbn [v_code v_vis v_dir v_cavok]; conjs; auto; try reflexivity].
    + cbn [lookup String.eqb Ascii.eqb Bool.eqb truthy orb bind].
      unfold one_or_two in *. rewrite Ec in *. cbn [truthy orb].
      change (opt_str_eqb (Some (py "KM")) (py "SM")) with false.
      change (opt_str_eqb (Some (py "KM")) (py "KM")) with true. cbn [bind int_of_opt]. rewrite E. reflexivity.
    + unfold vis_close, vis_meters, opt_num. apply km_ok. exact (two_small two n H).
    + apply km_sound. exact (two_small two n H).
Qed.

Lemma prevailing_ok : forall g, vis_wf g ->
  exists v, prevailing_new (re_match r_VISIBILITY (vis_code g)) = Ok v
    /\ v_code v = Some (vis_spelled g)
    /\ vis_close g (v_vis v)
    /\ opt_num (dir_value (v_dir v)) (vis_degrees g)
    /\ dir_variable (v_dir v) = false
    /\ v_cavok v = is_cavok g.
Proof.
  intros g H. destruct (prevailing_full g H) as (v & A & B & C & D & E & F & _). exists v. tauto.
Qed.

Lemma minimum_ok : forall g, vis_wf g -> min_vis g ->
  exists v, minimum_visibility_new (re_match r_MINIMUM_VISIBILITY (vis_code g)) = Ok v
    /\ v_code v = Some (vis_code g)
    /\ opt_num (v_vis v) (vis_meters g)
    /\ opt_num (dir_value (v_dir v)) (vis_degrees g)
    /\ dir_variable (v_dir v) = false
    /\ v_cavok v = false.
Proof.
  intros g H Hm. destruct (minvis_captures g H Hm) as (m & Em & Es & Hc). rewrite Em.
  unfold minimum_visibility_new. captured Hc ["vis"; "dir"].
  rewrite Es, vis_group_code by exact H. clear Em Es Hc m.
  assert (D0 : direction_new None = Ok (mk_dir None false)) by reflexivity. rewrite D0.
  destruct g as [n d|d| |l i f|l two n]; try destruct Hm; cbn [vis_text vis_spelled].
  - destruct H as [Hn Hd]. destruct (vis_direction_ok d Hd) as (x & Ex & X1 & X2).
    unfold vis_direction in Ex. rewrite D0 in Ex. cbn [bind] in Ex |- *.
    exists (mk_vis (Some (vis_code (VisMeters n d))) (distance_new (Some (digits 4 n))) x false).
    split; [|cbn [v_code v_vis v_dir v_cavok]; repeat split; auto].
    + cbn [lookup String.eqb Ascii.eqb Bool.eqb].
      rewrite digits_truthy by lia. rewrite Ex. reflexivity.
    + unfold vis_meters, opt_num. apply distance_digits_num. exact Hn.
  - destruct (vis_direction_ok d H) as (x & Ex & X1 & X2).
    unfold vis_direction in Ex. rewrite D0 in Ex. cbn [bind] in Ex |- *.
    exists (mk_vis (Some (vis_code (VisMissing d))) None x false).
    split; [|cbn [v_code v_vis v_dir v_cavok]; repeat split; auto].
    cbn [lookup String.eqb Ascii.eqb Bool.eqb]. rewrite Ex. reflexivity.
Qed.
