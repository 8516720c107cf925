(** * Outcomes of the report time, for every text the pattern accepts *)
From Coq Require Import String Ascii.
From Coq Require Import List NArith ZArith Bool Lia.
From Verif Require Import PyBase PyRegex AeroRegex PyFloat PyTime Utils Base MetarGroups Trend Taf
  SpecNum SpecTime SpecTaf SpecFailures SymRegex SymFirst StrFacts RegexPaths Captures DigitFacts ReprFacts FloatFacts
  SpecGroups ProofGroups ProofValues ProofValues3 TimeFacts ProofTime Outcomes.
Import ListNotations.
Local Open Scope string_scope.
Local Open Scope nat_scope.
Local Open Scope list_scope.

(** ** Digit texts by position *)

Definition within (k : cls) (y : sym) : bool :=
  digit_cls k && forallb (fun c => implb (in_cls c k) (existsb (N.eqb c) y)) nd_all.
Fixpoint path_within (ks : list cls) (ys : list sym) : bool :=
  match ks, ys with
  | [], [] => true
  | k :: ks', y :: ys' => within k y && path_within ks' ys'
  | _, _ => false
  end.

Lemma path_within_inst : forall ks ys x, along x ks -> path_within ks ys = true -> inst x ys.
Proof.
  unfold inst. induction ks as [|k ks IH]; intros ys x A H; destruct ys as [|y ys]; cbn [path_within] in H; try discriminate.
  - inversion A; subst. constructor.
  - apply andb_true_iff in H. destruct H as [H1 H2]. unfold within in H1. apply andb_true_iff in H1. destruct H1 as [H0 H1].
    inversion A as [|c k0 s ks0 Hc Hs]; subst. constructor; [|exact (IH ys s Hs H2)].
    assert (K := nd_forall _ H1 c (in_digit_cls c k H0 Hc)). cbv beta in K. rewrite Hc in K. cbn [implb] in K.
    apply existsb_exists in K. destruct K as (d & Hd & E). apply N.eqb_eq in E. subst d. exact Hd.
Qed.

Fixpoint combos (ys : list sym) : list str :=
  match ys with [] => [[]] | y :: ys' => flat_map (fun c => map (cons c) (combos ys')) y end.
Lemma in_combos : forall ys x, inst x ys -> In x (combos ys).
Proof.
  induction ys as [|y ys IH]; intros x H; inversion H as [|c k s ks Hc Hs]; subst; cbn [combos]; [left; reflexivity|].
  apply in_flat_map. exists c. split; [exact Hc|]. apply (in_map (cons c)). exact (IH s Hs).
Qed.

Definition values_ok (f : N -> bool) (ys : list sym) : bool :=
  forallb (fun x => match digits_val 0 x with Some n => f n | None => false end) (combos ys).
Lemma values_inst : forall f ys x, inst x ys -> values_ok f ys = true -> exists n, digits_val 0 x = Some n /\ f n = true.
Proof.
  intros f ys x H V. unfold values_ok in V. rewrite forallb_forall in V. specialize (V x (in_combos ys x H)).
  destruct (digits_val 0 x) as [n|]; [exists n; auto|discriminate].
Qed.

Definition D1 : list sym := [[48]; [49; 50; 51; 52; 53; 54; 55; 56; 57]]%N.
Definition D2 : list sym := [[49; 50]; [48; 49; 50; 51; 52; 53; 54; 55; 56; 57]]%N.
Definition D3 : list sym := [[51]; [48; 49]]%N.
Definition H1 : list sym := [[48; 49]%N; nd_all].
Definition H2 : list sym := [[50]; [48; 49; 50; 51]]%N.
Definition H24 : list sym := [[50]; [48; 49; 50; 51; 52]]%N.
Definition M60 : list sym := [[48; 49; 50; 51; 52; 53]%N; nd_all].

Definition day_text (a : str) : Prop := inst a D1 \/ inst a D2 \/ inst a D3.
Definition hour_text (b : str) : Prop := inst b H1 \/ inst b H2.

Definition day_path (ks : list cls) : bool := path_within ks D1 || path_within ks D2 || path_within ks D3.
Definition hour_path (ks : list cls) : bool := path_within ks H1 || path_within ks H2.
Definition hour24_path (ks : list cls) : bool := path_within ks H1 || path_within ks H24.
Definition min_path (ks : list cls) : bool := path_within ks M60.

Lemma day_path_ok : forall a ks, along a ks -> day_path ks = true -> day_text a.
Proof.
  intros a ks A K. unfold day_path in K. rewrite !orb_true_iff in K. unfold day_text.
  destruct K as [[K|K]|K]; [left|right; left|right; right]; exact (path_within_inst _ _ _ A K).
Qed.
Lemma hour_path_ok : forall a ks, along a ks -> hour_path ks = true -> hour_text a.
Proof.
  intros a ks A K. unfold hour_path in K. rewrite !orb_true_iff in K. unfold hour_text.
  destruct K as [K|K]; [left|right]; exact (path_within_inst _ _ _ A K).
Qed.
Lemma hour24_path_ok : forall a ks, along a ks -> hour24_path ks = true -> hour_text a \/ a = py "24".
Proof.
  intros a ks A K. unfold hour24_path in K. rewrite !orb_true_iff in K. unfold hour_text.
  destruct K as [K|K]; apply (path_within_inst _ _ _ A) in K; [left; left; exact K|].
  unfold H24 in K. inversion K as [|c1 k1 s1 l1 I1 K1]; subst. inversion K1 as [|c2 k2 s2 l2 I2 K2]; subst.
  inversion K2; subst. destruct I1 as [<-|[]]. cbn [In] in I2.
  destruct I2 as [I2|[I2|[I2|[I2|[I2|[]]]]]].
  1-4: left; right; unfold H2; constructor; [left; reflexivity|constructor; [cbn [In]; auto|constructor]].
  right. subst c2. reflexivity.
Qed.
Lemma min_path_ok : forall a ks, along a ks -> min_path ks = true -> inst a M60.
Proof. intros a ks A K. exact (path_within_inst _ _ _ A K). Qed.

Lemma inst_length : forall x ys, inst x ys -> length x = length ys.
Proof. intros x ys H. unfold inst in H. induction H; cbn; congruence. Qed.

Lemma reads_of : forall x n k, digits_val 0 x = Some n -> length x = S k -> reads x n.
Proof. intros x n k E L. split; [|exact E]. intros ->. discriminate. Qed.

Lemma day_value : forall a, day_text a -> length a = 2 /\ exists d, reads a d /\ (1 <= d <= 31)%N.
Proof.
  intros a H. assert (L : length a = 2) by (destruct H as [H|[H|H]]; exact (inst_length _ _ H)). split; [exact L|].
  assert (K : exists n, digits_val 0 a = Some n /\ ((1 <=? n) && (n <=? 31))%N%bool = true)
    by (destruct H as [H|[H|H]]; refine (values_inst _ _ _ H _); vm_compute; reflexivity).
  destruct K as (n & E & K). apply andb_true_iff in K. rewrite !N.leb_le in K. exists n. split; [exact (reads_of a n 1 E L)|exact K].
Qed.
Lemma hour_value : forall a, hour_text a -> length a = 2 /\ exists h, reads a h /\ (h <= 23)%N.
Proof.
  intros a H. assert (L : length a = 2) by (destruct H as [H|H]; exact (inst_length _ _ H)). split; [exact L|].
  assert (K : exists n, digits_val 0 a = Some n /\ (n <=? 23)%N = true)
    by (destruct H as [H|H]; refine (values_inst _ _ _ H _); vm_compute; reflexivity).
  destruct K as (n & E & K). rewrite N.leb_le in K. exists n. split; [exact (reads_of a n 1 E L)|exact K].
Qed.
Lemma min_value : forall a, inst a M60 -> length a = 2 /\ exists h, reads a h /\ (h <= 59)%N.
Proof.
  intros a H. assert (L : length a = 2) by exact (inst_length _ _ H). split; [exact L|].
  assert (K : exists n, digits_val 0 a = Some n /\ (n <=? 59)%N = true)
    by (refine (values_inst _ _ _ H _); vm_compute; reflexivity).
  destruct K as (n & E & K). rewrite N.leb_le in K. exists n. split; [exact (reads_of a n 1 E L)|exact K].
Qed.

(** ** strptime *)

Definition any_text (y mo : N) (a b c : str) : text :=
  [("Y", digits 4 y); ("m", digits 2 mo); ("d", a); ("H", b); ("M", c)].

Lemma lookup_any : forall y mo a b c,
  lookup "Y" (any_text y mo a b c) = Some (digits 4 y) /\ lookup "m" (any_text y mo a b c) = Some (digits 2 mo)
  /\ lookup "d" (any_text y mo a b c) = Some a /\ lookup "H" (any_text y mo a b c) = Some b
  /\ lookup "M" (any_text y mo a b c) = Some c.
Proof. intros. conjs; reflexivity. Qed.

Definition months : list (list sym) := [from1 1 2 1; from1 1 2 10].
Lemma month_sym : forall mo, (1 <= mo <= 12)%N -> In (from1 1 2 mo) months.
Proof.
  intros mo H. unfold from1, months. change (10 * 1)%N with 10%N. destruct (mo <? 10)%N.
  - left. reflexivity.
  - right. left. reflexivity.
Qed.

Definition shapes_at (hs : list (list sym)) : list shape :=
  flat_map (fun mo => flat_map (fun d => map (fun h => [("Y", dsym 4); ("m", mo); ("d", d); ("H", h); ("M", M60)]) hs)
    [D1; D2; D3]) months.

Lemma in_shapes : forall hs mo d h, In mo months -> In d [D1; D2; D3] -> In h hs ->
  In [("Y", dsym 4); ("m", mo); ("d", d); ("H", h); ("M", M60)] (shapes_at hs).
Proof.
  intros hs mo d h A B C. unfold shapes_at. apply in_flat_map. exists mo. split; [exact A|].
  apply in_flat_map. exists d. split; [exact B|].
  apply (in_map (fun h => [("Y", dsym 4); ("m", mo); ("d", d); ("H", h); ("M", M60)]) hs h C).
Qed.

Lemma stamps_ok : forallb (captures1_ok false r_STRPTIME ["Y"; "m"; "d"; "H"; "M"] 12) (shapes_at [H1; H2]) = true.
Proof. vm_compute. reflexivity. Qed.
Lemma stamps_24 : forallb (captures1_ok false r_STRPTIME [] 11) (shapes_at [lit "24"]) = true.
Proof. vm_compute. reflexivity. Qed.

Lemma fits_any : forall y mo a b c d h, (1 <= mo <= 12)%N -> inst a d -> inst b h -> inst c M60 ->
  fits (any_text y mo a b c) [("Y", dsym 4); ("m", from1 1 2 mo); ("d", d); ("H", h); ("M", M60)].
Proof.
  intros y mo a b c d h Hm A B C. unfold any_text, fits.
  repeat (constructor; [split; [reflexivity|cbn [snd]; auto using inst_1_12 with inst]|]). constructor.
Qed.

Lemma day_in : forall a, day_text a -> exists d, In d [D1; D2; D3] /\ inst a d.
Proof. intros a [H|[H|H]]; eexists; (split; [|exact H]); cbn [In]; auto. Qed.
Lemma hour_in : forall a, hour_text a -> exists d, In d [H1; H2] /\ inst a d.
Proof. intros a [H|H]; eexists; (split; [|exact H]); cbn [In]; auto. Qed.

Lemma lstrip_reads : forall x n, reads x n -> lstrip x = x.
Proof.
  intros x n [N E]. destruct x as [|c x]; [contradiction|]. cbn [lstrip].
  cbn [digits_val] in E. destruct (digit_val c) as [d|] eqn:Ec; [|discriminate].
  rewrite digit_not_space; [reflexivity|]. unfold is_digit. rewrite Ec. reflexivity.
Qed.
Lemma int_lstrip_reads : forall x n, reads x n -> int_lstrip (Some x) = Ok (Z.of_N n).
Proof. intros x n H. unfold int_lstrip. rewrite (lstrip_reads x n H). exact (reads_int x n H). Qed.

Lemma tcode_any : forall y mo a b c, tcode (any_text y mo a b c) = digits 4 y ++ digits 2 mo ++ a ++ b ++ c.
Proof. intros. unfold tcode, any_text. cbn [map concat snd]. rewrite app_nil_r. reflexivity. Qed.

Lemma any_length : forall y mo a b c, length a = 2 -> length b = 2 -> length c = 2 ->
  length (tcode (any_text y mo a b c)) = 12.
Proof. intros y mo a b c A B C. rewrite tcode_any, !app_length, A, B, C, !digits_length. reflexivity. Qed.

Lemma strptime_any : forall y mo a b c d h mi, (y < 10000)%N -> (1 <= mo <= 12)%N ->
  day_text a -> hour_text b -> inst c M60 -> reads a d -> reads b h -> reads c mi ->
  strptime (digits 4 y ++ digits 2 mo ++ a ++ b ++ c)
  = if valid_date (Z.of_N y) (Z.of_N mo) (Z.of_N d)
    then Ok (mk_dt (Z.of_N y) (Z.of_N mo) (Z.of_N d) (Z.of_N h) (Z.of_N mi)) else Raise ValueError.
Proof.
  intros y mo a b c d h mi Hy Hm A B C Ra Rb Rc.
  destruct (day_in a A) as (da & Ia & A'). destruct (hour_in b B) as (hb & Ib & B').
  pose proof stamps_ok as K. rewrite forallb_forall in K.
  specialize (K _ (in_shapes [H1; H2] _ _ _ (month_sym mo Hm) Ia Ib)).
  destruct (captures1 _ _ _ _ _ (fits_any y mo a b c da hb Hm A' B' C) K) as (m & Em & _ & Ee & Hc).
  rewrite <- tcode_any. unfold strptime. rewrite Em, Ee.
  rewrite (any_length y mo a b c (proj1 (day_value a A)) (proj1 (hour_value b B)) (proj1 (min_value c C))).
  cbn [Nat.eqb]. destruct (lookup_any y mo a b c) as (L1 & L2 & L3 & L4 & L5).
  rewrite !Hc by (cbn [In]; auto 8). rewrite L1, L2, L3, L4, L5.
  rewrite (int_lstrip_digits 4) by (try lia; change (10 ^ N.of_nat 4)%N with 10000%N; lia).
  rewrite (int_lstrip_digits 2) by (try lia; change (10 ^ N.of_nat 2)%N with 100%N; lia).
  rewrite (int_lstrip_reads a d Ra), (int_lstrip_reads b h Rb), (int_lstrip_reads c mi Rc). reflexivity.
Qed.

Lemma strptime_any24 : forall y mo a c, (1 <= mo <= 12)%N -> day_text a -> inst c M60 ->
  strptime (digits 4 y ++ digits 2 mo ++ a ++ py "24" ++ c) = Raise ValueError.
Proof.
  intros y mo a c Hm A C. destruct (day_in a A) as (da & Ia & A').
  pose proof stamps_24 as K. rewrite forallb_forall in K.
  specialize (K _ (in_shapes [lit "24"] _ _ _ (month_sym mo Hm) Ia (or_introl eq_refl))).
  destruct (captures1 _ _ _ _ _ (fits_any y mo a (py "24") c da (lit "24") Hm A' (inst_lit "24") C) K) as (m & Em & _ & Ee & _).
  rewrite <- tcode_any. unfold strptime. rewrite Em, Ee.
  rewrite (any_length y mo a (py "24") c (proj1 (day_value a A)) eq_refl (proj1 (min_value c C))). reflexivity.
Qed.

(** ** The time group *)

Definition span_is (q : cpath) (n : string) (b e : nat) : bool :=
  match span_of n (snd q) with Some (b', e') => Nat.eqb b b' && Nat.eqb e e' | None => false end.

Lemma span_is_group : forall s m q x t n b e, follows s m q x t -> span_is q n b e = true ->
  group m n = Some (substr x b e).
Proof.
  intros s m q x t n b e (_ & _ & _ & G) H. rewrite G. unfold span_is in H.
  destruct (span_of n (snd q)) as [[b' e']|]; [|discriminate]. apply andb_true_iff in H. destruct H as [H1 H2].
  apply Nat.eqb_eq in H1, H2. subst b' e'. reflexivity.
Qed.

Lemma path_check : forall r s m (f : cpath -> bool), starfree r = true -> re_match r s = Some m ->
  forallb f (cpaths r) = true -> exists q x t, f q = true /\ follows s m q x t.
Proof.
  intros r s m f F M H. destruct (match_follows r s m F M) as (q & x & t & I & Fo).
  rewrite forallb_forall in H. exists q, x, t. split; [exact (H q I)|exact Fo].
Qed.

(** The piece [b, e) of a text along a path. *)
Definition piece (q : cpath) (b e : nat) : list cls := firstn (e - b) (skipn b (fst q)).
Lemma piece_along : forall s m q x t b e, follows s m q x t -> along (substr x b e) (piece q b e).
Proof.
  intros s m q x t b e (_ & _ & A & _). unfold substr, piece. apply along_firstn, along_skipn. exact A.
Qed.

Lemma follows_length : forall s m q x t, follows s m q x t -> length x = length (fst q).
Proof. intros s m q x t (_ & _ & A & _). exact (along_length x _ A). Qed.

Lemma follows_contains : forall s m q x t, follows s m q x t -> contains s x.
Proof. intros s m q x t (-> & _). exists [], t. reflexivity. Qed.

Definition time_path (q : cpath) : bool :=
  Nat.eqb (length (fst q)) 7 && span_is q "day" 0 2 && span_is q "hour" 2 4 && span_is q "min" 4 6
  && day_path (piece q 0 2) && hour24_path (piece q 2 4) && min_path (piece q 4 6) && spells (py "Z") (piece q 6 7).
Lemma time_paths : starfree r_TIME && forallb time_path (cpaths r_TIME) = true.
Proof. vm_compute. reflexivity. Qed.

Lemma cut7 : forall x : str, length x = 7 -> x = substr x 0 2 ++ substr x 2 4 ++ substr x 4 6 ++ substr x 6 7.
Proof.
  intros x L. do 7 (destruct x as [|? x]; [discriminate|]). destruct x; [reflexivity|discriminate].
Qed.

Lemma time_match : forall g m, re_match r_TIME g = Some m -> exists x a b c,
  contains g x /\ x = a ++ b ++ c ++ py "Z" /\ group m "day" = Some a /\ group m "hour" = Some b /\ group m "min" = Some c
  /\ day_text a /\ (hour_text b \/ b = py "24") /\ inst c M60 /\ m_string m = g.
Proof.
  intros g m M. pose proof time_paths as T. apply andb_true_iff in T. destruct T as [F T].
  destruct (path_check r_TIME g m time_path F M T) as (q & x & t & P & Fo). unfold time_path in P.
  rewrite !andb_true_iff in P. destruct P as (((((((L & S1) & S2) & S3) & P1) & P2) & P3) & P4).
  apply Nat.eqb_eq in L. rewrite <- (follows_length _ _ _ _ _ Fo) in L.
  exists x, (substr x 0 2), (substr x 2 4), (substr x 4 6). conjs.
  - exact (follows_contains _ _ _ _ _ Fo).
  - rewrite <- (spells_ok _ _ _ P4 (piece_along _ _ _ _ _ 6 7 Fo)). exact (cut7 x L).
  - exact (span_is_group _ _ _ _ _ _ _ _ Fo S1).
  - exact (span_is_group _ _ _ _ _ _ _ _ Fo S2).
  - exact (span_is_group _ _ _ _ _ _ _ _ Fo S3).
  - exact (day_path_ok _ _ (piece_along _ _ _ _ _ 0 2 Fo) P1).
  - exact (hour24_path_ok _ _ (piece_along _ _ _ _ _ 2 4 Fo) P2).
  - exact (min_path_ok _ _ (piece_along _ _ _ _ _ 4 6 Fo) P3).
  - destruct Fo as (_ & E & _). exact E.
Qed.

Definition month_wf (e : env) (year month : option Z) : Prop :=
  (1000 <= opt_default (now_year e) year <= 9999)%Z /\ (1 <= opt_default (now_month e) month <= 12)%Z.

(** What a time group gives, for every text accepted by the pattern. *)
Lemma time_any : forall e g m year month, re_match r_TIME g = Some m -> month_wf e year month ->
  let y := opt_default (now_year e) year in let mo := opt_default (now_month e) month in
  exists x d h mi, contains g x /\ stamp x d h mi /\
    time_from_metar e (Some m) year month
    = if valid_date y mo (Z.of_N d) && (h <? 24)%N
      then Ok (mk_time (group_code (Some g)) (mk_dt y mo (Z.of_N d) (Z.of_N h) (Z.of_N mi))) else Raise ValueError.
Proof.
  intros e g m year month M [Hy Hm] y mo. destruct (time_match g m M) as (x & a & b & c & C & X & Ga & Gb & Gc & A & B & M6 & Es).
  destruct (day_value a A) as [La (d & Ra & Bd)]. destruct (min_value c M6) as [Lc (mi & Rc & Bm)].
  unfold time_from_metar, time_new. rewrite Ga, Gb, Gc, Es. cbn [opt_default]. fold y mo. fold y in Hy. fold mo in Hm.
  remember (Z.to_N y) as y' eqn:Ey. remember (Z.to_N mo) as mo' eqn:Emo.
  assert (E1 : y = Z.of_N y') by lia. assert (E2 : mo = Z.of_N mo') by lia. clearbody y mo. subst y mo. clear Ey Emo.
  rewrite Z_str_year, Z_pad_month by lia. destruct B as [B| ->].
  - destruct (hour_value b B) as [Lb (h & Rb & Bh)]. exists x, d, h, mi. split; [exact C|]. split.
    + exists a, b, c. conjs; auto. all: lia.
    + rewrite (strptime_any y' mo' a b c d h mi) by (assumption || lia).
      replace (h <? 24)%N with true by (symmetry; apply N.ltb_lt; lia). rewrite andb_true_r.
      destruct (valid_date (Z.of_N y') (Z.of_N mo') (Z.of_N d)); reflexivity.
  - exists x, d, 24%N, mi. split; [exact C|]. split.
    + exists a, (py "24"), c. conjs; auto; try lia; try reflexivity. split; [discriminate|reflexivity].
    + rewrite (strptime_any24 y' mo' a c) by (assumption || lia). change (24 <? 24)%N with false. rewrite andb_false_r. reflexivity.
Qed.

(** ** Adding minutes, in general *)

Lemma ord_exists : forall k, (0 <= k < max_ordinal)%Z -> exists y m d, real_date y m d /\ ymd2ord y m d = (k + 1)%Z.
Proof.
  intros k Hk. destruct Hk as [Hk0 Hk1]. revert Hk1. pattern k. apply natlike_ind; [| |exact Hk0].
  - intros _. exists 1%Z, 1%Z, 1%Z. split; [apply valid_date_spec; reflexivity|reflexivity].
  - intros z Hz IH H. destruct IH as (y & m & d & R & E); [lia|].
    destruct (real_date_range y m d R) as (Hy & Hm & Hd).
    assert (T := tomorrow_ok y m d Hm Hd). destruct (tomorrow (y, m, d)) as [[y' m'] d'].
    destruct (day_after_ord _ _ _ _ _ _ T Hd) as (O & _ & Hm' & Hd').
    exists y', m', d'. split; [|lia]. apply real_date_intro; [|exact Hm'|exact Hd'].
    apply (ord_range_year y' m' d' Hm' Hd'). unfold max_ordinal in *. lia.
Qed.

Definition in_calendar (n : Z) : Prop := (1440 <= n < (max_ordinal + 1) * 1440)%Z.

Lemma dt_add_in : forall t z, in_calendar (dt_minutes t + z) ->
  exists u, dt_add_minutes t z = Ok u /\ real_time u /\ dt_minutes u = (dt_minutes t + z)%Z.
Proof.
  intros t z H. set (n := (dt_minutes t + z)%Z) in *. unfold in_calendar in H.
  destruct (ord_exists (n / 1440 - 1)) as (y & m & d & R & E).
  { unfold max_ordinal in *. lia. }
  assert (U : real_time (mk_dt y m d ((n mod 1440) / 60) ((n mod 1440) mod 60))).
  { split; [exact R|]. cbn [dt_hour dt_minute]. lia. }
  exists (mk_dt y m d ((n mod 1440) / 60) ((n mod 1440) mod 60)).
  assert (C : dt_minutes (mk_dt y m d ((n mod 1440) / 60) ((n mod 1440) mod 60)) = n).
  { unfold dt_minutes. cbn [dt_year dt_month dt_day dt_hour dt_minute]. rewrite E. lia. }
  split; [apply dt_add_minutes_ok; [exact U|exact C]|]. split; [exact U|exact C].
Qed.

Lemma dt_add_cases : forall t z,
  (exists u, dt_add_minutes t z = Ok u /\ real_time u /\ dt_minutes u = (dt_minutes t + z)%Z)
  \/ (dt_add_minutes t z = Raise OverflowError /\ ~ in_calendar (dt_minutes t + z)).
Proof.
  intros t z. assert (D : in_calendar (dt_minutes t + z) \/ ~ in_calendar (dt_minutes t + z)) by (unfold in_calendar; lia).
  destruct D as [D|D]; [left; exact (dt_add_in t z D)|right]. split; [|exact D]. apply dt_add_minutes_over. exact D.
Qed.

Lemma real_in : forall t, real_time t -> in_calendar (dt_minutes t).
Proof.
  intros t (R & Hh & Hm). assert (B := ymd2ord_range _ _ _ R). unfold in_calendar, dt_minutes, max_ordinal in *. lia.
Qed.

(** Two hours after a real time: the year may end. *)
Lemma two_hours : forall t, real_time t ->
  (exists u, dt_add_hours t 2 = Ok u /\ real_time u /\ dt_minutes u = (dt_minutes t + 120)%Z)
  \/ (dt_add_hours t 2 = Raise OverflowError
      /\ dt_year t = 9999%Z /\ dt_month t = 12%Z /\ dt_day t = 31%Z /\ (22 <= dt_hour t)%Z).
Proof.
  intros t R. unfold dt_add_hours. destruct (dt_add_cases t (2 * 60)) as [H|[E N]]; [left; exact H|right].
  split; [exact E|]. destruct R as (R & Hh & Hm). assert (B := ymd2ord_range _ _ _ R).
  unfold in_calendar, dt_minutes in N.
  assert (O : ymd2ord (dt_year t) (dt_month t) (dt_day t) = max_ordinal) by (unfold max_ordinal in *; lia).
  destruct (real_date_range _ _ _ R) as (Hy & Hmo & Hd).
  assert (I := ord2ymd_ymd2ord _ _ _ Hmo Hd). rewrite O in I. change (ord2ymd max_ordinal) with (9999, 12, 31)%Z in I. injection I as E1 E2 E3.
  conjs; auto. unfold max_ordinal in *. lia.
Qed.

Lemma same_hour : forall t mi, real_time t -> (0 <= mi < 60)%Z -> exists u, dt_add_minutes t (mi - dt_minute t) = Ok u.
Proof.
  intros t mi (R & Hh & Hm) H. exists (mk_dt (dt_year t) (dt_month t) (dt_day t) (dt_hour t) mi).
  apply dt_add_minutes_ok; [split; [exact R|split; cbn; lia]|]. unfold dt_minutes. cbn. lia.
Qed.

(** ** The trend indicator *)

Definition period_path (q : cpath) : bool :=
  Nat.eqb (length (fst q)) 6 && span_is q "hour" 2 4 && span_is q "min" 4 6
  && (spells (py "FM") (piece q 0 2) || spells (py "TL") (piece q 0 2) || spells (py "AT") (piece q 0 2))
  && hour24_path (piece q 2 4) && min_path (piece q 4 6).
Lemma period_paths : starfree r_TREND_TIME_PERIOD && forallb period_path (cpaths r_TREND_TIME_PERIOD) = true.
Proof. vm_compute. reflexivity. Qed.

Lemma cut6 : forall x : str, length x = 6 -> x = substr x 0 2 ++ substr x 2 4 ++ substr x 4 6.
Proof.
  intros x L. do 6 (destruct x as [|? x]; [discriminate|]). destruct x; [reflexivity|discriminate].
Qed.

Lemma period_match : forall g m, re_match r_TREND_TIME_PERIOD g = Some m -> exists x a b h mi,
  contains g x /\ period x /\ group m "hour" = Some a /\ group m "min" = Some b
  /\ reads a h /\ reads b mi /\ (h <= 24)%N /\ (mi <= 59)%N /\ m_string m = g.
Proof.
  intros g m M. pose proof period_paths as T. apply andb_true_iff in T. destruct T as [F T].
  destruct (path_check r_TREND_TIME_PERIOD g m period_path F M T) as (q & x & t & P & Fo). unfold period_path in P.
  rewrite !andb_true_iff in P. destruct P as (((((L & S1) & S2) & P1) & P2) & P3).
  apply Nat.eqb_eq in L. rewrite <- (follows_length _ _ _ _ _ Fo) in L.
  assert (B : length (substr x 2 4) = 2 /\ exists h, reads (substr x 2 4) h /\ (h <= 24)%N).
  { destruct (hour24_path_ok _ _ (piece_along _ _ _ _ _ 2 4 Fo) P2) as [B|B].
    - destruct (hour_value _ B) as [L2 (h & R & Bh)]. split; [exact L2|]. exists h. split; [exact R|lia].
    - rewrite B. split; [reflexivity|]. exists 24%N. split; [split; [discriminate|reflexivity]|lia]. }
  destruct B as [Lb (h & Rb & Bh)].
  destruct (min_value _ (min_path_ok _ _ (piece_along _ _ _ _ _ 4 6 Fo) P3)) as [Lc (mi & Rc & Bc)].
  exists x, (substr x 2 4), (substr x 4 6), h, mi. conjs; auto.
  - exact (follows_contains _ _ _ _ _ Fo).
  - exists (substr x 0 2), (substr x 2 4), (substr x 4 6), h, mi. conjs; auto; [exact (cut6 x L)|].
    rewrite !orb_true_iff in P1. assert (A := piece_along _ _ _ _ _ 0 2 Fo).
    destruct P1 as [[P1|P1]|P1]; rewrite (spells_ok _ _ _ P1 A); cbn [In]; auto.
  - exact (span_is_group _ _ _ _ _ _ _ _ Fo S1).
  - exact (span_is_group _ _ _ _ _ _ _ _ Fo S2).
  - destruct Fo as (_ & E & _). exact E.
Qed.

(** The indicator of a trend issued at [t]. *)
Definition ind_of (t : datetime) (i : trend_ind) : Prop :=
  t_dt (ti_init i) = t /\ real_time t /\ real_time (t_dt (ti_end i))
  /\ dt_minutes (t_dt (ti_end i)) = (dt_minutes t + 120)%Z.

Lemma period_time_fine : forall t i h mi, ind_of t i -> (0 <= mi < 60)%Z -> exists u, period_time i h mi = Ok u.
Proof.
  intros t i h mi (E & R & Re & M) Hm. unfold period_time. rewrite E.
  destruct (dt_add_in t 60) as (mid & Em & Rm & _).
  { assert (A := real_in t R). assert (B := real_in _ Re). unfold in_calendar in *. lia. }
  unfold dt_add_hours. change (1 * 60)%Z with 60%Z. rewrite Em. cbn [bind].
  destruct (h =? dt_hour t)%Z; [exact (same_hour t mi R Hm)|].
  destruct (h =? dt_hour mid)%Z; [exact (same_hour mid mi Rm Hm)|exact (same_hour _ mi Re Hm)].
Qed.

Lemma add_period_outcome : forall t g m i, ind_of t i -> re_match r_TREND_TIME_PERIOD g = Some m ->
  match add_period m i with
  | Ok j => ind_of t j
  | Raise e => e = TypeError /\ exists x, contains g x /\ period x
  end.
Proof.
  intros t g m i I M. destruct (period_match g m M) as (x & a & b & h & mi & C & P & Ga & Gb & Ra & Rb & Bh & Bm & Es).
  unfold add_period. destruct (ti_code i) as [c|]; [|split; [reflexivity|exists x; auto]].
  rewrite Ga, Gb. unfold int_of_opt. rewrite (reads_int a h Ra), (reads_int b mi Rb). cbn [bind].
  destruct (period_time_fine t i (Z.of_N h) (Z.of_N mi) I) as (u & ->); [lia|]. cbn [bind]. cbv zeta.
  destruct (opt_str_eqb (group m "prefix") (py "FM")); [exact I|].
  destruct (opt_str_eqb (group m "prefix") (py "TL")); exact I.
Qed.

Definition late (t : datetime) : Prop :=
  dt_year t = 9999%Z /\ dt_month t = 12%Z /\ dt_day t = 31%Z /\ (22 <= dt_hour t)%Z.

Lemma trend_ind_outcome : forall t m, real_time t ->
  (exists c, change_indicator_new m = Ok c) ->
  match trend_ind_new m t with
  | Ok i => ind_of t i
  | Raise e => e = OverflowError /\ late t
  end.
Proof.
  intros t m R (c & E). unfold trend_ind_new. rewrite E. cbn [bind]. cbv zeta.
  destruct (two_hours t R) as [(u & Eu & Ru & Mu)|(Eu & L)]; rewrite Eu; cbn [bind].
  - unfold ind_of. cbn [ti_init ti_end t_dt time_at]. auto.
  - split; [reflexivity|exact L].
Qed.

(** CHANGE_INDICATOR never meets a code it does not know how to read. *)
Definition ind_path (q : cpath) : bool :=
  spells (py "T") (piece q 0 1) || spells (py "B") (piece q 0 1) || spells (py "N") (piece q 0 1).
Lemma ind_paths : starfree r_CHANGE_INDICATOR && forallb ind_path (cpaths r_CHANGE_INDICATOR) = true.
Proof. vm_compute. reflexivity. Qed.

Lemma indicator_fine : forall g m, re_match r_CHANGE_INDICATOR g = Some m -> exists c, change_indicator_new (Some m) = Ok c.
Proof.
  intros g m M. pose proof ind_paths as T. apply andb_true_iff in T. destruct T as [F T].
  destruct (path_check _ g m ind_path F M T) as (q & x & t & P & Fo). unfold ind_path in P. rewrite !orb_true_iff in P.
  assert (A := piece_along _ _ _ _ _ 0 1 Fo). destruct Fo as (E & Es & _).
  assert (K : starts_with (py "PROB") g = false).
  { destruct x as [|c x].
    - destruct P as [[P|P]|P]; apply (spells_ok _ _ _ P) in A; discriminate.
    - change (substr (c :: x) 0 1) with [c] in A. subst g. cbn [app].
      destruct P as [[P|P]|P]; apply (spells_ok _ _ _ P) in A; injection A as ->; reflexivity. }
  unfold change_indicator_new. rewrite Es. cbv zeta.
  destruct (assoc g CHANGE_TRANSLATIONS); [eexists; reflexivity|]. rewrite K. eexists. reflexivity.
Qed.
