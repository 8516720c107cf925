(** * The moments of a report (C63) *)
From Coq Require Import String Ascii.
From Coq Require Import List NArith ZArith Bool Lia.
From Verif Require Import PyBase PyRegex AeroRegex PyFloat PyTime Utils Base MetarGroups Trend Metar Taf
  SpecTime SpecMetar SymRegex RegexPaths Captures DigitFacts TimeFacts ProofTime ProofGroups ProofProb Outcomes OutTime ProofValues ProofAbsent ProofAbsentTaf
  SpecFailures ProofRangeReport ProofStr SpecMoment.
Import ListNotations.
Local Open Scope string_scope.
Local Open Scope nat_scope.
Local Open Scope list_scope.

(** ** Counting minutes *)

Lemma add_real : forall t z u, dt_add_minutes t z = Ok u -> real_time u /\ dt_minutes u = (dt_minutes t + z)%Z.
Proof.
  intros t z u E. destruct (dt_add_cases t z) as [(v & Ev & R & M)|(Ev & _)]; [|congruence].
  assert (K : v = u) by congruence. subst v. split; assumption.
Qed.

Lemma after_count : forall t u, clock_ok t -> minute_after t u -> dt_minutes u = (dt_minutes t + 1)%Z /\ clock_ok u.
Proof.
  intros t u C H. pose proof (next_minute_ok t C) as [N1 N2]. pose proof (minute_after_fun _ _ _ H N1) as ->.
  split; [|exact N2]. clear H N2. destruct C as ((Hm & Hd) & Hh & Hmi). unfold date_of in *.
  destruct N1 as [y m d h mi L|y m d h L|y m d y' m' d' D]; unfold dt_minutes; cbn [dt_year dt_month dt_day dt_hour dt_minute] in *; try lia.
  destruct (day_after_ord _ _ _ _ _ _ D Hd) as (E & _). lia.
Qed.

Lemma later_count : forall k t u, clock_ok t -> minutes_later k t u -> dt_minutes u = (dt_minutes t + Z.of_nat k)%Z /\ clock_ok u.
Proof.
  induction k as [|k IH]; intros t u C H; inversion H as [|k' a b c Q S]; subst.
  - split; [lia|exact C].
  - destruct (after_count _ _ C Q) as [E C']. destruct (IH _ _ C' S) as [E' C'']. split; [lia|exact C''].
Qed.

Lemma clock_inj : forall t u, clock_ok t -> clock_ok u -> dt_minutes t = dt_minutes u -> t = u.
Proof.
  intros [y m d h mi] [y' m' d' h' mi'] ((Hm & Hd) & Hh & Hmi) ((Hm' & Hd') & Hh' & Hmi') E.
  unfold dt_minutes, date_of in *. cbn [dt_year dt_month dt_day dt_hour dt_minute] in *.
  assert (O : ymd2ord y m d = ymd2ord y' m' d') by lia.
  assert (A := ord2ymd_ymd2ord y m d Hm Hd). rewrite O, (ord2ymd_ymd2ord y' m' d' Hm' Hd') in A. injection A as -> -> ->.
  assert (h = h' /\ mi = mi') as [-> ->] by lia. reflexivity.
Qed.

Lemma later_of : forall k t u, clock_ok t -> clock_ok u -> dt_minutes u = (dt_minutes t + Z.of_nat k)%Z -> minutes_later k t u.
Proof.
  intros k t u Ct Cu E. pose proof (minutes_later_on k t Ct) as L. destruct (later_count _ _ _ Ct L) as [E' C'].
  rewrite (clock_inj u (minutes_on k t)); [exact L|exact Cu|exact C'|lia].
Qed.

Lemma minute_part : forall t, real_time t -> (dt_minutes t mod 60)%Z = dt_minute t.
Proof.
  intros t (_ & Hh & Hm). unfold dt_minutes. symmetry.
  apply (Z.mod_unique _ 60 (ymd2ord (dt_year t) (dt_month t) (dt_day t) * 24 + dt_hour t)); lia.
Qed.

Lemma hour_start_real : forall t, real_time t -> real_time (hour_start t).
Proof. intros t (R & Hh & Hm). split; [exact R|]. cbn. lia. Qed.
Lemma hour_start_minutes : forall t, dt_minutes (hour_start t) = (dt_minutes t - dt_minute t)%Z.
Proof. intro t. unfold dt_minutes, hour_start. cbn [dt_year dt_month dt_day dt_hour dt_minute]. lia. Qed.

(** ** Days *)

Lemma days_snoc : forall k a b c, days_later k a b -> day_after b c -> days_later (S k) a c.
Proof.
  induction k as [|k IH]; intros a b c H D; inversion H as [|k' a' b' c' Q T]; subst.
  - eapply Succ; [exact D|constructor].
  - eapply Succ; [exact Q|exact (IH _ _ _ T D)].
Qed.

Lemma days_from_refl : forall n t, days_from n t t.
Proof. intros n t. exists 0. split; [lia|]. constructor. Qed.
Lemma days_from_more : forall n n' t u, n <= n' -> days_from n t u -> days_from n' t u.
Proof. intros n n' t u L (k & Hk & D). exists k. split; [lia|exact D]. Qed.
Lemma days_from_date : forall n t t' u u', date_of t = date_of t' -> date_of u = date_of u' -> days_from n t u -> days_from n t' u'.
Proof. intros n t t' u u' E E' (k & Hk & D). exists k. rewrite <- E, <- E'. split; assumption. Qed.

Lemma add_day : forall t u, real_time t -> dt_add_days t 1 = Ok u ->
  real_time u /\ day_after (date_of t) (date_of u) /\ dt_hour u = dt_hour t /\ dt_minute u = dt_minute t.
Proof.
  intros [y m d h mi] u R E. pose proof R as (Rd & Hh & Hm). cbn [dt_year dt_month dt_day dt_hour dt_minute] in Rd, Hh, Hm.
  pose proof (add_real _ _ _ E) as [Ru _]. rewrite dt_add_day in E by (assumption || lia).
  destruct (_ <=? _)%Z; [|discriminate E].
  apply real_date_range in Rd. destruct Rd as (_ & Hmo & Hd). pose proof (tomorrow_ok y m d Hmo Hd) as T.
  destruct (tomorrow (y, m, d)) as [[y' m'] d']. unfold at_date in E. injection E as <-. split; [exact Ru|].
  split; [exact T|]. split; reflexivity.
Qed.

Lemma add_day_from : forall n s t u, real_time t -> days_from n s t -> dt_add_days t 1 = Ok u ->
  real_time u /\ days_from (S n) s u /\ dt_minute u = dt_minute t.
Proof.
  intros n s t u R (k & Hk & D) E. destruct (add_day t u R E) as (Ru & A & _ & M). split; [exact Ru|]. split; [|exact M].
  exists (Datatypes.S k). split; [lia|]. exact (days_snoc _ _ _ _ D A).
Qed.

Lemma replace_hour_real : forall t h u, real_time t -> dt_replace_hour t h = Ok u ->
  real_time u /\ date_of u = date_of t /\ dt_minute u = dt_minute t.
Proof.
  intros t h u (R & Hh & Hm) E. unfold dt_replace_hour in E. destruct (_ && _) eqn:B; [|discriminate E].
  apply andb_true_iff in B. destruct B as [B1 B2]. apply Z.leb_le in B1, B2. injection E as <-.
  split; [split; [exact R|]; cbn; lia|]. split; reflexivity.
Qed.
Lemma replace_minute_real : forall t h u, real_time t -> dt_replace_minute t h = Ok u ->
  real_time u /\ date_of u = date_of t /\ dt_minute u = h.
Proof.
  intros t h u (R & Hh & Hm) E. unfold dt_replace_minute in E. destruct (_ && _) eqn:B; [|discriminate E].
  apply andb_true_iff in B. destruct B as [B1 B2]. apply Z.leb_le in B1, B2. injection E as <-.
  split; [split; [exact R|]; cbn; lia|]. split; reflexivity.
Qed.

(** ** Reading a date and time *)

Definition item_eqb (a b : citem) : bool :=
  match a, b with
  | CRange i j, CRange k l => N.eqb i k && N.eqb j l
  | CDigit, CDigit => true
  | CSpace, CSpace => true
  | _, _ => false
  end.
Fixpoint list_eqb {A} (eqb : A -> A -> bool) (l k : list A) : bool :=
  match l, k with
  | [], [] => true
  | a :: l', b :: k' => eqb a b && list_eqb eqb l' k'
  | _, _ => false
  end.
Lemma list_eqb_eq : forall A (eqb : A -> A -> bool), (forall a b, eqb a b = true -> a = b) ->
  forall l k, list_eqb eqb l k = true -> l = k.
Proof.
  intros A eqb H. induction l as [|a l IH]; intros [|b k] E; cbn [list_eqb] in E; try discriminate E; [reflexivity|].
  apply andb_true_iff in E. destruct E as [E1 E2]. rewrite (H _ _ E1), (IH _ E2). reflexivity.
Qed.
Lemma item_eqb_eq : forall a b, item_eqb a b = true -> a = b.
Proof.
  intros [i j| |] [k l| |] E; cbn [item_eqb] in E; try discriminate E; try reflexivity.
  apply andb_true_iff in E. destruct E as [E1 E2]. apply N.eqb_eq in E1, E2. congruence.
Qed.
Definition path_eqb : list cls -> list cls -> bool := list_eqb (list_eqb item_eqb).
Lemma path_eqb_eq : forall p q, path_eqb p q = true -> p = q.
Proof. apply list_eqb_eq. apply list_eqb_eq. exact item_eqb_eq. Qed.

(** The ways to write the hour and the minute. *)
Definition hour_pieces : list (list cls) :=
  [[[CRange 50 50]; [CRange 48 51]]; [[CRange 48 49]; [CDigit]]; [[CDigit]]].
Definition minute_pieces : list (list cls) := [[[CRange 48 53]; [CDigit]]; [[CDigit]]].
Definition one_digit : list sym := [nd_all].

Lemma hour_pieces_ok : forallb (fun p => hour_path p || path_within p one_digit) hour_pieces = true.
Proof. vm_compute. reflexivity. Qed.
Lemma minute_pieces_ok : forallb (fun p => min_path p || path_within p one_digit) minute_pieces = true.
Proof. vm_compute. reflexivity. Qed.
Lemma one_digit_ok : values_ok (fun n => n <=? 9)%N one_digit = true.
Proof. vm_compute. reflexivity. Qed.

Definition strptime_path (q : cpath) : bool :=
  match span_of "H" (snd q), span_of "M" (snd q) with
  | Some (b, e), Some (b', e') => existsb (path_eqb (piece q b e)) hour_pieces && existsb (path_eqb (piece q b' e')) minute_pieces
  | _, _ => false
  end.
Lemma strptime_paths : starfree r_STRPTIME && forallb strptime_path (cpaths r_STRPTIME) = true.
Proof. vm_compute. reflexivity. Qed.

Lemma one_value : forall a, inst a one_digit -> exists n, reads a n /\ (n <= 9)%N.
Proof.
  intros a H. destruct (values_inst _ _ _ H one_digit_ok) as (n & E & L). exists n. apply N.leb_le in L. split; [|exact L].
  apply (reads_of a n 0 E). exact (inst_length _ _ H).
Qed.

Lemma in_pieces : forall p l, existsb (path_eqb p) l = true -> In p l.
Proof.
  intros p l H. apply existsb_exists in H. destruct H as (k & I & E). apply path_eqb_eq in E. subst k. exact I.
Qed.

Lemma strptime_hm : forall s m, re_match r_STRPTIME s = Some m -> exists a b h mi,
  group m "H" = Some a /\ group m "M" = Some b /\ reads a h /\ reads b mi /\ (h <= 23)%N /\ (mi <= 59)%N.
Proof.
  intros s m M. pose proof strptime_paths as T. apply andb_true_iff in T. destruct T as [F T].
  destruct (path_check _ s m strptime_path F M T) as (q & x & t & P & Fo). unfold strptime_path in P.
  destruct (span_of "H" (snd q)) as [[b e]|] eqn:EH; [|discriminate P].
  destruct (span_of "M" (snd q)) as [[b' e']|] eqn:EM; [|discriminate P].
  apply andb_true_iff in P. destruct P as [P1 P2]. apply in_pieces in P1, P2.
  pose proof (proj1 (forallb_forall _ _) hour_pieces_ok _ P1) as V1.
  pose proof (proj1 (forallb_forall _ _) minute_pieces_ok _ P2) as V2. cbv beta in V1, V2. apply orb_true_iff in V1, V2.
  pose proof (piece_along _ _ _ _ _ b e Fo) as A1. pose proof (piece_along _ _ _ _ _ b' e' Fo) as A2.
  assert (HH : exists h, reads (substr x b e) h /\ (h <= 23)%N).
  { destruct V1 as [V|V].
    - exact (proj2 (hour_value _ (hour_path_ok _ _ A1 V))).
    - destruct (one_value _ (path_within_inst _ _ _ A1 V)) as (n & R & L). exists n. split; [exact R|lia]. }
  assert (HM : exists h, reads (substr x b' e') h /\ (h <= 59)%N).
  { destruct V2 as [V|V].
    - exact (proj2 (min_value _ (min_path_ok _ _ A2 V))).
    - destruct (one_value _ (path_within_inst _ _ _ A2 V)) as (n & R & L). exists n. split; [exact R|lia]. }
  destruct HH as (h & Rh & Lh). destruct HM as (mi & Rm & Lm).
  exists (substr x b e), (substr x b' e'), h, mi. destruct Fo as (_ & _ & _ & G). rewrite !G, EH, EM. auto 8.
Qed.

Lemma strptime_real : forall s t, strptime s = Ok t -> real_time t.
Proof.
  intros s t E. unfold strptime in E. destruct (re_match r_STRPTIME s) as [m|] eqn:M; [|discriminate E].
  destruct (Nat.eqb _ _); [|discriminate E].
  destruct (strptime_hm s m M) as (a & b & h & mi & Ga & Gb & Ra & Rb & Lh & Lm). rewrite Ga, Gb in E.
  rewrite (int_lstrip_reads a h Ra), (int_lstrip_reads b mi Rb) in E.
  destruct (int_lstrip (group m "Y")) as [y|]; [|discriminate E]. cbn [bind] in E.
  destruct (int_lstrip (group m "m")) as [mo|]; [|discriminate E]. cbn [bind] in E.
  destruct (int_lstrip (group m "d")) as [d|]; [|discriminate E]. cbn [bind] in E.
  destruct (valid_date y mo d) eqn:V; [|discriminate E]. injection E as <-. apply valid_date_spec in V.
  split; [exact V|]. cbn [dt_hour dt_minute]. lia.
Qed.

Lemma time_real : forall e c mi h d mo y t, time_new e c mi h d mo y = Ok t -> real_time (t_dt t).
Proof.
  intros e c mi h d mo y t E. unfold time_new in E. cbv zeta in E. destruct (strptime _) as [u|] eqn:S; [|discriminate E].
  cbn [bind] in E. injection E as <-. exact (strptime_real _ _ S).
Qed.
Lemma from_metar_real : forall e m y mo t, time_from_metar e m y mo = Ok t -> real_time (t_dt t).
Proof. intros e [m|] y mo t E; exact (time_real _ _ _ _ _ _ _ _ E). Qed.
