(** * The documented groups and the patterns

    For every group of [SpecGroups], the set of characters that can stand at
    each position, and what the pattern of the group captures. *)
From Coq Require Import String Ascii.
From Coq Require Import List NArith ZArith Bool Lia QArith.
From Verif Require Import PyBase PyRegex AeroRegex PyFloat Base MetarGroups SpecNum SpecGroups
  SymRegex.
Import ListNotations.
Local Open Scope string_scope.
Local Open Scope nat_scope.
Local Open Scope list_scope.

(** ** Digits *)

Lemma dig_in : forall n, In (dig (n mod 10)) digits10.
Proof.
  intro n. assert (H : (n mod 10 < 10)%N) by (apply N.mod_lt; discriminate).
  revert H. generalize (n mod 10)%N. intros d H. unfold digits10. apply in_map.
  assert (E : d = 0%N \/ d = 1%N \/ d = 2%N \/ d = 3%N \/ d = 4%N \/ d = 5%N \/ d = 6%N
              \/ d = 7%N \/ d = 8%N \/ d = 9%N) by lia.
  simpl. intuition.
Qed.

Definition dsym (k : nat) : list sym := repeat digits10 k.

Lemma inst_digits : forall k n, inst (digits k n) (dsym k).
Proof.
  unfold dsym. induction k as [|k IH]; intro n; [constructor|].
  cbn [digits]. replace (S k) with (k + 1) by lia. rewrite repeat_app.
  apply Forall2_app; [apply IH|]. constructor; [apply dig_in|constructor].
Qed.

Lemma digits_length : forall k n, length (digits k n) = k.
Proof.
  induction k as [|k IH]; intro n; simpl; auto. rewrite app_length, IH. simpl. lia.
Qed.

(** Numbers below a bound, one by one. *)
Fixpoint upto_from (a : N) (k : nat) : list N :=
  match k with O => [] | S k' => a :: upto_from (N.succ a) k' end.
Definition upto (k : nat) : list N := upto_from 0 k.

Lemma in_upto_from : forall k a n, (a <= n < a + N.of_nat k)%N -> In n (upto_from a k).
Proof.
  induction k as [|k IH]; intros a n H; [lia|].
  cbn [upto_from]. destruct (N.eq_dec a n) as [E|E]; [left; exact E|right].
  apply IH. lia.
Qed.
Lemma in_upto : forall k n, (n < N.of_nat k)%N -> In n (upto k).
Proof. intros k n H. apply in_upto_from. lia. Qed.

Lemma upto_forall : forall k (P : N -> bool),
  forallb P (upto k) = true -> forall n, (n < N.of_nat k)%N -> P n = true.
Proof.
  intros k P H n Hn. rewrite forallb_forall in H. apply H. apply in_upto. exact Hn.
Qed.

(** Two digit numbers up to [10 * a + b], split at the last ten. *)
Definition upto2 (a b : N) (n : N) : list sym :=
  if (n <? 10 * a)%N then [map dig (upto (N.to_nat a)); digits10]
  else [[dig a]; map dig (upto (S (N.to_nat b)))].

Definition inst_b (s : str) (y : list sym) : bool :=
  Nat.eqb (length s) (length y) && forallb (fun '(c, k) => existsb (N.eqb c) k) (combine s y).

Lemma inst_b_sound : forall s y, inst_b s y = true -> inst s y.
Proof.
  unfold inst_b, inst. induction s as [|c s IH]; destruct y as [|k y]; simpl; intro H;
    try discriminate; constructor.
  - apply andb_true_iff in H. destruct H as [_ H]. apply andb_true_iff in H.
    destruct H as [H _]. apply existsb_exists in H. destruct H as (x & Hx & E).
    apply N.eqb_eq in E. subst. exact Hx.
  - apply IH. apply andb_true_iff in H. destruct H as [H1 H].
    apply andb_true_iff in H. destruct H as [_ H]. rewrite H1, H. reflexivity.
Qed.

Lemma inst_le36 : forall n, (n <= 36)%N -> inst (digits 2 n) (upto2 3 6 n).
Proof.
  intros n H. apply inst_b_sound.
  apply (upto_forall 37 (fun n => inst_b (digits 2 n) (upto2 3 6 n))); [vm_compute; reflexivity|lia].
Qed.

(** ** Segmented groups

    A group as the sequence of its segments; a named segment is the one the
    pattern should capture under that name. *)
Definition text := list (string * str).
Definition shape := list (string * list sym).

Definition tcode (t : text) : str := concat (map snd t).
Definition ssym (s : shape) : list sym := concat (map snd s).

Definition fits (t : text) (s : shape) : Prop :=
  Forall2 (fun a b => fst a = fst b /\ inst (snd a) (snd b)) t s.

Fixpoint lookup (n : string) (t : text) : option str :=
  match t with
  | [] => None
  | (n', x) :: t' => if String.eqb n n' then Some x else lookup n t'
  end.

Fixpoint seg_span (n : string) (pos : nat) (s : shape) : option (nat * nat) :=
  match s with
  | [] => None
  | (n', y) :: s' => if String.eqb n n' then Some (pos, pos + length y)
                     else seg_span n (pos + length y) s'
  end.

Definition span_eqb (a b : option (nat * nat)) : bool :=
  match a, b with
  | Some (x, y), Some (x', y') => Nat.eqb x x' && Nat.eqb y y'
  | None, None => true
  | _, _ => false
  end.

(** The pattern accepts the whole family and captures exactly the segments. *)
Definition captures_ok (r : regex) (names : list string) (s : shape) : bool :=
  match smatch r (ssym s) with
  | Some (Some (_, sp)) => forallb (fun n => span_eqb (span_of n sp) (seg_span n 0 s)) names
  | _ => false
  end.

Lemma span_eqb_eq : forall a b, span_eqb a b = true -> a = b.
Proof.
  intros [[x y]|] [[x' y']|]; simpl; intro H; try discriminate; auto.
  apply andb_true_iff in H. destruct H as [H1 H2].
  apply Nat.eqb_eq in H1. apply Nat.eqb_eq in H2. congruence.
Qed.

Lemma fits_inst : forall t s, fits t s -> inst (tcode t) (ssym s).
Proof.
  intros t s H. unfold tcode, ssym. induction H as [|a b t s [_ Hi] H IH]; simpl.
  - constructor.
  - apply inst_app; auto.
Qed.

Lemma inst_length : forall s y, inst s y -> length s = length y.
Proof. intros s y H. induction H; simpl; auto. Qed.

Lemma substr_app : forall a b, substr (a ++ b) 0 (length a) = a.
Proof.
  intros a b. unfold substr. rewrite Nat.sub_0_r. simpl. rewrite firstn_app, Nat.sub_diag.
  rewrite firstn_all. simpl. apply app_nil_r.
Qed.

Lemma substr_skip : forall a b x y, substr (a ++ b) (length a + x) (length a + y) = substr b x y.
Proof.
  intros a b x y. unfold substr. rewrite skipn_app.
  rewrite skipn_all2 by lia. simpl. f_equal; [lia|]. f_equal. lia.
Qed.

Lemma seg_span_shift : forall n s pos,
  seg_span n pos s = match seg_span n 0 s with
                     | Some (x, y) => Some (pos + x, pos + y)
                     | None => None
                     end.
Proof.
  intro n. induction s as [|[n' y] s IH]; intro pos; simpl; auto.
  destruct (String.eqb n n').
  - f_equal. f_equal. lia.
  - rewrite (IH (pos + length y)), (IH (length y)).
    destruct (seg_span n 0 s) as [[a b]|]; auto. f_equal. f_equal; lia.
Qed.

Lemma lookup_span : forall n t s, fits t s ->
  match seg_span n 0 s with
  | Some (b, e) => Some (substr (tcode t) b e)
  | None => None
  end = lookup n t.
Proof.
  intros n t s H. induction H as [|[n1 a] [n2 y] t s [Hn Hi] H IH]; simpl; auto.
  simpl in Hn, Hi. subst n2. destruct (String.eqb n n1).
  - simpl. rewrite <- (inst_length _ _ Hi). unfold tcode. simpl. f_equal. apply substr_app.
  - rewrite seg_span_shift. rewrite <- IH. rewrite <- (inst_length _ _ Hi).
    destruct (seg_span n 0 s) as [[b e]|]; auto. f_equal.
    unfold tcode. simpl. apply substr_skip.
Qed.

Lemma captures : forall r names t s,
  fits t s -> captures_ok r names s = true ->
  exists m, re_match r (tcode t) = Some m /\ m_string m = tcode t
    /\ forall n, In n names -> group m n = lookup n t.
Proof.
  intros r names t s Hf H. unfold captures_ok in H.
  destruct (smatch r (ssym s)) as [[[e sp]|]|] eqn:E; try discriminate.
  exists (mk_match (tcode t) 0 e sp). split; [|split; auto].
  - exact (smatch_sound _ _ _ _ (fits_inst t s Hf) E).
  - intros n HI. rewrite forallb_forall in H. apply H in HI. apply span_eqb_eq in HI.
    unfold group. simpl. rewrite HI. apply lookup_span. exact Hf.
Qed.

(** Optional segments. *)
Definition oseg {A} (n : string) (f : A -> str) (o : option A) : text :=
  match o with Some x => [(n, f x)] | None => [] end.
Definition oshape {A} (n : string) (f : A -> list sym) (o : option A) : shape :=
  match o with Some x => [(n, f x)] | None => [] end.

Lemma fits_nil : fits [] [].
Proof. constructor. Qed.
Lemma fits_cons : forall n a y t s, inst a y -> fits t s -> fits ((n, a) :: t) ((n, y) :: s).
Proof. intros. constructor; auto. Qed.
Lemma fits_app : forall t1 t2 s1 s2, fits t1 s1 -> fits t2 s2 -> fits (t1 ++ t2) (s1 ++ s2).
Proof. intros. apply Forall2_app; auto. Qed.
Lemma fits_oseg : forall A n (f : A -> str) g o,
  opt_all (fun x => inst (f x) (g x)) o -> fits (oseg n f o) (oshape n g o).
Proof. intros A n f g [x|] H; simpl in *; [apply fits_cons; [exact H|]|]; constructor. Qed.
Lemma fits_oseg_any : forall A n (f : A -> str) g o,
  (forall x, inst (f x) (g x)) -> fits (oseg n f o) (oshape n g o).
Proof. intros A n f g [x|] H; simpl in *; [apply fits_cons; [apply H|]|]; constructor. Qed.

Definition fsym (b : bool) (s : string) : list sym := if b then lit s else [].
Arguments fsym b s%string.
Lemma inst_flag : forall b s, inst (flag b s) (fsym b s).
Proof. intros [|] s; simpl; [apply inst_lit|constructor]. Qed.

(** A code of a table of one character codes. *)
Lemma inst_table : forall (l : table) (k : sym) x,
  forallb (fun x => inst_b (code_of x) [k]) l = true -> In x l -> inst (code_of x) [k].
Proof. intros l k x H HI. rewrite forallb_forall in H. apply inst_b_sound. auto. Qed.

#[global] Hint Resolve inst_app inst_lit inst_digits inst_flag inst_le36 fits_nil fits_cons
  fits_app fits_oseg_any : inst.

(** ** Wind *)

Definition wdir_sym (d : wdir) : list sym :=
  match d with
  | DirDeg t => upto2 3 6 t ++ lit "0"
  | DirVrb => lit "VRB"
  | DirNone => lit "///"
  end.
Definition speed_text (s : wspeed) : str :=
  match s with Spd _ w n => digits (width w) n | SpdNone w => wspeed_code s end.
Definition speed_sym (s : wspeed) : list sym :=
  match s with Spd _ w n => dsym (width w) | SpdNone w => if w then lit "///" else lit "//" end.
Definition above (s : wspeed) : bool := match s with Spd p _ _ => p | SpdNone _ => false end.
Definition units_text (u : wunits) : str := match u with KT => py "KT" | MPS => py "MPS" end.
Definition units_sym (u : wunits) : list sym := match u with KT => lit "KT" | MPS => lit "MPS" end.

Definition wind_text (g : wind_g) : text :=
  [("dir", wdir_code (wg_dir g)); ("", flag (above (wg_speed g)) "P");
   ("speed", speed_text (wg_speed g))]
  ++ match wg_gust g with
     | Some (p, w, n) => [("", py "G" ++ flag p "P"); ("gust", digits (width w) n)]
     | None => []
     end
  ++ [("units", units_text (wg_units g))].
Definition wind_shape (g : wind_g) : shape :=
  [("dir", wdir_sym (wg_dir g)); ("", fsym (above (wg_speed g)) "P");
   ("speed", speed_sym (wg_speed g))]
  ++ match wg_gust g with
     | Some (p, w, n) => [("", lit "G" ++ fsym p "P"); ("gust", dsym (width w))]
     | None => []
     end
  ++ [("units", units_sym (wg_units g))].

Lemma wind_text_code : forall g, tcode (wind_text g) = wind_code g.
Proof.
  intros [d s gu u]. destruct d; destruct s as [[|] [|] n|[|]];
    destruct gu as [[[[|] [|]] gn]|]; destruct u; reflexivity.
Qed.

Lemma wind_fits : forall g, wind_wf g -> fits (wind_text g) (wind_shape g).
Proof.
  intros [d s gu u] (Hd & Hs & Hg). unfold wind_text, wind_shape.
  cbn [wg_dir wg_speed wg_gust wg_units] in *.
  apply fits_app; [apply fits_cons; [|apply fits_cons; [auto with inst|apply fits_cons]]
                  |apply fits_app].
  - destruct d; cbn [wdir_code wdir_sym]; auto with inst.
  - destruct s as [p w n|[|]]; cbn [speed_text speed_sym wspeed_code]; auto with inst.
  - auto with inst.
  - destruct gu as [[[p w] n]|]; auto with inst.
  - destruct u; cbn [units_text units_sym]; auto with inst.
Qed.

Definition wind_names := ["dir"; "speed"; "gust"; "units"].

Lemma wind_shape_ok : forall g, captures_ok r_WIND wind_names (wind_shape g) = true.
Proof.
  intros [d s gu u]. destruct d as [t| |]; destruct s as [[|] [|] n|[|]];
    destruct gu as [[[[|] [|]] gn]|]; destruct u;
    unfold wind_shape, wdir_sym, upto2; cbn [wg_dir wg_speed wg_gust wg_units];
    try (destruct (t <? 10 * 3)%N); vm_compute; reflexivity.
Qed.

Lemma wind_captures : forall g, wind_wf g ->
  exists m, re_match r_WIND (wind_code g) = Some m /\ m_string m = wind_code g
    /\ forall n, In n wind_names -> group m n = lookup n (wind_text g).
Proof.
  intros g H. rewrite <- wind_text_code.
  exact (captures _ _ _ _ (wind_fits g H) (wind_shape_ok g)).
Qed.

(** ** Ranges of two digit numbers *)

(** From 01 to [10 * a + b]. *)
Definition from1 (a b : N) (n : N) : list sym :=
  if (n <? 10)%N then [[dig 0]; map dig (tl (upto 10))]
  else if (n <? 10 * a)%N then [map dig (tl (upto (N.to_nat a))); digits10]
  else [[dig a]; map dig (upto (S (N.to_nat b)))].

Lemma inst_1_36 : forall n, (1 <= n <= 36)%N -> inst (digits 2 n) (from1 3 6 n).
Proof.
  intros n H. apply inst_b_sound.
  assert (E : ((n =? 0) || inst_b (digits 2 n) (from1 3 6 n))%N%bool = true).
  { apply (upto_forall 37 (fun n => (n =? 0) || inst_b (digits 2 n) (from1 3 6 n))%N%bool);
      [vm_compute; reflexivity|lia]. }
  apply orb_true_iff in E. destruct E as [E|E]; auto. apply N.eqb_eq in E. lia.
Qed.

Lemma inst_1_31 : forall n, (1 <= n <= 31)%N -> inst (digits 2 n) (from1 3 1 n).
Proof.
  intros n H. apply inst_b_sound.
  assert (E : ((n =? 0) || inst_b (digits 2 n) (from1 3 1 n))%N%bool = true).
  { apply (upto_forall 32 (fun n => (n =? 0) || inst_b (digits 2 n) (from1 3 1 n))%N%bool);
      [vm_compute; reflexivity|lia]. }
  apply orb_true_iff in E. destruct E as [E|E]; auto. apply N.eqb_eq in E. lia.
Qed.

Lemma inst_24 : forall n, (n <= 24)%N -> inst (digits 2 n) (upto2 2 4 n).
Proof.
  intros n H. apply inst_b_sound.
  apply (upto_forall 25 (fun n => inst_b (digits 2 n) (upto2 2 4 n))); [vm_compute; reflexivity|lia].
Qed.

Lemma inst_23 : forall n, (n <= 23)%N -> inst (digits 2 n) (upto2 2 3 n).
Proof.
  intros n H. apply inst_b_sound.
  apply (upto_forall 24 (fun n => inst_b (digits 2 n) (upto2 2 3 n))); [vm_compute; reflexivity|lia].
Qed.

Definition sym60 : list sym := [map dig (upto 6); digits10].
Lemma inst_59 : forall n, (n <= 59)%N -> inst (digits 2 n) sym60.
Proof.
  intros n H. apply inst_b_sound.
  apply (upto_forall 60 (fun n => inst_b (digits 2 n) sym60)); [vm_compute; reflexivity|lia].
Qed.

#[global] Hint Resolve inst_1_36 inst_1_31 inst_24 inst_23 inst_59 : inst.

(** ** Wind variation *)

Definition wvar_text (g : wvar_g) : text :=
  [("from", digits 2 (vg_from g) ++ py "0"); ("", py "V"); ("to", digits 2 (vg_to g) ++ py "0")].
Definition wvar_shape (g : wvar_g) : shape :=
  [("from", from1 3 6 (vg_from g) ++ lit "0"); ("", lit "V");
   ("to", from1 3 6 (vg_to g) ++ lit "0")].

Lemma wvar_text_code : forall g, tcode (wvar_text g) = wvar_code g.
Proof. intros [a b]. reflexivity. Qed.

Lemma wvar_fits : forall g, wvar_wf g -> fits (wvar_text g) (wvar_shape g).
Proof. intros [a b] [H1 H2]. unfold wvar_text, wvar_shape. simpl vg_from in *. simpl vg_to in *.
  auto 8 with inst. Qed.

Lemma wvar_shape_ok : forall g, captures_ok r_WIND_VARIATION ["from"; "to"] (wvar_shape g) = true.
Proof.
  intros [a b]. unfold wvar_shape, from1. cbn [vg_from vg_to].
  destruct (a <? 10)%N; destruct (a <? 10 * 3)%N; destruct (b <? 10)%N; destruct (b <? 10 * 3)%N;
    vm_compute; reflexivity.
Qed.

Lemma wvar_captures : forall g, wvar_wf g ->
  exists m, re_match r_WIND_VARIATION (wvar_code g) = Some m /\ m_string m = wvar_code g
    /\ forall n, In n ["from"; "to"] -> group m n = lookup n (wvar_text g).
Proof.
  intros g H. rewrite <- wvar_text_code.
  exact (captures _ _ _ _ (wvar_fits g H) (wvar_shape_ok g)).
Qed.

(** ** Visibility *)

Definition dir8_text (d : option (string * Z)) : text := oseg "dir" (fun x => py (fst x)) d.
Definition dir8_shape (d : option (string * Z)) : shape := oshape "dir" (fun x => lit (fst x)) d.
Definition limit_sym (l : option bool) : list sym :=
  match l with Some true => lit "M" | Some false => lit "P" | None => [] end.

Definition vis_text (g : vis_g) : text :=
  match g with
  | VisMeters n d => ("vis", digits 4 n) :: dir8_text d
  | VisMissing d => ("vis", py "////") :: dir8_text d
  | VisCavok => [("cavok", py "CAVOK")]
  | VisMiles l i f =>
      ("", limit_code l) :: oseg "integer" (fun '(two, n) => one_or_two two n) i
      ++ (match i, f with Some _, Some _ => [("", py "_")] | _, _ => [] end)
      ++ oseg "fraction" (fun '(a, b) => digits 1 a ++ py "/" ++ digits 1 b) f
      ++ [("units", py "SM")]
  | VisKm l two n => [("", limit_code l); ("integer", one_or_two two n); ("units", py "KM")]
  end.
Definition vis_shape (g : vis_g) : shape :=
  match g with
  | VisMeters n d => ("vis", dsym 4) :: dir8_shape d
  | VisMissing d => ("vis", lit "////") :: dir8_shape d
  | VisCavok => [("cavok", lit "CAVOK")]
  | VisMiles l i f =>
      ("", limit_sym l)
      :: oshape "integer" (fun '(two, n) => dsym (if two : bool then 2 else 1)) i
      ++ (match i, f with Some _, Some _ => [("", lit "_")] | _, _ => [] end)
      ++ oshape "fraction" (fun '(a, b) => dsym 1 ++ lit "/" ++ dsym 1) f
      ++ [("units", lit "SM")]
  | VisKm l two n => [("", limit_sym l); ("integer", dsym (if two : bool then 2 else 1));
                      ("units", lit "KM")]
  end.

Lemma vis_text_code : forall g, tcode (vis_text g) = vis_code g.
Proof.
  intros [n [d|]|[d|]| |[[|]|] [[[|] i]|] [[a b]|]|[[|]|] [|] n]; unfold tcode; simpl;
    rewrite ?app_nil_r; reflexivity.
Qed.

Lemma inst_limit : forall l, inst (limit_code l) (limit_sym l).
Proof. intros [[|]|]; cbn [limit_code limit_sym]; auto with inst. constructor. Qed.
#[global] Hint Resolve inst_limit : inst.

Lemma vis_fits : forall g, fits (vis_text g) (vis_shape g).
Proof.
  intros [n d|d| |l i f|l two n]; cbn [vis_text vis_shape]; unfold dir8_text, dir8_shape, one_or_two;
    auto 8 with inst.
  apply fits_cons; auto with inst. apply fits_app; [|apply fits_app; [|apply fits_app]].
  - apply fits_oseg_any. intros [two n]. auto with inst.
  - destruct i, f; auto with inst.
  - apply fits_oseg_any. intros [a b]. auto 8 with inst.
  - auto with inst.
Qed.

Definition vis_names := ["vis"; "integer"; "fraction"; "units"; "dir"; "cavok"].

Lemma vis_shape_ok : forall g, vis_wf g -> captures_ok r_VISIBILITY vis_names (vis_shape g) = true.
Proof.
  intros [n [d|]|[d|]| |[[|]|] [[[|] i]|] [[a b]|]|[[|]|] [|] n] H;
    try (vm_compute; reflexivity).
  - destruct H as [_ H]. simpl in H.
    repeat (destruct H as [<-|H]; [vm_compute; reflexivity|]). destruct H.
  - simpl in H.
    repeat (destruct H as [<-|H]; [vm_compute; reflexivity|]). destruct H.
Qed.

Lemma vis_captures : forall g, vis_wf g ->
  exists m, re_match r_VISIBILITY (vis_code g) = Some m /\ m_string m = vis_code g
    /\ forall n, In n vis_names -> group m n = lookup n (vis_text g).
Proof.
  intros g H. rewrite <- vis_text_code.
  exact (captures _ _ _ _ (vis_fits g) (vis_shape_ok g H)).
Qed.

(** Minimum visibility: metres or slashes only. *)
Lemma minvis_captures : forall g, vis_wf g -> min_vis g ->
  exists m, re_match r_MINIMUM_VISIBILITY (vis_code g) = Some m /\ m_string m = vis_code g
    /\ forall n, In n ["vis"; "dir"] -> group m n = lookup n (vis_text g).
Proof.
  intros g H Hm. rewrite <- vis_text_code.
  refine (captures _ _ _ _ (vis_fits g) _).
  destruct g as [n [d|]|[d|]| |l i f|l two n]; try destruct Hm.
  - destruct H as [_ H]. simpl in H.
    repeat (destruct H as [<-|H]; [vm_compute; reflexivity|]). destruct H.
  - vm_compute; reflexivity.
  - simpl in H.
    repeat (destruct H as [<-|H]; [vm_compute; reflexivity|]). destruct H.
  - vm_compute; reflexivity.
Qed.

(** ** Runway designators and runway visual range *)

Definition runway_sym (r : runway_g) : list sym :=
  dsym 2 ++ match rn_side r with Some _ => [py "RLC"] | None => [] end.

Lemma inst_runway : forall r, runway_wf r -> inst (runway_code r) (runway_sym r).
Proof.
  intros [n [s|]] [H1 H2]; unfold runway_code, runway_sym; simpl rn_side in *; simpl rn_number in *.
  - apply inst_app; auto with inst. apply (inst_table sides); auto.
  - apply inst_app; auto with inst. constructor.
Qed.
#[global] Hint Resolve inst_runway : inst.

Definition lim_seg (n : string) (l : option (string * string)) : text := oseg n code_of l.
Definition lim_shape (n : string) (l : option (string * string)) : shape :=
  oshape n (fun _ => [py "MP"]) l.

Definition rvr_text (g : rvr_g) : text :=
  [("", py "R"); ("name", runway_code (rg_runway g)); ("", py "/")]
  ++ lim_seg "rvrlow" (rg_lim_low g) ++ [("low", rvr_digits_code (rg_low g))]
  ++ match rg_high g with
     | Some (l, x) => [("", py "V")] ++ lim_seg "rvrhigh" l ++ [("high", rvr_digits_code x)]
     | None => []
     end
  ++ (if rg_feet g then [("units", py "FT")] else [])
  ++ oseg "trend" code_of (rg_trend g).
Definition rvr_shape (g : rvr_g) : shape :=
  [("", lit "R"); ("name", runway_sym (rg_runway g)); ("", lit "/")]
  ++ lim_shape "rvrlow" (rg_lim_low g) ++ [("low", dsym (fst (rg_low g)))]
  ++ match rg_high g with
     | Some (l, x) => [("", lit "V")] ++ lim_shape "rvrhigh" l ++ [("high", dsym (fst x))]
     | None => []
     end
  ++ (if rg_feet g then [("units", lit "FT")] else [])
  ++ oshape "trend" (fun _ => [py "NUD"]) (rg_trend g).

Lemma tcode_app : forall a b, tcode (a ++ b) = tcode a ++ tcode b.
Proof. intros. unfold tcode. rewrite map_app. apply concat_app. Qed.
Lemma tcode_cons : forall n x t, tcode ((n, x) :: t) = x ++ tcode t.
Proof. reflexivity. Qed.
Lemma tcode_nil : tcode [] = [].
Proof. reflexivity. Qed.
Lemma tcode_oseg : forall A n (f : A -> str) o, tcode (oseg n f o) = opt f o.
Proof. intros A n f [x|]; simpl; auto. unfold tcode. simpl. apply app_nil_r. Qed.

Lemma rvr_text_code : forall g, tcode (rvr_text g) = rvr_code g.
Proof.
  intros [r l lo hi ft tr]. unfold rvr_text, rvr_code, lim_seg.
  cbn [rg_runway rg_lim_low rg_low rg_high rg_feet rg_trend].
  rewrite !tcode_app, !tcode_cons, !tcode_oseg, !tcode_nil, !app_nil_r, <- !app_assoc.
  do 5 f_equal. f_equal.
  - destruct hi as [[l' x]|]; auto. unfold opt at 2.
    rewrite !tcode_app, !tcode_cons, tcode_nil, tcode_oseg, !app_nil_r. reflexivity.
  - f_equal. destruct ft; reflexivity.
Qed.

Lemma fits_lim : forall n l, opt_all (fun x => In x limits) l -> fits (lim_seg n l) (lim_shape n l).
Proof.
  intros n l H. apply fits_oseg. destruct l; simpl opt_all in *; auto.
  apply (inst_table limits); auto.
Qed.

Lemma rvr_fits : forall g, rvr_wf g -> fits (rvr_text g) (rvr_shape g).
Proof.
  intros [r l lo hi ft tr] (H1 & H2 & H3 & H4 & H5). unfold rvr_text, rvr_shape.
  cbn [rg_runway rg_lim_low rg_low rg_high rg_feet rg_trend] in *.
  apply fits_app; [auto 8 with inst|]. apply fits_app; [apply fits_lim; auto|].
  apply fits_app; [unfold rvr_digits_code; auto with inst|].
  apply fits_app; [|apply fits_app].
  - destruct hi as [[l' x]|]; [|auto with inst]. destruct H4 as [H4 _].
    apply fits_app; [auto with inst|]. apply fits_app; [apply fits_lim; auto|].
    unfold rvr_digits_code; auto with inst.
  - destruct ft; auto with inst.
  - apply fits_oseg. destruct tr; simpl opt_all in *; auto. apply (inst_table rvr_trends); auto.
Qed.

Definition rvr_names := ["name"; "rvrlow"; "low"; "rvrhigh"; "high"; "units"; "trend"].

Lemma rvr_shape_ok : forall g, rvr_wf g -> captures_ok r_RUNWAY_RANGE rvr_names (rvr_shape g) = true.
Proof.
  intros [[rn rs] l [kl lo] hi ft tr] (_ & _ & [H1 _] & H2 & _).
  unfold rvr_shape, runway_sym, lim_shape, oshape.
  cbn [rg_runway rg_lim_low rg_low rg_high rg_feet rg_trend rn_side fst] in *.
  assert (E : kl = 2 \/ kl = 3 \/ kl = 4) by lia. clear H1.
  destruct hi as [[lh [kh h]]|].
  - destruct H2 as [_ [H2 _]]. simpl in H2.
    assert (E' : kh = 2 \/ kh = 3 \/ kh = 4) by lia. clear H2. cbn [fst].
    destruct rs, l, lh, ft, tr; destruct E as [->|[->| ->]]; destruct E' as [->|[->| ->]];
      vm_compute; reflexivity.
  - destruct rs, l, ft, tr; destruct E as [->|[->| ->]]; vm_compute; reflexivity.
Qed.

Lemma rvr_captures : forall g, rvr_wf g ->
  exists m, re_match r_RUNWAY_RANGE (rvr_code g) = Some m /\ m_string m = rvr_code g
    /\ forall n, In n rvr_names -> group m n = lookup n (rvr_text g).
Proof.
  intros g H. rewrite <- rvr_text_code.
  exact (captures _ _ _ _ (rvr_fits g H) (rvr_shape_ok g H)).
Qed.

