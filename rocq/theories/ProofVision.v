(** * When an accepted visibility fails *)
From Coq Require Import String Ascii.
From Coq Require Import List NArith ZArith Bool Lia.
From Verif Require Import PyBase PyRegex AeroRegex PyFloat PyTime Utils Base MetarGroups
  SpecNum SpecTime SpecFailures SpecVision StrFacts RegexPaths Captures DigitFacts Outcomes ProofValues ProofStation.
Import ListNotations.
Local Open Scope string_scope.
Local Open Scope nat_scope.
Local Open Scope list_scope.

(** ** Lists *)

Lemma split_once : forall (c : N) l1 r1 l2 r2, l1 ++ c :: r1 = l2 ++ c :: r2 -> ~ In c l1 -> ~ In c r1 -> l1 = l2 /\ r1 = r2.
Proof.
  intros c l1 r1. induction l1 as [|a l1 IH]; intros [|b l2] r2 E N1 N2; cbn in E.
  - injection E as ->. auto.
  - injection E as <- ->. exfalso. apply N2, in_or_app. right. left. reflexivity.
  - injection E as -> E. exfalso. apply N1. left. reflexivity.
  - injection E as -> E. destruct (IH l2 r2 E) as [-> ->]; [intros I; apply N1; right; exact I|exact N2|auto].
Qed.

(** ** The three kinds of path *)

Definition free_of (l : list N) (k : cls) : bool := forallb (fun c => negb (in_cls c k)) l.
Lemma free_not : forall l ks x c, forallb (free_of l) ks = true -> along x ks -> In c l -> ~ In c x.
Proof.
  intros l ks x c F A I J. induction A as [|d k x ks Hd A IH]; [contradiction|].
  cbn in F. apply andb_prop in F. destruct F as [F1 F2]. destruct J as [->|J]; [|exact (IH F2 J)].
  unfold free_of in F1. rewrite forallb_forall in F1. specialize (F1 c I). rewrite Hd in F1. discriminate F1.
Qed.

Definition LEADS : list str := [[]; py "M"; py "P"; py "_"; py "M_"; py "P_"].
Definition UNITS : list str := [py "SM"; py "KM"; py "M"; py "U"].
Definition lead_letters : list N := [47; 83; 75; 69; 87]%N.

Definition none_of (q : cpath) (n : string) : bool := match span_of n (snd q) with None => true | Some _ => false end.

Definition by_digits (q : cpath) : bool :=
  match span_of "vis" (snd q) with
  | Some (0, 4) => Nat.leb 4 (length (fst q)) && vis_path (firstn 4 (fst q))
      && match span_of "dir" (snd q) with
         | None => Nat.eqb (length (fst q)) 4
         | Some (b, e) => Nat.eqb b 4 && Nat.eqb e (length (fst q)) && dir_path (skipn 4 (fst q))
         end
  | _ => false
  end && none_of q "integer" && none_of q "fraction" && none_of q "units" && none_of q "cavok".

Definition lead_ok (q : cpath) (c : nat) : bool :=
  Nat.leb c (length (fst q)) && forallb (free_of lead_letters) (firstn c (fst q))
  && match span_of "integer" (snd q) with
     | None => match firstn c (fst q) with
               | [] => true
               | [k] => single_cls [77; 80; 95]%N k
               | [k; k'] => single_cls [77; 80]%N k && single_cls [95]%N k'
               | _ => false
               end
     | Some (b, e) => existsb digit_cls (firstn c (fst q))
     end.

Definition by_units (q : cpath) : bool :=
  match span_of "units" (snd q) with
  | Some (b, e) => Nat.eqb e (length (fst q)) && Nat.leb b e && existsb (fun w => spells w (skipn b (fst q))) UNITS
      && match span_of "fraction" (snd q) with
         | None => lead_ok q b
         | Some (c, d) => lead_ok q c && Nat.eqb d b && Nat.leb c d && frac_path (firstn (d - c) (skipn c (fst q)))
         end
  | None => false
  end && none_of q "vis" && none_of q "dir" && none_of q "cavok".

Definition by_word (q : cpath) : bool :=
  spells (py "CAVOK") (fst q) && none_of q "vis" && none_of q "dir" && none_of q "integer" && none_of q "fraction" && none_of q "units".

Definition vision_path (q : cpath) : bool := by_digits q || by_units q || by_word q.
Lemma vision_paths : forallb vision_path (cpaths r_VISIBILITY) = true /\ forallb by_digits (cpaths r_MINIMUM_VISIBILITY) = true
  /\ closed_end r_VISIBILITY = true /\ closed_end r_MINIMUM_VISIBILITY = true
  /\ starfree r_VISIBILITY = true /\ starfree r_MINIMUM_VISIBILITY = true.
Proof. conjs; vm_compute; reflexivity. Qed.

(** ** What is read off them *)

Definition ending (t : str) : Prop := t = [] \/ t = [10%N].
Lemma at_end_ending : forall t, at_end t = true -> ending t.
Proof.
  intros [|c [|d t]] H; [left; reflexivity| |discriminate H]. right. cbn in H. apply N.eqb_eq in H. subst c. reflexivity.
Qed.

Definition four (v : str) : Prop := v = py "////" \/ (length v = 4 /\ all_digits v).
Definition dirs : list str := map (fun x => [x]) NSEW ++ flat_map (fun x => map (fun y => [x; y]) EW) NSEW.

Definition silent (m : rmatch) (n : string) : Prop := group m n = None.

Inductive vision (g : str) (m : rmatch) : Prop :=
| Vdigits : forall v d t, g = v ++ d ++ t -> four v -> ending t ->
    (d = [] /\ group m "dir" = None \/ In d dirs /\ group m "dir" = Some d) ->
    silent m "integer" -> silent m "fraction" -> silent m "units" -> silent m "cavok" -> vision g m
| Vunits : forall l f w t, g = l ++ f ++ w ++ t -> ending t -> In w UNITS -> group m "units" = Some w ->
    (f = [] /\ group m "fraction" = None
     \/ exists a z, f = [a; 47%N; z] /\ is_digit a = true /\ is_digit z = true /\ group m "fraction" = Some f) ->
    (forall c, In c lead_letters -> ~ In c l) ->
    (group m "integer" = None /\ In l LEADS
     \/ exists i, group m "integer" = Some i /\ exists c, In c l /\ is_digit c = true) ->
    silent m "vis" -> silent m "dir" -> silent m "cavok" -> vision g m
| Vword : forall t, g = py "CAVOK" ++ t -> ending t ->
    silent m "vis" -> silent m "dir" -> silent m "integer" -> silent m "fraction" -> silent m "units" -> vision g m.

Lemma none_silent : forall s m q x t n, follows s m q x t -> none_of q n = true -> silent m n.
Proof.
  intros s m q x t n (_ & _ & _ & G) H. unfold none_of in H. unfold silent. rewrite G.
  destruct (span_of n (snd q)) as [p|]; [discriminate H|reflexivity].
Qed.

Lemma dir_path_dirs : forall x ks, along x ks -> dir_path ks = true -> In x dirs.
Proof.
  intros x ks A K. unfold dir_path in K. destruct ks as [|k1 [|k2 [|k3 ks]]]; try discriminate K.
  - apply along_cons in A. destruct A as (a & c1 & -> & Ha & A). apply along_nil in A. subst c1.
    apply in_or_app. left. apply (in_map (fun x => [x]) NSEW a). exact (in_single _ _ _ K Ha).
  - apply andb_true_iff in K. destruct K as [K1 K2].
    apply along_cons in A. destruct A as (a & c1 & -> & Ha & A).
    apply along_cons in A. destruct A as (b & c2 & -> & Hb & A). apply along_nil in A. subst c2.
    apply in_or_app. right. apply in_flat_map. exists a. split; [exact (in_single _ _ _ K1 Ha)|].
    apply (in_map (fun y => [a; y]) EW b). exact (in_single _ _ _ K2 Hb).
Qed.

Lemma frac_path_shape : forall x ks, along x ks -> frac_path ks = true ->
  exists a z, x = [a; 47%N; z] /\ is_digit a = true /\ is_digit z = true.
Proof.
  intros x ks A K. unfold frac_path in K. destruct ks as [|k1 [|k2 [|k3 [|k4 ks]]]]; try discriminate K.
  apply andb_prop in K. destruct K as [K K3]. apply andb_prop in K. destruct K as [K1 K2].
  apply along_cons in A. destruct A as (a & c1 & -> & Ha & A).
  apply along_cons in A. destruct A as (b & c2 & -> & Hb & A).
  apply along_cons in A. destruct A as (z & c3 & -> & Hz & A). apply along_nil in A. subst c3.
  destruct (in_single _ _ _ K2 Hb) as [<-|[]].
  exists a, z. split; [reflexivity|]. split; [exact (in_digit_cls a k1 K1 Ha)|exact (in_digit_cls z k3 K3 Hz)].
Qed.

Lemma vis_path_four : forall x ks, along x ks -> vis_path ks = true -> four x.
Proof.
  intros x ks A K. unfold vis_path in K. apply orb_prop in K. destruct K as [K|K].
  - destruct (digits_path_ok x ks 4 4 A K) as [D L]. right. split; [lia|exact D].
  - left. exact (spells_ok _ _ _ K A).
Qed.

Lemma by_digits_parts : forall g m q x t, follows g m q x t -> at_end t = true -> by_digits q = true ->
  exists v d t, g = v ++ d ++ t /\ four v /\ ending t
    /\ (d = [] /\ group m "dir" = None \/ In d dirs /\ group m "dir" = Some d)
    /\ silent m "integer" /\ silent m "fraction" /\ silent m "units" /\ silent m "cavok".
Proof.
  intros g m q x t Fo T B. unfold by_digits in B. do 4 (apply andb_prop in B; destruct B as [B ?K]).
  pose proof (none_silent _ _ _ _ _ _ Fo K) as S1. pose proof (none_silent _ _ _ _ _ _ Fo K0) as S2.
  pose proof (none_silent _ _ _ _ _ _ Fo K1) as S3. pose proof (none_silent _ _ _ _ _ _ Fo K2) as S4.
  destruct (span_of "vis" (snd q)) as [[b e]|]; [|discriminate B].
  destruct b as [|b]; [|discriminate B]. do 4 (destruct e as [|e]; [discriminate B|]). destruct e as [|e]; [|discriminate B].
  apply andb_prop in B. destruct B as [B D]. apply andb_prop in B. destruct B as [L V].
  destruct Fo as (-> & _ & A & G). pose proof (along_firstn 4 x _ A) as A1. pose proof (along_skipn 4 x _ A) as A2.
  pose proof (along_length x _ A) as Lx.
  exists (firstn 4 x), (skipn 4 x), t.
  split; [rewrite app_assoc, firstn_skipn; reflexivity|]. split; [exact (vis_path_four _ _ A1 V)|]. split; [exact (at_end_ending t T)|].
  split; [|conjs; assumption].
  rewrite G. destruct (span_of "dir" (snd q)) as [[b e]|].
  - right. apply andb_prop in D. destruct D as [D P]. apply andb_prop in D. destruct D as [D1 D2].
    apply Nat.eqb_eq in D1, D2. subst b e. split; [exact (dir_path_dirs _ _ A2 P)|]. f_equal. unfold substr.
    rewrite <- Lx. rewrite <- (skipn_length 4 x). apply firstn_all.
  - left. apply Nat.eqb_eq in D. split; [|reflexivity]. apply length_zero_iff_nil. rewrite skipn_length. lia.
Qed.

Lemma by_digits_vision : forall g m q x t, follows g m q x t -> at_end t = true -> by_digits q = true -> vision g m.
Proof.
  intros g m q x t Fo T B. destruct (by_digits_parts g m q x t Fo T B) as (v & d & t' & H1 & H2 & H3 & H4 & H5 & H6 & H7 & H8).
  exact (Vdigits g m v d t' H1 H2 H3 H4 H5 H6 H7 H8).
Qed.

Lemma along_digit_some : forall x ks, along x ks -> existsb digit_cls ks = true -> exists c, In c x /\ is_digit c = true.
Proof.
  intros x ks A. induction A as [|c k x ks Hc A IH]; intros E; [discriminate E|].
  cbn in E. apply orb_prop in E. destruct E as [E|E].
  - exists c. split; [left; reflexivity|exact (in_digit_cls c k E Hc)].
  - destruct (IH E) as (d & I & D). exists d. split; [right; exact I|exact D].
Qed.

Lemma lead_ok_shape : forall g m q x t c, follows g m q x t -> lead_ok q c = true ->
  (forall d, In d lead_letters -> ~ In d (firstn c x))
  /\ (group m "integer" = None /\ In (firstn c x) LEADS
      \/ exists i, group m "integer" = Some i /\ exists d, In d (firstn c x) /\ is_digit d = true).
Proof.
  intros g m q x t c Fo B. unfold lead_ok in B. apply andb_prop in B. destruct B as [B D]. apply andb_prop in B. destruct B as [L F].
  destruct Fo as (Eg & _ & A & G). pose proof (along_firstn c x _ A) as A1.
  split; [intros d I; exact (free_not _ _ _ d F A1 I)|]. rewrite G.
  destruct (span_of "integer" (snd q)) as [[b e]|] eqn:Es.
  - right. exists (substr x b e). split; [reflexivity|].
    exact (along_digit_some _ _ A1 D).
  - left. split; [reflexivity|].
    destruct (firstn c (fst q)) as [|k1 [|k2 [|k3 ks]]]; try discriminate D.
    + apply along_nil in A1. rewrite A1. left. reflexivity.
    + apply along_cons in A1. destruct A1 as (a & y & -> & Ha & A1). apply along_nil in A1. subst y.
      pose proof (in_single _ _ _ D Ha) as I. destruct I as [<-|[<-|[<-|[]]]]; cbn; tauto.
    + apply along_cons in A1. destruct A1 as (a & y & -> & Ha & A1).
      apply along_cons in A1. destruct A1 as (b & y2 & -> & Hb & A1). apply along_nil in A1. subst y2.
      apply andb_prop in D. destruct D as [D1 D2]. pose proof (in_single _ _ _ D1 Ha) as I. pose proof (in_single _ _ _ D2 Hb) as J.
      destruct J as [<-|[]]. destruct I as [<-|[<-|[]]]; cbn; tauto.
Qed.

Lemma spells_units : forall x ks, along x ks -> existsb (fun w => spells w ks) UNITS = true -> In x UNITS.
Proof.
  intros x ks A H. apply existsb_exists in H. destruct H as (w & I & S). rewrite (spells_ok w ks x S A). exact I.
Qed.

Lemma by_units_vision : forall g m q x t, follows g m q x t -> at_end t = true -> by_units q = true -> vision g m.
Proof.
  intros g m q x t Fo T B. unfold by_units in B. do 3 (apply andb_prop in B; destruct B as [B ?K]).
  pose proof (none_silent _ _ _ _ _ _ Fo K) as S1. pose proof (none_silent _ _ _ _ _ _ Fo K0) as S2.
  pose proof (none_silent _ _ _ _ _ _ Fo K1) as S3.
  pose proof Fo as (Eg & _ & A & G). pose proof (along_length x _ A) as Lx. pose proof (G "units") as Gu. pose proof (G "fraction") as Gf.
  destruct (span_of "units" (snd q)) as [[b e]|]; [|discriminate B].
  apply andb_prop in B. destruct B as [B D]. apply andb_prop in B. destruct B as [B U]. apply andb_prop in B. destruct B as [Le Lb].
  apply Nat.eqb_eq in Le. apply Nat.leb_le in Lb. subst e.
  assert (W : substr x b (length (fst q)) = skipn b x).
  { unfold substr. rewrite <- Lx. rewrite <- (skipn_length b x). apply firstn_all. }
  rewrite W in Gu. pose proof (spells_units _ _ (along_skipn b x _ A) U) as Iw.
  destruct (span_of "fraction" (snd q)) as [[c d]|].
  - apply andb_prop in D. destruct D as [D P]. apply andb_prop in D. destruct D as [D Lc]. apply andb_prop in D. destruct D as [D Ed].
    apply Nat.eqb_eq in Ed. apply Nat.leb_le in Lc. subst d.
    destruct (lead_ok_shape g m q x t c Fo D) as [Fr Li].
    pose proof (frac_path_shape _ _ (along_firstn (b - c) _ _ (along_skipn c x _ A)) P) as (a & z & Ez & Da & Dz).
    apply (Vunits g m (firstn c x) (substr x c b) (skipn b x) t); auto.
    + rewrite Eg. rewrite !app_assoc. f_equal.
      change (firstn c x) with (substr x 0 c) at 1 || idtac.
      assert (E0 : firstn c x = substr x 0 c) by (unfold substr; rewrite Nat.sub_0_r; reflexivity).
      rewrite E0, <- W, !substr_cat by lia. unfold substr. rewrite Nat.sub_0_r, <- Lx. symmetry. apply firstn_all.
    + exact (at_end_ending t T).
    + right. exists a, z. unfold substr. rewrite Ez. conjs; auto. rewrite Gf. unfold substr. rewrite Ez. reflexivity.
  - destruct (lead_ok_shape g m q x t b Fo D) as [Fr Li].
    apply (Vunits g m (firstn b x) [] (skipn b x) t); auto.
    + rewrite Eg. cbn [app]. rewrite app_assoc, firstn_skipn. reflexivity.
    + exact (at_end_ending t T).
Qed.

Lemma by_word_vision : forall g m q x t, follows g m q x t -> at_end t = true -> by_word q = true -> vision g m.
Proof.
  intros g m q x t Fo T B. unfold by_word in B. do 5 (apply andb_prop in B; destruct B as [B ?K]).
  pose proof Fo as (Eg & _ & A & G). rewrite (spells_ok _ _ _ B A) in Eg.
  apply (Vword g m t Eg (at_end_ending t T)); apply (none_silent _ _ _ _ _ _ Fo); assumption.
Qed.

Theorem vision_shape : forall g m, re_match r_VISIBILITY g = Some m -> vision g m.
Proof.
  intros g m M. destruct vision_paths as (P & _ & C & _ & F & _).
  destruct (match_closed _ _ _ _ F C P M) as (q & x & t & Q & Fo & T).
  unfold vision_path in Q. apply orb_prop in Q. destruct Q as [Q|Q]; [apply orb_prop in Q; destruct Q as [Q|Q]|].
  - exact (by_digits_vision _ _ _ _ _ Fo T Q).
  - exact (by_units_vision _ _ _ _ _ Fo T Q).
  - exact (by_word_vision _ _ _ _ _ Fo T Q).
Qed.
Theorem minimum_shape : forall g m, re_match r_MINIMUM_VISIBILITY g = Some m -> exists v d t, g = v ++ d ++ t /\ four v /\ ending t
  /\ (d = [] /\ group m "dir" = None \/ In d dirs /\ group m "dir" = Some d).
Proof.
  intros g m M. destruct vision_paths as (_ & P & _ & C & _ & F).
  destruct (match_closed _ _ _ _ F C P M) as (q & x & t & Q & Fo & T).
  destruct (by_digits_parts _ _ _ _ _ Fo T Q) as (v & d & t' & H1 & H2 & H3 & H4 & _). exists v, d, t'. auto.
Qed.

(** ** Letters *)

Lemma digit_not : forall c d, is_digit c = true -> is_digit d = false -> c <> d.
Proof. intros c d H K ->. congruence. Qed.

Lemma dirs_bad : forall d, In d dirs ->
  (In d [py "EE"; py "EW"; py "WE"; py "WW"] /\ from_cardinal d = Raise ValueError)
  \/ (~ In d [py "EE"; py "EW"; py "WE"; py "WW"] /\ exists x, from_cardinal d = Ok x).
Proof.
  intros d I. cbn in I.
  repeat (destruct I as [<-|I];
    [first [left; split; [cbn; tauto|vm_compute; reflexivity]
           |right; split; [cbn; intuition discriminate|eexists; vm_compute; reflexivity]]|]). destruct I.
Qed.
Lemma dirs_length : forall d, In d dirs -> 1 <= length d <= 2.
Proof. intros d I. cbn in I. repeat (destruct I as [<-|I]; [cbn; lia|]). destruct I. Qed.
Lemma dirs_plain : forall d c, In d dirs -> In c d -> is_digit c = false /\ c <> 47%N.
Proof.
  intros d c I J. cbn in I. repeat (destruct I as [<-|I]; [cbn in J; repeat (destruct J as [<-|J]; [split; [vm_compute; reflexivity|discriminate]|]); destruct J|]). destruct I.
Qed.
Lemma units_plain : forall w c, In w UNITS -> In c w -> is_digit c = false /\ c <> 47%N /\ c <> 69%N /\ c <> 87%N.
Proof.
  intros w c I J. cbn in I. repeat (destruct I as [<-|I]; [cbn in J; repeat (destruct J as [<-|J]; [split; [vm_compute; reflexivity|conjs; discriminate]|]); destruct J|]). destruct I.
Qed.
Lemma ending_plain : forall t c, ending t -> In c t -> is_digit c = false /\ c = 10%N.
Proof. intros t c [->| ->] I; [destruct I|]. destruct I as [<-|[]]. split; [vm_compute; reflexivity|reflexivity]. Qed.

Lemma four_length : forall v, four v -> length v = 4.
Proof. intros v [->|[H _]]; [reflexivity|exact H]. Qed.
Lemma four_reads : forall v, four v -> v = py "////" \/ (length v = 4 /\ exists n, reads v n).
Proof.
  intros v [->|[L D]]; [left; reflexivity|right]. split; [exact L|]. apply all_digits_reads; [exact D|intros ->; discriminate L].
Qed.
Lemma reads_digits : forall x n, reads x n -> x <> [] /\ all_digits x.
Proof.
  intros x n [N E]. split; [exact N|]. clear N. revert E. generalize 0%N. induction x as [|c x IH]; intros a E; [constructor|].
  cbn in E. destruct (digit_val c) as [d|] eqn:Ed; [|discriminate E].
  constructor; [unfold is_digit; rewrite Ed; reflexivity|exact (IH _ E)].
Qed.
Lemma reads_first : forall x n, reads x n -> exists c y, x = c :: y /\ is_digit c = true /\ all_digits y.
Proof.
  intros x n R. destruct (reads_digits x n R) as [N D]. destruct x as [|c y]; [congruence|].
  inversion D as [|c0 y0 Hc Hy]; subst. exists c, y. auto.
Qed.

(** ** Direction *)

Lemma bad_direction_digits : forall g v d t x, g = v ++ d ++ t -> four v -> ending t -> (d = [] \/ In d dirs) ->
  contains g x -> no_direction x -> In d [py "EE"; py "EW"; py "WE"; py "WW"].
Proof.
  intros g v d t x Eg Fv Et Id (p & q & Ex) (v0 & d0 & -> & Id0 & V0).
  assert (L0 : length v0 = 4) by (destruct V0 as [->|[H _]]; [reflexivity|exact H]).
  assert (Ld0 : length d0 = 2) by (destruct Id0 as [<-|[<-|[<-|[<-|[]]]]]; reflexivity).
  pose proof (four_length v Fv) as Lv. rewrite Eg in Ex.
  assert (Last : ~ In 10%N d0) by (destruct Id0 as [<-|[<-|[<-|[<-|[]]]]]; cbn; intuition discriminate).
  assert (Ld : length d <= 2) by (destruct Id as [->|Id]; [cbn; lia|pose proof (dirs_length d Id); lia]).
  pose proof (f_equal (@length N) Ex) as Len. rewrite !app_length in Len.
  destruct Et as [->| ->]; cbn [length] in Len.
  - assert (p = []) by (destruct p; [reflexivity|cbn [length] in Len; lia]). subst p.
    assert (q = []) by (destruct q; [reflexivity|cbn [length] in Len; lia]). subst q.
    cbn [app] in Ex. rewrite !app_nil_r in Ex. apply app_eq_length in Ex; [|lia]. destruct Ex as [_ ->]. exact Id0.
  - destruct q as [|c q].
    + exfalso. apply Last. rewrite app_nil_r in Ex. rewrite !app_assoc in Ex.
      assert (E2 : exists e f, d0 = [e; f]) by (destruct d0 as [|e [|f [|h d0]]]; try discriminate Ld0; eauto).
      destruct E2 as (e & f & ->). change [e; f] with ([e] ++ [f]) in Ex. rewrite app_assoc in Ex.
      apply app_inj_tail in Ex. destruct Ex as [_ <-]. right. left. reflexivity.
    + assert (p = []) by (destruct p; [reflexivity|cbn [length] in Len; lia]). subst p.
      cbn [app length] in Ex, Len. rewrite <- app_assoc in Ex. apply app_eq_length in Ex; [|lia]. destruct Ex as [_ Ex].
      apply app_eq_length in Ex; [|lia]. destruct Ex as [-> _]. exact Id0.
Qed.

Theorem minimum_exact : forall g m e, re_match r_MINIMUM_VISIBILITY g = Some m ->
  (minimum_visibility_new (Some m) = Raise e <-> e = ValueError /\ exists x, contains g x /\ no_direction x).
Proof.
  intros g m e M. destruct (minimum_shape g m M) as (v & d & t & Eg & Fv & Et & D).
  unfold minimum_visibility_new. destruct (direction_new None) as [d0|] eqn:E0; [|vm_compute in E0; discriminate E0].
  cbn [bind]. cbv zeta. destruct D as [[-> ->]|[Id ->]].
  - cbn [bind]. split; [intros H; discriminate H|]. intros (_ & x & C & N).
    pose proof (bad_direction_digits g v [] t x Eg Fv Et (or_introl eq_refl) C N) as K.
    cbn in K. intuition discriminate.
  - assert (Em : match Some d with Some (c :: k) => from_cardinal (c :: k) | _ => Ok d0 end = from_cardinal d).
    { destruct d as [|c d]; [|reflexivity]. pose proof (dirs_length _ Id) as L. cbn in L. lia. }
    rewrite Em. destruct (dirs_bad d Id) as [[Bd ->]|[Gd (y & ->)]]; cbn [bind].
    + split; [|intros [-> _]; reflexivity]. intros H. injection H as <-. split; [reflexivity|].
      exists (v ++ d). split; [exists [], t; rewrite Eg; cbn [app]; rewrite app_assoc; reflexivity|].
      exists v, d. split; [reflexivity|]. split; [exact Bd|exact (four_reads v Fv)].
    + split; [intros H; discriminate H|]. intros (_ & x & C & N). exfalso. apply Gd.
      exact (bad_direction_digits g v d t x Eg Fv Et (or_intror Id) C N).
Qed.

(** ** Units *)

Section Units.
Variables (g : str) (m : rmatch) (l f w t : str).
Hypothesis Eg : g = l ++ f ++ w ++ t.
Hypothesis Et : ending t.
Hypothesis Iw : In w UNITS.
Hypothesis Hf : f = [] \/ exists a z, f = [a; 47%N; z] /\ is_digit a = true /\ is_digit z = true.
Hypothesis Fr : forall c, In c lead_letters -> ~ In c l.

Lemma tail_no_slash : ~ In 47%N (w ++ t).
Proof.
  intros I. apply in_app_or in I. destruct I as [I|I].
  - exact (proj1 (proj2 (units_plain w _ Iw I)) eq_refl).
  - pose proof (proj2 (ending_plain t _ Et I)) as K. discriminate K.
Qed.

(** Where the fraction is. *)
Lemma slash_place : forall p y, g = p ++ 47%N :: y ->
  exists a z, f = [a; 47%N; z] /\ is_digit a = true /\ is_digit z = true /\ p = l ++ [a] /\ y = z :: w ++ t.
Proof.
  intros p y E. rewrite Eg in E. destruct Hf as [->|(a & z & -> & Da & Dz)].
  - exfalso. cbn [app] in E. assert (I : In 47%N (l ++ w ++ t)) by (rewrite E; apply in_or_app; right; left; reflexivity).
    apply in_app_or in I. destruct I as [I|I]; [exact (Fr 47%N (or_introl eq_refl) I)|exact (tail_no_slash I)].
  - exists a, z. cbn [app] in E. replace (l ++ a :: 47%N :: z :: w ++ t) with ((l ++ [a]) ++ 47%N :: (z :: w ++ t)) in E
      by (rewrite <- app_assoc; reflexivity).
    apply split_once in E.
    + destruct E as [E1 E2]. auto.
    + intros I. apply in_app_or in I. destruct I as [I|[I|[]]]; [exact (Fr 47%N (or_introl eq_refl) I)|].
      exact (digit_not a 47%N Da eq_refl I).
    + intros [I|I]; [exact (digit_not z 47%N Dz eq_refl I)|exact (tail_no_slash I)].
Qed.

(** A number and a unit behind the slash. *)
Lemma behind_slash : forall z x n u q, z :: w ++ t = x ++ u ++ q -> reads x n -> In u [py "SM"; py "KM"] -> x = [z] /\ w = u.
Proof.
  intros z x n u q E R Iu. destruct (reads_first x n R) as (c & y & -> & Dc & Dy). cbn [app] in E. injection E as -> E.
  assert (y = []).
  { destruct y as [|b y]; [reflexivity|exfalso]. inversion Dy as [|b0 y0 Db _]; subst.
    destruct Iw as [<-|[<-|[<-|[<-|[]]]]]; cbn in E; injection E as <- _; vm_compute in Db; discriminate Db. }
  subst y. split; [reflexivity|]. cbn [app] in E.
  destruct Iu as [<-|[<-|[]]]; destruct Iw as [<-|[<-|[<-|[<-|[]]]]]; cbn in E; try reflexivity; discriminate E.
Qed.

Lemma no_bad_direction : forall x, contains g x -> no_direction x -> False.
Proof.
  intros x (p & q & E) (v & d & -> & Id & _). rewrite Eg in E.
  assert (I : exists c, In c [69; 87]%N /\ In c (l ++ f ++ w ++ t)).
  { destruct Id as [<-|[<-|[<-|[<-|[]]]]];
      [exists 69%N|exists 69%N|exists 87%N|exists 87%N]; (split; [cbn; tauto|]); rewrite E;
      apply in_or_app; right; apply in_or_app; left; apply in_or_app; right; left; reflexivity. }
  destruct I as (c & Ic & I). apply in_app_or in I. destruct I as [I|I].
  { apply (Fr c); [|exact I]. destruct Ic as [<-|[<-|[]]]; cbn; tauto. }
  apply in_app_or in I. destruct I as [I|I].
  { destruct Hf as [->|(a & z & -> & Da & Dz)]; [destruct I|].
    assert (Nd : is_digit c = false) by (destruct Ic as [<-|[<-|[]]]; vm_compute; reflexivity).
    destruct I as [I|[I|[I|[]]]]; [congruence| |congruence]. subst c. destruct Ic as [K|[K|[]]]; discriminate K. }
  apply in_app_or in I. destruct I as [I|I].
  - destruct (units_plain w c Iw I) as (_ & _ & N1 & N2). destruct Ic as [K|[K|[]]]; congruence.
  - pose proof (proj2 (ending_plain t _ Et I)) as K. subst c. destruct Ic as [K|[K|[]]]; discriminate K.
Qed.

Lemma zero_place : forall x, contains g x -> over_zero x -> exists a z, f = [a; 47%N; z] /\ w = py "SM" /\ reads [z] 0.
Proof.
  intros x (p & q & E) (a0 & z0 & n & -> & _ & Rz).
  assert (E2 : g = (p ++ a0) ++ 47%N :: (z0 ++ py "SM" ++ q)).
  { rewrite E. rewrite <- !app_assoc. reflexivity. }
  destruct (slash_place _ _ E2) as (a & z & Ef & _ & _ & _ & Ey). symmetry in Ey.
  destruct (behind_slash z z0 0%N (py "SM") q Ey Rz (or_introl eq_refl)) as [-> Ew]. exists a, z. auto.
Qed.

Lemma km_place : bare_km g -> exists a z, f = [a; 47%N; z] /\ w = py "KM" /\ forall c, In c l -> is_digit c = false.
Proof.
  intros (s & u & a0 & z0 & n & k & t0 & E & Is & Iu & Ra & La & Rz & Lz & _).
  assert (E2 : g = (s ++ u ++ a0) ++ 47%N :: (z0 ++ py "KM" ++ t0)).
  { rewrite E. rewrite <- !app_assoc. reflexivity. }
  destruct (slash_place _ _ E2) as (a & z & Ef & _ & _ & Ep & Ey). symmetry in Ey.
  destruct (behind_slash z z0 k (py "KM") t0 Ey Rz (or_intror (or_introl eq_refl))) as [_ Ew]. exists a, z. split; [exact Ef|]. split; [exact Ew|].
  destruct a0 as [|a1 [|a2 a0]]; try discriminate La. rewrite app_assoc in Ep. apply app_inj_tail in Ep. destruct Ep as [<- _].
  intros c I. destruct Is as [<-|[<-|[<-|[]]]]; destruct Iu as [<-|[<-|[]]]; cbn in I;
    repeat (destruct I as [<-|I]; [vm_compute; reflexivity|]); destruct I.
Qed.
End Units.

(** ** The other kinds hold no such thing *)

Lemma digits_no_fraction : forall g v d t, g = v ++ d ++ t -> four v -> ending t -> (d = [] \/ In d dirs) ->
  forall p c y, g = p ++ c :: 47%N :: y -> is_digit c = true -> False.
Proof.
  intros g v d t Eg Fv Et Id p c y E Dc. rewrite Eg in E.
  assert (Out : forall x, In x (d ++ t) -> is_digit x = false /\ x <> 47%N).
  { intros x I. apply in_app_or in I. destruct I as [I|I].
    - destruct Id as [->|Id]; [destruct I|exact (dirs_plain d x Id I)].
    - destruct (ending_plain t x Et I) as [H ->]. split; [exact H|discriminate]. }
  assert (Ic : In c (v ++ d ++ t)) by (rewrite E; apply in_or_app; right; left; reflexivity).
  assert (Is : In 47%N (v ++ d ++ t)) by (rewrite E; apply in_or_app; right; right; left; reflexivity).
  apply in_app_or in Ic. apply in_app_or in Is.
  destruct Ic as [Ic|Ic]; [|rewrite (proj1 (Out c Ic)) in Dc; discriminate Dc].
  destruct Is as [Is|Is]; [|exact (proj2 (Out _ Is) eq_refl)].
  destruct Fv as [->|[_ D]].
  - cbn in Ic. repeat (destruct Ic as [<-|Ic]; [vm_compute in Dc; discriminate Dc|]). destruct Ic.
  - pose proof (proj1 (Forall_forall _ _) D _ Is) as K. vm_compute in K. discriminate K.
Qed.
Lemma word_no_fraction : forall g t, g = py "CAVOK" ++ t -> ending t -> forall p y, g = p ++ 47%N :: y -> False.
Proof.
  intros g t Eg Et p y E. rewrite Eg in E. assert (I : In 47%N (py "CAVOK" ++ t)) by (rewrite E; apply in_or_app; right; left; reflexivity).
  apply in_app_or in I. destruct I as [I|I].
  - cbn in I. repeat (destruct I as [K|I]; [discriminate K|]). destruct I.
  - pose proof (proj2 (ending_plain t _ Et I)) as K. discriminate K.
Qed.

Lemma last_digit : forall x n, reads x n -> exists y c, x = y ++ [c] /\ is_digit c = true.
Proof.
  intros x n R. destruct (reads_digits x n R) as [N D]. destruct (exists_last N) as (y & c & ->). exists y, c.
  split; [reflexivity|]. apply (proj1 (Forall_forall _ _) D c). apply in_or_app. right. left. reflexivity.
Qed.
Lemma zero_slash : forall g x, contains g x -> over_zero x -> exists p c y, g = p ++ c :: 47%N :: y /\ is_digit c = true.
Proof.
  intros g x (p & q & ->) (a & z & n & -> & Ra & _). destruct (last_digit a n Ra) as (y & c & -> & Dc).
  exists (p ++ y), c, (z ++ py "SM" ++ q). split; [|exact Dc]. rewrite <- !app_assoc. reflexivity.
Qed.
Lemma km_slash : forall g, bare_km g -> exists p c y, g = p ++ c :: 47%N :: y /\ is_digit c = true.
Proof.
  intros g (s & u & a & z & n & k & t & -> & _ & _ & Ra & _). destruct (last_digit a n Ra) as (y & c & -> & Dc).
  exists (s ++ u ++ y), c, (z ++ py "KM" ++ t). split; [|exact Dc]. rewrite <- !app_assoc. reflexivity.
Qed.
Lemma slash_in : forall g (p : str) c y, g = p ++ c :: 47%N :: y -> g = (p ++ [c]) ++ 47%N :: y.
Proof. intros g p c y ->. rewrite <- app_assoc. reflexivity. Qed.
Lemma word_no_direction : forall g t x, g = py "CAVOK" ++ t -> ending t -> contains g x -> no_direction x -> False.
Proof.
  intros g t x Eg Et (p & q & E) (v & d & -> & Id & _). rewrite Eg in E.
  assert (I : exists c, In c [69; 87]%N /\ In c (py "CAVOK" ++ t)).
  { destruct Id as [<-|[<-|[<-|[<-|[]]]]];
      [exists 69%N|exists 69%N|exists 87%N|exists 87%N]; (split; [cbn; tauto|]); rewrite E;
      apply in_or_app; right; apply in_or_app; left; apply in_or_app; right; left; reflexivity. }
  destruct I as (c & Ic & I). apply in_app_or in I. destruct I as [I|I].
  - cbn in I. repeat (destruct I as [<-|I]; [destruct Ic as [K|[K|[]]]; discriminate K|]). destruct I.
  - pose proof (proj2 (ending_plain t _ Et I)) as K. subst c. destruct Ic as [K|[K|[]]]; discriminate K.
Qed.

(** ** The prevailing visibility *)

Lemma dir_read : forall d (x : result direction), In d dirs ->
  match Some d with Some (c :: k) => from_cardinal (c :: k) | _ => x end = from_cardinal d.
Proof.
  intros d x I. destruct d as [|c d]; [|reflexivity]. pose proof (dirs_length _ I) as L. cbn in L. lia.
Qed.

Lemma truthy_frac : forall a z, truthy (Some [a; 47%N; z]) = true.
Proof. reflexivity. Qed.

(** What the units do. *)
Definition unit_fails (f w : str) (integer : option str) (e : exn) : Prop :=
  exists a z, f = [a; 47%N; z]
    /\ ((e = ZeroDivisionError /\ w = py "SM" /\ reads [z] 0) \/ (e = TypeError /\ w = py "KM" /\ integer = None)).

Lemma sea_miles : forall integer f e, (integer = None \/ exists i n, integer = Some i /\ reads i n) ->
  (f = None \/ exists a z, f = Some [a; 47%N; z] /\ is_digit a = true /\ is_digit z = true) ->
  (from_sea_miles integer f = Raise e <-> e = ZeroDivisionError /\ exists a z, f = Some [a; 47%N; z] /\ reads [z] 0).
Proof.
  intros integer f e Hi Hf.
  assert (Rest : forall fr : float, exists x, (vis <- (match integer with
          | Some (c :: i) => x <- float_of_str (c :: i) ;; Ok (fadd fr x) | _ => Ok fr end) ;;
        Ok (distance_new (Some (repr (fmul (fmul vis SMI_TO_KM) KM_TO_M))))) = Ok x).
  { intros fr. destruct Hi as [->|(i & n & -> & R)]; [eexists; reflexivity|].
    destruct (float_reads i n R) as (x & Ex). destruct i as [|c i]; [eexists; reflexivity|]. rewrite Ex. eexists. reflexivity. }
  unfold from_sea_miles. destruct Hf as [->|(a & z & -> & Da & Dz)].
  - cbn [bind]. destruct (Rest (float_of_Z 0)) as (x & Ex). rewrite Ex. split; [intros H; discriminate H|].
    intros (_ & a & z & H & _). discriminate H.
  - destruct (one_digit_reads a Da) as (n & Ra). destruct (one_digit_reads z Dz) as (k & Rz).
    assert (Sp : split_on 47%N [a; 47%N; z] = [[a]; [z]]) by (apply split_slash; apply digit_not; auto).
    rewrite Sp, (reads_int [a] n Ra), (reads_int [z] k Rz). cbn [bind]. unfold int_div.
    destruct (Z.eqb_spec (Z.of_N k) 0) as [Z0|Z0].
    + cbn [bind]. assert (k = 0%N) by lia. subst k. split; [|intros [-> _]; reflexivity].
      intros H. injection H as <-. split; [reflexivity|]. exists a, z. auto.
    + cbn [bind]. destruct (Rest (fdiv (float_of_Z (Z.of_N n)) (float_of_Z (Z.of_N k)))) as (x & Ex). rewrite Ex.
      split; [intros H; discriminate H|]. intros (_ & a' & z' & H & R0). injection H as <- <-. exfalso.
      destruct Rz as [_ E1], R0 as [_ E2]. rewrite E1 in E2. injection E2 as ->. apply Z0. reflexivity.
Qed.

Lemma unit_result : forall m f w e, (forall i, group m "integer" = Some i -> exists n, reads i n) ->
  In w UNITS -> group m "units" = Some w ->
  (f = [] /\ group m "fraction" = None
     \/ exists a z, f = [a; 47%N; z] /\ is_digit a = true /\ is_digit z = true /\ group m "fraction" = Some f) ->
  silent m "vis" -> silent m "dir" -> silent m "cavok" ->
  (prevailing_new (Some m) = Raise e <-> unit_fails f w (group m "integer") e).
Proof.
  intros m f w e Ri Iw Gu Hf Sv Sd Sc.
  assert (Hi : group m "integer" = None \/ exists i n, group m "integer" = Some i /\ reads i n).
  { destruct (group m "integer") as [i|]; [right|left; reflexivity]. destruct (Ri i eq_refl) as (n & R). exists i, n. auto. }
  assert (Hf' : group m "fraction" = None \/ exists a z, group m "fraction" = Some [a; 47%N; z] /\ is_digit a = true /\ is_digit z = true).
  { destruct Hf as [[_ H]|(a & z & -> & Da & Dz & H)]; [left; exact H|right; exists a, z; auto]. }
  assert (Same : forall a z, group m "fraction" = Some [a; 47%N; z] <-> f = [a; 47%N; z]).
  { intros a z. destruct Hf as [[-> H]|(a' & z' & -> & _ & _ & H)]; rewrite H; split; intros K; congruence. }
  unfold prevailing_new. destruct (direction_new None) as [d0|] eqn:E0; [|vm_compute in E0; discriminate E0].
  cbn [bind]. cbv zeta. rewrite Sv, Sd, Sc, Gu. cbn [truthy orb bind].
  set (v1 := if opt_str_eqb (Some w) (py "M") then distance_new None else distance_new None). clearbody v1.
  unfold unit_fails.
  destruct Iw as [<-|[<-|[<-|[<-|[]]]]].
  - change (opt_str_eqb (Some (py "SM")) (py "SM")) with true. change (opt_str_eqb (Some (py "SM")) (py "KM")) with false. cbv iota.
    pose proof (sea_miles (group m "integer") (group m "fraction")) as SM.
    destruct (truthy (group m "integer") || truthy (group m "fraction")) eqn:T.
    + specialize (SM e Hi Hf'). destruct (from_sea_miles (group m "integer") (group m "fraction")) as [x|e'] eqn:Es; cbn [bind].
      * split; [intros H; discriminate H|]. intros (a & z & Ef & K). exfalso.
        destruct K as [(-> & _ & R)|(_ & K & _)]; [|discriminate K].
        assert (K : @Ok (option float) x = Raise ZeroDivisionError) by (apply SM; split; [reflexivity|exists a, z; split; [apply Same; exact Ef|exact R]]).
        discriminate K.
      * assert (Ee : @Raise visibility e' = Raise e <-> @Raise (option float) e' = Raise e) by (split; intros H; injection H as ->; reflexivity).
        rewrite Ee, SM. split.
        -- intros (-> & a & z & Ef & R). exists a, z. split; [apply Same; exact Ef|left; auto].
        -- intros (a & z & Ef & [(-> & _ & R)|(_ & K & _)]); [|discriminate K]. split; [reflexivity|]. exists a, z. split; [apply Same; exact Ef|exact R].
    + cbn [bind]. split; [intros H; discriminate H|]. intros (a & z & Ef & _). apply Same in Ef. rewrite Ef in T.
      rewrite orb_true_r in T. discriminate T.
  - change (opt_str_eqb (Some (py "KM")) (py "SM")) with false. change (opt_str_eqb (Some (py "KM")) (py "KM")) with true. cbv iota. cbn [bind].
    destruct Hi as [Hi|(i & n & Hi & R)]; rewrite Hi.
    + destruct Hf as [[-> Gf]|(a & z & -> & _ & _ & Gf)]; rewrite Gf; cbn [truthy orb bind int_of_opt].
      * split; [intros H; discriminate H|]. intros (a & z & Ef & _). discriminate Ef.
      * split.
        -- intros H. injection H as <-. exists a, z. split; [reflexivity|right; auto].
        -- intros (a' & z' & _ & [(_ & K & _)|(-> & _ & _)]); [discriminate K|reflexivity].
    + cbn [int_of_opt]. rewrite (reads_int i n R). cbn [bind].
      destruct (truthy (Some i) || truthy (group m "fraction")); cbn [bind]; (split; [intros H; discriminate H|]);
        intros (a & z & _ & [(_ & K & _)|(_ & _ & K)]); discriminate K.
  - change (opt_str_eqb (Some (py "M")) (py "SM")) with false. change (opt_str_eqb (Some (py "M")) (py "KM")) with false. cbv iota. cbn [bind].
    destruct (truthy (group m "integer") || truthy (group m "fraction")); cbn [bind]; (split; [intros H; discriminate H|]);
        intros (a & z & _ & [(_ & K & _)|(_ & K & _)]); discriminate K.
  - change (opt_str_eqb (Some (py "U")) (py "SM")) with false. change (opt_str_eqb (Some (py "U")) (py "KM")) with false. cbv iota. cbn [bind].
    destruct (truthy (group m "integer") || truthy (group m "fraction")); cbn [bind]; (split; [intros H; discriminate H|]);
        intros (a & z & _ & [(_ & K & _)|(_ & K & _)]); discriminate K.
Qed.
Lemma units_result : forall g m f w e, re_match r_VISIBILITY g = Some m ->
  In w UNITS -> group m "units" = Some w ->
  (f = [] /\ group m "fraction" = None
     \/ exists a z, f = [a; 47%N; z] /\ is_digit a = true /\ is_digit z = true /\ group m "fraction" = Some f) ->
  silent m "vis" -> silent m "dir" -> silent m "cavok" ->
  (prevailing_new (Some m) = Raise e <-> unit_fails f w (group m "integer") e).
Proof. intros g m f w e M. exact (unit_result m f w e (vis_integer r_VISIBILITY g m (proj1 vis_checks_ok) M)). Qed.

(** What the four characters and the direction do. *)
Lemma digits_result : forall m d e, (d = [] /\ group m "dir" = None \/ In d dirs /\ group m "dir" = Some d) ->
  silent m "integer" -> silent m "fraction" -> silent m "units" -> silent m "cavok" ->
  (prevailing_new (Some m) = Raise e <-> e = ValueError /\ In d [py "EE"; py "EW"; py "WE"; py "WW"]).
Proof.
  intros m d e D Si Sf Su Sc. destruct (direction_new None) as [d0|] eqn:E0; [|vm_compute in E0; discriminate E0].
  unfold prevailing_new. rewrite E0. cbn [bind]. cbv zeta. rewrite Si, Sf, Su, Sc. cbn [truthy orb bind].
  destruct D as [[-> ->]|[Id ->]].
  - cbn [bind]. split; [intros H; discriminate H|]. intros (_ & K). cbn in K. intuition discriminate.
  - rewrite (dir_read d (Ok d0) Id). destruct (dirs_bad d Id) as [[Bd ->]|[Gd (y & ->)]]; cbn [bind].
    + split; [|intros [-> _]; reflexivity]. intros H. injection H as <-. auto.
    + split; [intros H; discriminate H|]. intros [_ K]. contradiction.
Qed.

(** CAVOK never fails. *)
Lemma word_result : forall m e, silent m "vis" -> silent m "dir" -> silent m "integer" -> silent m "fraction" -> silent m "units" ->
  prevailing_new (Some m) <> Raise e.
Proof.
  intros m e Sv Sd Si Sf Su. destruct (direction_new None) as [d0|] eqn:E0; [|vm_compute in E0; discriminate E0].
  unfold prevailing_new. rewrite E0. cbn [bind]. cbv zeta. rewrite Sv, Sd, Si, Sf, Su. cbn [truthy orb bind].
  intros H. destruct (truthy (group m "cavok")); discriminate H.
Qed.

Lemma leads_split : forall l, In l LEADS -> exists s u, l = s ++ u /\ In s [[]; py "M"; py "P"] /\ In u [[]; py "_"].
Proof.
  intros l I. destruct I as [<-|[<-|[<-|[<-|[<-|[<-|[]]]]]]];
    [exists [], []|exists (py "M"), []|exists (py "P"), []|exists [], (py "_")|exists (py "M"), (py "_")|exists (py "P"), (py "_")];
    (split; [reflexivity|]); (split; cbn; tauto).
Qed.

Theorem prevailing_exact : forall g m e, re_match r_VISIBILITY g = Some m ->
  (prevailing_new (Some m) = Raise e <-> vision_fails g e).
Proof.
  intros g m e M. pose proof (vision_shape g m M) as V.
  destruct V as [v d t Eg Fv Et D Si Sf Su Sc|l f w t Eg Et Iw Gu Hf Fr Hi Sv Sd Sc|t Eg Et Sv Sd Si Sf Su].
  - rewrite (digits_result m d e D Si Sf Su Sc).
    assert (Id : d = [] \/ In d dirs) by (destruct D as [[H _]|[H _]]; auto).
    split.
    + intros [-> Bd]. cbn [vision_fails]. exists (v ++ d).
      split; [exists [], t; rewrite Eg; cbn [app]; rewrite app_assoc; reflexivity|].
      exists v, d. split; [reflexivity|]. split; [exact Bd|exact (four_reads v Fv)].
    + intros H. destruct e; cbn [vision_fails] in H; try contradiction.
      * destruct H as (x & C & N). split; [reflexivity|]. exact (bad_direction_digits g v d t x Eg Fv Et Id C N).
      * exfalso. destruct (km_slash g H) as (p & c & y & E & Dc). exact (digits_no_fraction g v d t Eg Fv Et Id p c y E Dc).
      * exfalso. destruct H as (x & C & N). destruct (zero_slash g x C N) as (p & c & y & E & Dc).
        exact (digits_no_fraction g v d t Eg Fv Et Id p c y E Dc).
  - assert (Hf2 : f = [] \/ exists a z, f = [a; 47%N; z] /\ is_digit a = true /\ is_digit z = true).
    { destruct Hf as [[H _]|(a & z & H1 & H2 & H3 & _)]; [left; exact H|right; exists a, z; auto]. }
    rewrite (units_result g m f w e M Iw Gu Hf Sv Sd Sc). unfold unit_fails. split.
    + intros (a & z & -> & [(-> & -> & R)|(-> & -> & Ni)]); cbn [vision_fails].
      * exists ([a] ++ py "/" ++ [z] ++ py "SM"). split.
        -- exists l, t. rewrite Eg. reflexivity.
        -- destruct Hf2 as [K|(a' & z' & K & Da & _)]; [discriminate K|]. injection K as <- <-.
           destruct (one_digit_reads a Da) as (n & Ra). exists [a], [z], n. auto.
      * destruct Hi as [[_ Il]|(i & K & _)]; [|congruence]. destruct (leads_split l Il) as (s & u & -> & Is & Iu).
        destruct Hf2 as [K|(a' & z' & K & Da & Dz)]; [discriminate K|]. injection K as <- <-.
        destruct (one_digit_reads a Da) as (n & Ra). destruct (one_digit_reads z Dz) as (k & Rz).
        exists s, u, [a], [z], n, k, t. rewrite Eg, <- !app_assoc. conjs; auto.
    + intros H. destruct e; cbn [vision_fails] in H; try contradiction.
      * exfalso. destruct H as (x & C & N). exact (no_bad_direction g l f w t Eg Et Iw Hf2 Fr x C N).
      * destruct (km_place g l f w t Eg Et Iw Hf2 Fr H) as (a & z & Ef & Ew & Nd). exists a, z. split; [exact Ef|].
        right. split; [reflexivity|]. split; [exact Ew|]. destruct Hi as [[Hi _]|(i & _ & c & Ic & Dc)]; [exact Hi|].
        rewrite (Nd c Ic) in Dc. discriminate Dc.
      * destruct H as (x & C & N). destruct (zero_place g l f w t Eg Et Iw Hf2 Fr x C N) as (a & z & Ef & Ew & R).
        exists a, z. split; [exact Ef|left; auto].
  - split.
    + intros H. exfalso. exact (word_result m e Sv Sd Si Sf Su H).
    + intros H. exfalso. destruct e; cbn [vision_fails] in H; try contradiction.
      * destruct H as (x & C & N). exact (word_no_direction g t x Eg Et C N).
      * destruct (km_slash g H) as (p & c & y & E & _). exact (word_no_fraction g t Eg Et _ y (slash_in g p c y E)).
      * destruct H as (x & C & N). destruct (zero_slash g x C N) as (p & c & y & E & _).
        exact (word_no_fraction g t Eg Et _ y (slash_in g p c y E)).
Qed.
