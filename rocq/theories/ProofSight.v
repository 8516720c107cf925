(** * Proofs: when an accepted visibility of the body of a TAF fails (C84) *)
From Coq Require Import String Ascii.
From Coq Require Import List NArith ZArith Bool Lia.
From Verif Require Import PyBase PyRegex AeroRegex PyFloat PyTime Utils Base MetarGroups
  SpecNum SpecTime SpecFailures SpecVision SpecRefusedTaf StrFacts RegexPaths Captures DigitFacts Outcomes SymRegex ProofGroups ProofValues SymFirst ProofVision.
Import ListNotations.
Local Open Scope string_scope.
Local Open Scope nat_scope.
Local Open Scope list_scope.

(** ** From the failure to the word *)

Definition MP : cls -> bool := single_cls [77; 80]%N.
Definition US : cls -> bool := single_cls [95]%N.

(** Before the fraction: M or P, up to two digits, an underscore. *)
Definition us_path (ks : list cls) : bool := match ks with [] => true | [k] => US k | _ => false end.
Definition num_path (ks : list cls) : bool :=
  us_path ks || match ks with
                | k :: ks' => digit_cls k && (us_path ks' || match ks' with k' :: ks'' => digit_cls k' && us_path ks'' | [] => false end)
                | [] => false
                end.
Definition head_path (ks : list cls) : bool := num_path ks || match ks with k :: ks' => MP k && num_path ks' | [] => false end.

Definition sight_units (q : cpath) : bool :=
  by_units q && match span_of "fraction" (snd q) with
                | None => true
                | Some (c, d) => head_path (firstn c (fst q)) && lead_ok q c
                                 && match span_of "units" (snd q) with Some (b, e) => Nat.eqb d b && Nat.leb c d && Nat.eqb e (length (fst q)) | None => false end
                end.
Definition sight_digits (q : cpath) : bool :=
  by_digits q && digits_path 4 4 (firstn 4 (fst q)) && match span_of "dir" (snd q) with Some (b, e) => Nat.eqb b 4 && Nat.eqb e (length (fst q)) | None => true end.
Definition sight_path (q : cpath) : bool := sight_digits q || sight_units q || by_word q.
Lemma sight_paths : forallb sight_path (cpaths r_T_VISIBILITY) = true /\ starfree r_T_VISIBILITY = true.
Proof. conjs; vm_compute; reflexivity. Qed.

Lemma us_shape : forall x ks, along x ks -> us_path ks = true -> In x [[]; py "_"].
Proof.
  intros x ks A H. destruct ks as [|k [|k2 ks]]; try discriminate H.
  - apply along_nil in A. subst x. left. reflexivity.
  - apply along_cons in A. destruct A as (c & y & -> & Hc & A). apply along_nil in A. subst y.
    destruct (in_single _ _ _ H Hc) as [<-|[]]. right. left. reflexivity.
Qed.
Lemma num_shape : forall x ks, along x ks -> num_path ks = true ->
  exists i u, x = i ++ u /\ all_digits i /\ length i <= 2 /\ In u [[]; py "_"].
Proof.
  intros x ks A H. unfold num_path in H. apply orb_prop in H. destruct H as [H|H].
  - exists [], x. split; [reflexivity|]. split; [constructor|]. split; [cbn; lia|exact (us_shape x ks A H)].
  - destruct ks as [|k ks]; [discriminate H|]. apply andb_prop in H. destruct H as [Hk H].
    apply along_cons in A. destruct A as (c & y & -> & Hc & A). pose proof (in_digit_cls c k Hk Hc) as Dc. apply orb_prop in H. destruct H as [H|H].
    + exists [c], y. split; [reflexivity|]. split; [constructor; [exact Dc|constructor]|]. split; [cbn; lia|exact (us_shape y ks A H)].
    + destruct ks as [|k2 ks]; [discriminate H|]. apply andb_prop in H. destruct H as [Hk2 H].
      apply along_cons in A. destruct A as (c2 & y2 & -> & Hc2 & A). pose proof (in_digit_cls c2 k2 Hk2 Hc2) as Dc2.
      exists [c; c2], y2. split; [reflexivity|]. split; [constructor; [exact Dc|constructor; [exact Dc2|constructor]]|]. split; [cbn; lia|exact (us_shape y2 ks A H)].
Qed.
Lemma head_shape : forall x ks, along x ks -> head_path ks = true ->
  exists s i u, x = s ++ i ++ u /\ In s [[]; py "M"; py "P"] /\ all_digits i /\ length i <= 2 /\ In u [[]; py "_"].
Proof.
  intros x ks A H. unfold head_path in H. apply orb_prop in H. destruct H as [H|H].
  - destruct (num_shape x ks A H) as (i & u & -> & R). exists [], i, u. split; [reflexivity|]. split; [left; reflexivity|exact R].
  - destruct ks as [|k ks]; [discriminate H|]. apply andb_prop in H. destruct H as [Hk H].
    apply along_cons in A. destruct A as (c & y & -> & Hc & A). destruct (num_shape y ks A H) as (i & u & -> & R).
    exists [c], i, u. split; [reflexivity|]. split; [|exact R]. destruct (in_single _ _ _ Hk Hc) as [<-|[<-|[]]]; cbn; tauto.
Qed.

Lemma digits_nil_reads : forall i, all_digits i -> i = [] \/ exists k, reads i k.
Proof. intros [|c i] D; [left; reflexivity|right]. apply all_digits_reads; [exact D|discriminate]. Qed.

(** The match, cut off where it ends. *)
Lemma sight_word : forall g m e, re_match r_T_VISIBILITY g = Some m -> prevailing_new (Some m) = Raise e -> sight_fails g e.
Proof.
  intros g m e M R. destruct sight_paths as [P F]. destruct (match_follows r_T_VISIBILITY g m F M) as (q & x & t & I & Fo).
  rewrite forallb_forall in P. specialize (P q I).
  pose proof (vis_integer r_T_VISIBILITY g m (proj1 (proj2 vis_checks_ok)) M) as Ri.
  pose proof Fo as (Eg & _ & A & G). pose proof (along_length x _ A) as Lx.
  set (m' := mk_match x 0 (length x) (snd q)).
  assert (G' : forall n, group m' n = group m n) by (intro n; rewrite G; reflexivity).
  assert (Fo' : Captures.follows x m' q x []).
  { split; [symmetry; apply app_nil_r|]. split; [reflexivity|]. split; [exact A|]. intro n. reflexivity. }
  assert (SI : forall n, silent m' n -> silent m n) by (intros n S0; unfold silent in *; rewrite <- G'; exact S0).
  unfold sight_path in P. apply orb_prop in P. destruct P as [P|P]; [apply orb_prop in P; destruct P as [P|P]|].
  - unfold sight_digits in P. apply andb_prop in P. destruct P as [P P3]. apply andb_prop in P. destruct P as [P1 P2].
    destruct (by_digits_parts x m' q x [] Fo' eq_refl P1) as (v & d & t' & Ex & Fv & _ & D & S1 & S2 & S3 & S4).
    rewrite G' in D. apply (digits_result m d e D) in R; try (apply SI; assumption). destruct R as [-> Bd].
    destruct (digits_path_ok _ _ 4 4 (along_firstn 4 x _ A) P2) as [Dv Lv].
    assert (Ev : firstn 4 x = v) by (rewrite Ex, firstn_app, (four_length v Fv), firstn_all2, firstn_O, app_nil_r by (rewrite (four_length v Fv); lia); reflexivity).
    rewrite Ev in Dv, Lv. destruct (all_digits_reads v Dv ltac:(intros ->; cbn in Lv; lia)) as (n & Rv).
    exists (v ++ d), (t' ++ t). split; [rewrite Eg, Ex, <- !app_assoc; reflexivity|]. exists v, d, n. conjs; auto. lia.
  - unfold sight_units in P. apply andb_prop in P. destruct P as [P1 P2].
    pose proof (by_units_vision x m' q x [] Fo' eq_refl P1) as V.
    destruct V as [v d t0 E1 _ _ _ _ _ Su _|l f w t0 Ex Et Iw Gu Hf Fr Hi Sv Sd Sc|t0 _ _ _ _ _ _ Su].
    1,3: exfalso; unfold by_units in P1; do 3 (apply andb_prop in P1; destruct P1 as [P1 _]); unfold silent in Su; rewrite G', G in Su;
      destruct (span_of "units" (snd q)) as [[b e0]|]; [discriminate Su|discriminate P1].
    rewrite !G' in *. apply SI in Sv, Sd, Sc.
    apply (unit_result m f w e Ri Iw Gu Hf Sv Sd Sc) in R. destruct R as (a & z & Ef & R).
    destruct Hf as [[K _]|(a' & z' & K & Da & Dz & Gf)]; [rewrite Ef in K; discriminate K|]. rewrite Ef in K. injection K as <- <-.
    destruct (one_digit_reads a Da) as (n & Ra). destruct (one_digit_reads z Dz) as (kz & Rz).
    pose proof Gf as Gf'. pose proof Gu as Gu'. rewrite G in Gf', Gu'.
    destruct (span_of "fraction" (snd q)) as [[c d]|]; [|discriminate Gf'].
    apply andb_prop in P2. destruct P2 as [P2 P3]. apply andb_prop in P2. destruct P2 as [P2 Lc].
    destruct (span_of "units" (snd q)) as [[b e0]|]; [|discriminate Gu'].
    apply andb_prop in P3. destruct P3 as [P3 P4]. apply andb_prop in P3. destruct P3 as [P3 P5]. apply Nat.eqb_eq in P3, P4. apply Nat.leb_le in P5. subst d e0.
    injection Gf' as Xf. injection Gu' as Xw.
    destruct (head_shape _ _ (along_firstn c x _ A) P2) as (s & i & u & Eh & Is & Di & Li & Iu).
    assert (Lb : b <= length (fst q)).
    { destruct (Nat.le_gt_cases b (length (fst q))) as [K|K]; [exact K|exfalso]. unfold substr in Xw.
      rewrite skipn_all2 in Xw by lia. rewrite firstn_nil in Xw. rewrite <- Xw in Iw. cbn in Iw. intuition discriminate. }
    assert (X : x = (s ++ i ++ u) ++ f ++ w).
    { rewrite <- Eh, <- Xf, <- Xw. assert (E0 : firstn c x = substr x 0 c) by (unfold substr; rewrite Nat.sub_0_r; reflexivity).
      rewrite E0, app_assoc, !substr_cat by lia. unfold substr. rewrite Nat.sub_0_r, <- Lx. symmetry. apply firstn_all. }
    destruct R as [(-> & -> & R0)|(-> & -> & Ni)]; exists x, t; (split; [exact Eg|]).
    + exists s, i, u, [a], [z], n. split; [rewrite X, Ef, <- !app_assoc; reflexivity|]. conjs; auto. exact (digits_nil_reads i Di).
    + destruct (lead_ok_shape x m' q x [] c Fo' Lc) as [_ [[_ Il]|(j & K & _)]]; [|rewrite G' in K; rewrite K in Ni; discriminate Ni].
      destruct (leads_split _ Il) as (s' & u' & El & Is' & Iu'). exists s', u', [a], [z], n, kz.
      split; [rewrite X, <- Eh, El, Ef, <- !app_assoc; reflexivity|]. conjs; auto.
  - exfalso. unfold by_word in P. do 5 (apply andb_prop in P; destruct P as [P ?K]).
    refine (word_result m e _ _ _ _ _ R); apply (none_silent _ _ _ _ _ _ Fo); assumption.
Qed.

(** ** From the word to the failure *)

Definition names : list string := ["vis"; "dir"; "integer"; "fraction"; "units"; "cavok"].
Definition dg : sym := nd_all.
Definition unit_shape (w : string) (h i u : shape) : shape := h ++ i ++ u ++ [("fraction", [dg; [47%N]; dg]); ("units", lit w)].
Definition heads : list shape := [[]; [("-", [[77%N]])]; [("-", [[80%N]])]].
Definition nums : list shape := [[]; [("integer", [dg])]; [("integer", [dg; dg])]].
Definition bars : list shape := [[]; [("-", [[95%N]])]].
Definition dir_shape (d : string) : shape := [("vis", [dg; dg; dg; dg]); ("dir", lit d)].

Lemma sight_shapes :
  forallb (fun w => forallb (fun h => forallb (fun i => forallb (fun u =>
    captures1_ok true r_T_VISIBILITY names (length (ssym (unit_shape w h i u))) (unit_shape w h i u)) bars) nums) heads) ["SM"; "KM"] = true
  /\ forallb (fun d => captures1_ok true r_T_VISIBILITY names 6 (dir_shape d)) ["EE"; "EW"; "WE"; "WW"] = true.
Proof. conjs; vm_compute; reflexivity. Qed.

Lemma digit_inst : forall c, is_digit c = true -> In c dg.
Proof. exact in_nd_all. Qed.
Lemma lit_inst : forall w, inst (py w) (lit w).
Proof. intro w. unfold lit. induction (py w) as [|c x IH]; cbn [map]; constructor; [left; reflexivity|exact IH]. Qed.
Lemma digits_inst : forall v, all_digits v -> inst v (repeat dg (length v)).
Proof. intros v D. induction D as [|c v Dc D IH]; cbn [length repeat]; constructor; [exact (digit_inst c Dc)|exact IH]. Qed.

Lemma head_fits : forall s, In s [[]; py "M"; py "P"] -> exists t h, In h heads /\ fits t h /\ tcode t = s /\ (forall n, In n names -> lookup n t = None).
Proof.
  intros s I. assert (K : forall t : text, (forall x, In x t -> fst x = "-") -> forall n, In n names -> lookup n t = None).
  { intros t. induction t as [|[n' y] t IH]; intros H n In0; [reflexivity|]. cbn [lookup]. pose proof (H _ (or_introl eq_refl)) as E. cbn [fst] in E. subst n'.
    destruct (String.eqb_spec n "-") as [->|_]; [cbn in In0; intuition discriminate|]. apply IH; [intros x Hx; apply H; right; exact Hx|exact In0]. }
  destruct I as [<-|[<-|[<-|[]]]].
  - exists [], []. split; [left; reflexivity|]. split; [constructor|]. split; [reflexivity|]. apply K. intros x [].
  - exists [("-", py "M")], [("-", [[77%N]])]. split; [right; left; reflexivity|]. split; [constructor; [split; [reflexivity|exact (lit_inst "M")]|constructor]|]. split; [reflexivity|].
    apply K. intros x [<-|[]]. reflexivity.
  - exists [("-", py "P")], [("-", [[80%N]])]. split; [right; right; left; reflexivity|]. split; [constructor; [split; [reflexivity|exact (lit_inst "P")]|constructor]|]. split; [reflexivity|].
    apply K. intros x [<-|[]]. reflexivity.
Qed.
Lemma bar_fits : forall s, In s [[]; py "_"] -> exists t h, In h bars /\ fits t h /\ tcode t = s /\ (forall n, In n names -> lookup n t = None).
Proof.
  intros s [<-|[<-|[]]].
  - exists [], []. split; [left; reflexivity|]. split; [constructor|]. split; reflexivity.
  - exists [("-", py "_")], [("-", [[95%N]])]. split; [right; left; reflexivity|]. split; [constructor; [split; [reflexivity|exact (lit_inst "_")]|constructor]|]. split; [reflexivity|].
    intros n I. cbn [lookup]. destruct (String.eqb_spec n "-") as [->|_]; [cbn in I; intuition discriminate|reflexivity].
Qed.
Lemma num_fits : forall i, all_digits i -> length i <= 2 -> exists t h, In h nums /\ fits t h /\ tcode t = i
  /\ lookup "integer" t = (match i with [] => None | _ => Some i end) /\ (forall n, In n names -> n <> "integer" -> lookup n t = None).
Proof.
  intros i D L. destruct i as [|c [|c2 [|c3 i]]]; [| | |cbn in L; lia].
  - exists [], []. split; [left; reflexivity|]. split; [constructor|]. conjs; reflexivity.
  - exists [("integer", [c])], [("integer", [dg])]. split; [right; left; reflexivity|].
    split; [constructor; [split; [reflexivity|exact (digits_inst _ D)]|constructor]|]. split; [reflexivity|]. split; [reflexivity|].
    intros n _ N. cbn [lookup]. apply String.eqb_neq in N. rewrite N. reflexivity.
  - exists [("integer", [c; c2])], [("integer", [dg; dg])]. split; [right; right; left; reflexivity|].
    split; [constructor; [split; [reflexivity|exact (digits_inst _ D)]|constructor]|]. split; [reflexivity|]. split; [reflexivity|].
    intros n _ N. cbn [lookup]. apply String.eqb_neq in N. rewrite N. reflexivity.
Qed.

Lemma lookup_app : forall n (t1 t2 : text), lookup n (t1 ++ t2) = match lookup n t1 with Some x => Some x | None => lookup n t2 end.
Proof. intros n t1 t2. induction t1 as [|[n' x] t1 IH]; [reflexivity|]. cbn [app lookup]. destruct (String.eqb n n'); [reflexivity|exact IH]. Qed.
Lemma tcode_app : forall t1 t2 : text, tcode (t1 ++ t2) = tcode t1 ++ tcode t2.
Proof. intros t1 t2. unfold tcode. rewrite map_app, concat_app. reflexivity. Qed.

(** The word is matched up to its unit. *)
Lemma units_match : forall s i u a z w rest, In w ["SM"; "KM"] -> In s [[]; py "M"; py "P"] -> all_digits i -> length i <= 2 -> In u [[]; py "_"] ->
  is_digit a = true -> is_digit z = true ->
  exists m, re_match r_T_VISIBILITY ((s ++ i ++ u ++ [a; 47%N; z] ++ py w) ++ rest) = Some m
    /\ group m "units" = Some (py w) /\ group m "fraction" = Some [a; 47%N; z] /\ group m "integer" = (match i with [] => None | _ => Some i end)
    /\ silent m "vis" /\ silent m "dir" /\ silent m "cavok".
Proof.
  intros s i u a z w rest Iw Is Di Li Iu Da Dz.
  destruct (head_fits s Is) as (ts & hs & Ih & Fh & Es & Ls). destruct (num_fits i Di Li) as (ti & hi & Ii & Fi & Ei & Li1 & Li2).
  destruct (bar_fits u Iu) as (tu & hu & Ib & Fu & Eu & Lu).
  set (tw := [("fraction", [a; 47%N; z]); ("units", py w)] : text).
  assert (Fw : fits tw [("fraction", [dg; [47%N]; dg]); ("units", lit w)]).
  { constructor; [|constructor; [|constructor]]; (split; [reflexivity|]); cbn [snd].
    - constructor; [exact (digit_inst a Da)|]. constructor; [left; reflexivity|]. constructor; [exact (digit_inst z Dz)|constructor].
    - exact (lit_inst w). }
  assert (F : fits (ts ++ ti ++ tu ++ tw) (unit_shape w hs hi hu)) by (unfold unit_shape; repeat apply Forall2_app; assumption).
  pose proof (proj1 sight_shapes) as C. rewrite forallb_forall in C. specialize (C w Iw). rewrite forallb_forall in C. specialize (C hs Ih).
  rewrite forallb_forall in C. specialize (C hi Ii). rewrite forallb_forall in C. specialize (C hu Ib).
  destruct (captures_more _ _ _ _ _ rest F C) as (m & Em & _ & _ & G).
  exists m. rewrite !tcode_app, Es, Ei, Eu in Em. unfold tw in Em at 1. cbn [tcode map snd concat] in Em. rewrite app_nil_r in Em. split; [exact Em|].
  assert (GL : forall n, In n names -> group m n = match lookup n ti with Some x => Some x | None => lookup n tw end).
  { intros n I. rewrite (G n I), lookup_app, (Ls n I), lookup_app, lookup_app, (Lu n I). reflexivity. }
  unfold silent. rewrite !GL by (cbn; tauto). rewrite Li1, !Li2 by (discriminate || (cbn; tauto)).
  unfold tw. destruct i; conjs; reflexivity.
Qed.

Lemma dir_match : forall v d rest, In d ["EE"; "EW"; "WE"; "WW"] -> all_digits v -> length v = 4 ->
  exists m, re_match r_T_VISIBILITY ((v ++ py d) ++ rest) = Some m /\ group m "dir" = Some (py d)
    /\ silent m "integer" /\ silent m "fraction" /\ silent m "units" /\ silent m "cavok".
Proof.
  intros v d rest Id Dv Lv. set (t := [("vis", v); ("dir", py d)] : text).
  assert (F : fits t (dir_shape d)).
  { constructor; [|constructor; [|constructor]]; (split; [reflexivity|]); cbn [snd]; [|exact (lit_inst d)].
    pose proof (digits_inst v Dv) as K. rewrite Lv in K. exact K. }
  pose proof (proj2 sight_shapes) as C. rewrite forallb_forall in C. specialize (C d Id).
  destruct (captures_more _ _ _ _ _ rest F C) as (m & Em & _ & _ & G).
  exists m. unfold t in Em. cbn [tcode map snd concat] in Em. rewrite app_nil_r in Em. split; [exact Em|].
  unfold silent. rewrite !G by (cbn; tauto). conjs; reflexivity.
Qed.

Lemma one_char_reads : forall a n, reads a n -> length a = 1 -> exists c, a = [c] /\ is_digit c = true.
Proof.
  intros a n R L. destruct (reads_digits a n R) as [_ D]. destruct a as [|c [|c2 a]]; try discriminate L. exists c. split; [reflexivity|].
  inversion D; assumption.
Qed.

Lemma sight_raises : forall g m e, re_match r_T_VISIBILITY g = Some m -> sight_fails g e -> prevailing_new (Some m) = Raise e.
Proof.
  intros g m e M (x & rest & -> & B). destruct e; cbn [sight_bad] in B; try contradiction.
  - destruct B as (v & d & n & -> & Rv & Lv & Id). destruct (reads_digits v n Rv) as [_ Dv].
    assert (K : exists d', d = py d' /\ In d' ["EE"; "EW"; "WE"; "WW"]).
    { destruct Id as [<-|[<-|[<-|[<-|[]]]]]; eexists; (split; [reflexivity|]); cbn; tauto. }
    destruct K as (d' & -> & Id'). destruct (dir_match v d' rest Id' Dv Lv) as (m1 & E1 & Gd & S1 & S2 & S3 & S4).
    assert (m1 = m) by congruence. subst m1. apply (digits_result m (py d') ValueError); try assumption; [|auto].
    right. split; [|exact Gd]. destruct Id' as [<-|[<-|[<-|[<-|[]]]]]; cbn; tauto.
  - destruct B as (s & u & a & z & n & k & -> & Is & Iu & Ra & La & Rz & Lz).
    destruct (one_char_reads a n Ra La) as (ca & -> & Da). destruct (one_char_reads z k Rz Lz) as (cz & -> & Dz).
    destruct (units_match s [] u ca cz "KM" rest) as (m1 & E1 & Gu & Gf & Gi & S1 & S2 & S3); try assumption; [right; left; reflexivity|constructor|cbn; lia|].
    assert (K : Some m1 = Some m) by (rewrite <- E1; exact M). injection K as ->.
    apply (unit_result m [ca; 47%N; cz] (py "KM") TypeError); try assumption.
    + rewrite Gi. discriminate.
    + right. left. reflexivity.
    + right. exists ca, cz. auto.
    + exists ca, cz. split; [reflexivity|]. right. rewrite Gi. auto.
  - destruct B as (s & i & u & a & z & n & -> & Is & Hi & Li & Iu & Ra & La & Rz & Lz).
    destruct (one_char_reads a n Ra La) as (ca & -> & Da). destruct (one_char_reads z 0%N Rz Lz) as (cz & -> & Dz).
    assert (Di : all_digits i) by (destruct Hi as [->|(k & Ri)]; [constructor|exact (proj2 (reads_digits i k Ri))]).
    destruct (units_match s i u ca cz "SM" rest) as (m1 & E1 & Gu & Gf & Gi & S1 & S2 & S3); try assumption; [left; reflexivity|].
    assert (K : Some m1 = Some m) by (rewrite <- E1; exact M). injection K as ->.
    apply (unit_result m [ca; 47%N; cz] (py "SM") ZeroDivisionError); try assumption.
    + rewrite Gi. intros j E. destruct Hi as [->|(k & Ri)]; [discriminate E|]. destruct i; [discriminate E|]. injection E as <-. exists k. exact Ri.
    + left. reflexivity.
    + right. exists ca, cz. auto.
    + exists ca, cz. split; [reflexivity|]. left. auto.
Qed.

Theorem sight_exact : forall g m e, re_match r_T_VISIBILITY g = Some m -> (prevailing_new (Some m) = Raise e <-> sight_fails g e).
Proof. intros g m e M. split; [exact (sight_word g m e M)|exact (sight_raises g m e M)]. Qed.
