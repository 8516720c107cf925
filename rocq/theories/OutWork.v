(** * The work of a whole report *)
From Coq Require Import String Ascii.
From Coq Require Import List NArith ZArith Bool Arith Lia.
From Verif Require Import PyBase PyRegex AeroRegex Utils Base MetarGroups Trend Metar Taf StrFacts RegexPaths Keeps ProofKeptText.
From Verif Require Import SpecWork ProofWork ProofWorkText.
Import ListNotations.
Local Open Scope string_scope.
Local Open Scope nat_scope.
Local Open Scope list_scope.

Notation len s := (N.of_nat (length s)).

Lemma section_N : forall S (hs : list (handler S)) s W, forallb starfree (map (@h_regexp S) hs) = true ->
  (N.of_nat (weight (map (@h_regexp S) hs)) <= W -> N.of_nat (section_work hs s) <= W * (len s + 1))%N.
Proof.
  intros S hs s W F L. pose proof (section_work_ok S hs s _ F (le_n _)) as H.
  assert (E : (N.of_nat (section_work hs s) <= N.of_nat (weight (map (@h_regexp S) hs)) * (len s + 1))%N).
  { replace (len s + 1)%N with (N.of_nat (length s + 1)) by lia. rewrite <- Nat2N.inj_mul. lia. }
  eapply N.le_trans; [exact E|]. apply N.mul_le_mono_r. exact L.
Qed.

Lemma mixed_length : forall s, length (sanitize_visibility s) <= length s + 3.
Proof. intro s. apply mixed_n_length. Qed.

Lemma under_length : forall s, length (replace (py "_") (py " ") s) <= length s.
Proof. intro s. apply replace_length; [discriminate|cbn; lia]. Qed.

Lemma trend_work_ok : forall t, (N.of_nat (trend_work t) <= 17000 * (len t + 1))%N.
Proof.
  intro t. unfold trend_work. cbv zeta. pose proof (under_length t) as U. set (s := replace (py "_") (py " ") t) in *.
  pose proof (mixed_work_ok 3 s) as A. pose proof (mixed_length s) as B.
  assert (C := section_N _ trend_handlers (sanitize_visibility s) 4098%N eq_refl). specialize (C ltac:(vm_compute; discriminate)). lia.
Qed.

Lemma change_work_ok : forall t, (N.of_nat (change_work t) <= 17500 * (len t + 1))%N.
Proof.
  intro t. unfold change_work. cbv zeta. pose proof (under_length t) as U. set (s := replace (py "_") (py " ") t) in *.
  pose proof (prob_work_ok 5 s) as P. assert (Q : length (sanitize_change_indicator s) <= length s) by apply prob_n_length.
  set (u := sanitize_change_indicator s) in *. pose proof (mixed_work_ok 3 u) as A. pose proof (mixed_length u) as B.
  assert (C := section_N _ change_handlers (sanitize_visibility u) 4089%N eq_refl). specialize (C ltac:(vm_compute; discriminate)). lia.
Qed.

Lemma sum_N : forall (f : str -> nat) W l, (forall t, (N.of_nat (f t) <= W * (len t + 1))%N) ->
  (N.of_nat (list_sum (map f l)) <= W * N.of_nat (sizes l))%N.
Proof.
  intros f W l H. unfold sizes. induction l as [|t l IH]; [cbn; lia|]. cbn [map]. rewrite !sum_cons. rewrite !Nat2N.inj_add, N.mul_add_distr_l.
  apply N.add_le_mono; [|exact IH]. replace (N.of_nat (S (length t))) with (len t + 1)%N by lia. apply H.
Qed.

Lemma cut_pieces : forall s kws cnt sp M, (forall kw, In kw kws -> cut_ok (add_space sp kw) /\ S (2 * length (add_space sp kw)) <= M) ->
  sizes (split_sentence s kws cnt sp) <= S (length s).
Proof.
  intros s kws cnt sp M H. unfold split_sentence. rewrite pieces_length. apply le_n_S. exact (proj2 (split_work_ok sp cnt M kws s H)).
Qed.

Lemma sizes_cons : forall t l, sizes (t :: l) = S (length t) + sizes l.
Proof. reflexivity. Qed.

Lemma sort_length : forall l body trend remark b t r, sort_sections l body trend remark = (b, t, r) ->
  length t <= length trend + sizes l /\ length b <= Nat.max (length body) (sizes l - 1).
Proof.
  intro l. induction l as [|s l IH]; intros body trend remark b t r H; cbn [sort_sections] in H.
  - injection H as <- <- _. unfold sizes. cbn. split; lia.
  - rewrite sizes_cons. destruct (is_trend_section s).
    + destruct (IH _ _ _ _ _ _ H) as [A B]. rewrite !app_length in A. change (length (py " ")) with 1 in A. lia.
    + destruct (starts_with (py "RMK") s); destruct (IH _ _ _ _ _ _ H) as [A B]; lia.
Qed.

Lemma metar_cuts : forall kw, In kw [py "NOSIG"; py "TEMPO"; py "BECMG"; py "RMK"] -> cut_ok (add_space SpLeft kw) /\ S (2 * length (add_space SpLeft kw)) <= 13.
Proof. intros kw I. repeat (destruct I as [<-|I]; [split; [split; [discriminate|vm_compute; lia]|vm_compute; lia]|]). destruct I. Qed.
Lemma trend_cuts : forall kw, In kw [py "TEMPO"; py "BECMG"] -> cut_ok (add_space SpBoth kw) /\ S (2 * length (add_space SpBoth kw)) <= 15.
Proof. intros kw I. repeat (destruct I as [<-|I]; [split; [split; [discriminate|vm_compute; lia]|vm_compute; lia]|]). destruct I. Qed.
Lemma taf_cuts : forall kw, In kw [py "FM"; py "TEMPO"; py "BECMG"; py "PROB"] -> cut_ok (add_space SpLeft kw) /\ S (2 * length (add_space SpLeft kw)) <= 13.
Proof. intros kw I. repeat (destruct I as [<-|I]; [split; [split; [discriminate|vm_compute; lia]|vm_compute; lia]|]). destruct I. Qed.

Lemma sections_length : forall raw, length (section 0 (metar_sections raw)) <= length raw /\ length (section 1 (metar_sections raw)) <= S (length raw).
Proof.
  intro raw. unfold metar_sections. pose proof (cut_pieces raw _ None SpLeft 13 metar_cuts) as C.
  destruct (sort_sections (split_sentence raw [py "NOSIG"; py "TEMPO"; py "BECMG"; py "RMK"] None SpLeft) [] [] []) as [[b t] r] eqn:E.
  destruct (sort_length _ _ _ _ _ _ _ E) as [A B]. cbn [section nth length] in *. pose proof (strip_length t). unfold section. cbn [nth]. lia.
Qed.

Lemma norm_work : forall code, sub_steps r_NORMALISE None 0 0 (strip code) <= 13 * S (length code).
Proof.
  intro code. pose proof (sub_pays r_NORMALISE 13 (strip code) None 0 0 normalise_pays) as P. rewrite Nat.sub_0_r in P. pose proof (strip_length code). lia.
Qed.

Theorem metar_work_bound : forall e code year month, (N.of_nat (metar_work e code year month) <= 30000 * (len code + 4))%N.
Proof.
  intros e code year month. unfold metar_work. cbv zeta. pose proof (norm_work code) as W0. pose proof (normalise_length code) as L0.
  set (raw := normalise code) in *. destruct (sections_length raw) as [L1 L2].
  set (body := section 0 (metar_sections raw)) in *. set (trend := section 1 (metar_sections raw)) in *.
  pose proof (proj1 (split_work_ok SpLeft None 13 _ raw metar_cuts)) as W1.
  pose proof (proj1 (split_work_ok SpBoth (Some 1) 15 _ trend trend_cuts)) as W2.
  cbn [length] in W1, W2. pose proof (mixed_work_ok 3 body) as W3. pose proof (mixed_length body) as L3.
  pose proof (shear_work_ok (sanitize_visibility body)) as W4. assert (L4 : length (sanitize_body body) <= length (sanitize_visibility body)) by apply shear_length.
  assert (W5 := section_N _ (metar_handlers e year month) (sanitize_body body) 12142%N eq_refl). specialize (W5 ltac:(vm_compute; discriminate)).
  pose proof (sum_N trend_work _ (trend_codes trend) trend_work_ok) as W6. pose proof (cut_pieces trend _ (Some 1) SpBoth 15 trend_cuts) as L6.
  fold (trend_codes trend) in L6. lia.
Qed.

Theorem taf_work_bound : forall e code year month, (N.of_nat (taf_work e code year month) <= 23000 * (len code + 4))%N.
Proof.
  intros e code year month. unfold taf_work. cbv zeta. pose proof (norm_work code) as W0. pose proof (normalise_length code) as L0.
  set (raw := normalise code) in *. pose proof (prob_work_ok 5 raw) as W1. assert (L1 : length (sanitize_change_indicator raw) <= length raw) by apply prob_n_length.
  unfold taf_split. cbv zeta. set (s := sanitize_change_indicator raw) in *.
  assert (L2 : length (if starts_with (py "TAF") s then replace (py "TAF ") (py "TAF_") s else s) <= length raw).
  { destruct (starts_with (py "TAF") s); [|lia]. eapply Nat.le_trans; [apply replace_length; [discriminate|cbn; lia]|lia]. }
  set (u := if starts_with (py "TAF") s then replace (py "TAF ") (py "TAF_") s else s) in *.
  change (length u <= length raw) in L2.
  pose proof (proj1 (split_work_ok SpLeft None 13 _ u taf_cuts)) as W2. cbn [length] in W2.
  pose proof (cut_pieces u _ None SpLeft 13 taf_cuts) as L3.
  destruct (split_sentence u [py "FM"; py "TEMPO"; py "BECMG"; py "PROB"] None SpLeft) as [|b l]; cbn [fst snd].
  - cbn [map]. pose proof (mixed_work_ok 3 []) as W3. pose proof (mixed_length []) as L4. cbn [length] in *.
    assert (W5 := section_N _ (taf_handlers e year month) (sanitize_visibility []) 4369%N eq_refl). specialize (W5 ltac:(vm_compute; discriminate)).
    change (list_sum []) with 0. change (sanitize_visibility []) with (@nil N) in *. cbn [length] in *. lia.
  - rewrite sizes_cons in L3. assert (L5 : length (replace (py "TAF_") (py "TAF ") b) <= length b) by (apply replace_length; [discriminate|cbn; lia]).
    set (body := replace (py "TAF_") (py "TAF ") b) in *. pose proof (mixed_work_ok 3 body) as W3. pose proof (mixed_length body) as L4.
    assert (W5 := section_N _ (taf_handlers e year month) (sanitize_visibility body) 4369%N eq_refl). specialize (W5 ltac:(vm_compute; discriminate)).
    pose proof (sum_N change_work _ l change_work_ok) as W6. lia.
Qed.

(** The counted loop goes through the patterns as the program does. *)
Lemma group_cursor_from : forall S (hs : list (handler S)) g n,
  match first_match hs n g with Some (c, _, _) => c = n + snd (group_work (map (@h_regexp S) hs) g) /\ n < c
  | None => snd (group_work (map (@h_regexp S) hs) g) = 0 end.
Proof.
  intros S hs g. induction hs as [|h hs IH]; intro n; [reflexivity|]. cbn [first_match map group_work].
  rewrite found_run. unfold re_match. destruct (run (h_regexp h) 0 g) as [|[[e t] sp] l].
  - specialize (IH (Datatypes.S n)). destruct (group_work (map (@h_regexp S) hs) g) as [k c]. cbn [snd] in *.
    destruct (first_match hs (Datatypes.S n) g) as [[[c' h'] m']|]; [destruct c; lia|subst c; reflexivity].
  - cbn [snd]. lia.
Qed.
Theorem group_cursor : forall S (hs : list (handler S)) g,
  snd (group_work (map (@h_regexp S) hs) g) = match first_match hs 0 g with Some (c, _, _) => c | None => 0 end.
Proof.
  intros S hs g. pose proof (group_cursor_from S hs g 0) as H. destruct (first_match hs 0 g) as [[[c h] m]|]; [|exact H]. destruct H as [H _]. symmetry. exact H.
Qed.

Theorem found_match : forall r s, re_match r s = option_map (fun p => mk_match s 0 (fst p) (snd p)) (found r 0 s).
Proof. intros r s. rewrite found_run. unfold re_match. destruct (run r 0 s) as [|[[e t] sp] l]; reflexivity. Qed.

Definition cheap {S} (K : nat) (hs : list (handler S)) : bool := forallb (fun h => starfree (h_regexp h) && Nat.leb (size (h_regexp h)) K) hs.
Lemma cheap_steps : forall S K (hs : list (handler S)), cheap K hs = true -> forall h pos s, In h hs -> steps (h_regexp h) pos s <= K.
Proof.
  intros S K hs C h pos s I. pose proof (proj1 (forallb_forall _ _) C h I) as H. apply andb_prop in H. destruct H as [F L].
  apply Nat.leb_le in L. eapply Nat.le_trans; [apply steps_size; exact F|exact L].
Qed.
Theorem metar_match_bound : forall e year month h pos s, In h (metar_handlers e year month) -> steps (h_regexp h) pos s <= 2251.
Proof. intros e year month. apply cheap_steps. vm_compute. reflexivity. Qed.
Theorem trend_match_bound : forall h pos s, In h trend_handlers -> steps (h_regexp h) pos s <= 789.
Proof. apply cheap_steps. vm_compute. reflexivity. Qed.
Theorem taf_match_bound : forall e year month h pos s, In h (taf_handlers e year month) -> steps (h_regexp h) pos s <= 744.
Proof. intros e year month. apply cheap_steps. vm_compute. reflexivity. Qed.
Theorem change_match_bound : forall h pos s, In h change_handlers -> steps (h_regexp h) pos s <= 744.
Proof. apply cheap_steps. vm_compute. reflexivity. Qed.
