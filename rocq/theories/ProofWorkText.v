(** * Matching takes few steps (C75): whole reports *)
From Coq Require Import String Ascii.
From Coq Require Import List NArith ZArith Bool Lia.
From Verif Require Import PyBase PyRegex AeroRegex Utils Base MetarGroups Trend Metar Taf StrFacts RegexPaths DigitFacts Captures Keeps TextFacts ProofText ProofWords ProofKeptText
  SpecText SpecKept SpecWork ProofWork.
Import ListNotations.
Local Open Scope string_scope.
Local Open Scope nat_scope.
Local Open Scope list_scope.

(** ** Patterns that pay *)

Lemma run_moves : forall r pos s p t k, nullable r = false -> In (p, t, k) (run r pos s) -> pos < p.
Proof.
  intro r. induction r as [|c|a IHa b IHb|a IHa b IHb|c|n a IHa| |]; intros pos s p t k N H; cbn [run nullable] in *; try discriminate N.
  - destruct s as [|x s]; [destruct H|]. destruct (in_cls x c); [|destruct H]. destruct H as [H|[]]. injection H as <- <- <-. lia.
  - apply in_flat_map in H. destruct H as ([[p1 t1] k1] & H1 & H). apply in_map_iff in H. destruct H as ([[p2 t2] k2] & E & H2). injection E as <- <- <-.
    apply andb_false_iff in N. destruct N as [N|N].
    + apply IHa in H1; [|exact N]. apply run_shorter in H2. lia.
    + apply run_shorter in H1. apply IHb in H2; [|exact N]. lia.
  - apply orb_false_iff in N. destruct N as [N1 N2]. apply in_app_or in H. destruct H as [H|H]; [exact (IHa _ _ _ _ _ N1 H)|exact (IHb _ _ _ _ _ N2 H)].
  - apply in_map_iff in H. destruct H as ([[p1 t1] k1] & E & H1). injection E as <- <- <-. exact (IHa _ _ _ _ _ N H1).
Qed.

Lemma pays_size : forall r, starfree r = true -> nullable r = false -> pays r (size r).
Proof.
  intros r F N p t. pose proof (steps_size r p t F) as S. rewrite found_run. destruct (run r p t) as [|[[e u] sp] l] eqn:E; [exact S|].
  assert (M : p < e) by (apply (run_moves r p t e u sp N); rewrite E; left; reflexivity). split; [exact M|]. nia.
Qed.

Fixpoint prefix (k : cls) (s : str) : nat := match s with c :: s' => if in_cls c k then S (prefix k s') else 0 | [] => 0 end.

Lemma star_greedy : forall k s pos sp, engine_star k pos s sp (fun p (_ : str) sp => (Some (p, sp), 0)) = (Some (pos + prefix k s, sp), S (prefix k s)).
Proof.
  intros k s. induction s as [|c s IH]; intros pos sp; cbn [engine_star prefix].
  - unfold tick. cbn [fst snd]. rewrite Nat.add_0_r. reflexivity.
  - destruct (in_cls c k).
    + rewrite IH. unfold tick, orelse. cbn [fst snd]. rewrite Nat.add_succ_r. reflexivity.
    + unfold tick. cbn [fst snd]. rewrite Nat.add_0_r. reflexivity.
Qed.

Lemma star_bound : forall X k C s pos sp (next : nat -> str -> spans -> option X * nat), (forall p t sp', snd (next p t sp') <= C) ->
  snd (engine_star k pos s sp next) <= S (prefix k s) * S C.
Proof.
  intros X k C s. induction s as [|c s IH]; intros pos sp next H; cbn [engine_star prefix].
  - unfold tick. cbn [snd]. pose proof (H pos [] sp). lia.
  - destruct (in_cls c k).
    + unfold tick. cbn [snd]. pose proof (snd_orelse X (engine_star k (S pos) s sp next) (next pos (c :: s) sp)) as O. specialize (IH (S pos) sp next H).
      pose proof (H pos (c :: s) sp). lia.
    + unfold tick. cbn [snd]. pose proof (H pos (c :: s) sp). lia.
Qed.

Lemma normalise_pays : pays r_NORMALISE 13.
Proof.
  intros p t. unfold found, steps, attempt, r_NORMALISE. cbn [engine].
  destruct t as [|c t]; [cbn [tick orelse fst snd]; lia|].
  destruct (in_cls c [CSpace]) eqn:E1; cbn [tick orelse fst snd].
  - destruct t as [|d t]; cbn [tick orelse fst snd].
    + destruct (in_cls c [CRange 10 10]); destruct (in_cls c [CRange 9 9]); rewrite ?star_greedy; cbn [tick orelse fst snd prefix]; lia.
    + destruct (in_cls d [CSpace]) eqn:E2; [rewrite star_greedy; cbn [tick orelse fst snd]; lia|]. cbn [tick orelse fst snd].
      destruct (in_cls c [CRange 10 10]); destruct (in_cls c [CRange 9 9]); rewrite ?star_greedy; cbn [tick orelse fst snd]; lia.
  - destruct (in_cls c [CRange 10 10]); destruct (in_cls c [CRange 9 9]); rewrite ?star_greedy; cbn [tick orelse fst snd]; lia.
Qed.

(** ** The mixed numbers: a run of digits is looked at from the blank before it only *)

Lemma mixed_steps : forall pos s, steps r_SAN_VIS pos s <= match s with c :: s' => if is_space c then 25 * prefix [CDigit] s' + 8 else 2 | [] => 2 end.
Proof.
  intros pos s. unfold steps, attempt. unfold r_SAN_VIS.
  match goal with |- context [Seq (Chr [CSpace]) (Seq (Grp "int" (Seq (Chr [CDigit]) (Star [CDigit]))) ?R)] => set (rest := R) end.
  assert (F : starfree rest = true) by reflexivity.
  assert (Z : size rest <= 20) by (vm_compute; lia).
  cbn [engine]. destruct s as [|c s]; [cbn; lia|]. rewrite in_space. destruct (is_space c); [|cbn; lia]. cbn [tick fst snd].
  destruct s as [|d s]; [cbn; lia|]. cbn [prefix]. destruct (in_cls d [CDigit]); [|cbn; lia]. cbn [tick fst snd].
  match goal with |- context [engine_star ?k ?p ?u ?sp ?n] => pose proof (star_bound _ k 20 u p sp n) as B end.
  assert (H : forall p t sp', snd (engine rest p t ((("int", (S pos, p)) : string * (nat * nat)) :: sp') (fun p (_ : str) sp => (Some (p, sp), 0))) <= 20).
  { intros p t sp'. eapply Nat.le_trans; [apply (engine_bound _ rest p t _ _ 0 F); intros; apply le_n|]. lia. }
  specialize (B H). lia.
Qed.

Lemma blank_no_digit : forall c s, is_space c = true -> prefix [CDigit] (c :: s) = 0.
Proof.
  intros c s H. cbn [prefix]. rewrite in_digit. destruct (is_digit c) eqn:E; [|reflexivity]. apply digit_not_space in E. congruence.
Qed.

Lemma mixed_search : forall s pos, search_steps r_SAN_VIS pos s + 25 * prefix [CDigit] s <= 33 * S (length s).
Proof.
  intro s. induction s as [|c s IH]; intro pos; cbn [search_steps length].
  - pose proof (mixed_steps pos []) as M. cbv beta iota in M. destruct (found r_SAN_VIS pos []); cbn [prefix]; lia.
  - pose proof (mixed_steps pos (c :: s)) as M. specialize (IH (S pos)). cbv beta iota in M. destruct (is_space c) eqn:E.
    + rewrite (blank_no_digit c s E). destruct (found r_SAN_VIS pos (c :: s)); lia.
    + assert (P : prefix [CDigit] (c :: s) <= S (prefix [CDigit] s)) by (cbn [prefix]; destruct (in_cls c [CDigit]); lia).
      destruct (found r_SAN_VIS pos (c :: s)); lia.
Qed.

Lemma sub_none : forall r s pos skip, sub_steps r (Some 0) pos skip s = 0.
Proof. intros r s. induction s as [|c s IH]; intros pos [|k]; cbn [sub_steps]; try reflexivity. apply IH. Qed.

Lemma mixed_sub : forall s pos, sub_steps r_SAN_VIS (Some 1) pos 0 s + 25 * prefix [CDigit] s <= 33 * S (length s).
Proof.
  intro s. induction s as [|c s IH]; intro pos; cbn [sub_steps length].
  - pose proof (mixed_steps pos []) as M. cbv beta iota in M. cbn [prefix]; lia.
  - pose proof (mixed_steps pos (c :: s)) as M. specialize (IH (S pos)). cbv beta iota in M. destruct (is_space c) eqn:E.
    + rewrite (blank_no_digit c s E). destruct (found r_SAN_VIS pos (c :: s)) as [[e sp]|]; rewrite ?sub_none; lia.
    + assert (P : prefix [CDigit] (c :: s) <= S (prefix [CDigit] s)) by (cbn [prefix]; destruct (in_cls c [CDigit]); lia).
      destruct (found r_SAN_VIS pos (c :: s)) as [[e sp]|]; rewrite ?sub_none; lia.
Qed.

(** ** Lengths *)

Lemma sub_length : forall r w, nobos r = true -> mlen r [] = None -> (forall x, den r x -> x <> [] /\ length w <= length x) ->
  forall s cnt, length (re_sub r w s cnt) <= length s.
Proof.
  intros r w Hb Hn H s cnt. apply (sub_related r w (fun out u => length out <= length u) Hb Hn) with (n := length s); [| | | | |lia].
  - apply le_n.
  - intro u. apply le_n.
  - intros c out u L. cbn [length]. lia.
  - intros x out u D L. destruct (H x D). rewrite !app_length. lia.
  - intros x D. exact (proj1 (H x D)).
Qed.


Lemma lstrip_length : forall s, length (lstrip s) <= length s.
Proof. intro s. induction s as [|c s IH]; [apply le_n|]. cbn [lstrip length]. destruct (is_space c); cbn [length]; lia. Qed.
Lemma strip_length : forall s, length (strip s) <= length s.
Proof. intro s. unfold strip. rewrite rev_length. pose proof (lstrip_length (rev (lstrip s))). pose proof (lstrip_length s). rewrite rev_length in *. lia. Qed.

Lemma starts_length : forall a s, starts_with a s = true -> length a <= length s.
Proof.
  intro a. induction a as [|c a IH]; intros s H; [cbn; lia|]. destruct s as [|d s]; [discriminate H|]. cbn [starts_with] in H.
  apply andb_prop in H. destruct H as [_ H]. apply IH in H. cbn [length]. lia.
Qed.

Lemma replace_length : forall old new s, old <> [] -> length new <= length old -> length (replace old new s) <= length s.
Proof.
  intros old new s N L. unfold replace. destruct old as [|o old]; [contradiction|].
  assert (K : forall u skip, skip <= length u -> length (replace_go (o :: old) new skip u) <= length u - skip).
  { intro u. induction u as [|c u IH]; intros skip Hk; [cbn; lia|]. cbn [replace_go length] in *. destruct skip as [|k].
    - destruct (starts_with (o :: old) (c :: u)) eqn:E.
      + apply starts_length in E. rewrite app_length. cbn [length] in *. specialize (IH (S (length old) - 1)). lia.
      + cbn [length]. specialize (IH 0). lia.
    - specialize (IH k). lia. }
  specialize (K s 0 (Nat.le_0_l _)). lia.
Qed.

Lemma normalise_length : forall code, length (normalise code) <= length code.
Proof.
  intro code. unfold normalise. eapply Nat.le_trans; [apply replace_length; [discriminate|cbn; lia]|].
  eapply Nat.le_trans; [apply (sub_length r_NORMALISE (py " ") eq_refl eq_refl)|apply strip_length].
  intros x D. apply (den_nonempty r_NORMALISE) in D; [|reflexivity]. split; [exact D|]. destruct x; [contradiction|]. cbn [length]. cbn. lia.
Qed.

Lemma mixed_step_length : forall s s', sanitize_visibility_step s = Some s' -> length s' <= S (length s).
Proof.
  intros s s' H. unfold sanitize_visibility_step in H. destruct (re_search r_SAN_VIS s) as [m|] eqn:Es; [|discriminate H].
  destruct (group m "int") as [i|] eqn:Ei; [|discriminate H]. destruct (group m "frac") as [f|] eqn:Ef; [|discriminate H].
  assert (H' : re_sub r_SAN_VIS (py " " ++ i ++ py "_" ++ f ++ py " ") s (Some 1) = s') by congruence. clear H.
  destruct (sub_first r_SAN_VIS s m (py " " ++ i ++ py "_" ++ f ++ py " ") eq_refl eq_refl Es)
    as (a & x & t & m0 & -> & M & Ee & G & Eq).
  destruct (vis_shape _ _ M) as (b1 & i0 & b2 & f0 & b3 & t0 & Ex & El & Gi & Gf & _).
  rewrite (G "int"), Gi in Ei. rewrite (G "frac"), Gf in Ef. injection Ei as ->. injection Ef as ->.
  rewrite Ee in El. cbn [length] in El. rewrite app_length in El. cbn [length] in El. rewrite app_length in El.
  assert (Nx : x <> []) by (intros ->; cbn [length] in El; lia).
  rewrite (Eq Nx) in H'. subst s'. rewrite !app_length. cbn [length]. change (length (py " ")) with 1. change (length (py "_")) with 1. lia.
Qed.

Lemma mixed_n_length : forall n s, length (sanitize_visibility_n n s) <= length s + n.
Proof.
  intro n. induction n as [|n IH]; intro s; cbn [sanitize_visibility_n]; [lia|].
  destruct (sanitize_visibility_step s) as [s'|] eqn:E; [|lia]. apply mixed_step_length in E. specialize (IH s'). lia.
Qed.

Lemma shear_all_length : forall s, length (re_sub r_SAN_WS_ALL (py "WS_ALL_RWY") s None) <= length s.
Proof.
  intro s. apply sub_length; [reflexivity|reflexivity|]. intros x D. destruct (den_paths r_SAN_WS_ALL x eq_refl D) as (p & Ip & A).
  vm_compute in Ip. destruct Ip as [<-|[]]. read A. split; [discriminate|]. cbn. lia.
Qed.

Lemma shear_step_length : forall s, length (sanitize_windshear_step s) <= length s.
Proof.
  intro s. unfold sanitize_windshear_step. destruct (re_search r_SAN_WS s) as [m|] eqn:Es; [|lia].
  destruct (sub_first_path r_SAN_WS s m (py "WS_R" ++ fmt_opt (group m "name")) eq_refl eq_refl eq_refl eq_refl Es)
    as (a & x & t & q & -> & I & A & G & ->).
  specialize (G "name"). rewrite G. clear G Es m. vm_compute in I.
  destruct I as [<-|[<-|[<-|[<-|[]]]]]; cbn [fst snd] in *;
    match goal with |- context [span_of "name" ?l] => let v := eval vm_compute in (span_of "name" l) in change (span_of "name" l) with v end;
    cbv iota; cbn [fmt_opt]; read A; unfold substr; cbn [firstn skipn Nat.sub app]; rewrite !app_length; cbn [length];
    match goal with |- context [length (py ?w)] => let v := eval vm_compute in (length (py w)) in change (length (py w)) with v end; lia.
Qed.

Lemma shear_length : forall s, length (sanitize_windshear s) <= length s.
Proof.
  intro s. unfold sanitize_windshear. cbv zeta. do 3 (eapply Nat.le_trans; [apply shear_step_length|]). apply shear_all_length.
Qed.

Lemma prob_once_length : forall s m, re_search r_SAN_PROB s = Some m ->
  length (re_sub r_SAN_PROB (py "PROB" ++ fmt_opt (group m "percent") ++ py "_TEMPO") s (Some 1)) <= length s.
Proof.
  intros s m Es.
  destruct (sub_first_path r_SAN_PROB s m (py "PROB" ++ fmt_opt (group m "percent") ++ py "_TEMPO") eq_refl eq_refl eq_refl eq_refl Es)
    as (a & x & t & q & -> & I & A & G & ->).
  specialize (G "percent"). rewrite G. clear G Es m. vm_compute in I.
  destruct I as [<-|[]]; cbn [fst snd] in *;
    match goal with |- context [span_of "percent" ?l] => let v := eval vm_compute in (span_of "percent" l) in change (span_of "percent" l) with v end;
    cbv iota; cbn [fmt_opt]; read A; unfold substr; cbn [firstn skipn Nat.sub app]; rewrite !app_length; cbn [length];
    repeat match goal with |- context [length (py ?w)] => let v := eval vm_compute in (length (py w)) in change (length (py w)) with v end; lia.
Qed.

Lemma prob_n_length : forall n s, length (sanitize_change_indicator_n n s) <= length s.
Proof.
  intro n. induction n as [|n IH]; intro s; cbn [sanitize_change_indicator_n]; [lia|].
  destruct (re_search r_SAN_PROB s) as [m|] eqn:E; [|lia]. eapply Nat.le_trans; [apply IH|]. apply prob_once_length. exact E.
Qed.

(** The pieces of a text cut at a mark. *)
Lemma sum_cons : forall a l, list_sum (a :: l) = a + list_sum l.
Proof. reflexivity. Qed.
Definition sizes (l : list str) : nat := list_sum (map (fun w => S (length w)) l).
Lemma pieces_length : forall sep s, sizes (split_on sep s) = S (length s).
Proof.
  intros sep s. induction s as [|c s IH]; [reflexivity|]. cbn [split_on]. unfold sizes in *. destruct (N.eqb c sep).
  - cbn [map length]; rewrite ?sum_cons. cbn [length]. lia.
  - destruct (split_on sep s) as [|w ws]; [discriminate IH|]. cbn [map length] in *; rewrite ?sum_cons in *. lia.
Qed.
Lemma sizes_ge : forall l, length l <= sizes l.
Proof. intro l. unfold sizes. induction l as [|w l IH]; [apply le_n|]. cbn [map length] in *; rewrite ?sum_cons in *. lia. Qed.
Lemma words_count : forall sep s, length (split_on sep s) <= S (length s).
Proof. intros sep s. rewrite <- (pieces_length sep s). apply sizes_ge. Qed.

Definition cut_ok (kw : str) : Prop := kw <> [] /\ length (py "|" ++ lstrip kw) <= length kw.
Lemma literal_sub_length : forall kw s cnt, cut_ok kw -> length (re_sub (literal kw) (py "|" ++ lstrip kw) s cnt) <= length s.
Proof.
  intros kw s cnt [N L]. apply sub_length; [apply nobos_literal|rewrite mlen_literal by exact N; destruct kw; [contradiction|reflexivity]|].
  intros x D. apply den_literal in D. subst x. split; assumption.
Qed.

Lemma literal_free : forall kw, starfree (literal kw) = true /\ (kw <> [] -> nullable (literal kw) = false) /\ size (literal kw) <= S (2 * length kw).
Proof.
  intro kw. induction kw as [|c kw IH]; [split; [reflexivity|split; [contradiction|cbn; lia]]|]. destruct IH as (I1 & I2 & I3).
  destruct kw as [|d kw]; [split; [reflexivity|split; [reflexivity|cbn; lia]]|].
  change (literal (c :: d :: kw)) with (Seq (chr1 c) (literal (d :: kw))). cbn [starfree nullable size ways chr1]. rewrite I1.
  split; [reflexivity|]. split; [reflexivity|]. cbn [length] in *. lia.
Qed.

Lemma split_work_ok : forall sp cnt M kws s, (forall kw, In kw kws -> cut_ok (add_space sp kw) /\ S (2 * length (add_space sp kw)) <= M) ->
  split_work s kws cnt sp <= length kws * (M * S (length s))
  /\ length (fold_left (fun s kw => let kw := add_space sp kw in re_sub (literal kw) (py "|" ++ lstrip kw) s cnt) kws s) <= length s.
Proof.
  intros sp cnt M kws. induction kws as [|kw kws IH]; intros s H; [split; cbn; lia|].
  cbn [split_work fold_left length]. cbv zeta. destruct (H kw (or_introl eq_refl)) as [C L].
  pose proof (literal_sub_length (add_space sp kw) s cnt C) as B. set (s1 := re_sub (literal (add_space sp kw)) (py "|" ++ lstrip (add_space sp kw)) s cnt) in *.
  destruct (IH s1 (fun k I => H k (or_intror I))) as [W Z]. destruct (literal_free (add_space sp kw)) as (F & N & T). destruct C as [C _].
  pose proof (sub_pays (literal (add_space sp kw)) _ s cnt 0 0 (pays_size _ F (N C))) as P. rewrite Nat.sub_0_r in P. split; [|exact (Nat.le_trans _ _ _ Z B)].
  assert (size (literal (add_space sp kw)) * S (length s) <= M * S (length s)) by (apply Nat.mul_le_mono_r; lia).
  assert (length kws * (M * S (length s1)) <= length kws * (M * S (length s))) by (apply Nat.mul_le_mono_l, Nat.mul_le_mono_l; lia). lia.
Qed.

(** ** The loops *)

Lemma mixed_work_ok : forall n s, mixed_work n s <= n * (66 * (length s + n)).
Proof.
  intro n. induction n as [|n IH]; intro s; cbn [mixed_work]; [lia|].
  pose proof (mixed_search s 0) as A. destruct (sanitize_visibility_step s) as [s'|] eqn:E; [|lia].
  pose proof (mixed_sub s 0) as B. apply mixed_step_length in E. specialize (IH s').
  assert (n * (66 * (length s' + n)) <= n * (66 * (length s + S n))) by (apply Nat.mul_le_mono_l; lia). lia.
Qed.

Lemma shear_work_ok : forall s, shear_work s <= 200 * S (length s).
Proof.
  intro s. unfold shear_work. cbv zeta. pose proof (shear_all_length s) as A. set (s1 := re_sub r_SAN_WS_ALL (py "WS_ALL_RWY") s None) in *.
  pose proof (shear_step_length s1) as B. set (s2 := sanitize_windshear_step s1) in *. pose proof (shear_step_length s2) as C. set (s3 := sanitize_windshear_step s2) in *.
  assert (K : forall u, shear_step_work u <= 60 * S (length u)).
  { intro u. unfold shear_step_work.
    assert (P1 : search_steps r_SAN_WS 0 u <= 30 * S (length u)) by (apply search_size; intros p t; eapply Nat.le_trans; [apply steps_size; reflexivity|vm_compute; lia]).
    pose proof (sub_pays r_SAN_WS 30 u (Some 1) 0 0) as P2. assert (Y : pays r_SAN_WS 30) by exact (pays_size r_SAN_WS eq_refl eq_refl).
    specialize (P2 Y). rewrite Nat.sub_0_r in P2. destruct (re_search r_SAN_WS u); lia. }
  pose proof (K s1). pose proof (K s2). pose proof (K s3).
  pose proof (sub_pays r_SAN_WS_ALL 19 s None 0 0) as P2. assert (Y : pays r_SAN_WS_ALL 19) by exact (pays_size r_SAN_WS_ALL eq_refl eq_refl).
  specialize (P2 Y). rewrite Nat.sub_0_r in P2. lia.
Qed.

Lemma prob_work_ok : forall n s, prob_work n s <= n * (48 * S (length s)).
Proof.
  intro n. induction n as [|n IH]; intro s; cbn [prob_work]; [lia|].
  assert (P1 : search_steps r_SAN_PROB 0 s <= 24 * S (length s)) by (apply search_size; intros p t; eapply Nat.le_trans; [apply steps_size; reflexivity|vm_compute; lia]).
  pose proof (sub_pays r_SAN_PROB 24 s (Some 1) 0 0) as P2. assert (Y : pays r_SAN_PROB 24) by exact (pays_size r_SAN_PROB eq_refl eq_refl).
  specialize (P2 Y). rewrite Nat.sub_0_r in P2. destruct (re_search r_SAN_PROB s) as [m|] eqn:E; [|lia].
  pose proof (prob_once_length s m E) as L. set (s' := re_sub r_SAN_PROB (py "PROB" ++ fmt_opt (group m "percent") ++ py "_TEMPO") s (Some 1)) in *.
  specialize (IH s'). assert (n * (48 * S (length s')) <= n * (48 * S (length s))) by (apply Nat.mul_le_mono_l; lia). lia.
Qed.

Definition weight (rs : list regex) : nat := list_sum (map size rs).
Lemma group_work_ok : forall rs g, forallb starfree rs = true -> fst (group_work rs g) <= weight rs.
Proof.
  intros rs g F. induction rs as [|r rs IH]; [apply le_n|]. cbn [forallb] in F. apply andb_prop in F. destruct F as [F1 F2]. specialize (IH F2).
  cbn [group_work]. unfold weight in *. cbn [map] in *; rewrite ?sum_cons in *. pose proof (steps_size r 0 g F1).
  destruct (found r 0 g); [cbn [fst]; lia|]. destruct (group_work rs g) as [n c]. cbn [fst] in *. lia.
Qed.
Lemma weight_skipn : forall rs i, weight (skipn i rs) <= weight rs.
Proof.
  intro rs. induction rs as [|r rs IH]; intros [|i]; try apply le_n. cbn [skipn]. specialize (IH i). unfold weight in *. cbn [map]; rewrite ?sum_cons. lia.
Qed.
Lemma free_skipn : forall rs i, forallb starfree rs = true -> forallb starfree (skipn i rs) = true.
Proof.
  intro rs. induction rs as [|r rs IH]; intros [|i] H; try exact H; try reflexivity. cbn [skipn forallb] in *. apply andb_prop in H. apply IH. exact (proj2 H).
Qed.
Lemma groups_work_ok : forall rs gs i, forallb starfree rs = true -> groups_work rs gs i <= length gs * weight rs.
Proof.
  intros rs gs. induction gs as [|g gs IH]; intros i F; [apply le_n|]. cbn [groups_work length].
  pose proof (group_work_ok (skipn i rs) g (free_skipn rs i F)) as G. pose proof (weight_skipn rs i) as W.
  destruct (group_work (skipn i rs) g) as [n c]. cbn [fst] in G. specialize (IH (i + c) F). lia.
Qed.

Lemma section_work_ok : forall S (hs : list (handler S)) s W, forallb starfree (map (@h_regexp S) hs) = true -> weight (map (@h_regexp S) hs) <= W ->
  section_work hs s <= W * (length s + 1).
Proof.
  intros S hs s W F L. unfold section_work. eapply Nat.le_trans; [apply groups_work_ok; exact F|]. pose proof (words_count 32 s) as C.
  rewrite Nat.mul_comm. apply Nat.mul_le_mono; [exact L|lia].
Qed.
