(** * Every word of a METAR is accounted for (C60) *)
From Coq Require Import String Ascii.
From Coq Require Import List NArith ZArith Bool Lia Sorted.
From Verif Require Import PyBase PyRegex AeroRegex PyTime Utils Base MetarGroups Trend Metar Taf StrFacts
  SpecLists ProofLists ProofValues ProofProb ProofFailures ProofAbsent SpecText SpecKept ProofKeptText ProofKept ProofKeptReport.
Import ListNotations.
Local Open Scope string_scope.
Local Open Scope nat_scope.
Local Open Scope list_scope.

Definition nonempty_part (p : str) : bool := match p with [] => false | _ => true end.

Lemma gl_add_place : forall A (p : A) g g', gl_add p g = Ok g' -> gl_n g' = gl_n g.
Proof.
  intros A p g g' E. unfold gl_add in E. destruct (Nat.leb (gl_max g) (length (gl_list g))); [discriminate E|].
  injection E as <-. reflexivity.
Qed.

Lemma trends_done : forall l x x', handle_trends l x = Ok x' ->
  (forall left, metar_body_kept x left -> metar_body_kept x' left) /\ me_sections x' = me_sections x /\ me_unparsed x' = me_unparsed x
  /\ gl_n (me_trends x') = gl_n (me_trends x)
  /\ exists ps, gl_list (me_trends x') = gl_list (me_trends x) ++ ps /\ Forall trend_kept ps
         /\ map cp_code ps = map Some (filter nonempty_part (map blanked l)).
Proof.
  induction l as [|w l IH]; intros x x' E; cbn [handle_trends] in E.
  - injection E as <-. split; [auto|]. split; [reflexivity|]. split; [reflexivity|]. split; [reflexivity|].
    exists []. split; [symmetry; apply app_nil_r|]. split; [constructor|reflexivity].
  - destruct w as [|c w]; [exact (IH _ _ E)|]. unfold handle_weather_trend in E.
    destruct (change_period_new (c :: w) _) as [p|] eqn:C; [|discriminate E]. cbn [bind] in E. apply trend_words_kept in C.
    destruct (gl_add p (me_trends x)) as [g|] eqn:G; [|discriminate E]. cbn [bind] in E.
    destruct (IH _ _ E) as (B & S & U & N & ps & L & K & M).
    split; [intros left H; apply B; exact H|]. split; [exact S|]. split; [exact U|].
    split; [rewrite N; exact (gl_add_place _ _ _ _ G)|].
    exists (p :: ps). split; [rewrite L; cbn -[app]; rewrite (gl_add_list _ _ _ _ G), <- app_assoc; reflexivity|].
    split; [constructor; [apply C|exact K]|]. cbn [map]. rewrite M. rewrite (proj2 C). reflexivity.
Qed.

Lemma blanked_app : forall a b, blanked (a ++ b) = blanked a ++ blanked b.
Proof. intros a b. apply map_app. Qed.
Lemma blanked_join : forall ws, blanked (join (py " ") ws) = join (py " ") (map blanked ws).
Proof.
  induction ws as [|w ws IH]; [reflexivity|]. destruct ws as [|w2 ws]; [reflexivity|].
  cbn [map] in *. rewrite (join_cons (py " ") w), (join_cons (py " ") (blanked w)) by discriminate.
  rewrite !blanked_app, IH. reflexivity.
Qed.

Lemma trends_written : forall s, unbarred s = join (py " ") (trend_codes s).
Proof.
  intro s. unfold trend_codes, split_sentence. cbn [fold_left]. cbv zeta.
  set (s1 := re_sub _ _ s _). set (s2 := re_sub _ _ s1 _).
  assert (E1 : unbarred s1 = unbarred s) by exact (sep_marked (py "TEMPO ") s (Some 1)).
  assert (E2 : unbarred s2 = unbarred s1) by exact (sep_marked (py "BECMG ") s1 (Some 1)).
  rewrite <- E1, <- E2. clear E1 E2. rewrite <- (join_split 124 s2) at 1.
  apply (join_sep 124 32). rewrite Forall_forall. intros w I. exact (split_on_parts 124 s2 w I).
Qed.

Lemma metar_words : forall e code y mo tr x, metar_parse e code y mo tr = Ok x -> metar_words_kept x.
Proof.
  intros e code y mo tr x E. unfold metar_parse in E. destruct (report_raw_code code) as [raw|]; [|discriminate E]. cbn [bind] in E.
  destruct (metar_init e raw y mo) as [x0|] eqn:E0; [|discriminate E]. cbn [bind] in E.
  destruct (metar_fresh _ _ _ _ _ E0) as (F1 & F2 & F3). clear E0.
  unfold parse_body in E. destruct (parse_section (metar_handlers e y mo) _ x0) as [[x1 un]|] eqn:E1; [|discriminate E]. cbn [bind] in E.
  pose proof (metar_body_words _ _ _ _ _ _ F1 E1) as Bd.
  assert (K : me_trends x1 = me_trends x0 /\ me_sections x1 = me_sections x0 /\ me_unparsed x1 = me_unparsed x0).
  { apply (parse_section_inv _ (fun x => me_trends x = me_trends x0 /\ me_sections x = me_sections x0 /\ me_unparsed x = me_unparsed x0)) in E1;
      [exact E1| |auto].
    intros h m s s' I Eh (K1 & K2 & K3). destruct (metar_frame _ _ _ _ _ _ _ I Eh) as (L1 & L2 & L3).
    rewrite L1, L2, L3. auto. }
  destruct K as (K1 & K2 & K3). rewrite K3, F2 in E. cbn [app] in E.
  unfold parse_weather_trend in E. destruct (handle_trends _ _) as [x2|] eqn:E2; [|discriminate E]. cbn [bind] in E.
  destruct (trends_done _ _ _ E2) as (B & S & U & N & ps & L & P & M). cbn [me_trends upd_unparsed me_sections me_unparsed] in N, L, S, U.
  rewrite K1, F3 in N, L. cbn in N, L.
  rewrite (gl_collect_fresh _ N) in E. cbv zeta in E.
  set (x3 := upd_unparsed _ _) in E.
  assert (X : x = x3) by (destruct (me_unparsed x3); [congruence|]; destruct tr; [discriminate E|congruence]).
  rewrite X. unfold x3. clear X x3 E E1 E2.
  exists un. cbn [me_unparsed me_trends me_sections upd_unparsed upd_trends]. rewrite L, U. split; [reflexivity|].
  split. { apply (B un). rewrite <- K2 in Bd. exact Bd. }
  split; [|exact P]. rewrite S.
  exists (map blanked (trend_codes (nth 1 (me_sections x1) []))). split; [rewrite trends_written; apply blanked_join|].
  exact M.
Qed.
