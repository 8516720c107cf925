(** * Proofs: the lines a METAR prints, also when it is refused (C53) *)
From Coq Require Import String Ascii.
From Coq Require Import List NArith ZArith Bool Lia.
From Verif Require Import PyBase PyRegex AeroRegex PyFloat PyTime Utils Base MetarGroups Trend Metar Printing SpecPrinting
  SpecNum SpecGroups SpecTime SpecText SpecFailures TimeFacts ProofTime ProofValues ProofLists Keeps Outcomes OutTime OutMetar OutReport ProofAbsent ProofCor ProofProb ProofSilent.
Import ListNotations.
Local Open Scope string_scope.
Local Open Scope nat_scope.
Local Open Scope list_scope.
Local Opaque dt_add_minutes dt_add_hours.

Lemma reached_ok : forall S (hs : list (handler S)) gs index un st st' un', parse_groups hs gs index un st = Ok (st', un') ->
  reached hs gs index st = st'.
Proof.
  intros S hs gs. induction gs as [|g gs IH]; intros index un st st' un' E; cbn [parse_groups reached] in *; [congruence|].
  destruct (first_match (skipn index hs) 0 g) as [[[k h] m]|]; [|exact (IH _ _ _ _ _ E)].
  destruct (h_handle h m st) as [s1|]; [|discriminate E]. exact (IH _ _ _ _ _ E).
Qed.

Lemma trend_prints_ok : forall code t p, change_period_new code t = Ok p -> trend_prints code t = cp_out p.
Proof.
  intros code t p E. unfold change_period_new in E. unfold trend_prints. cbv zeta in *.
  destruct (common_new []) as [c|]; [|discriminate E]. cbn [bind] in E. destruct (trend_ind_new None t) as [i|]; [|discriminate E].
  cbn [bind] in E. destruct (parse_section trend_handlers _ _) as [[q un]|] eqn:P; [|discriminate E].
  cbn [bind] in E. unfold parse_section in P. rewrite (reached_ok _ _ _ _ _ _ _ _ P).
  match type of E with Ok ?a = _ => replace p with a by congruence end. reflexivity.
Qed.

Lemma trends_print_ok : forall l x x', handle_trends l x = Ok x' -> me_out x' = me_out x ++ trends_print l x.
Proof.
  induction l as [|w l IH]; intros x x' E; cbn [handle_trends trends_print] in *; [rewrite app_nil_r; congruence|].
  destruct w as [|c w]; [exact (IH _ _ E)|].
  destruct (handle_weather_trend (c :: w) x) as [x1|] eqn:E1; [|discriminate E]. cbn [bind] in E. rewrite (IH _ _ E), app_assoc. f_equal.
  unfold handle_weather_trend in E1. destruct (change_period_new (c :: w) (t_dt (me_time x))) as [p|] eqn:Ep; [|discriminate E1].
  cbn [bind] in E1. destruct (gl_add p (me_trends x)) as [g|]; [|discriminate E1]. cbn [bind] in E1. rewrite (trend_prints_ok _ _ _ Ep).
  match type of E1 with Ok ?a = _ => replace x1 with a by congruence end. reflexivity.
Qed.

(** What [parse_body] leaves of the object the trends start from. *)
Lemma body_start : forall e code y mo x, (raw <- report_raw_code code ;; x <- metar_init e raw y mo ;; parse_body e y mo x) = Ok x ->
  me_sections x = metar_sections (normalise code) /\ me_out x = [].
Proof.
  intros e code y mo x E. unfold report_raw_code in E. destruct code as [|c code0]; [discriminate E|]. cbn [bind] in E. set (code := c :: code0) in *.
  destruct (metar_init e (normalise code) y mo) as [x0|] eqn:E0; [|discriminate E]. cbn [bind] in E.
  assert (S0 : me_sections x0 = metar_sections (normalise code) /\ me_out x0 = []).
  { unfold metar_init in E0. binds E0. match type of E0 with Ok ?z = _ => replace x0 with z by congruence end. split; reflexivity. }
  unfold parse_body, parse_section in E. destruct (parse_groups _ _ 0 [] x0) as [[z un]|] eqn:P; [|discriminate E]. cbn [bind] in E.
  apply body_run_out in P. destruct P as [P1 P2]. rewrite (proj1 S0) in P2. rewrite (proj2 S0) in P1.
  match type of E with Ok ?z = _ => replace x with z by congruence end. split; [exact P2|exact P1].
Qed.

Lemma bind_assoc : forall A B C (a : result A) (f : A -> result B) (g : B -> result C), bind (bind a f) g = bind a (fun x => bind (f x) g).
Proof. intros A B C [a|] f g; reflexivity. Qed.

Theorem prints_accepted : forall e code y mo tr x, metar_parse e code y mo tr = Ok x -> metar_prints e code y mo = me_out x.
Proof.
  intros e code y mo tr x E. unfold metar_parse in E. unfold metar_prints.
  assert (E' : bind (raw <- report_raw_code code ;; x <- metar_init e raw y mo ;; parse_body e y mo x) (parse_weather_trend tr) = Ok x).
  { rewrite bind_assoc. destruct (report_raw_code code) as [raw|]; [|exact E]. cbn [bind] in *. rewrite bind_assoc. exact E. }
  clear E. destruct (raw <- report_raw_code code ;; x <- metar_init e raw y mo ;; parse_body e y mo x) as [x1|] eqn:E1; [|discriminate E'].
  destruct (body_start _ _ _ _ _ E1) as [S1 O1]. cbn [bind] in E'. unfold parse_weather_trend in E'.
  destruct (handle_trends _ x1) as [x2|] eqn:E2; [|discriminate E']. cbn [bind] in E'.
  assert (O : me_out x = me_out x2).
  { destruct (gl_collect (me_trends x2)) as [l g]. cbv zeta in E'.
    match type of E' with match ?u with _ => _ end = _ => destruct u end; [|destruct tr; [discriminate E'|]];
      match type of E' with Ok ?a = _ => replace x with a by congruence end; reflexivity. }
  rewrite O, (trends_print_ok _ _ _ E2), O1. reflexivity.
Qed.

(** ** Silence *)

Lemma reached_out : forall gs index s, cp_out (reached trend_handlers gs index s) = cp_out s \/ timed gs.
Proof.
  induction gs as [|g gs IH]; intros index s; cbn [reached]; [left; reflexivity|].
  assert (W : forall t : timed gs, timed (g :: gs)) by (intros (a & b & I & M); exists a, b; split; [right; exact I|exact M]).
  destruct (first_match (skipn index trend_handlers) 0 g) as [[[k h] m]|] eqn:F; [|destruct (IH index s) as [P|P]; [left; exact P|right; exact (W P)]].
  apply first_match_nth in F. destruct F as (j & F & M & _). rewrite nth_skipn in F.
  destruct (h_handle h m s) as [s1|] eqn:Eh; [|left; reflexivity].
  destruct (trend_step_out _ _ _ _ _ F Eh) as [K|K].
  - rewrite <- K. destruct (IH (index + k) s1) as [P|P]; [left; exact P|right; exact (W P)].
  - right. exists g, m. split; [left; reflexivity|]. rewrite <- K. exact M.
Qed.

Lemma trend_prints_out : forall code t, trend_prints code t = [] \/ timed (trend_groups code).
Proof.
  intros code t. unfold trend_prints. cbv zeta. destruct (common_new []) as [c|]; [|left; reflexivity]. destruct (trend_ind_new None t) as [i|]; [|left; reflexivity].
  match goal with |- context [reached ?h ?gs 0 ?s] => destruct (reached_out gs 0 s) as [P|P] end; [left; exact P|right; exact P].
Qed.

Lemma trends_print_out : forall l x, trends_print l x = [] \/ exists w, In w l /\ timed (trend_groups w).
Proof.
  induction l as [|w l IH]; intro x; cbn [trends_print]; [left; reflexivity|].
  assert (Up : (exists v, In v l /\ timed (trend_groups v)) -> exists v, In v (w :: l) /\ timed (trend_groups v))
    by (intros (v & I & T); exists v; split; [right; exact I|exact T]).
  destruct w as [|c w]; [destruct (IH x) as [P|P]; [left; exact P|right; exact (Up P)]|].
  destruct (trend_prints_out (c :: w) (t_dt (me_time x))) as [P|P]; [|right; exists (c :: w); split; [left; reflexivity|exact P]].
  rewrite P. destruct (handle_weather_trend (c :: w) x) as [x1|]; [|left; reflexivity].
  destruct (IH x1) as [Q|Q]; [left; rewrite Q; reflexivity|right; exact (Up Q)].
Qed.

Theorem prints_silent : forall e code y mo, metar_prints e code y mo <> [] -> exists p, contains (unsigned code) p /\ period p.
Proof.
  intros e code y mo N. unfold metar_prints in N.
  destruct (raw <- report_raw_code code ;; x <- metar_init e raw y mo ;; parse_body e y mo x) as [x|] eqn:E; [|exfalso; apply N; reflexivity].
  destruct (body_start _ _ _ _ _ E) as [S _]. rewrite S in N.
  destruct (trends_print_out (trend_codes (section 1 (metar_sections (normalise code)))) x) as [P|(w & Iw & (g & m & Ig & M))]; [contradiction|].
  destruct (period_match g m M) as (p & a & b & h & mi & C & P & _). exists p. split; [|exact P].
  pose proof (trend_groups_weaker code w Iw) as Bw. unfold holds_all in Bw. rewrite Forall_forall in Bw.
  exact (Bw g Ig p (period_solid p P) C).
Qed.

(** ** The lines *)


Lemma period_index : forall i h m s s', nth_error trend_handlers i = Some h -> h_handle h m s = Ok s' ->
  cp_out s' = cp_out s \/ ((i = 1 \/ i = 2) /\ exists w, line w /\ cp_out s' = cp_out s ++ [w]).
Proof.
  intros i h m s s' E Eh. unfold trend_handlers in E. cbn [nth_error] in E.
  nth_cases i E.
  all: try (destruct i; discriminate E).
  2,3: right; split; [auto|]; unfold handle_time_period in Eh; cbv zeta in Eh; destruct (add_period m (cp_ind s)) as [j|]; [|discriminate Eh]; cbn [bind] in Eh;
    match type of Eh with Ok ?a = Ok ?z => assert (K : z = a) by congruence; rewrite K end;
    cbn [cp_out]; eexists; split; [|reflexivity]; destruct (ti_at j) as [a|]; [right; exists a; reflexivity|left; reflexivity].
  all: left; unfold cp_lift, handle_trend_indicator in Eh; cbv zeta in Eh; binds Eh;
    match type of Eh with Ok ?a = Ok ?z => assert (K : z = a) by congruence; rewrite K; reflexivity end.
Qed.

Lemma reached_lines : forall gs index s, Forall line (cp_out s) -> length (cp_out s) <= index - 1 -> length (cp_out s) <= 2 ->
  Forall line (cp_out (reached trend_handlers gs index s)) /\ length (cp_out (reached trend_handlers gs index s)) <= 2.
Proof.
  induction gs as [|g gs IH]; intros index s F L2 L; cbn [reached]; [auto|].
  destruct (first_match (skipn index trend_handlers) 0 g) as [[[k h] m]|] eqn:Fm; [|exact (IH _ _ F L2 L)].
  apply first_match_nth in Fm. destruct Fm as (j & Fm & M & ->). rewrite nth_skipn in Fm.
  destruct (h_handle h m s) as [s1|] eqn:Eh; [|auto].
  destruct (period_index _ _ _ _ _ Fm Eh) as [K|(I & w & Lw & K)]; apply IH; rewrite K; try assumption; try lia.
  - apply Forall_app. split; [exact F|constructor; [exact Lw|constructor]].
  - rewrite app_length. cbn [length]. lia.
  - rewrite app_length. cbn [length]. lia.
Qed.

Lemma trend_prints_lines : forall code t, Forall line (trend_prints code t) /\ length (trend_prints code t) <= 2.
Proof.
  intros code t. unfold trend_prints. cbv zeta. destruct (common_new []) as [c|]; [|split; [constructor|cbn; lia]].
  destruct (trend_ind_new None t) as [i|]; [|split; [constructor|cbn; lia]]. apply reached_lines; cbn [cp_out length]; [constructor|lia|lia].
Qed.

Lemma trends_print_lines : forall l x n, gl_max (me_trends x) = 2 -> length (gl_list (me_trends x)) + S n = 3 ->
  Forall line (trends_print l x) /\ length (trends_print l x) <= 2 * S n.
Proof.
  induction l as [|w l IH]; intros x n Mx Ln; cbn [trends_print]; [split; [constructor|cbn; lia]|].
  destruct w as [|c w]; [exact (IH x n Mx Ln)|]. destruct (trend_prints_lines (c :: w) (t_dt (me_time x))) as [F L].
  assert (Q : forall x', handle_weather_trend (c :: w) x = Ok x' -> exists n', n = S n' /\ gl_max (me_trends x') = 2 /\ length (gl_list (me_trends x')) + S n' = 3).
  { intros x' E. unfold handle_weather_trend in E. destruct (change_period_new (c :: w) (t_dt (me_time x))) as [p|]; [|discriminate E]. cbn [bind] in E.
    unfold gl_add in E. rewrite Mx in E. destruct (Nat.leb 2 (length (gl_list (me_trends x)))) eqn:B; [discriminate E|]. cbn [bind] in E. apply Nat.leb_gt in B.
    match type of E with Ok ?a = _ => replace x' with a by congruence end.
    cbn [me_trends out_string upd_common upd_out upd_trends gl_max gl_list]. rewrite app_length. cbn [length].
    exists (n - 1). split; [lia|]. split; [reflexivity|lia]. }
  destruct (handle_weather_trend (c :: w) x) as [x'|]; [|rewrite app_nil_r; split; [exact F|lia]].
  destruct (Q x' eq_refl) as (n' & -> & Mx' & Ln'). destruct (IH x' n' Mx' Ln') as [F' L']. split; [apply Forall_app; split; assumption|].
  rewrite app_length. lia.
Qed.

Theorem prints_lines : forall e code y mo, Forall line (metar_prints e code y mo) /\ length (metar_prints e code y mo) <= 6.
Proof.
  intros e code y mo. unfold metar_prints.
  destruct (raw <- report_raw_code code ;; x <- metar_init e raw y mo ;; parse_body e y mo x) as [x|] eqn:E; [|split; [constructor|cbn; lia]].
  assert (T : me_trends x = gl_new 2).
  { destruct (report_raw_code code) as [raw|]; [|discriminate E]. cbn [bind] in E. destruct (metar_init e raw y mo) as [x0|] eqn:E0; [|discriminate E]. cbn [bind] in E.
    assert (F3 : me_trends x0 = gl_new 2) by (unfold metar_init in E0; binds E0; match type of E0 with Ok ?z = _ => replace x0 with z by congruence end; reflexivity). unfold parse_body in E.
    destruct (parse_section (metar_handlers e y mo) _ x0) as [[x1 un]|] eqn:E1; [|discriminate E]. cbn [bind] in E.
    apply (parse_section_inv _ (fun x => me_trends x = me_trends x0)) in E1; [| |reflexivity].
    - match type of E with Ok ?a = _ => replace x with a by congruence end. cbn [me_trends upd_unparsed]. rewrite E1. exact F3.
    - intros h m s s' I Eh K. rewrite (metar_handler_trends _ _ _ _ _ _ _ I Eh). exact K. }
  apply (trends_print_lines _ x 2); rewrite T; reflexivity.
Qed.
