(** * Proofs: the line of a replaced pressure (C61) *)
From Coq Require Import String Ascii.
From Coq Require Import List NArith ZArith Bool Lia.
From Verif Require Import PyBase PyRegex AeroRegex PyTime Utils Base MetarGroups Trend Metar StrFacts
  SpecLists ProofLists ProofValues ProofAbsent ProofFailures SpecText SpecGroups SpecKept ProofKeptText ProofKept ProofKeptReport ProofKeptMetar
  SpecGrammar SpecRefused SpecGiven ProofGiven SpecStr ProofStr SpecStated ProofStated SpecReplaced.
Import ListNotations.
Local Open Scope string_scope.
Local Open Scope nat_scope.
Local Open Scope list_scope.

(** An invariant that knows the words taken so far. *)
Lemma traced_inv : forall T (hs : list (handler T)) (R : nat -> list (nat * str) -> T -> Prop),
  (forall n i h m g t s s', nth_error hs i = Some h -> n <= i -> ~ In 32%N g -> re_match (h_regexp h) g = Some m -> R n t s -> h_handle h m s = Ok s' -> R (S i) (t ++ [(i, g)]) s') ->
  forall sec s s' un, parse_section hs sec s = Ok (s', un) -> R 0 [] s ->
  exists n t, takes (map (@h_regexp T) hs) 0 (split_on 32 sec) t un /\ R n t s'.
Proof.
  intros T hs R Hs sec s s' un E H0.
  destruct (parse_section_spec hs sec s) as (a & D & P). rewrite P in E.
  destruct (effect hs (split_on 32 sec) a s) as [s1|] eqn:Ee; [|discriminate E].
  assert (K1 : s1 = s') by congruence. assert (K2 : left_over (split_on 32 sec) a = un) by congruence. subst s1 un. clear P E.
  assert (W : Forall (fun g => ~ In 32%N g) (split_on 32 sec)) by exact (proj2 (split_words sec)).
  assert (K : forall t0, R 0 t0 s -> exists n, R n (t0 ++ trace (split_on 32 sec) a) s').
  { clear H0. revert s Ee. pose proof D as D'. revert W.
    induction D' as [lo|lo g gs a i h L N A _ D' IH|lo g gs a _ D' IH]; intros W s E t0 H; cbn [effect trace] in E |- *.
    - exists lo. rewrite app_nil_r. congruence.
    - rewrite N in E. unfold accepts in A. destruct (re_match (h_regexp h) g) as [m|] eqn:M; [|congruence]. inversion W as [|g' gs' Wg Ws]; subst.
      destruct (h_handle h m s) as [s1|] eqn:E1; [|discriminate E].
      destruct (IH D' Ws s1 E (t0 ++ [(i, g)]) (Hs _ _ _ _ _ _ _ _ N L Wg M H E1)) as (n & Hn). exists n. rewrite <- app_assoc in Hn. exact Hn.
    - inversion W as [|g' gs' Wg Ws]; subst. exact (IH D' Ws s E t0 H). }
  destruct (K [] H0) as (n & Kn). exists n, (trace (split_on 32 sec) a). split; [apply dispatch_takes, D|exact Kn].
Qed.

Lemma given_snoc : forall lo k t i g, given lo k (t ++ [(i, g)]) = given lo k t ++ (if Nat.leb lo i && Nat.ltb i (lo + k) then [blanked g] else []).
Proof. intros lo k t i g. unfold given. rewrite filter_app, map_app. cbn [filter fst]. destruct (_ && _); reflexivity. Qed.

(** What the report has as its pressure when these words were taken. *)
Definition pressed (ws : list str) (p : pressure) : Prop :=
  match ws with
  | [] => pr_code p = None
  | _ => pr_code p <> None /\ pressure_word (last ws []) (pressure_str (pr_value p))
  end.

Lemma pressed_last : forall ws w p, pr_code p <> None -> pressure_word w (pressure_str (pr_value p)) -> pressed (ws ++ [w]) p.
Proof.
  intros ws w p A B. unfold pressed. destruct (ws ++ [w]) as [|a l] eqn:E; [destruct ws; discriminate E|]. rewrite <- E, last_last. auto.
Qed.

Lemma pressure_read : forall g m v, ~ In 32%N g -> re_match r_PRESSURE g = Some m -> metar_pressure_new (Some m) = Ok v ->
  pressure_word (blanked g) (pressure_str (pr_value v)).
Proof.
  intros g m v U M E. exists (pr_value v). split; [reflexivity|]. intro T. exact (press_sound g m v U (typed_word g T) M E).
Qed.

Lemma body_says : forall e y mo sec x0 x1 un, metar_R e (eq []) 0 x0 -> pr_code (me_press x0) = None ->
  parse_section (metar_handlers e y mo) sec x0 = Ok (x1, un) ->
  exists n t, takes metar_order 0 (split_on 32 sec) t un
    /\ metar_R e (Forall2 pressure_word (removelast (given 19 2 t))) n x1 /\ pressed (given 19 2 t) (me_press x1).
Proof.
  intros e y mo sec x0 x1 un H0 P0 E.
  refine (traced_inv _ _ (fun n t x => metar_R e (Forall2 pressure_word (removelast (given 19 2 t))) n x /\ pressed (given 19 2 t) (me_press x)) _ _ _ _ _ E _).
  2:{ split; [|exact P0]. refine (metar_more _ _ _ _ _ _ H0). intros l <-. constructor. }
  intros n i h m g t s s' Hn Hl U M (Hr & Hp) Eh. pose proof (metar_lines _ _ _ _ _ _ _ _ _ _ Hn Hl Hr Eh) as R. rewrite given_snoc.
  destruct (pressure_step _ _ _ _ _ _ _ _ Hn Eh) as [(Hi & Ep)|(Hi & Eh' & Ep)].
  - assert (Z : Nat.leb 19 i && Nat.ltb i (19 + 2) = false).
    { destruct (Nat.leb_spec 19 i); [|reflexivity]. destruct (Nat.ltb_spec i (19 + 2)); [lia|reflexivity]. }
    rewrite Z, app_nil_r, Ep. split; [|exact Hp]. refine (metar_more _ _ _ _ _ _ R). intros l [(A & _)|(B & _)]; [exact A|lia].
  - assert (Z : Nat.leb 19 i && Nat.ltb i (19 + 2) = true).
    { destruct (Nat.leb_spec 19 i); [|lia]. destruct (Nat.ltb_spec i (19 + 2)); [reflexivity|lia]. }
    rewrite Z. rewrite Eh' in M.
    split; [|apply pressed_last; [rewrite (press_code _ _ Ep); discriminate|exact (pressure_read _ _ _ U M Ep)]].
    rewrite removelast_last.
    destruct Hr as (ty & old & _ & Ho & _ & D).
    destruct Hi as [->| ->].
    + assert (Ws : given 19 2 t = []).
      { assert (Z13 : line_of (pr_code (me_press s)) (pressure_str (pr_value (me_press s))) = []) by exact (D 13 Hl).
        destruct (given 19 2 t) as [|w l]; [reflexivity|]. destruct Hp as [Hp _]. destruct (pr_code (me_press s)); [discriminate Z13|congruence]. }
      rewrite Ws in *. refine (metar_more _ _ _ _ _ _ R). intros l [(A & _)|(B & _)]; [exact A|discriminate B].
    + assert (Zo : old = []) by exact (D 12 Hl). subst old.
      refine (metar_more _ _ _ _ _ _ R). intros l Hf. destruct (given 19 2 t) as [|w [|w' ws]].
      * destruct Hf as [(A & _)|(_ & _ & B & _)]; [exact A|congruence].
      * destruct Hp as [Hp Hw]. destruct Hf as [(_ & A)|(_ & _ & _ & ->)]; [destruct (Hp (A eq_refl))|]. constructor; [exact Hw|constructor].
      * cbn [removelast] in Ho. inversion Ho.
Qed.

Theorem metar_says_ok : forall e code y mo tr x, metar_parse e code y mo tr = Ok x -> metar_says e code x.
Proof.
  intros e code y mo tr x E. destruct (metar_text_by _ _ _ _ _ _ E) as (raw & x0 & x1 & un & Er & E0 & E1 & _ & H).
  assert (Rw : raw = normalise code) by (unfold report_raw_code in Er; destruct code; [discriminate Er|congruence]). subst raw.
  destruct (metar_start_text _ _ _ _ _ E0) as [S0 P0].
  assert (Sc : me_sections x0 = metar_sections (normalise code)).
  { unfold metar_init in E0. binds E0. ending E0. reflexivity. }
  rewrite Sc in E1. destruct (body_says _ _ _ _ _ _ _ S0 P0 E1) as (n & t & T & R & _).
  destruct (H _ _ R) as (ty & first & A & B & C & D). exists t, un, ty, first. auto.
Qed.
