(** * The dispatch loop on groups that belong to known slots *)
From Coq Require Import String Ascii.
From Coq Require Import List NArith ZArith Bool Lia.
From Verif Require Import PyBase PyRegex Base MetarGroups.
Import ListNotations.
Local Open Scope string_scope.
Local Open Scope nat_scope.
Local Open Scope list_scope.

(** The patterns of the slots from [lo] on and before [p]. *)
Definition between {S} (hs : list (handler S)) (lo p : nat) : list regex :=
  map h_regexp (firstn (p - lo) (skipn lo hs)).

Lemma nth_error_skipn : forall A (l : list A) a b, nth_error (skipn a l) b = nth_error l (a + b).
Proof. induction l as [|x l IH]; intros [|a] b; cbn; auto. destruct b; reflexivity. Qed.
Lemma nth_error_firstn_lt : forall A (l : list A) n i, i < n -> nth_error (firstn n l) i = nth_error l i.
Proof.
  induction l as [|x l IH]; intros [|n] [|i] H; cbn; auto; try lia. apply IH. lia.
Qed.

Section Slots.
Context {S : Type}.
Variable hs : list (handler S).

(** No slot from [lo] on and before [p] takes the group. *)
Definition passes (lo p : nat) (g : str) : Prop :=
  forall j h, lo <= j < p -> nth_error hs j = Some h -> re_match (h_regexp h) g = None.

Lemma passes_between : forall lo p g, (forall r, In r (between hs lo p) -> re_match r g = None) ->
  passes lo p g.
Proof.
  intros lo p g H j h Hj E. apply H. unfold between. apply in_map.
  apply nth_error_In with (n := j - lo). rewrite nth_error_firstn_lt by lia. rewrite nth_error_skipn.
  replace (lo + (j - lo)) with j by lia. exact E.
Qed.

Lemma passes_from : forall lo lo' p g, lo <= lo' -> passes lo p g -> passes lo' p g.
Proof. intros lo lo' p g Hlo H j h Hj. apply H. lia. Qed.

Lemma first_match_at : forall l c i p g h m, skipn i hs = l -> i <= p -> passes i p g ->
  nth_error hs p = Some h -> re_match (h_regexp h) g = Some m ->
  first_match l c g = Some (c + (Datatypes.S p - i), h, m).
Proof.
  induction l as [|x l IH]; intros c i p g h m El Hi Hp Eh Em.
  - assert (E : nth_error (skipn i hs) (p - i) = Some h).
    { rewrite nth_error_skipn. replace (i + (p - i)) with p by lia. exact Eh. }
    rewrite El in E. destruct (p - i); discriminate E.
  - assert (Ex : nth_error hs i = Some x).
    { rewrite <- (Nat.add_0_r i). rewrite <- nth_error_skipn, El. reflexivity. }
    cbn [first_match]. destruct (Nat.eq_dec i p) as [->|Hne].
    + rewrite Eh in Ex. injection Ex as ->. rewrite Em. do 3 f_equal. lia.
    + rewrite (Hp i x) by (auto; lia).
      rewrite (IH (Datatypes.S c) (Datatypes.S i) p g h m); try assumption; try lia.
      * do 3 f_equal. lia.
      * replace (Datatypes.S i) with (i + 1) by lia.
        assert (E2 : forall (l : list (handler S)) a b, skipn (a + b) l = skipn b (skipn a l)).
        { clear. induction l as [|y l IH]; intros [|a] b; cbn [Nat.add skipn]; auto. destruct b; auto. }
        rewrite E2, El. reflexivity.
      * intros j y Hj. apply Hp. lia.
Qed.

(** A group in its slot. *)
Lemma parse_at : forall i p g gs h m st, i <= p -> passes i p g ->
  nth_error hs p = Some h -> re_match (h_regexp h) g = Some m ->
  parse_groups hs (g :: gs) i [] st
  = (st' <- h_handle h m st ;; parse_groups hs gs (Datatypes.S p) [] st').
Proof.
  intros i p g gs h m st Hi Hp Eh Em. cbn [parse_groups app].
  rewrite (first_match_at _ 0 i p g h m eq_refl Hi Hp Eh Em).
  destruct (h_handle h m st) as [st'|x]; [|reflexivity]. cbn [bind list_remove].
  rewrite (proj2 (str_eqb_eq g g) eq_refl). f_equal. lia.
Qed.

(** ** Phases: the groups of one kind, in equal slots *)

(** One after the other into the state. *)
Fixpoint feed (r : regex) (f : rmatch -> S -> result S) (gs : list str) (st : S) : result S :=
  match gs with
  | [] => Ok st
  | g :: gs' =>
      match re_match r g with
      | Some m => st' <- f m st ;; feed r f gs' st'
      | None => feed r f gs' st
      end
  end.

Lemma parse_many : forall r f gs lo n p i rest st, lo <= i <= p -> length gs <= n ->
  (forall j, j < n -> nth_error hs (p + j) = Some (mk_handler r f)) ->
  Forall (fun g => passes lo p g /\ re_match r g <> None) gs ->
  exists i', i <= i' <= p + length gs /\ (gs = [] -> i' = i) /\ (gs <> [] -> p < i')
    /\ parse_groups hs (gs ++ rest) i [] st
       = (st' <- feed r f gs st ;; parse_groups hs rest i' [] st').
Proof.
  intros r f. induction gs as [|g gs IH]; intros lo n p i rest st Hi Hn Hs Hg.
  - exists i. split; [cbn; lia|]. split; [auto|]. split; [congruence|]. reflexivity.
  - apply Forall_cons_iff in Hg. destruct Hg as [[Hp Hm] Hg].
    destruct (re_match r g) as [m|] eqn:Em; [|destruct Hm; reflexivity].
    cbn [length] in Hn.
    assert (H0 : nth_error hs p = Some (mk_handler r f)) by (rewrite <- (Nat.add_0_r p); apply Hs; lia).
    destruct (f m st) as [st'|x] eqn:Ef.
    + destruct (IH (Datatypes.S p) (n - 1) (Datatypes.S p) (Datatypes.S p) rest st') as (i' & H1 & H2 & H3 & H4).
      * lia.
      * lia.
      * intros j Hj. replace (Datatypes.S p + j) with (p + Datatypes.S j) by lia. apply Hs. lia.
      * eapply Forall_impl; [|exact Hg]. intros g' [_ H']. split; [|exact H']. intros j h Hj. lia.
      * exists i'. split; [cbn [length]; lia|]. split; [discriminate|]. split; [lia|].
        cbn [app]. rewrite (parse_at i p g (gs ++ rest) (mk_handler r f) m st);
          [|lia|exact (passes_from _ _ _ _ (proj1 Hi) Hp)|exact H0|exact Em].
        cbn [h_handle feed]. rewrite Em, Ef. cbn [bind]. exact H4.
    + exists (Datatypes.S p). split; [cbn [length]; lia|]. split; [discriminate|]. split; [lia|].
      cbn [app]. rewrite (parse_at i p g (gs ++ rest) (mk_handler r f) m st);
        [|lia|exact (passes_from _ _ _ _ (proj1 Hi) Hp)|exact H0|exact Em].
      cbn [h_handle feed]. rewrite Em, Ef. reflexivity.
Qed.

End Slots.

Definition olist {A} (o : option A) : list A := match o with Some x => [x] | None => [] end.
