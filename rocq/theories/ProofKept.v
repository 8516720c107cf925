(** * Every word goes to one field or is left over (C60) *)
From Coq Require Import String Ascii.
From Coq Require Import List NArith ZArith Bool Lia Sorted.
From Verif Require Import PyBase PyRegex AeroRegex PyTime Utils Base MetarGroups Trend Metar Taf StrFacts
  SpecLists ProofLists ProofValues ProofAbsent ProofAbsentTaf OutTafHead SpecText SpecKept ProofKeptText.
Import ListNotations.
Local Open Scope string_scope.
Local Open Scope nat_scope.
Local Open Scope list_scope.

(** ** The words handed over *)

Fixpoint trace (gs : list str) (a : list (option nat)) : list (nat * str) :=
  match gs, a with
  | g :: gs', Some i :: a' => (i, g) :: trace gs' a'
  | _ :: gs', None :: a' => trace gs' a'
  | _, _ => []
  end.

Lemma trace_weave : forall gs a, length a = length gs -> weave (left_over gs a) (map snd (trace gs a)) gs.
Proof.
  induction gs as [|g gs IH]; intros a H; destruct a as [|o a]; try discriminate H; [apply w_end|].
  injection H as H. destruct o as [i|]; cbn [left_over trace map snd]; [apply w_right|apply w_left]; apply IH, H.
Qed.

Lemma trace_fired : forall gs a, length a = length gs -> map fst (trace gs a) = fired a.
Proof.
  induction gs as [|g gs IH]; intros a H; destruct a as [|o a]; try discriminate H; [reflexivity|].
  injection H as H. destruct o as [i|]; cbn [trace map fst fired]; rewrite IH by exact H; reflexivity.
Qed.

(** ** Fields *)

Fixpoint set_nth {A} (n : nat) (v : A) (l : list A) : list A :=
  match l, n with
  | [], _ => []
  | _ :: l', O => v :: l'
  | x :: l', S k => x :: set_nth k v l'
  end.

Lemma set_nth_length : forall A n (v : A) l, length (set_nth n v l) = length l.
Proof. intros A n v l. revert n. induction l as [|x l IH]; intros [|n]; cbn; auto. Qed.
Lemma nth_set_same : forall A n (v d : A) l, n < length l -> nth n (set_nth n v l) d = v.
Proof. intros A n v d l. revert n. induction l as [|x l IH]; intros [|n] H; cbn in *; try lia; auto. apply IH. lia. Qed.
Lemma nth_set_other : forall A n k (v d : A) l, n <> k -> nth k (set_nth n v l) d = nth k l d.
Proof.
  intros A n k v d l. revert n k. induction l as [|x l IH]; intros [|n] [|k] H; cbn; try reflexivity; try congruence.
  apply IH. congruence.
Qed.

Section Fields.
Context {S : Type}.
Variable hs : list (handler S).
Variable accs : S -> list (list str).
Variable nf : nat.
Variable fld : nat -> str -> nat.
Variable upd : nat -> list str -> str -> list str.

Definition of_field (f : nat) (tr : list (nat * str)) : list (nat * str) := filter (fun p => Nat.eqb (fld (fst p) (snd p)) f) tr.
Definition folded (f : nat) (old : list str) (tr : list (nat * str)) : list str :=
  fold_left (fun o p => upd (fst p) o (snd p)) (of_field f tr) old.

Definition faithful_step : Prop := forall i h g m s s',
  nth_error hs i = Some h -> re_match (h_regexp h) g = Some m -> h_handle h m s = Ok s' ->
  accs s' = set_nth (fld i g) (upd i (nth (fld i g) (accs s) []) g) (accs s).

Lemma effect_fields : faithful_step -> (forall s, length (accs s) = nf) ->
  forall gs a s s', (forall i, In i (fired a) -> i < length hs) -> length a = length gs ->
  Forall (fun p => match nth_error hs (fst p) with Some h => accepts h (snd p) | None => False end) (trace gs a) ->
  effect hs gs a s = Ok s' -> forall f, f < nf -> nth f (accs s') [] = folded f (nth f (accs s) []) (trace gs a).
Proof.
  intros Hstep Hlen gs. induction gs as [|g gs IH]; intros a s s' Hi L T E f Hf; destruct a as [|o a]; try discriminate L.
  - cbn [effect] in E. injection E as <-. reflexivity.
  - injection L as L. destruct o as [i|]; cbn [effect trace] in E, T |- *.
    + inversion T as [|p tr Hp T' Ep]; subst. cbn [fst snd] in Hp. destruct (nth_error hs i) as [h|] eqn:Eh; [|contradiction].
      unfold accepts in Hp. destruct (re_match (h_regexp h) g) as [m|] eqn:Em; [|congruence].
      destruct (h_handle h m s) as [s1|] eqn:E1; [|discriminate E].
      rewrite (IH a s1 s'); [|intros j Hj; apply Hi; right; exact Hj|exact L|exact T'|exact E|exact Hf].
      rewrite (Hstep i h g m s s1 Eh Em E1). unfold folded, of_field. cbn [filter fst snd].
      destruct (Nat.eqb_spec (fld i g) f) as [<-|N].
      * rewrite nth_set_same by (rewrite Hlen; exact Hf). reflexivity.
      * rewrite nth_set_other by exact N. reflexivity.
    + apply (IH a s s'); [exact Hi|exact L|exact T|exact E|exact Hf].
Qed.

End Fields.

Lemma dispatch_accepts : forall S (hs : list (handler S)) lo gs a, dispatch hs lo gs a ->
  Forall (fun p => match nth_error hs (fst p) with Some h => accepts h (snd p) | None => False end) (trace gs a).
Proof.
  intros S hs lo gs a H. induction H as [lo|lo g gs a i h Hlo Hn Ha Hno H IH|lo g gs a Hno H IH]; cbn [trace]; [constructor| |exact IH].
  constructor; [cbn [fst snd]; rewrite Hn; exact Ha|exact IH].
Qed.

(** ** Sorted traces *)

Definition below (n : nat) (tr : list (nat * str)) : Prop := Forall (fun p => fst p < n) tr.
Definition rising (tr : list (nat * str)) : Prop := StronglySorted lt (map fst tr).

(** The whole section, with any division into fields. *)
Lemma section_fields : forall S (hs : list (handler S)) sec s s' un, parse_section hs sec s = Ok (s', un) ->
  exists tr, weave un (map snd tr) (split_on 32 sec) /\ rising tr /\ below (length hs) tr
    /\ forall accs nf fld upd, faithful_step hs accs fld upd -> (forall s, length (accs s) = nf) ->
         forall f, f < nf -> nth f (accs s') [] = folded fld upd f (nth f (accs s) []) tr.
Proof.
  intros S hs sec s s' un E.
  destruct (parse_section_spec hs sec s) as (a & D & P). rewrite P in E.
  destruct (effect hs (split_on 32 sec) a s) as [s1|] eqn:Ee; [|discriminate E].
  destruct (dispatch_increasing hs 0 _ _ D) as (L & I & B).
  assert (K1 : s1 = s') by congruence. assert (K2 : left_over (split_on 32 sec) a = un) by congruence. subst s1 un.
  exists (trace (split_on 32 sec) a). split; [apply trace_weave, L|].
  split; [unfold rising; rewrite trace_fired by exact L; exact I|].
  split. { unfold below. rewrite <- (trace_fired _ _ L) in B. rewrite Forall_map in B. eapply Forall_impl; [|exact B]. intros p H. cbn beta in H. lia. }
  intros accs nf fld upd Hs Hl f Hf.
  apply (effect_fields hs accs nf fld upd Hs Hl (split_on 32 sec) a s s'); [|exact L| |exact Ee|exact Hf].
  - intros i Hi. rewrite Forall_forall in B. apply B in Hi. lia.
  - exact (dispatch_accepts _ _ _ _ _ D).
Qed.

Lemma rising_tail : forall p tr, rising (p :: tr) -> rising tr /\ Forall (fun q => fst p < fst q) tr.
Proof.
  intros p tr H. unfold rising in H. cbn [map] in H. apply StronglySorted_inv in H. destruct H as [H1 H2].
  split; [exact H1|]. rewrite Forall_map in H2. exact H2.
Qed.

(** Reading the fields one after the other is reading the trace. *)
Lemma fields_in_order : forall fld n, (forall i j g h, i < j < n -> fld i g <= fld j h) ->
  forall tr lo nf, rising tr -> below n tr -> Forall (fun p => lo <= fld (fst p) (snd p) < lo + nf) tr ->
  flat_map (fun f => of_field fld f tr) (seq lo nf) = tr.
Proof.
  intros fld n Hm tr. induction tr as [|p tr IH]; intros lo nf R B F.
  - unfold of_field. cbn [filter]. induction (seq lo nf) as [|x l IHl]; [reflexivity|exact IHl].
  - destruct (rising_tail _ _ R) as [R' L]. inversion B as [|p0 tr0 Bp B' E0]; subst. inversion F as [|p0 tr0 Fp F' E0]; subst.
    set (k := fld (fst p) (snd p)) in *.
    assert (G : Forall (fun q => k <= fld (fst q) (snd q)) tr).
    { rewrite Forall_forall in L, B' |- *. intros q Hq. apply Hm. split; [apply L, Hq|apply B', Hq]. }
    assert (E : seq lo nf = seq lo (k - lo) ++ k :: seq (S k) (lo + nf - S k)).
    { replace nf with ((k - lo) + (1 + (lo + nf - S k))) at 1 by lia. rewrite seq_app. f_equal.
      replace (lo + (k - lo)) with k by lia. reflexivity. }
    rewrite E, flat_map_app. cbn [flat_map].
    assert (Z : flat_map (fun f => of_field fld f (p :: tr)) (seq lo (k - lo)) = []).
    { assert (Z : forall l, (forall f, In f l -> f < k) -> flat_map (fun f => of_field fld f (p :: tr)) l = []).
      { intro l. induction l as [|f l IHl]; intro Hl; [reflexivity|]. cbn [flat_map].
        rewrite IHl by (intros g Hg; apply Hl; right; exact Hg). rewrite app_nil_r. pose proof (Hl f (or_introl eq_refl)) as Hf.
        unfold of_field. cbn [filter]. fold k. destruct (Nat.eqb_spec k f); [lia|].
        clear - G Hf. induction G as [|q tr Hq G IHg]; [reflexivity|]. cbn [filter].
        destruct (Nat.eqb_spec (fld (fst q) (snd q)) f); [lia|exact IHg]. }
      apply Z. intros f Hf. apply in_seq in Hf. lia. }
    rewrite Z. cbn [app].
    assert (Ek : of_field fld k (p :: tr) = p :: of_field fld k tr).
    { unfold of_field. cbn [filter]. fold k. rewrite Nat.eqb_refl. reflexivity. }
    rewrite Ek. cbn [app]. f_equal.
    assert (Er : flat_map (fun f => of_field fld f (p :: tr)) (seq (S k) (lo + nf - S k)) = flat_map (fun f => of_field fld f tr) (seq (S k) (lo + nf - S k))).
    { rewrite !flat_map_concat_map. f_equal. apply map_ext_in. intros f Hf. apply in_seq in Hf. unfold of_field. cbn [filter]. fold k.
      destruct (Nat.eqb_spec k f); [lia|reflexivity]. }
    rewrite Er. pose proof (IH k (1 + (lo + nf - S k)) R' B') as H. cbn [seq flat_map plus] in H. apply H.
    rewrite Forall_forall in G, F' |- *. intros q Hq. specialize (G q Hq). specialize (F' q Hq). cbn beta in F'. lia.
Qed.

(** How many words a field can get. *)
Lemma field_slots : forall tr lo k, rising tr -> Forall (fun p => lo <= fst p < lo + k) tr -> length tr <= k.
Proof.
  induction tr as [|p tr IH]; intros lo k R F; [cbn; lia|].
  destruct (rising_tail _ _ R) as [R' L]. inversion F as [|p0 tr0 Fp F' E0]; subst. cbn [length].
  assert (length tr <= lo + k - S (fst p)); [|lia].
  apply (IH (S (fst p))); [exact R'|]. rewrite Forall_forall in L, F' |- *. intros q Hq. specialize (L q Hq). specialize (F' q Hq). cbn beta in *. lia.
Qed.

Lemma rising_filter : forall f tr, rising tr -> rising (filter f tr).
Proof.
  intros f tr. induction tr as [|p tr IH]; intro R; [exact R|]. destruct (rising_tail _ _ R) as [R' L]. cbn [filter].
  destruct (f p); [|apply IH, R']. unfold rising. cbn [map]. constructor; [apply IH, R'|].
  rewrite Forall_map. rewrite Forall_forall in L |- *. intros q Hq. apply filter_In in Hq. apply L, Hq.
Qed.

Lemma field_most : forall fld n f lo k tr, (forall i g, i < n -> fld i g = f -> lo <= i < lo + k) ->
  rising tr -> below n tr -> length (of_field fld f tr) <= k.
Proof.
  intros fld n f lo k tr H R B. apply (field_slots _ lo); [apply rising_filter, R|].
  unfold of_field. rewrite Forall_forall. intros p Hp. apply filter_In in Hp. destruct Hp as [Hp Hf]. apply Nat.eqb_eq in Hf.
  unfold below in B. rewrite Forall_forall in B. exact (H _ _ (B p Hp) Hf).
Qed.

(** ** Fields that take every word, and fields that keep the last one *)

Definition spelled (tr : list (nat * str)) : list str := map (fun p => blanked (snd p)) tr.

Lemma spelled_all : forall tr, spelled tr = map blanked (map snd tr).
Proof. intro tr. unfold spelled. rewrite map_map. reflexivity. Qed.

Lemma folded_all : forall fld upd f old tr, (forall i g o, fld i g = f -> upd i o g = o ++ [blanked g]) ->
  folded fld upd f old tr = old ++ spelled (of_field fld f tr).
Proof.
  intros fld upd f old tr H. unfold folded, of_field, spelled. revert old. induction tr as [|p tr IH]; intro old.
  - cbn. symmetry. apply app_nil_r.
  - cbn [filter]. destruct (Nat.eqb_spec (fld (fst p) (snd p)) f) as [E|N]; [|apply IH].
    cbn [fold_left map]. rewrite IH, (H _ _ _ E), <- app_assoc. reflexivity.
Qed.

Lemma folded_last : forall fld upd f old tr, (forall i g o, fld i g = f -> upd i o g = [blanked g]) ->
  folded fld upd f old tr = match rev (spelled (of_field fld f tr)) with [] => old | w :: _ => [w] end.
Proof.
  intros fld upd f old tr H. unfold folded.
  assert (F : Forall (fun p => fld (fst p) (snd p) = f) (of_field fld f tr)).
  { unfold of_field. rewrite Forall_forall. intros p Hp. apply filter_In in Hp. apply Nat.eqb_eq, Hp. }
  revert F. generalize (of_field fld f tr). intros l F. clear tr.
  rewrite <- fold_left_rev_right. unfold spelled. rewrite <- map_rev.
  assert (F' : Forall (fun p => fld (fst p) (snd p) = f) (rev l)).
  { rewrite Forall_forall in F |- *. intros p Hp. apply F, in_rev, Hp. }
  destruct (rev l) as [|p r]; [reflexivity|]. cbn [fold_right map]. apply H. exact (Forall_inv F').
Qed.

(** With at most one word it does not matter. *)
Lemma folded_one : forall fld upd f tr, (forall i g o, fld i g = f -> upd i o g = [blanked g]) ->
  length (of_field fld f tr) <= 1 -> folded fld upd f [] tr = spelled (of_field fld f tr).
Proof.
  intros fld upd f tr H L. rewrite folded_last by exact H. destruct (of_field fld f tr) as [|p [|q l]]; [reflexivity|reflexivity|cbn in L; lia].
Qed.
