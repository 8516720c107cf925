(** * Proofs about group lists, dispatch and list dictionaries *)
From Coq Require Import String Ascii.
From Coq Require Import List NArith ZArith Bool Lia Sorted.
From Verif Require Import PyBase PyRegex Base AsDict SpecLists.
Import ListNotations.
Open Scope list_scope.

Section Lists.
Context {A : Type}.

Lemma gl_next_list : forall g : grouplist A,
  gl_list (snd (gl_next g)) = gl_list g /\ gl_max (snd (gl_next g)) = gl_max g.
Proof.
  intro g. unfold gl_next. destruct (Nat.leb _ _); simpl; auto.
Qed.

Lemma gl_for_fuel_list : forall B (body : A -> option B) f g,
  gl_list (snd (gl_for_fuel f body g)) = gl_list g
  /\ gl_max (snd (gl_for_fuel f body g)) = gl_max g.
Proof.
  intros B body f. induction f as [|f IH]; intro g; simpl; auto.
  pose proof (gl_next_list g) as [H1 H2].
  destruct (gl_next g) as [[x|] g'] eqn:E; simpl in *; auto.
  destruct (body x); simpl; auto.
  destruct (IH g') as [H3 H4]. split; congruence.
Qed.

(** A loop from cursor [n] visits the items from [n] on and resets the cursor. *)
Lemma gl_collect_fuel_spec : forall f (g : grouplist A),
  length (gl_list g) < gl_n g + f -> 0 < f ->
  gl_collect_fuel f g
  = (skipn (gl_n g) (gl_list g), mk_gl 0 (gl_max g) (gl_list g)).
Proof.
  induction f as [|f IH]; intros [n mx l] H Hf; simpl in *; [lia|].
  unfold gl_next; simpl. destruct (Nat.leb (length l) n) eqn:E.
  - apply Nat.leb_le in E. rewrite skipn_all2 by lia. reflexivity.
  - apply Nat.leb_gt in E.
    destruct (nth_error l n) as [x|] eqn:En.
    2:{ apply nth_error_None in En. lia. }
    destruct f as [|f].
    { exfalso. lia. }
    rewrite IH by (simpl; lia). simpl gl_n; simpl gl_list; simpl gl_max.
    f_equal.
    clear - En. revert n En. induction l as [|y l IHl]; intros [|n] En; simpl in *;
      try discriminate.
    + congruence.
    + apply IHl. exact En.
Qed.

Lemma gl_collect_spec : forall g : grouplist A,
  gl_collect g = (skipn (gl_n g) (gl_list g), mk_gl 0 (gl_max g) (gl_list g)).
Proof.
  intro g. unfold gl_collect. apply gl_collect_fuel_spec; lia.
Qed.

Lemma gl_collect_fresh : forall g : grouplist A,
  gl_n g = 0 -> gl_collect g = (gl_list g, g).
Proof.
  intros [n mx l] H. simpl in H. subst. rewrite gl_collect_spec. reflexivity.
Qed.

Lemma op_step_list : forall (g : grouplist A) o,
  gl_max (op_step g o) = gl_max g
  /\ gl_list (op_step g o)
     = match o with
       | OpAdd x => if Nat.ltb (length (gl_list g)) (gl_max g)
                    then gl_list g ++ [x] else gl_list g
       | _ => gl_list g
       end.
Proof.
  intros g o. destruct o as [x| |i| |stop]; simpl; auto.
  - unfold gl_add. rewrite Nat.leb_antisym.
    destruct (Nat.ltb _ _); simpl; auto.
  - split; apply gl_next_list.
  - rewrite gl_collect_spec. auto.
  - unfold gl_for. split; apply gl_for_fuel_list.
Qed.

Lemma history_list : forall ops (g : grouplist A),
  length (gl_list g) <= gl_max g ->
  gl_max (history g ops) = gl_max g
  /\ gl_list (history g ops) = firstn (gl_max g) (gl_list g ++ added ops).
Proof.
  unfold history. induction ops as [|o ops IH]; intros g Hg; simpl.
  - rewrite app_nil_r, firstn_all2 by lia. auto.
  - destruct (op_step_list g o) as [Hm Hl].
    assert (Hle : length (gl_list (op_step g o)) <= gl_max (op_step g o)).
    { rewrite Hm, Hl. destruct o; auto.
      destruct (Nat.ltb_spec (length (gl_list g)) (gl_max g)); auto.
      rewrite app_length; simpl; lia. }
    destruct (IH _ Hle) as [IHm IHl]. split; [congruence|].
    rewrite IHl, Hm, Hl. destruct o as [x| |i| |stop]; simpl; auto.
    destruct (Nat.ltb_spec (length (gl_list g)) (gl_max g)).
    + rewrite <- app_assoc. reflexivity.
    + rewrite !firstn_app.
      replace (gl_max g - length (gl_list g)) with 0 by lia. reflexivity.
Qed.

Lemma history_new : forall n (ops : list (list_op A)),
  gl_list (history (gl_new n) ops) = firstn n (added ops)
  /\ length (gl_list (history (gl_new n) ops)) <= n.
Proof.
  intros n ops. destruct (history_list ops (gl_new n)) as [_ H]; simpl; [lia|].
  simpl in H. rewrite H. split; auto. rewrite firstn_length. lia.
Qed.

Lemma add_full : forall n (ops : list (list_op A)) x,
  let g := history (gl_new n) ops in
  gl_add x g = if Nat.leb n (length (gl_list g)) then Raise RangeError
               else Ok (mk_gl (gl_n g) (gl_max g) (gl_list g ++ [x])).
Proof.
  intros n ops x g. unfold gl_add.
  destruct (history_list ops (gl_new n)) as [H _]; simpl; [lia|].
  fold g in H. simpl in H. rewrite H. reflexivity.
Qed.

(** C05 *)
Lemma complete_cursor : forall ops (g : grouplist A),
  gl_n g = 0 -> forallb complete_op ops = true -> gl_n (history g ops) = 0.
Proof.
  unfold history. induction ops as [|o ops IH]; intros g Hg H; simpl in *; auto.
  apply andb_true_iff in H. destruct H as [H1 H2]. apply IH; auto.
  destruct o as [x| |i| |stop]; simpl in *; try discriminate; auto.
  - unfold gl_add. destruct (Nat.leb _ _); auto.
  - rewrite gl_collect_spec. reflexivity.
Qed.

Lemma complete_loops : forall n (ops : list (list_op A)),
  forallb complete_op ops = true ->
  gl_collect (history (gl_new n) ops)
  = (firstn n (added ops), history (gl_new n) ops).
Proof.
  intros n ops H. rewrite gl_collect_fresh.
  - f_equal. apply history_new.
  - apply complete_cursor; auto.
Qed.

(** C06 *)
Lemma gl_get_spec : forall (g : grouplist A) i,
  length (gl_list g) <= gl_max g ->
  let n := Z.of_nat (length (gl_list g)) in
  (forall x, gl_get g i = Ok x <->
     (-n <= i < n)%Z /\ nth_error (gl_list g) (Z.to_nat (i mod n)) = Some x)
  /\ (gl_get g i = Raise RangeError <-> (Z.of_nat (gl_max g) <= i)%Z)
  /\ (gl_get g i = Raise IndexError <-> (i < -n \/ n <= i < Z.of_nat (gl_max g))%Z)
  /\ (forall e, gl_get g i = Raise e -> e = RangeError \/ e = IndexError).
Proof.
  intros [c mx l] i Hle. simpl in *. unfold gl_get; simpl.
  set (n := Z.of_nat (length l)) in *.
  assert (Hmod : forall j, (0 <= j < n)%Z -> (j mod n = j)%Z)
    by (intros; apply Z.mod_small; lia).
  destruct (Z.leb_spec (Z.of_nat mx) i) as [Hi|Hi].
  - split; [|split; [|split]].
    + intro x. split; [discriminate|]. lia.
    + tauto.
    + split; [discriminate|]. lia.
    + intros e He. injection He as <-. auto.
  - assert (Hcase : forall j, (j = i mod n)%Z \/ ~ (0 <= j < n)%Z ->
              (0 <= j)%Z -> ((0 <= j < n)%Z <-> (- n <= i < n)%Z) ->
              let res := match nth_error l (Z.to_nat j) with
                         | Some x => Ok x | None => Raise IndexError end in
              (forall x, res = Ok x <-> (-n <= i < n)%Z /\ nth_error l (Z.to_nat (i mod n)) = Some x)
              /\ (res = Raise IndexError <-> ~ (-n <= i < n)%Z)
              /\ (forall e, res = Raise e -> e = IndexError)).
    { intros j Hj Hj0 Heq res. unfold res.
      destruct (nth_error l (Z.to_nat j)) as [y|] eqn:En.
      - assert (Z.to_nat j < length l) by (apply nth_error_Some; congruence).
        assert (0 <= j < n)%Z by lia.
        destruct Hj as [Hj|Hj]; [|tauto]. subst j.
        repeat split; try discriminate; try tauto; try lia.
        + congruence.
        + intros [_ H1]. congruence.
      - apply nth_error_None in En.
        assert (~ (0 <= j < n)%Z) by lia.
        repeat split; try discriminate; try tauto.
        intros e He. congruence. }
    destruct (Z.ltb_spec i 0) as [Hneg|Hpos].
    + destruct (Z.ltb_spec (i + n) 0) as [Hn|Hn].
      * split; [|split; [|split]].
        -- intro x. split; [discriminate|]. lia.
        -- split; [discriminate|]. lia.
        -- split; auto. intros _. left. lia.
        -- intros e He. injection He as <-. auto.
      * assert (Hm : (i mod n = i + n)%Z).
        { symmetry. apply Z.mod_unique with (-1)%Z; lia. }
        destruct (Hcase (i + n)%Z) as (H1 & H2 & H3); [left; auto|lia|lia|].
        split; [exact H1|]. split; [|split].
        -- split; [|lia]. intro He. apply H3 in He. discriminate.
        -- rewrite H2. lia.
        -- intros e He. right. apply H3. exact He.
    + replace (i <? 0)%Z with false by (symmetry; apply Z.ltb_ge; lia).
      destruct (Hcase i) as (H1 & H2 & H3);
        [destruct (Z_lt_dec i n); [left; rewrite Hmod; lia|right; lia]|lia|lia|].
      split; [exact H1|]. split; [|split].
      -- split; [|lia]. intro He. apply H3 in He. discriminate.
      -- rewrite H2. lia.
      -- intros e He. right. apply H3. exact He.
Qed.

(** C50 *)
Lemma dset_fresh : forall k v d,
  ~ In k (map fst d) -> dset k v d = d ++ [(k, v)].
Proof.
  induction d as [|[k' v'] d IH]; simpl; intro H; auto.
  destruct (str_eqb k k') eqn:E.
  - apply str_eqb_eq in E. subst. tauto.
  - rewrite IH by tauto. reflexivity.
Qed.

Lemma labels_ordinals : labels = map py ordinals.
Proof. reflexivity. Qed.

Lemma labels_nodup : NoDup labels.
Proof.
  assert (H : (fix nd (l : list str) := match l with [] => true
               | x :: l' => negb (mem x l') && nd l' end) labels = true)
    by (vm_compute; reflexivity).
  revert H. generalize labels. induction l as [|x l IH]; intro H; constructor.
  - apply andb_true_iff in H. destruct H as [H _]. intro HI.
    apply negb_true_iff in H. unfold mem in H.
    assert (existsb (str_eqb x) l = true).
    { apply existsb_exists. exists x. split; auto. apply str_eqb_refl. }
    congruence.
  - apply IH. apply andb_true_iff in H. tauto.
Qed.

Lemma list_dict_from_spec : forall (l : list dict) i d,
  length d = i -> map fst d = firstn i labels ->
  list_dict_from i l d
  = if Nat.leb (i + length l) 10
    then Ok (d ++ combine (skipn i labels) (map VDict l)) else Raise IndexError.
Proof.
  induction l as [|x l IH]; intros i d Hlen Hd; simpl.
  - rewrite Nat.add_0_r.
    assert (Hi : i <= 10).
    { rewrite <- Hlen, <- (map_length fst d), Hd, firstn_length. simpl. lia. }
    apply Nat.leb_le in Hi. rewrite Hi.
    destruct (skipn i labels); simpl; rewrite app_nil_r; reflexivity.
  - destruct (nth_error labels i) as [k|] eqn:En.
    + assert (Hi : i < 10).
      { change 10 with (length labels). apply nth_error_Some. congruence. }
      assert (Hsk : skipn i labels = k :: skipn (S i) labels).
      { clear - En. revert i En. generalize labels.
        induction l as [|y l IHl]; intros [|i] En; simpl in *; try discriminate.
        - congruence.
        - apply IHl. exact En. }
      assert (Hfresh : ~ In k (map fst d)).
      { rewrite Hd. intro HI.
        pose proof labels_nodup as Hnd.
        rewrite <- (firstn_skipn i labels) in Hnd. rewrite Hsk in Hnd.
        clear - Hnd HI. revert HI Hnd. generalize (firstn i labels) as u.
        generalize (skipn (S i) labels) as v. intros v u HI Hnd.
        apply NoDup_remove_2 in Hnd. apply Hnd. apply in_or_app. auto. }
      rewrite dset_fresh by exact Hfresh.
      rewrite IH.
      * replace (S i + length l) with (i + S (length l)) by lia.
        destruct (Nat.leb _ 10); auto.
        rewrite Hsk. simpl. rewrite <- app_assoc. reflexivity.
      * rewrite app_length. simpl. lia.
      * rewrite map_app, Hd. cbn [map fst].
        clear - En. revert i En. generalize labels.
        induction l as [|y l IHl]; intros [|i] En; simpl in *; try discriminate.
        -- injection En as ->. reflexivity.
        -- f_equal. rewrite <- IHl; auto.
    + apply nth_error_None in En. simpl in En.
      destruct (Nat.leb_spec (i + S (length l)) 10); auto. simpl in *. lia.
Qed.

Lemma list_dict_spec : forall (f : A -> dict) g,
  list_dict f g
  = if Nat.leb (length (gl_list g)) 10 then Ok (labelled f (gl_list g)) else Raise IndexError.
Proof.
  intros f g. unfold list_dict.
  rewrite list_dict_from_spec by reflexivity. simpl Nat.add. rewrite map_length.
  destruct (Nat.leb _ _); auto. unfold labelled. simpl skipn.
  rewrite map_map. reflexivity.
Qed.
End Lists.

(** ** C03 *)
Section Dispatch.
Context {S : Type}.
Variable hs : list (handler S).

Lemma list_remove_last : forall g l, ~ In g l -> list_remove g (l ++ [g]) = l.
Proof.
  induction l as [|x l IH]; simpl; intro H.
  - rewrite str_eqb_refl. reflexivity.
  - destruct (str_eqb g x) eqn:E.
    + apply str_eqb_eq in E. subst. tauto.
    + rewrite IH by tauto. reflexivity.
Qed.

Lemma nth_error_skipn : forall A (l : list A) k i, nth_error (skipn k l) i = nth_error l (k + i).
Proof.
  induction l as [|x l IH]; intros [|k] i; simpl; auto.
  destruct i; reflexivity.
Qed.

Lemma first_match_spec : forall (l : list (handler S)) c g,
  match first_match l c g with
  | Some (n, h, m) =>
      exists i, n = c + Datatypes.S i /\ nth_error l i = Some h
                /\ re_match (h_regexp h) g = Some m
                /\ (forall j h', j < i -> nth_error l j = Some h' -> ~ accepts h' g)
  | None => forall j h', nth_error l j = Some h' -> ~ accepts h' g
  end.
Proof.
  induction l as [|h l IH]; intros c g; simpl.
  - intros [|j] h' H; discriminate.
  - destruct (re_match (h_regexp h) g) as [m|] eqn:E.
    + exists 0. repeat split; auto; try lia.
    + specialize (IH (Datatypes.S c) g).
      destruct (first_match l (Datatypes.S c) g) as [[[n h0] m0]|].
      * destruct IH as (i & H1 & H2 & H3 & H4).
        exists (Datatypes.S i). repeat split; auto; try lia.
        intros [|j] h' Hj Hn; simpl in Hn.
        -- injection Hn as <-. unfold accepts. rewrite E. tauto.
        -- apply (H4 j); auto. lia.
      * intros [|j] h' Hn; simpl in Hn.
        -- injection Hn as <-. unfold accepts. rewrite E. tauto.
        -- apply (IH j). exact Hn.
Qed.

(** No available handler accepts a group already set aside. *)
Definition stale (lo : nat) (l : list str) : Prop :=
  forall g, In g l -> forall j h, lo <= j -> nth_error hs j = Some h -> ~ accepts h g.

Lemma parse_groups_spec : forall gs lo u st,
  stale lo u ->
  exists a, dispatch hs lo gs a
    /\ parse_groups hs gs lo u st
       = match effect hs gs a st with
         | Ok st' => Ok (st', u ++ left_over gs a)
         | Raise x => Raise x
         end.
Proof.
  induction gs as [|g gs IH]; intros lo u st Hu; simpl.
  - exists []. split; [constructor|]. rewrite app_nil_r. reflexivity.
  - pose proof (first_match_spec (skipn lo hs) 0 g) as Hf.
    destruct (first_match (skipn lo hs) 0 g) as [[[n h] m]|] eqn:Ef.
    + destruct Hf as (i & Hn & Hi & Hm & Hlow).
      rewrite nth_error_skipn in Hi.
      assert (Hnot : ~ In g u).
      { intro HI. apply (Hu g HI (lo + i) h); auto; [lia|].
        unfold accepts. rewrite Hm. discriminate. }
      rewrite list_remove_last by exact Hnot.
      assert (Hlow' : forall j h', lo <= j < lo + i -> nth_error hs j = Some h' -> ~ accepts h' g).
      { intros j h' Hj Hn'. apply (Hlow (j - lo)); [lia|].
        rewrite nth_error_skipn. replace (lo + (j - lo)) with j by lia. exact Hn'. }
      assert (Hacc : accepts h g) by (unfold accepts; rewrite Hm; discriminate).
      replace (lo + n) with (Datatypes.S (lo + i)) by lia.
      assert (Hst : stale (Datatypes.S (lo + i)) u).
      { intros g' HI j h' Hj. apply Hu; auto. lia. }
      unfold bind. destruct (h_handle h m st) as [st'|x] eqn:Eh.
      * destruct (IH (Datatypes.S (lo + i)) u st' Hst) as (a & Ha & Hp).
        exists (Some (lo + i) :: a). split.
        -- eapply dispatch_taken; eauto. lia.
        -- rewrite Hi, Hm, Eh. exact Hp.
      * destruct (IH (Datatypes.S (lo + i)) u st Hst) as (a & Ha & Hp).
        exists (Some (lo + i) :: a). split.
        -- eapply dispatch_taken; eauto. lia.
        -- rewrite Hi, Hm, Eh. reflexivity.
    + assert (Hno : forall j h', lo <= j -> nth_error hs j = Some h' -> ~ accepts h' g).
      { intros j h' Hj Hn. apply (Hf (j - lo)). rewrite nth_error_skipn.
        replace (lo + (j - lo)) with j by lia. exact Hn. }
      destruct (IH lo (u ++ [g]) st) as (a & Ha & Hp).
      { intros g' HI j h' Hj. apply in_app_or in HI. destruct HI as [HI|[<-|[]]]; eauto. }
      exists (None :: a). split; [constructor; auto|]. rewrite Hp.
      destruct (effect hs gs a st); auto. rewrite <- app_assoc. reflexivity.
Qed.

Lemma parse_section_spec : forall section st,
  exists a, dispatch hs 0 (split_on 32%N section) a
    /\ parse_section hs section st
       = match effect hs (split_on 32%N section) a st with
         | Ok st' => Ok (st', left_over (split_on 32%N section) a)
         | Raise x => Raise x
         end.
Proof.
  intros section st. unfold parse_section.
  apply (parse_groups_spec (split_on 32%N section) 0 []).
  intros g [].
Qed.

(** The assignment is determined by the patterns. *)
Lemma dispatch_unique : forall lo gs a, dispatch hs lo gs a ->
  forall a', dispatch hs lo gs a' -> a = a'.
Proof.
  induction 1 as [lo|lo g gs a i h Hlo Hh Hacc Hlow Hd IH|lo g gs a Hno Hd IH];
    intros a' H'; inversion H' as [|lo' g' gs' a'' i' h' Hlo' Hh' Hacc' Hlow' Hd'|lo' g' gs' a'' Hno' Hd'];
    subst; auto.
  - assert (i = i').
    { destruct (Nat.lt_trichotomy i i') as [Hlt|[Heq|Hgt]]; auto; exfalso.
      - apply (Hlow' i h); auto.
      - apply (Hlow i' h'); auto. }
    subst i'. f_equal. apply IH. exact Hd'.
  - exfalso. apply (Hno' i h); auto.
  - exfalso. apply (Hno i' h'); auto.
  - f_equal. apply IH. exact Hd'.
Qed.

Lemma dispatch_increasing : forall lo gs a, dispatch hs lo gs a ->
  length a = length gs /\ StronglySorted lt (fired a) /\ Forall (fun i => lo <= i < length hs) (fired a).
Proof.
  induction 1 as [lo|lo g gs a i h Hlo Hh Hacc Hlow Hd IH|lo g gs a Hno Hd IH]; simpl.
  - repeat split; constructor.
  - destruct IH as (H1 & H2 & H3).
    assert (i < length hs) by (apply nth_error_Some; congruence).
    repeat split; auto.
    + constructor; auto. apply Forall_impl with (2 := H3). intros; lia.
    + constructor; [lia|]. apply Forall_impl with (2 := H3). intros; lia.
  - destruct IH as (H1 & H2 & H3). auto.
Qed.
End Dispatch.
