(** * Reading back what json.dumps writes (C59) *)
From Coq Require Import String Ascii.
From Coq Require Import List NArith ZArith Bool Lia.
From Verif Require Import PyBase PyFloat AsDict Json SpecNum ReprFacts SpecJson.
Import ListNotations.
Local Open Scope string_scope.
Local Open Scope nat_scope.
Local Open Scope list_scope.

(** ** Strings *)

Lemma hex_back : forall n, (n < 16)%N -> hex_value (hex_digit n) = Some n.
Proof.
  intros n H. assert (K : In n (map N.of_nat (seq 0 16))).
  { apply in_map_iff. exists (N.to_nat n). split; [apply N2Nat.id|]. apply in_seq. lia. }
  cbn in K. repeat (destruct K as [<-|K]; [reflexivity|]). contradiction.
Qed.

Lemma hex4_value : forall n, (n < 65536)%N ->
  (n / 4096 mod 16 * 4096 + n / 256 mod 16 * 256 + n / 16 mod 16 * 16 + n mod 16 = n)%N.
Proof.
  intros n H.
  assert (A := N.div_mod n 16 ltac:(discriminate)). assert (B := N.div_mod (n / 16) 16 ltac:(discriminate)).
  assert (C := N.div_mod (n / 256) 16 ltac:(discriminate)).
  rewrite N.div_div in B by discriminate. rewrite N.div_div in C by discriminate. change (16 * 16)%N with 256%N in B.
  change (256 * 16)%N with 4096%N in C.
  assert (D : (n / 4096 < 16)%N) by (apply N.div_lt_upper_bound; [discriminate|lia]).
  rewrite (N.mod_small (n / 4096)) by exact D. lia.
Qed.

Lemma chars_hex : forall n rest, (n < 65536)%N ->
  chars ([92; 117]%N ++ hex4 n ++ rest) = match chars rest with Some (us, r) => Some (n :: us, r) | None => None end.
Proof.
  intros n rest H. unfold hex4. cbn [app chars N.eqb Pos.eqb].
  rewrite !hex_back by (apply N.mod_lt; discriminate). rewrite hex4_value by exact H. destruct (chars rest) as [[us r]|]; reflexivity.
Qed.

Definition glue (u : list N) (k : option (list N * str)) : option (list N * str) :=
  match k with Some (us, r) => Some (u ++ us, r) | None => None end.

Lemma chars_plain : forall c rest, (32 <= c)%N -> c <> 34%N -> c <> 92%N -> (c < 65536)%N ->
  chars (c :: rest) = glue [c] (chars rest).
Proof.
  intros c rest H1 H2 H3 H4. cbn [chars].
  replace (c =? 34)%N with false by (symmetry; apply N.eqb_neq; exact H2).
  replace (c =? 92)%N with false by (symmetry; apply N.eqb_neq; exact H3).
  replace (c <? 32)%N with false by (symmetry; apply N.ltb_ge; exact H1).
  unfold units. replace (c <? 65536)%N with true by (symmetry; apply N.ltb_lt; exact H4). reflexivity.
Qed.

Lemma chars_one : forall c rest, chars (json_char c ++ rest) = glue (units c) (chars rest).
Proof.
  intros c rest. unfold json_char.
  repeat match goal with |- chars ((if (c =? ?n)%N then _ else _) ++ _) = _ =>
    destruct (N.eqb_spec c n) as [->|]; [reflexivity|] end.
  destruct ((32 <=? c) && (c <=? 126))%N eqn:P.
  - apply andb_true_iff in P. destruct P as [P1 P2]. apply N.leb_le in P1, P2.
    cbn [app]. rewrite chars_plain by (assumption || lia). unfold units.
    replace (c <? 65536)%N with true by (symmetry; apply N.ltb_lt; lia). reflexivity.
  - destruct (N.ltb_spec c 65536) as [L|L].
    + rewrite <- app_assoc, chars_hex by exact L. unfold units. replace (c <? 65536)%N with true by (symmetry; apply N.ltb_lt; exact L). reflexivity.
    + rewrite <- !app_assoc.
      assert (A : ((c - 65536) / 1024 mod 1024 < 1024)%N) by (apply N.mod_lt; discriminate).
      assert (B : ((c - 65536) mod 1024 < 1024)%N) by (apply N.mod_lt; discriminate).
      rewrite chars_hex by lia. rewrite chars_hex by lia. unfold units.
      replace (c <? 65536)%N with false by (symmetry; apply N.ltb_ge; exact L). destruct (chars rest) as [[us r]|]; reflexivity.
Qed.

Lemma chars_string : forall s rest, chars (flat_map json_char s ++ 34%N :: rest) = Some (utf16 s, rest).
Proof.
  induction s as [|c s IH]; intro rest; [reflexivity|]. cbn [flat_map]. rewrite <- app_assoc, chars_one, IH. reflexivity.
Qed.

(** ** Numbers *)

Definition first_digit (A : str) : Prop := match A with [] => False | [_] => True | c :: _ => c <> 48%N end.

Lemma dval_less : forall s, Forall is_dig s -> (dval 0 s < 10 ^ N.of_nat (length s))%N.
Proof.
  induction s as [|c s IH]; intro H; [reflexivity|]. inversion H as [|? ? Hc Hs]; subst. specialize (IH Hs).
  change (c :: s) with ([c] ++ s). rewrite dval_app, dval_acc. cbn [app length]. rewrite Nat2N.inj_succ, N.pow_succ_r'.
  change (dval 0 [c]) with (c - 48)%N. unfold is_dig in Hc.
  assert ((c - 48) * 10 ^ N.of_nat (length s) <= 9 * 10 ^ N.of_nat (length s))%N by (apply N.mul_le_mono_r; lia). lia.
Qed.

Lemma digits_first : forall k q, (1 <= k) -> (10 ^ N.of_nat (k - 1) <= q < 10 ^ N.of_nat k)%N ->
  exists c r, digits k q = c :: r /\ c <> 48%N.
Proof.
  intros k q Hk H. assert (A := digits_are k q). assert (L := digits_len k q).
  assert (V := dval_digits k q (proj2 H)). destruct (digits k q) as [|c r] eqn:E; [cbn in L; lia|].
  exists c, r. split; [reflexivity|]. intros ->. assert (Ar := Forall_inv_tail A).
  change (48%N :: r) with ([48%N] ++ r) in V. rewrite dval_app in V. change (dval 0 [48%N]) with 0%N in V.
  assert (W := dval_less r Ar). rewrite V in W. cbn [length] in L. replace (length r) with (k - 1) in W by lia. lia.
Qed.

Lemma layout_shape : forall q e, (0 < q)%N ->
  (forall k, (1 <= k)%nat -> (q < 10 ^ N.of_nat k)%N -> (10 ^ N.of_nat (k - 1) <= q)%N -> (-4 < Z.of_nat k + e <= 16)%Z) ->
  exists A B, repr_layout q e = A ++ 46%N :: B /\ Forall is_dig A /\ Forall is_dig B /\ first_digit A /\ B <> [].
Proof.
  intros q e Hq Hpt. unfold repr_layout.
  destruct (N_str_digits q) as (k & Ek & Hk & Hu & Hl). rewrite Ek.
  destruct Hl as [[Hl _]|Hl]; [lia|]. specialize (Hpt k Hk Hu Hl).
  destruct (digits_first k q Hk (conj Hl Hu)) as (c & r & Ec & Hc).
  assert (Hds := digits_are k q). assert (Hlen := digits_len k q). rewrite Hlen.
  set (pt := (Z.of_nat k + e)%Z) in *.
  replace ((-4 <? pt) && (pt <=? 16))%Z with true.
  2:{ symmetry. apply andb_true_iff. split; [apply Z.ltb_lt|apply Z.leb_le]; lia. }
  destruct (pt <=? 0)%Z eqn:E0; [|destruct (Z.of_nat k <=? pt)%Z eqn:E1].
  - exists [48%N], (repeat 48%N (Z.to_nat (- pt)) ++ digits k q). split; [reflexivity|].
    split; [constructor; [unfold is_dig; lia|constructor]|].
    split; [apply Forall_app; split; [apply repeat_digs|exact Hds]|]. split; [exact I|].
    intro H. apply (f_equal (@length N)) in H. rewrite app_length, Hlen in H. cbn in H. lia.
  - exists (digits k q ++ repeat 48%N (Z.to_nat (pt - Z.of_nat k))), [48%N].
    split; [rewrite <- app_assoc; reflexivity|].
    split; [apply Forall_app; split; [exact Hds|apply repeat_digs]|].
    split; [constructor; [unfold is_dig; lia|constructor]|].
    split; [|discriminate]. rewrite Ec. cbn [app first_digit]. destruct (r ++ _); [exact I|exact Hc].
  - apply Z.leb_gt in E0, E1. set (p := Z.to_nat pt). assert (Hp : (1 <= p < k)%nat) by (unfold p; lia).
    exists (firstn p (digits k q)), (skipn p (digits k q)). split; [reflexivity|].
    assert (Hs := Hds). rewrite <- (firstn_skipn p) in Hs. apply Forall_app in Hs. destruct Hs as [Hs1 Hs2].
    split; [exact Hs1|]. split; [exact Hs2|]. split.
    + rewrite Ec. destruct p as [|p]; [lia|]. cbn [firstn first_digit]. destruct (firstn p r); [exact I|exact Hc].
    + intro H. apply (f_equal (@length N)) in H. rewrite skipn_length, Hlen in H. cbn in H. lia.
Qed.

Lemma sign_cases : forall s, sign_str s = [] \/ sign_str s = [45%N].
Proof. intros [|]; [right|left]; reflexivity. Qed.

Definition shaped (t : str) : Prop :=
  exists sg A B, t = sg ++ A ++ 46%N :: B /\ (sg = [] \/ sg = [45%N]) /\ Forall is_dig A /\ Forall is_dig B /\ first_digit A /\ B <> [].

Lemma plain_shape : forall x, plain x = true -> shaped (repr x).
Proof.
  intros [s|s| |s m e] H; try discriminate H.
  - exists (sign_str s), [48%N], [48%N]. split; [destruct s; reflexivity|]. split; [apply sign_cases|].
    assert (D : Forall is_dig [48%N]) by (constructor; [unfold is_dig; lia|constructor]). split; [exact D|]. split; [exact D|]. split; [exact I|discriminate].
  - unfold plain in H. destruct (frac_of m e) as [n d] eqn:Hfr.
    rewrite !andb_true_iff in H. destruct H as (((((H1 & H2) & H3) & H4) & H5) & H6).
    apply Z.leb_le in H1, H3, H4, H5. apply Z.ltb_lt in H2, H6.
    assert (Hd : (0 < d)%Z).
    { unfold frac_of in Hfr. destruct e as [|k|k]; assert (E2 := f_equal snd Hfr); cbn [snd] in E2; lia. }
    assert (Hn : (0 < n)%Z) by lia.
    destruct (dec_exp_spec n d Hd H5 H6) as [Ht Hsci].
    unfold repr. rewrite Hfr. set (t := dec_exp n d) in *.
    assert (Hsome := repr_search_some 17 (SpecFloat.S754_finite s m e) s n d t 1 17 ltac:(lia)
                       (repr_try_17 s m e n d t (conj H1 H2) (conj H3 H4) Hfr Hd Hn Hsci Ht)).
    destruct (repr_search (SpecFloat.S754_finite s m e) s n d t 1 17) as [[q ex]|] eqn:Es; [clear Hsome|contradiction].
    destruct (repr_search_ok 17 s m e n d t 1 q ex Hd Hn Hsci ltac:(lia) ltac:(lia) ltac:(lia) Es)
      as (k & Hk & Eex & Hf & Hq1 & Hq2).
    assert (Hpk : (0 < 10 ^ (Z.of_nat k - 1))%Z) by (apply Z.pow_pos_nonneg; lia).
    assert (Hq : (0 < q)%N) by lia.
    destruct (strip_zeros_spec 20 q ex Hq) as (j & Hj & Hs1 & Hs2 & Hs3).
    destruct (strip_zeros 20 q ex) as [q' ex']. cbn [fst snd] in *.
    destruct (layout_shape q' ex' Hs3) as (A & B & E & HA & HB & HF & HN).
    + intros k' Hk' Hu Hl.
      apply N2Z.inj_lt in Hu. apply N2Z.inj_le in Hl. rewrite N2Z.inj_pow, nat_N_Z in Hu, Hl.
      rewrite Nat2Z.inj_sub in Hl by lia. change (Z.of_N 10) with 10%Z in *. change (Z.of_nat 1) with 1%Z in Hl.
      assert (Hpj : (0 < 10 ^ j)%Z) by (apply Z.pow_pos_nonneg; lia).
      assert (P : (10 ^ (Z.of_nat k' - 1 + j) <= 10 ^ Z.of_nat k)%Z).
      { rewrite Z.pow_add_r by lia. nia. }
      assert (Q : (10 ^ (Z.of_nat k - 1) < 10 ^ (Z.of_nat k' + j))%Z).
      { rewrite (Z.pow_add_r 10 (Z.of_nat k')) by lia. nia. }
      apply Z.pow_le_mono_r_iff in P; try lia. apply Z.pow_lt_mono_r_iff in Q; lia.
    + exists (sign_str s), A, B. rewrite E. split; [reflexivity|]. split; [apply sign_cases|]. auto.
Qed.

Lemma dig_decimal : forall c, is_dig c -> is_decimal c = true.
Proof. intros c H. unfold is_dig in H. unfold is_decimal. apply andb_true_iff. split; apply N.leb_le; lia. Qed.

Definition stops_run (s : str) : Prop := match s with c :: _ => is_decimal c = false | [] => True end.
Lemma run_digits : forall A s, Forall is_dig A -> stops_run s -> run (A ++ s) = (A, s).
Proof.
  induction A as [|c A IH]; intros s H T; cbn [app].
  - destruct s as [|c s]; [reflexivity|]. cbn [run]. cbn in T. rewrite T. reflexivity.
  - inversion H as [|? ? Hc HA]; subst. cbn [run]. rewrite (dig_decimal c Hc), (IH s HA T). reflexivity.
Qed.

(** What follows a value: nothing, a comma or a closing bracket. *)
Definition follows (s : str) : Prop := match s with c :: _ => In c [44; 93; 125]%N | [] => True end.

Lemma number_shaped : forall t rest, shaped t -> follows rest -> number (t ++ rest) = Some (t, rest).
Proof.
  intros t rest (sg & A & B & -> & S & HA & HB & F & NB) R. unfold number.
  assert (E1 : opt_char [45%N] ((sg ++ A ++ 46%N :: B) ++ rest) = (sg, A ++ 46%N :: B ++ rest)).
  { rewrite <- !app_assoc. cbn [app]. destruct S as [->| ->]; cbn [app opt_char existsb].
    - destruct A as [|a A]; [contradiction F|]. inversion HA as [|? ? Ha _]; subst. cbn [app opt_char existsb].
      replace (a =? 45)%N with false; [reflexivity|]. symmetry. apply N.eqb_neq. unfold is_dig in Ha. lia.
    - rewrite N.eqb_refl. reflexivity. }
  rewrite E1. rewrite (run_digits A (46%N :: B ++ rest) HA) by reflexivity.
  assert (Ft : match A with [] => false | [_] => true | c :: _ => negb (c =? 48)%N end = true).
  { destruct A as [|a [|b A]]; [contradiction F|reflexivity|]. cbn in F. apply negb_true_iff, N.eqb_neq. exact F. }
  rewrite Ft.
  assert (R1 : stops_run rest).
  { destruct rest as [|c rest]; [exact I|]. cbn in R. repeat (destruct R as [<-|R]; [reflexivity|]). contradiction. }
  assert (E2 : part [46%N] [] (46%N :: B ++ rest) = Some (46%N :: B, rest)).
  { unfold part. cbn [opt_char existsb]. change (46 =? 46)%N with true. cbn [orb].
    assert (E : opt_char [] (B ++ rest) = ([], B ++ rest)) by (destruct (B ++ rest); reflexivity).
    rewrite E, (run_digits B rest HB R1). destruct B as [|b B]; [contradiction (NB eq_refl)|reflexivity]. }
  rewrite E2.
  assert (E3 : part [101; 69]%N [43; 45]%N rest = Some ([], rest)).
  { unfold part. destruct rest as [|c rest]; [reflexivity|]. cbn [opt_char].
    assert (X : existsb (N.eqb c) [101; 69]%N = false).
    { cbn in R. repeat (destruct R as [<-|R]; [reflexivity|]). contradiction. }
    rewrite X. reflexivity. }
  rewrite E3. f_equal. f_equal. rewrite app_nil_r. reflexivity.
Qed.

Lemma shaped_head : forall t, shaped t -> exists c r, t = c :: r /\ (c = 45%N \/ is_dig c).
Proof.
  intros t (sg & A & B & -> & S & HA & HB & F & NB). destruct S as [->| ->].
  - destruct A as [|a A]; [contradiction F|]. inversion HA as [|? ? Ha _]; subst. exists a, (A ++ 46%N :: B). auto.
  - exists 45%N, (A ++ 46%N :: B). auto.
Qed.

Lemma shaped_printable : forall t, shaped t -> printable t.
Proof.
  assert (D : forall A, Forall is_dig A -> printable A).
  { intros A H. eapply Forall_impl; [|exact H]. intros c Hc. unfold is_dig in Hc. cbn beta. lia. }
  intros t (sg & A & B & -> & S & HA & HB & F & NB). apply Forall_app. split.
  - destruct S as [->| ->]; [constructor|]. constructor; [lia|constructor].
  - apply Forall_app. split; [exact (D _ HA)|]. constructor; [lia|exact (D _ HB)].
Qed.

(** ** Values *)

Fixpoint pyval_rect' (P : pyval -> Prop) (Hn : P VNone) (Hb : forall b, P (VBool b)) (Hs : forall s, P (VStr s))
  (Hf : forall x, P (VFloat x)) (Hl : forall l, Forall P l -> P (VList l))
  (Hd : forall d, Forall (fun kv => P (snd kv)) d -> P (VDict d)) (v : pyval) : P v :=
  match v with
  | VNone => Hn
  | VBool b => Hb b
  | VStr s => Hs s
  | VFloat x => Hf x
  | VList l => Hl l ((fix go l : Forall P l := match l with [] => Forall_nil _ | x :: r => Forall_cons _ (pyval_rect' P Hn Hb Hs Hf Hl Hd x) (go r) end) l)
  | VDict d => Hd d ((fix go d : Forall (fun kv => P (snd kv)) d :=
      match d with [] => Forall_nil _ | x :: r => Forall_cons x (pyval_rect' P Hn Hb Hs Hf Hl Hd (snd x)) (go r) end) d)
  end.

(** What makes a value readable: plain numbers, no key twice, ASCII keys. *)
Definition ascii_key (k : str) : Prop := Forall (fun c => (c < 128)%N) k.
Inductive good : pyval -> Prop :=
| good_none : good VNone
| good_bool : forall b, good (VBool b)
| good_str : forall s, good (VStr s)
| good_float : forall x, plain x = true -> good (VFloat x)
| good_list : forall l, Forall good l -> good (VList l)
| good_dict : forall d, NoDup (map fst d) -> Forall (fun kv => ascii_key (fst kv) /\ good (snd kv)) d -> good (VDict d).

Lemma utf16_ascii : forall k, ascii_key k -> utf16 k = k.
Proof.
  induction k as [|c k IH]; intro H; [reflexivity|]. inversion H as [|? ? Hc Hk]; subst. unfold utf16. cbn [flat_map]. fold (utf16 k).
  rewrite (IH Hk). unfold units. replace (c <? 65536)%N with true by (symmetry; apply N.ltb_lt; lia). reflexivity.
Qed.

(** The fuel a value needs. *)
Fixpoint need (v : pyval) : nat :=
  match v with
  | VList l => S (fold_right (fun v n => S (need v + n)) 0 l)
  | VDict d => S (fold_right (fun kv n => S (need (snd kv) + n)) 0 d)
  | _ => 1
  end.

Lemma expect_at : forall c s, is_ws c = false -> expect c (c :: s) = Some s.
Proof. intros c s H. unfold expect. cbn [skip_ws]. rewrite H, N.eqb_refl. reflexivity. Qed.
Lemma expect_not : forall c x s, is_ws x = false -> x <> c -> expect c (x :: s) = None.
Proof. intros c x s H N. unfold expect. cbn [skip_ws]. rewrite H. apply N.eqb_neq in N. rewrite N. reflexivity. Qed.

(** The first character of a value: no white space, no closing bracket. *)
Lemma dumps_head : forall v, good v -> exists c r, dumps v = c :: r /\ is_ws c = false /\ c <> 93%N /\ c <> 125%N.
Proof.
  intros v G. destruct G as [|[|]|s|x P|l _|d _ _]; cbn [dumps];
    try (eexists; eexists; split; [reflexivity|split; [reflexivity|split; discriminate]]).
  assert (S := plain_shape x P). assert (E : json_float x = repr x) by (destruct x as [|[|]| |]; try discriminate P; reflexivity).
  rewrite E. destruct (shaped_head _ S) as (c & r & -> & H). exists c, r. split; [reflexivity|]. unfold is_dig in H.
  split; [|split; intros ->; lia]. unfold is_ws. cbn [existsb].
  repeat match goal with |- context [(c =? ?k)%N] => replace (c =? k)%N with false by (symmetry; apply N.eqb_neq; lia) end. reflexivity.
Qed.

Definition reads_back (v : pyval) : Prop := forall f rest, need v <= f -> follows rest ->
  exists j, value f (dumps v ++ rest) = Some (j, rest) /\ denotes v j /\ once j.

Lemma skip_space : forall s, skip_ws (32%N :: s) = skip_ws s.
Proof. reflexivity. Qed.
Lemma expect_space : forall c s, expect c (32%N :: s) = expect c s.
Proof. reflexivity. Qed.
Lemma value_space : forall f s, value f (32%N :: s) = value f s.
Proof. intros [|f] s; [reflexivity|]. cbn [value]. rewrite !expect_space, skip_space. reflexivity. Qed.
Lemma elements_space : forall f s, elements f (32%N :: s) = elements f s.
Proof. intros [|f] s; [reflexivity|]. cbn [elements]. rewrite value_space. reflexivity. Qed.
Lemma members_space : forall f s, members f (32%N :: s) = members f s.
Proof. intros [|f] s; [reflexivity|]. cbn [members]. rewrite expect_space. reflexivity. Qed.

Lemma elements_back : forall l, l <> [] -> Forall good l -> Forall reads_back l -> forall f rest,
  fold_right (fun v n => S (need v + n)) 0 l <= f ->
  exists js, elements f (join (py ", ") (map dumps l) ++ 93%N :: rest) = Some (js, rest) /\ Forall2 denotes l js /\ Forall once js.
Proof.
  induction l as [|v l IH]; intros Hl G R f rest Hf; [contradiction (Hl eq_refl)|].
  inversion G as [|? ? Gv Gl]; inversion R as [|? ? Rv Rl]; subst. cbn [fold_right] in Hf.
  destruct f as [|f]; [lia|]. cbn [elements map join]. destruct l as [|w l].
  - cbn [map]. destruct (Rv f (93%N :: rest)) as (j & E & D & O); [cbn in Hf; lia|cbn; auto|].
    exists [j]. rewrite E. rewrite expect_not by (reflexivity || discriminate). rewrite expect_at by reflexivity. auto.
  - set (l' := w :: l) in *. cbn [map]. fold (map dumps l).
    change (dumps w :: map dumps l) with (map dumps l').
    assert (M : match map dumps l' with [] => dumps v | _ :: _ => dumps v ++ py ", " ++ join (py ", ") (map dumps l') end
      = dumps v ++ 44%N :: 32%N :: join (py ", ") (map dumps l')) by reflexivity.
    rewrite M. clear M. rewrite <- app_assoc. cbn [app].
    destruct (Rv f (44%N :: 32%N :: join (py ", ") (map dumps l') ++ 93%N :: rest)) as (j & E & D & O); [lia|cbn; auto|].
    rewrite E. rewrite expect_at by reflexivity. rewrite elements_space.
    destruct (IH ltac:(discriminate) Gl Rl f rest) as (js & E2 & D2 & O2); [lia|].
    rewrite E2. exists (j :: js). auto.
Qed.

Definition pair_text (kv : str * pyval) : str := json_string (fst kv) ++ py ": " ++ dumps (snd kv).

Lemma members_back : forall d, d <> [] -> Forall (fun kv => ascii_key (fst kv) /\ good (snd kv)) d ->
  Forall (fun kv => reads_back (snd kv)) d -> forall f rest,
  fold_right (fun kv n => S (need (snd kv) + n)) 0 d <= f ->
  exists js, members f (join (py ", ") (map pair_text d) ++ 125%N :: rest) = Some (js, rest)
    /\ Forall2 (fun a b => fst b = utf16 (fst a) /\ denotes (snd a) (snd b)) d js /\ Forall (fun p => once (snd p)) js.
Proof.
  induction d as [|[k v] d IH]; intros Hl G R f rest Hf; [contradiction (Hl eq_refl)|].
  inversion G as [|? ? [Gk Gv] Gl]; inversion R as [|? ? Rv Rl]; subst. cbn [fold_right snd fst] in *.
  destruct f as [|f]; [lia|]. cbn [members map join].
  assert (Go : forall tail, follows tail -> exists j,
    value f (dumps v ++ tail) = Some (j, tail) /\ denotes v j /\ once j) by (intros tail Ht; apply Rv; [lia|exact Ht]).
  assert (Head : forall tail, pair_text (k, v) ++ tail
    = 34%N :: flat_map json_char k ++ 34%N :: 58%N :: 32%N :: dumps v ++ tail).
  { intro tail. unfold pair_text, json_string. cbn [fst snd]. rewrite <- !app_assoc. reflexivity. }
  destruct d as [|w d].
  - cbn [map]. rewrite Head, expect_at by reflexivity. rewrite chars_string, expect_at by reflexivity. rewrite value_space.
    destruct (Go (125%N :: rest)) as (j & E & D & O); [cbn; auto|].
    rewrite E. rewrite expect_not by (reflexivity || discriminate). rewrite expect_at by reflexivity.
    exists [(utf16 k, j)]. split; [reflexivity|]. split; [constructor; [auto|constructor]|constructor; [exact O|constructor]].
  - set (d' := w :: d) in *.
    assert (M : match map pair_text d' with [] => pair_text (k, v) | _ :: _ => pair_text (k, v) ++ py ", " ++ join (py ", ") (map pair_text d') end
      = pair_text (k, v) ++ 44%N :: 32%N :: join (py ", ") (map pair_text d')) by reflexivity.
    rewrite M. clear M. rewrite <- app_assoc. cbn [app].
    rewrite Head, expect_at by reflexivity. rewrite chars_string, expect_at by reflexivity. rewrite value_space.
    destruct (Go (44%N :: 32%N :: join (py ", ") (map pair_text d') ++ 125%N :: rest)) as (j & E & D & O); [cbn; auto|].
    rewrite E. rewrite expect_at by reflexivity. rewrite members_space.
    destruct (IH ltac:(discriminate) Gl Rl f rest) as (js & E2 & D2 & O2); [lia|].
    rewrite E2. exists ((utf16 k, j) :: js). split; [reflexivity|]. split; constructor; auto.
Qed.

Lemma keys_same : forall d js, Forall (fun kv : str * pyval => ascii_key (fst kv) /\ good (snd kv)) d ->
  Forall2 (fun a b => fst b = utf16 (fst a) /\ denotes (snd a) (snd b)) d js -> map fst js = map fst d.
Proof.
  intros d js G F. induction F as [|a b d js [H _] F IH]; [reflexivity|]. inversion G as [|? ? [Ga _] Gd]; subst.
  cbn [map]. rewrite H, (utf16_ascii _ Ga), (IH Gd). reflexivity.
Qed.

Lemma reads : forall v, good v -> reads_back v.
Proof.
  apply (pyval_rect' (fun v => good v -> reads_back v)).
  - intros _ f rest Hf _. destruct f as [|f]; [cbn in Hf; lia|]. exists JNull. split; [reflexivity|]. split; constructor.
  - intros b _ f rest Hf _. destruct f as [|f]; [cbn in Hf; lia|]. exists (JBool b). split; [destruct b; reflexivity|]. split; constructor.
  - intros s _ f rest Hf _. destruct f as [|f]; [cbn in Hf; lia|]. exists (JStr (utf16 s)). split; [|split; constructor].
    cbn [dumps]. unfold json_string. rewrite <- !app_assoc. cbn [app value].
    rewrite !(expect_not _ 34) by (reflexivity || discriminate). rewrite expect_at by reflexivity. rewrite chars_string. reflexivity.
  - intros x G f rest Hf Hr. inversion G as [| | |? P| |]; subst. destruct f as [|f]; [cbn in Hf; lia|].
    assert (E : json_float x = repr x) by (destruct x as [|[|]| |]; try discriminate P; reflexivity).
    assert (S := plain_shape x P). exists (JNum (repr x)). split; [|split; constructor; exact (proj1 (plain_repr x P))].
    cbn [dumps]. rewrite E. pose proof (number_shaped _ rest S Hr) as Nb.
    destruct (shaped_head _ S) as (c & r & Ec & H). rewrite Ec in *. cbn [app value] in *. unfold is_dig in H.
    assert (W : is_ws c = false).
    { unfold is_ws. cbn [existsb].
      repeat match goal with |- context [(c =? ?k)%N] => replace (c =? k)%N with false by (symmetry; apply N.eqb_neq; lia) end. reflexivity. }
    rewrite !expect_not by (exact W || (intros ->; lia)). cbn [skip_ws]. rewrite W.
    assert (Wd : forall a w, (a = 110 \/ a = 116 \/ a = 102)%N -> strip_word (a :: w) (c :: r ++ rest) = None).
    { intros a w Ha. cbn [strip_word]. replace (a =? c)%N with false; [reflexivity|]. symmetry. apply N.eqb_neq. lia. }
    change (py "null") with (110%N :: py "ull"). change (py "true") with (116%N :: py "rue"). change (py "false") with (102%N :: py "alse").
    rewrite !Wd by auto. rewrite Nb. reflexivity.
  - intros l IH G f rest Hf Hr. inversion G as [| | | |? Gl|]; subst. destruct f as [|f]; [cbn in Hf; lia|].
    cbn [dumps]. rewrite <- !app_assoc. change (py "[") with [91%N]. change (py "]") with [93%N]. cbn [app value].
    rewrite expect_not by (reflexivity || discriminate). rewrite expect_at by reflexivity.
    destruct l as [|v l].
    + exists (JArr []). cbn [map join app]. rewrite expect_at by reflexivity. split; [reflexivity|]. split; constructor; constructor.
    + assert (R : Forall reads_back (v :: l)).
      { rewrite Forall_forall in *. intros w Hw. exact (IH w Hw (Gl w Hw)). }
      destruct (elements_back (v :: l) ltac:(discriminate) Gl R f rest) as (js & E & D & O); [cbn [need] in Hf; lia|].
      assert (Hh : exists c r, join (py ", ") (map dumps (v :: l)) ++ 93%N :: rest = c :: r /\ is_ws c = false /\ c <> 93%N).
      { inversion Gl as [|? ? Gv _]; subst. destruct (dumps_head v Gv) as (c & r & Ec & Hc1 & Hc2 & _).
        cbn [map join]. rewrite Ec. destruct (map dumps l); eexists; eexists; (split; [reflexivity|auto]). }
      destruct Hh as (c & r & Eh & Hc1 & Hc2). rewrite Eh in *. rewrite expect_not by assumption. rewrite E.
      exists (JArr js). split; [reflexivity|]. split; constructor; assumption.
  - intros d IH G f rest Hf Hr. inversion G as [| | | | |? Nd Gl]; subst. destruct f as [|f]; [cbn in Hf; lia|].
    cbn [dumps]. rewrite <- !app_assoc. change (py "{") with [123%N]. change (py "}") with [125%N]. cbn [app value].
    rewrite expect_at by reflexivity.
    change (map (fun kv => json_string (fst kv) ++ py ": " ++ dumps (snd kv)) d) with (map pair_text d).
    destruct d as [|[k v] d].
    + exists (JObj []). cbn [map join app]. rewrite expect_at by reflexivity. split; [reflexivity|]. split; constructor; constructor.
    + assert (R : Forall (fun kv => reads_back (snd kv)) ((k, v) :: d)).
      { rewrite Forall_forall in *. intros w Hw. exact (IH w Hw (proj2 (Gl w Hw))). }
      destruct (members_back ((k, v) :: d) ltac:(discriminate) Gl R f rest) as (js & E & D & O); [cbn [need] in Hf; lia|].
      assert (Hh : exists r, join (py ", ") (map pair_text ((k, v) :: d)) ++ 125%N :: rest = 34%N :: r).
      { cbn [map join]. unfold pair_text, json_string at 1 2. destruct (map _ d); eexists; reflexivity. }
      destruct Hh as (r & Eh). rewrite Eh in *. rewrite (expect_not 125 34) by (reflexivity || discriminate). rewrite E.
      exists (JObj js). split; [reflexivity|]. split; constructor; try assumption. rewrite (keys_same _ _ Gl D). exact Nd.
Qed.

(** ** The whole text *)

Lemma join_length : forall sep l, length (join sep l) + length sep = fold_right (fun s n => length s + length sep + n) 0 l \/ l = [].
Proof.
  intros sep l. induction l as [|a l IH]; [right; reflexivity|left]. cbn [fold_right]. destruct l as [|b l].
  - cbn. lia.
  - destruct IH as [IH|]; [|discriminate]. cbn [join]. cbn [join] in IH. rewrite !app_length. lia.
Qed.

Lemma need_length : forall v, good v -> need v < length (dumps v).
Proof.
  apply (pyval_rect' (fun v => good v -> need v < length (dumps v))).
  - intros _. cbn. lia.
  - intros [|] _; cbn; lia.
  - intros s _. cbn [need dumps]. unfold json_string. rewrite !app_length. cbn [length]. lia.
  - intros x G. inversion G as [| | |? P| |]; subst. cbn [need dumps].
    assert (E : json_float x = repr x) by (destruct x as [|[|]| |]; try discriminate P; reflexivity).
    rewrite E. destruct (plain_repr x P). lia.
  - intros l IH G. inversion G as [| | | |? Gl|]; subst. cbn [need dumps]. rewrite !app_length. change (length (py "[")) with 1.
    change (length (py "]")) with 1. destruct (join_length (py ", ") (map dumps l)) as [L|L].
    + change (length (py ", ")) with 2 in L.
      assert (K : fold_right (fun v n => S (need v + n)) 0 l + 2 * length l <= fold_right (fun s n => length s + 2 + n) 0 (map dumps l)).
      { clear L G. induction l as [|v l IHl]; [reflexivity|]. inversion IH as [|? ? Hv Hl]; inversion Gl as [|? ? Gv Gl']; subst.
        cbn [fold_right map length]. specialize (IHl Hl Gl'). specialize (Hv Gv). lia. }
      destruct l as [|v l]; [cbn in *; lia|]. cbn [length] in K. lia.
    + destruct l; [cbn; lia|discriminate L].
  - intros d IH G. inversion G as [| | | | |? Nd Gl]; subst. cbn [need dumps]. rewrite !app_length. change (length (py "{")) with 1.
    change (length (py "}")) with 1.
    change (map (fun kv => json_string (fst kv) ++ py ": " ++ dumps (snd kv)) d) with (map pair_text d).
    destruct (join_length (py ", ") (map pair_text d)) as [L|L].
    + change (length (py ", ")) with 2 in L.
      assert (K : fold_right (fun kv n => S (need (snd kv) + n)) 0 d + 2 * length d <= fold_right (fun s n => length s + 2 + n) 0 (map pair_text d)).
      { clear L G Nd. induction d as [|v d IHd]; [reflexivity|]. inversion IH as [|? ? Hv Hl]; inversion Gl as [|? ? Gv Gl']; subst.
        cbn [fold_right map length]. specialize (IHd Hl Gl'). specialize (Hv (proj2 Gv)). unfold pair_text at 1. rewrite !app_length. lia. }
      destruct d as [|v d]; [cbn in *; lia|]. cbn [length] in K. lia.
    + destruct d; [cbn; lia|discriminate L].
Qed.

Lemma hex_printable : forall n, printable (hex4 n).
Proof.
  intro n. assert (H : forall k, (k < 16)%N -> (32 <= hex_digit k <= 126)%N).
  { intros k Hk. unfold hex_digit. destruct (N.ltb_spec k 10); lia. }
  unfold hex4. repeat constructor; apply H; apply N.mod_lt; discriminate.
Qed.

Lemma char_printable : forall c, printable (json_char c).
Proof.
  intro c. unfold json_char.
  repeat match goal with |- printable (if (c =? ?n)%N then _ else _) => destruct (c =? n)%N; [repeat constructor; lia|] end.
  destruct ((32 <=? c) && (c <=? 126))%N eqn:P.
  - apply andb_true_iff in P. destruct P as [P1 P2]. apply N.leb_le in P1, P2. constructor; [lia|constructor].
  - assert (U : printable [92; 117]%N) by (repeat constructor; lia). destruct (c <? 65536)%N.
    + apply Forall_app. split; [exact U|apply hex_printable].
    + apply Forall_app. split; [exact U|]. apply Forall_app. split; [apply hex_printable|]. apply Forall_app. split; [exact U|apply hex_printable].
Qed.

Lemma string_printable : forall s, printable (json_string s).
Proof.
  intro s. unfold json_string. assert (Q : printable [34%N]) by (constructor; [lia|constructor]).
  apply Forall_app. split; [exact Q|]. apply Forall_app. split; [|exact Q].
  induction s as [|c s IH]; [constructor|]. cbn [flat_map]. apply Forall_app. split; [apply char_printable|exact IH].
Qed.

Lemma join_printable : forall sep l, printable sep -> Forall printable l -> printable (join sep l).
Proof.
  intros sep l Hs. induction l as [|a l IH]; intro H; [constructor|]. inversion H as [|? ? Ha Hl]; subst. cbn [join].
  destruct l as [|b l]; [exact Ha|]. apply Forall_app. split; [exact Ha|]. apply Forall_app. split; [exact Hs|exact (IH Hl)].
Qed.

Ltac lit_printable := repeat (constructor; [vm_compute; split; discriminate|]); constructor.

Lemma dumps_printable : forall v, good v -> printable (dumps v).
Proof.
  assert (Sep : printable (py ", ")) by lit_printable.
  apply (pyval_rect' (fun v => good v -> printable (dumps v))).
  - intros _. lit_printable.
  - intros [|] _; lit_printable.
  - intros s _. apply string_printable.
  - intros x G. inversion G as [| | |? P| |]; subst. cbn [dumps].
    assert (E : json_float x = repr x) by (destruct x as [|[|]| |]; try discriminate P; reflexivity).
    rewrite E. exact (shaped_printable _ (plain_shape x P)).
  - intros l IH G. inversion G as [| | | |? Gl|]; subst. cbn [dumps]. apply Forall_app. split; [lit_printable|].
    apply Forall_app. split; [|lit_printable]. apply join_printable; [exact Sep|]. apply Forall_map. rewrite Forall_forall in *.
    intros v Hv. exact (IH v Hv (Gl v Hv)).
  - intros d IH G. inversion G as [| | | | |? Nd Gl]; subst. cbn [dumps]. apply Forall_app. split; [lit_printable|].
    apply Forall_app. split; [|lit_printable]. apply join_printable; [exact Sep|]. apply Forall_map. rewrite Forall_forall in *.
    intros v Hv. apply Forall_app. split; [apply string_printable|]. apply Forall_app. split; [lit_printable|].
    exact (IH v Hv (proj2 (Gl v Hv))).
Qed.

Theorem dumps_faithful : forall d, good (VDict d) -> faithful d (dumps (VDict d)).
Proof.
  intros d G. split; [exact (dumps_printable _ G)|].
  destruct (reads _ G (S (length (dumps (VDict d)))) []) as (j & E & D & O); [assert (L := need_length _ G); lia|exact I|].
  rewrite app_nil_r in E. exists j. unfold json_text. rewrite E. auto.
Qed.

(** ** No character is lost *)

Lemma units_scalar : forall c, scalar c ->
  (units c = [c] /\ ~ (55296 <= c <= 57343)%N)
  \/ (exists a b, units c = [(55296 + a)%N; (56320 + b)%N] /\ (a < 1024)%N /\ (b < 1024)%N /\ c = (65536 + a * 1024 + b)%N).
Proof.
  intros c H. unfold scalar in H. unfold units. destruct (N.ltb_spec c 65536) as [L|L]; [left; split; [reflexivity|lia]|right].
  assert (A : ((c - 65536) / 1024 < 1024)%N) by (apply N.div_lt_upper_bound; [discriminate|lia]).
  assert (B : ((c - 65536) mod 1024 < 1024)%N) by (apply N.mod_lt; discriminate).
  exists ((c - 65536) / 1024)%N, ((c - 65536) mod 1024)%N. rewrite (N.mod_small _ _ A). split; [reflexivity|]. split; [exact A|]. split; [exact B|].
  assert (D := N.div_mod (c - 65536) 1024 ltac:(discriminate)). lia.
Qed.

Theorem utf16_inj : forall s t, Forall scalar s -> Forall scalar t -> utf16 s = utf16 t -> s = t.
Proof.
  assert (Hd : forall c, scalar c -> units c <> []).
  { intros c H. destruct (units_scalar c H) as [[-> _]|(a & b & -> & _)]; discriminate. }
  induction s as [|c s IH]; intros [|d t] Hs Ht E; try reflexivity.
  - inversion Ht as [|? ? H _]; subst. unfold utf16 in E. cbn [flat_map] in E. symmetry in E. apply app_eq_nil in E. contradiction (Hd d H). apply E.
  - inversion Hs as [|? ? H _]; subst. unfold utf16 in E. cbn [flat_map] in E. apply app_eq_nil in E. contradiction (Hd c H). apply E.
  - inversion Hs as [|? ? Hc Hs']; inversion Ht as [|? ? Hd' Ht']; subst. unfold utf16 in E. cbn [flat_map] in E.
    fold (utf16 s) in E. fold (utf16 t) in E.
    destruct (units_scalar c Hc) as [[Uc Nc]|(a & b & Uc & A & B & Ec)], (units_scalar d Hd') as [[Ud Nd]|(a' & b' & Ud & A' & B' & Ed)];
      rewrite Uc, Ud in E; cbn [app] in E.
    + injection E as <- E. f_equal. exact (IH t Hs' Ht' E).
    + assert (E1 := f_equal (hd 0%N) E). cbn [hd] in E1. lia.
    + assert (E1 := f_equal (hd 0%N) E). cbn [hd] in E1. lia.
    + assert (E1 := f_equal (hd 0%N) E). assert (E2 := f_equal (fun l => hd 0%N (tl l)) E). assert (E3 := f_equal (fun l => tl (tl l)) E).
      cbn [hd tl] in E1, E2, E3. assert (a = a') by lia. assert (b = b') by lia. subst a' b'. rewrite Ec, <- Ed. f_equal. exact (IH t Hs' Ht' E3).
Qed.
