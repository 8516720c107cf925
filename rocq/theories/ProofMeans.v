(** * What a pattern accepts, part by part (C77) *)
From Coq Require Import String Ascii.
From Coq Require Import List NArith ZArith Bool Arith Lia.
From Verif Require Import PyBase PyRegex AeroRegex StrFacts RegexPaths ProofStation SpecNum SpecGrammar.
Import ListNotations.
Local Open Scope string_scope.
Local Open Scope nat_scope.
Local Open Scope list_scope.

(** ** Acceptance and consumption *)

Definition hollow (r : regex) : bool := match r with Eps | Bos | Eos => true | _ => false end.
(** The anchors of a pattern stand at its two ends. *)
Fixpoint placed (st en : bool) (r : regex) : bool :=
  match r with
  | Eps | Chr _ => true
  | Bos => st
  | Eos => en
  | Star _ => false
  | Alt a b => placed st en a && placed st en b
  | Grp _ r => placed st en r
  | Seq a b => placed st (en && hollow b) a && placed (st && hollow a) en b
  end.
Lemma hollow_den : forall r x, hollow r = true -> den r x -> x = [].
Proof. intros r x H D. destruct r; try discriminate H; exact D. Qed.
Lemma den_run : forall r st en x pos t, placed st en r = true -> den r x -> (st = true -> pos = 0) -> (en = true -> at_end t = true) ->
  exists sp, In (pos + length x, t, sp) (run r pos (x ++ t)).
Proof.
  intro r. induction r as [|k|a IHa b IHb|a IHa b IHb|k|n r IH| |]; intros st en x pos t P D S0 E0; cbn [placed den run] in *.
  - subst x. exists []. cbn. rewrite Nat.add_0_r. left. reflexivity.
  - destruct D as (c & -> & K). exists []. cbn [app length]. rewrite K, Nat.add_1_r. left. reflexivity.
  - apply andb_prop in P. destruct P as [Pa Pb]. destruct D as (x1 & x2 & -> & Da & Db).
    destruct (IHb _ _ x2 (pos + length x1) t Pb Db) as (sb & Ib); [|exact E0|].
    + intro H. apply andb_prop in H. destruct H as [H1 H2]. rewrite (hollow_den _ _ H2 Da), (S0 H1). reflexivity.
    + destruct (IHa _ _ x1 pos (x2 ++ t) Pa Da S0) as (sa & Ia).
      * intro H. apply andb_prop in H. destruct H as [H1 H2]. rewrite (hollow_den _ _ H2 Db). exact (E0 H1).
      * exists (sb ++ sa). apply in_flat_map. exists (pos + length x1, x2 ++ t, sa). split; [rewrite <- app_assoc; exact Ia|].
        apply in_map_iff. exists (pos + length x1 + length x2, t, sb). split; [rewrite app_length, Nat.add_assoc; reflexivity|exact Ib].
  - apply andb_prop in P. destruct P as [Pa Pb]. destruct D as [D|D].
    + destruct (IHa _ _ x pos t Pa D S0 E0) as (sp & I). exists sp. apply in_or_app. left. exact I.
    + destruct (IHb _ _ x pos t Pb D S0 E0) as (sp & I). exists sp. apply in_or_app. right. exact I.
  - discriminate P.
  - destruct (IH _ _ x pos t P D S0 E0) as (sp & I). exists ((n, (pos, pos + length x)) :: sp).
    apply in_map_iff. exists (pos + length x, t, sp). split; [reflexivity|exact I].
  - subst x. cbn [app length]. rewrite (S0 P). cbn. exists []. left. reflexivity.
  - subst x. cbn [app length]. rewrite (E0 P), Nat.add_0_r. exists []. left. reflexivity.
Qed.

Lemma accepts_run : forall r w, accepts r w <-> exists z, In z (run r 0 w).
Proof.
  intros r w. unfold accepts, re_match. destruct (run r 0 w) as [|[[p t] sp] l].
  - split; [intro H; elim (H eq_refl)|intros (z & [])].
  - split; [intros _; eexists; left; reflexivity|discriminate].
Qed.
Lemma accepts_alt : forall a b w, accepts (Alt a b) w <-> accepts a w \/ accepts b w.
Proof.
  intros a b w. rewrite !accepts_run. cbn [run]. split.
  - intros (z & I). apply in_app_or in I. destruct I as [I|I]; [left|right]; exists z; exact I.
  - intros [(z & I)|(z & I)]; exists z; apply in_or_app; [left|right]; exact I.
Qed.
Lemma typed_end : forall t, typed t -> at_end t = true -> t = [].
Proof.
  intros [|c [|d t]] T A; [reflexivity| |discriminate A]. cbn [at_end] in A. apply N.eqb_eq in A. inversion T as [|? ? [_ N0] _]; subst. elim (N0 eq_refl).
Qed.
Theorem accepts_closed : forall r w, placed true true r = true -> closed_end r = true -> typed w -> (accepts r w <-> den r w).
Proof.
  intros r w P C T. rewrite accepts_run. split.
  - intros ([[p t] sp] & I). pose proof (run_end _ _ _ _ _ _ C I) as A. destruct (run_den _ _ _ _ _ _ I) as (x & -> & _ & D).
    apply Forall_app in T. rewrite (typed_end t (proj2 T) A), app_nil_r. exact D.
  - intro D. destruct (den_run r true true w 0 [] P D (fun _ => eq_refl) (fun _ => eq_refl)) as (sp & I). rewrite app_nil_r in I. eexists. exact I.
Qed.
Theorem accepts_open : forall r w, placed true false r = true -> (accepts r w <-> exists x t, w = x ++ t /\ den r x).
Proof.
  intros r w P. rewrite accepts_run. split.
  - intros ([[p t] sp] & I). destruct (run_den _ _ _ _ _ _ I) as (x & -> & _ & D). exists x, t. auto.
  - intros (x & t & -> & D). destruct (den_run r true false x 0 t P D (fun _ => eq_refl)) as (sp & I); [discriminate|]. eexists. exact I.
Qed.

(** ** Small grammars *)

Definition lang := str -> Prop.
Definition cat (A B : lang) : lang := fun w => exists u v, w = u ++ v /\ A u /\ B v.
Definition alt (A B : lang) : lang := fun w => A w \/ B w.
Definition maybe (A : lang) : lang := fun w => A w \/ w = [].
Definition oneof (l : list str) : lang := fun w => In w l.
Definition lit (s : string) : lang := fun w => w = py s.
Definition num (k : nat) : lang := fun w => exists n, (n < 10 ^ N.of_nat k)%N /\ w = digits k n.
Arguments lit s%string_scope.

Definition means (r : regex) (A : lang) : Prop := forall w, typed w -> (den r w <-> A w).
Lemma means_cat : forall a b A B, means a A -> means b B -> means (Seq a b) (cat A B).
Proof.
  intros a b A B Ha Hb w T. cbn [den]. split; intros (u & v & -> & D1 & D2); apply Forall_app in T; destruct T as [T1 T2]; exists u, v;
    (split; [reflexivity|]); (split; [apply (Ha u T1); exact D1|apply (Hb v T2); exact D2]).
Qed.
Lemma means_alt : forall a b A B, means a A -> means b B -> means (Alt a b) (alt A B).
Proof. intros a b A B Ha Hb w T. cbn [den]. unfold alt. rewrite (Ha w T), (Hb w T). reflexivity. Qed.
Lemma means_maybe : forall a A, means a A -> means (Alt a Eps) (maybe A).
Proof. intros a A Ha w T. cbn [den]. unfold maybe. rewrite (Ha w T). reflexivity. Qed.
Lemma means_grp : forall n a A, means a A -> means (Grp n a) A.
Proof. intros n a A Ha w T. exact (Ha w T). Qed.
Lemma means_bos : forall a A, means a A -> means (Seq Bos a) A.
Proof.
  intros a A Ha w T. rewrite <- (Ha w T). cbn [den]. split; [intros (u & v & -> & -> & D); exact D|intro D; exists [], w; auto].
Qed.
Lemma means_eos : forall a A, means a A -> means (Seq a Eos) A.
Proof.
  intros a A Ha w T. rewrite <- (Ha w T). cbn [den]. split; [intros (u & v & -> & D & ->); rewrite app_nil_r; exact D|].
  intro D. exists w, []. rewrite app_nil_r. auto.
Qed.
Lemma means_assoc : forall a b c A, means (Seq a (Seq b c)) A -> means (Seq (Seq a b) c) A.
Proof.
  intros a b c A H w T. rewrite <- (H w T). cbn [den]. split.
  - intros (u & v & -> & (u1 & u2 & -> & D1 & D2) & D3). exists u1, (u2 ++ v). rewrite app_assoc. split; [reflexivity|]. split; [exact D1|]. exists u2, v. auto.
  - intros (u & v & -> & D1 & (u1 & u2 & -> & D2 & D3)). exists (u ++ u1), u2. rewrite app_assoc. split; [reflexivity|]. split; [|exact D3]. exists u, u1. auto.
Qed.

(** *** Finite parts *)

Definition chars : list N := map N.of_nat (seq 0 128).
Fixpoint words (r : regex) : list str :=
  match r with
  | Eps | Bos | Eos | Star _ => [[]]
  | Chr k => map (fun c => [c]) (filter (fun c => in_cls c k) chars)
  | Seq a b => flat_map (fun u => map (fun v => u ++ v) (words b)) (words a)
  | Alt a b => words a ++ words b
  | Grp _ r => words r
  end.
Lemma in_chars : forall c, In c chars <-> (c < 128)%N.
Proof.
  intro c. unfold chars. rewrite in_map_iff. split.
  - intros (n & <- & I). apply in_seq in I. lia.
  - intro H. exists (N.to_nat c). split; [apply N2Nat.id|]. apply in_seq. lia.
Qed.
Theorem means_words : forall r, starfree r = true -> means r (oneof (words r)).
Proof.
  unfold oneof. intro r. induction r as [|k|a IHa b IHb|a IHa b IHb|k|n r IH| |]; intros F w T; cbn [starfree den words] in *.
  - split; [intros ->; left; reflexivity|intros [<-|[]]; reflexivity].
  - rewrite in_map_iff. split.
    + intros (c & -> & K). exists c. split; [reflexivity|]. apply filter_In. split; [|exact K]. apply in_chars. inversion T as [|? ? [L _] _]. exact L.
    + intros (c & <- & I). apply filter_In in I. exists c. split; [reflexivity|exact (proj2 I)].
  - apply andb_prop in F. destruct F as [Fa Fb]. rewrite in_flat_map. split.
    + intros (u & v & -> & Da & Db). apply Forall_app in T. destruct T as [T1 T2]. exists u. split; [apply (IHa Fa u T1); exact Da|].
      apply in_map. apply (IHb Fb v T2). exact Db.
    + intros (u & Iu & I). apply in_map_iff in I. destruct I as (v & <- & Iv). apply Forall_app in T. destruct T as [T1 T2].
      exists u, v. split; [reflexivity|]. split; [apply (IHa Fa u T1); exact Iu|apply (IHb Fb v T2); exact Iv].
  - apply andb_prop in F. destruct F as [Fa Fb]. rewrite in_app_iff, (IHa Fa w T), (IHb Fb w T). reflexivity.
  - discriminate F.
  - exact (IH F w T).
  - split; [intros ->; left; reflexivity|intros [<-|[]]; reflexivity].
  - split; [intros ->; left; reflexivity|intros [<-|[]]; reflexivity].
Qed.

Definition within (l l' : list str) : bool := forallb (fun u => existsb (str_eqb u) l') l.
Lemma within_ok : forall l l' w, within l l' = true -> In w l -> In w l'.
Proof.
  intros l l' w H I. apply (proj1 (forallb_forall _ _) H) in I. apply existsb_exists in I. destruct I as (u & Iu & E). apply str_eqb_eq in E. subst u. exact Iu.
Qed.
Lemma means_oneof : forall r l, starfree r && (within (words r) l && within l (words r)) = true -> means r (oneof l).
Proof.
  intros r l H w T. apply andb_prop in H. destruct H as [F H]. apply andb_prop in H. destruct H as [H1 H2]. rewrite (means_words r F w T).
  split; intro I; [exact (within_ok _ _ _ H1 I)|exact (within_ok _ _ _ H2 I)].
Qed.
Lemma means_lit : forall r s, starfree r && (within (words r) [py s] && within [py s] (words r)) = true -> means r (lit s).
Proof.
  intros r s H w T. rewrite (means_oneof r [py s] H w T). unfold oneof, lit. split; [intros [<-|[]]; reflexivity|intros ->; left; reflexivity].
Qed.

(** *** Numbers *)

Lemma digit_char : forall c, (c < 128)%N -> (is_digit c = true <-> exists d, (d < 10)%N /\ c = dig d).
Proof.
  intros c L. split.
  - intro H. assert (K : forallb (fun c => implb (is_digit c) (existsb (fun d => N.eqb c (dig d)) [0;1;2;3;4;5;6;7;8;9]%N)) chars = true) by (vm_compute; reflexivity).
    apply in_chars in L. apply (proj1 (forallb_forall _ _) K) in L. rewrite H in L. cbn [implb] in L. apply existsb_exists in L. destruct L as (d & I & E).
    apply N.eqb_eq in E. exists d. split; [|exact E]. cbn [In] in I. repeat (destruct I as [<-|I]; [reflexivity|]). contradiction.
  - intros (d & D & ->). assert (K : forallb (fun d => is_digit (dig d)) [0;1;2;3;4;5;6;7;8;9]%N = true) by (vm_compute; reflexivity).
    apply (proj1 (forallb_forall _ _) K). cbn [In]. lia.
Qed.
Lemma means_digit : means (Chr [CDigit]) (num 1).
Proof.
  intros w T. cbn [den]. unfold num. split.
  - intros (c & -> & K). inversion T as [|? ? [L _] _]; subst.
    assert (K' : is_digit c = true) by (unfold in_cls in K; cbn [existsb in_citem] in K; rewrite orb_false_r in K; exact K). apply (digit_char c L) in K'. destruct K' as (d & D & ->).
    exists d. split; [exact D|]. cbn [digits app]. rewrite N.mod_small by exact D. reflexivity.
  - intros (n & B & E). cbn [digits app] in E. exists (dig (n mod 10)). split; [exact E|]. subst w. inversion T as [|? ? [L _] _]; subst.
    assert (K' : is_digit (dig (n mod 10)) = true) by (apply (digit_char _ L); exists (n mod 10)%N; split; [apply N.mod_lt; discriminate|reflexivity]).
    unfold in_cls. cbn [existsb in_citem]. rewrite K'. reflexivity.
Qed.
Lemma num_cat : forall j k w, cat (num j) (num k) w <-> num (j + k) w.
Proof.
  intros j k. induction k as [|k IH]; intro w; unfold cat, num.
  - split.
    + intros (u & v & -> & (n & B & ->) & (m & _ & ->)). exists n. rewrite Nat.add_0_r, app_nil_r. auto.
    + intros (n & B & ->). rewrite Nat.add_0_r in *. exists (digits j n), []. rewrite app_nil_r. split; [reflexivity|]. split; [exists n; auto|]. exists 0%N. split; reflexivity.
  - rewrite Nat.add_succ_r. split.
    + intros (u & v & -> & A & (m & B & ->)). cbn [digits]. 
      assert (K : num (j + k) (u ++ digits k (m / 10))).
      { apply IH. exists u, (digits k (m / 10)). split; [reflexivity|]. split; [exact A|]. exists (m / 10)%N. split; [|reflexivity].
        apply N.div_lt_upper_bound; [discriminate|]. rewrite Nat2N.inj_succ, N.pow_succ_r' in B. exact B. }
      destruct K as (n & Bn & En). exists (n * 10 + m mod 10)%N. assert (M : (m mod 10 < 10)%N) by (apply N.mod_lt; discriminate). split.
      * rewrite Nat2N.inj_succ, N.pow_succ_r'. lia.
      * rewrite app_assoc, En. cbn [digits]. f_equal; [f_equal|do 2 f_equal].
        -- rewrite N.div_add_l by discriminate. rewrite (N.div_small (m mod 10)) by exact M. lia.
        -- rewrite N.add_comm, N.mod_add by discriminate. rewrite N.mod_mod by discriminate. reflexivity.
    + intros (n & B & ->). cbn [digits]. rewrite Nat2N.inj_succ, N.pow_succ_r' in B.
      assert (K : cat (num j) (num k) (digits (j + k) (n / 10))).
      { apply IH. exists (n / 10)%N. split; [|reflexivity]. apply N.div_lt_upper_bound; [discriminate|exact B]. }
      destruct K as (u & v & E & A & (m & Bm & ->)). exists u, (digits (S k) (m * 10 + n mod 10)). assert (M : (n mod 10 < 10)%N) by (apply N.mod_lt; discriminate). split; [|split; [exact A|]].
      * rewrite E, <- app_assoc. f_equal. cbn [digits]. f_equal; [f_equal|do 2 f_equal].
        -- rewrite N.div_add_l by discriminate. rewrite (N.div_small (n mod 10)) by exact M. lia.
        -- symmetry. rewrite N.add_comm, N.mod_add by discriminate. rewrite N.mod_mod by discriminate. reflexivity.
      * exists (m * 10 + n mod 10)%N. split; [|reflexivity]. rewrite Nat2N.inj_succ, N.pow_succ_r'. lia.
Qed.
Lemma means_num_cat : forall a b j k, means a (num j) -> means b (num k) -> means (Seq a b) (num (j + k)).
Proof. intros a b j k Ha Hb w T. rewrite <- num_cat. exact (means_cat _ _ _ _ Ha Hb w T). Qed.
Lemma means_num_maybe : forall a b j k, means a (num j) -> means b (num k) -> means (Seq a (Alt b Eps)) (alt (num (j + k)) (num j)).
Proof.
  intros a b j k Ha Hb w T. rewrite (means_cat _ _ _ _ Ha (means_maybe _ _ Hb) w T). unfold alt. rewrite <- num_cat. unfold cat, maybe. split.
  - intros (u & v & -> & A & [B| ->]); [left; exists u, v; auto|right; rewrite app_nil_r; exact A].
  - intros [(u & v & -> & A & B)|A]; [exists u, v; auto|]. exists w, []. rewrite app_nil_r. auto.
Qed.
Lemma means_num_alt : forall a b j k l, means a (num j) -> means b (alt (num k) (num l)) -> means (Seq a b) (alt (num (j + k)) (num (j + l))).
Proof.
  intros a b j k l Ha Hb w T. rewrite (means_cat _ _ _ _ Ha Hb w T). unfold alt. rewrite <- !num_cat. unfold cat. split.
  - intros (u & v & -> & A & [B|B]); [left|right]; exists u, v; auto.
  - intros [(u & v & -> & A & B)|(u & v & -> & A & B)]; exists u, v; auto.
Qed.
