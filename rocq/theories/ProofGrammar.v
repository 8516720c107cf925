(** * Proofs: which words the patterns accept (C77) *)
From Coq Require Import String Ascii.
From Coq Require Import List NArith ZArith Bool Arith Lia.
From Verif Require Import PyBase PyRegex AeroRegex StrFacts RegexPaths ProofStation SpecNum SpecGroups SpecGrammar ProofMeans.
Import ListNotations.
Local Open Scope string_scope.
Local Open Scope nat_scope.
Local Open Scope list_scope.

Definition between (a b : nat) : list N := map N.of_nat (seq a (S b - a)).
Lemma in_between : forall a b n, In n (between a b) <-> (N.of_nat a <= n <= N.of_nat b)%N.
Proof.
  intros a b n. unfold between. rewrite in_map_iff. split.
  - intros (k & <- & I). apply in_seq in I. lia.
  - intro H. exists (N.to_nat n). split; [apply N2Nat.id|]. apply in_seq. lia.
Qed.
Lemma means_two_to_four : means (Seq (Chr [CDigit]) (Seq (Chr [CDigit]) (Alt (Seq (Chr [CDigit]) (Alt (Chr [CDigit]) Eps)) Eps))) (alt (num 4) (alt (num 3) (num 2))).
Proof.
  intros w T. pose proof (means_maybe _ _ (means_num_maybe _ _ 1 1 means_digit means_digit)) as M.
  rewrite (means_cat _ _ _ _ means_digit (means_cat _ _ _ _ means_digit M) w T). unfold alt.
  rewrite <- (num_cat 1 3), <- (num_cat 1 2 w), <- (num_cat 1 1 w). unfold cat. split.
  - intros (u & v & -> & A & (u' & v' & -> & B & [[C|C]|C])).
    + left. exists u, (u' ++ v'). split; [reflexivity|]. split; [exact A|]. apply (num_cat 1 2). exists u', v'. auto.
    + right. left. exists u, (u' ++ v'). split; [reflexivity|]. split; [exact A|]. apply (num_cat 1 1). exists u', v'. auto.
    + subst v'. right. right. exists u, u'. rewrite app_nil_r. auto.
  - intros [(u & v & -> & A & B)|[(u & v & -> & A & B)|(u & v & -> & A & B)]].
    + apply (num_cat 1 2) in B. destruct B as (u' & v' & -> & B & C). exists u, (u' ++ v'). split; [reflexivity|]. split; [exact A|]. exists u', v'.
      split; [reflexivity|]. split; [exact B|]. left. left. exact C.
    + apply (num_cat 1 1) in B. destruct B as (u' & v' & -> & B & C). exists u, (u' ++ v'). split; [reflexivity|]. split; [exact A|]. exists u', v'.
      split; [reflexivity|]. split; [exact B|]. left. right. exact C.
    + exists u, v. split; [reflexivity|]. split; [exact A|]. exists v, []. rewrite app_nil_r. split; [reflexivity|]. split; [exact B|]. right. reflexivity.
Qed.

Ltac mean :=
  match goal with
  | |- means (Seq Bos _) _ => apply means_bos; mean
  | |- means (Seq _ Eos) _ => apply means_eos; mean
  | |- means (Grp _ _) _ => apply means_grp; mean
  | |- means _ (oneof _) => apply means_oneof; vm_compute; reflexivity
  | |- means _ (lit _) => apply means_lit; vm_compute; reflexivity
  | |- means _ (alt (num 4) (alt (num 3) (num 2))) => exact means_two_to_four
  | |- means (Chr [CDigit]) (num 1) => exact means_digit
  | |- means (Seq _ _) (num (S ?k)) => apply (means_num_cat _ _ 1 k); mean
  | |- means (Seq _ (Alt _ Eps)) (alt (num 2) (num 1)) => apply (means_num_maybe _ _ 1 1); mean
  | |- means (Seq _ _) (alt (num (S ?k)) (num (S ?l))) => apply (means_num_alt _ _ 1 k l); mean
  | |- means (Alt _ Eps) (maybe _) => apply means_maybe; mean
  | |- means (Alt _ _) (alt _ _) => apply means_alt; mean
  | |- means (Seq _ _) (cat _ _) => apply means_cat; [mean|mean]
  end.
Ltac closed r M := intros w T; rewrite (accepts_closed r w eq_refl eq_refl T), (M w T).
Ltac parts H :=
  repeat match type of H with
  | cat _ _ _ => let u := fresh "u" in let v := fresh "v" in let A := fresh "A" in destruct H as (u & v & -> & A & H)
  end.

Lemma cat_intro : forall (A B : lang) w u v, w = u ++ v -> A u -> B v -> cat A B w.
Proof. intros A B w u v -> Ha Hb. exists u, v. auto. Qed.
Ltac flat := rewrite <- ?app_assoc; reflexivity.

Infix "+++" := cat (at level 60, right associativity).

Definition tens (a b : nat) : list str := map (fun n => digits 2 n ++ py "0") (between a b).
Definition two (a b : nat) : list str := map (digits 2) (between a b).
Lemma in_tens : forall a b u, oneof (tens a b) u <-> exists n, (N.of_nat a <= n <= N.of_nat b)%N /\ u = digits 2 n ++ py "0".
Proof.
  intros a b u. unfold oneof, tens. rewrite in_map_iff. split; intros (n & I1 & I2); exists n.
  - split; [now apply in_between in I2|symmetry; exact I1].
  - split; [symmetry; exact I2|now apply in_between].
Qed.
Lemma in_two : forall a b u, oneof (two a b) u <-> exists n, (N.of_nat a <= n <= N.of_nat b)%N /\ u = digits 2 n.
Proof.
  intros a b u. unfold oneof, two. rewrite in_map_iff. split; intros (n & I1 & I2); exists n.
  - split; [now apply in_between in I2|symmetry; exact I1].
  - split; [symmetry; exact I2|now apply in_between].
Qed.

(** ** Wind variation *)

Lemma wvar_means : means r_WIND_VARIATION (oneof (tens 1 36) +++ lit "V" +++ oneof (tens 1 36)).
Proof. unfold r_WIND_VARIATION. mean. Qed.
Theorem wvar_words : forall w, typed w -> (accepts r_WIND_VARIATION w <-> documented wvar_wf wvar_code w).
Proof.
  closed r_WIND_VARIATION wvar_means. split.
  - intros (u & v & -> & A & (u' & v' & -> & -> & C)). apply in_tens in A. apply in_tens in C. destruct A as (n & Bn & ->). destruct C as (m & Bm & ->).
    exists (mk_wvar_g n m). split; [split; assumption|]. unfold wvar_code. cbn [vg_from vg_to]. rewrite <- !app_assoc. reflexivity.
  - intros ([n m] & [Bn Bm] & ->). cbn [vg_from vg_to] in *. exists (digits 2 n ++ py "0"), (py "V" ++ digits 2 m ++ py "0").
    split; [unfold wvar_code; cbn [vg_from vg_to]; rewrite <- !app_assoc; reflexivity|]. split; [apply in_tens; exists n; auto|].
    exists (py "V"), (digits 2 m ++ py "0"). split; [reflexivity|]. split; [reflexivity|]. apply in_tens. exists m. auto.
Qed.

(** ** Wind *)

Lemma gust_means_ok : forall u, maybe (lit "G" +++ maybe (lit "P") +++ alt (num 3) (num 2)) u <->
  exists g, opt_all (fun '(_, w, n) => two_or_three w n) g /\ u = gust_code g.
Proof.
  intro u. split.
  - intros [(u1 & v1 & -> & -> & (u2 & v2 & -> & A & B))| ->]; [|exists None; split; [exact I|reflexivity]].
    assert (P : exists p, u2 = flag p "P") by (destruct A as [->| ->]; [exists true|exists false]; reflexivity). destruct P as (p & ->).
    destruct B as [(n & Bn & ->)|(n & Bn & ->)]; [exists (Some (p, true, n))|exists (Some (p, false, n))]; (split; [exact Bn|reflexivity]).
  - intros ([[[p w] n]|] & W & ->); [left|right; reflexivity]. cbn [opt_all gust_code opt] in *.
    eapply cat_intro; [reflexivity|reflexivity|].
    apply (cat_intro _ _ _ (flag p "P") (digits (width w) n) eq_refl); [destruct p; [left|right]; reflexivity|].
    destruct w; [left|right]; exists n; split; [exact W|reflexivity|exact W|reflexivity].
Qed.
Lemma units_ok : forall u, oneof [py "KT"; py "MPS"] u <-> exists x, u = units_code x.
Proof.
  intro u. split; [intros [<-|[<-|[]]]; [exists KT|exists MPS]; reflexivity|]. intros ([] & ->); [left|right; left]; reflexivity.
Qed.
Lemma dir_ok : forall u, oneof (tens 0 36 ++ [py "///"; py "VRB"]) u <-> exists d, (match d with DirDeg t => (t <= 36)%N | _ => True end) /\ u = wdir_code d.
Proof.
  intro u. unfold oneof. rewrite in_app_iff. split.
  - intros [I|[<-|[<-|[]]]]; [|exists DirNone; split; [exact I|reflexivity]|exists DirVrb; split; [exact I|reflexivity]].
    apply in_tens in I. destruct I as (n & Bn & ->). exists (DirDeg n). split; [exact (proj2 Bn)|reflexivity].
  - intros ([t| |] & B & ->); [left; apply in_tens; exists t; split; [split; [apply N.le_0_l|exact B]|reflexivity]|right; right; left; reflexivity|right; left; reflexivity].
Qed.
Lemma tdir_ok : forall u, oneof (tens 0 36 ++ [py "VRB"]) u <-> exists d, (match d with DirDeg t => (t <= 36)%N | _ => True end) /\ d <> DirNone /\ u = wdir_code d.
Proof.
  intro u. unfold oneof. rewrite in_app_iff. split.
  - intros [I|[<-|[]]]; [|exists DirVrb; split; [exact I|split; [discriminate|reflexivity]]].
    apply in_tens in I. destruct I as (n & Bn & ->). exists (DirDeg n). split; [exact (proj2 Bn)|split; [discriminate|reflexivity]].
  - intros ([t| |] & B & K & ->); [left; apply in_tens; exists t; split; [split; [apply N.le_0_l|exact B]|reflexivity]|right; left; reflexivity|elim (K eq_refl)].
Qed.
Lemma above_ok : forall u, maybe (lit "P") u <-> exists p, u = flag p "P".
Proof. intro u. split; [intros [->| ->]; [exists true|exists false]; reflexivity|]. intros ([] & ->); [left|right]; reflexivity. Qed.
Lemma speed_ok : forall u, alt (num 3) (num 2) u <-> exists w n, two_or_three w n /\ u = digits (width w) n.
Proof.
  intro u. split; [intros [(n & B & ->)|(n & B & ->)]; [exists true, n|exists false, n]; (split; [exact B|reflexivity])|].
  intros ([] & n & B & ->); [left|right]; exists n; split; [exact B|reflexivity|exact B|reflexivity].
Qed.

Lemma wind_means : means r_WIND (oneof (tens 0 36 ++ [py "///"; py "VRB"]) +++ maybe (lit "P") +++ alt (alt (num 3) (num 2)) (oneof [py "//"; py "///"])
  +++ maybe (lit "G" +++ maybe (lit "P") +++ alt (num 3) (num 2)) +++ oneof [py "KT"; py "MPS"]).
Proof. unfold r_WIND. mean. Qed.
Theorem wind_words : forall w, typed w -> (accepts r_WIND w <-> documented wind_wf wind_code w \/ wind_above w).
Proof.
  closed r_WIND wind_means. split.
  - intros (u1 & v1 & -> & A1 & (u2 & v2 & -> & A2 & (u3 & v3 & -> & A3 & (u4 & v4 & -> & A4 & A5)))).
    apply dir_ok in A1. destruct A1 as (d & Bd & ->). apply above_ok in A2. destruct A2 as (p & ->). apply gust_means_ok in A4. destruct A4 as (g & Bg & ->).
    apply units_ok in A5. destruct A5 as (x & ->). destruct A3 as [A3|A3].
    + apply speed_ok in A3. destruct A3 as (wd & n & Bn & ->). left. exists (mk_wind_g d (Spd p wd n) g x). split; [split; [exact Bd|split; [exact Bn|exact Bg]]|].
      unfold wind_code. cbn [wg_dir wg_speed wg_gust wg_units wspeed_code]. unfold gust_code, units_code. flat.
    + assert (K : exists wd, u3 = wspeed_code (SpdNone wd)) by (destruct A3 as [<-|[<-|[]]]; [exists false|exists true]; reflexivity). destruct K as (wd & ->).
      destruct p.
      * right. exists (mk_wind_g d (SpdNone wd) g x), wd. split; [split; [exact Bd|split; [exact I|exact Bg]]|]. split; reflexivity.
      * left. exists (mk_wind_g d (SpdNone wd) g x). split; [split; [exact Bd|split; [exact I|exact Bg]]|]. reflexivity.
  - assert (K : forall d p s g x, (match d with DirDeg t => (t <= 36)%N | _ => True end) -> opt_all (fun '(_, w, n) => two_or_three w n) g
      -> alt (alt (num 3) (num 2)) (oneof [py "//"; py "///"]) s
      -> (oneof (tens 0 36 ++ [py "///"; py "VRB"]) +++ maybe (lit "P") +++ alt (alt (num 3) (num 2)) (oneof [py "//"; py "///"])
         +++ maybe (lit "G" +++ maybe (lit "P") +++ alt (num 3) (num 2)) +++ oneof [py "KT"; py "MPS"]) (wdir_code d ++ flag p "P" ++ s ++ gust_code g ++ units_code x)).
    { intros d p s g x Bd Bg Bs. apply (cat_intro _ _ _ _ _ eq_refl); [apply dir_ok; exists d; auto|].
      apply (cat_intro _ _ _ _ _ eq_refl); [apply above_ok; exists p; reflexivity|]. apply (cat_intro _ _ _ _ _ eq_refl Bs).
      apply (cat_intro _ _ _ _ _ eq_refl); [apply gust_means_ok; exists g; auto|]. apply units_ok. exists x. reflexivity. }
    assert (N0 : forall wd, alt (alt (num 3) (num 2)) (oneof [py "//"; py "///"]) (wspeed_code (SpdNone wd))) by (intros []; right; [right; left|left]; reflexivity).
    intros [([d s g x] & (Bd & Bs & Bg) & ->)|([d s g x] & wd & (Bd & Bs & Bg) & Es & ->)]; cbn [wg_dir wg_speed wg_gust wg_units] in *.
    + destruct s as [p wd n|wd].
      * assert (E : wind_code (mk_wind_g d (Spd p wd n) g x) = wdir_code d ++ flag p "P" ++ digits (width wd) n ++ gust_code g ++ units_code x)
          by (unfold wind_code; cbn [wg_dir wg_speed wg_gust wg_units wspeed_code]; unfold gust_code, units_code; flat).
        rewrite E. apply (K d p _ g x Bd Bg). left. apply speed_ok. exists wd, n. auto.
      * exact (K d false _ g x Bd Bg (N0 wd)).
    + exact (K d true _ g x Bd Bg (N0 wd)).
Qed.
Lemma twind_means : means r_T_WIND (oneof (tens 0 36 ++ [py "VRB"]) +++ maybe (lit "P") +++ alt (num 3) (num 2)
  +++ maybe (lit "G" +++ maybe (lit "P") +++ alt (num 3) (num 2)) +++ oneof [py "KT"; py "MPS"]).
Proof. unfold r_T_WIND. mean. Qed.
Theorem twind_words : forall w, typed w -> (accepts r_T_WIND w <-> documented wind_whole wind_code w).
Proof.
  closed r_T_WIND twind_means. split.
  - intros (u1 & v1 & -> & A1 & (u2 & v2 & -> & A2 & (u3 & v3 & -> & A3 & (u4 & v4 & -> & A4 & A5)))).
    apply tdir_ok in A1. destruct A1 as (d & Bd & Nd & ->). apply above_ok in A2. destruct A2 as (p & ->). apply gust_means_ok in A4. destruct A4 as (g & Bg & ->).
    apply units_ok in A5. destruct A5 as (x & ->). apply speed_ok in A3. destruct A3 as (wd & n & Bn & ->).
    exists (mk_wind_g d (Spd p wd n) g x). split; [split; [split; [exact Bd|split; [exact Bn|exact Bg]]|split; [exact Nd|discriminate]]|].
    unfold wind_code. cbn [wg_dir wg_speed wg_gust wg_units wspeed_code]. unfold gust_code, units_code. flat.
  - intros ([d s g x] & ((Bd & Bs & Bg) & Nd & Ns) & ->). cbn [wg_dir wg_speed wg_gust wg_units] in *. destruct s as [p wd n|wd]; [|elim (Ns wd eq_refl)].
    apply (cat_intro _ _ _ (wdir_code d) (flag p "P" ++ digits (width wd) n ++ gust_code g ++ units_code x));
      [unfold wind_code; cbn [wg_dir wg_speed wg_gust wg_units wspeed_code]; unfold gust_code, units_code; flat|apply tdir_ok; exists d; auto|].
    apply (cat_intro _ _ _ _ _ eq_refl); [apply above_ok; exists p; reflexivity|]. apply (cat_intro _ _ _ _ _ eq_refl); [apply speed_ok; exists wd, n; auto|].
    apply (cat_intro _ _ _ _ _ eq_refl); [apply gust_means_ok; exists g; auto|]. apply units_ok. exists x. reflexivity.
Qed.

(** ** Tables *)

Lemma table_ok : forall t u, oneof (map code_of t) u <-> of_table t u.
Proof. intros t u. unfold oneof, of_table. rewrite in_map_iff. split; intros (x & A & B); exists x; split; auto. Qed.
Lemma maybe_table_ok : forall t u, maybe (oneof (map code_of t)) u <-> exists o, opt_all (fun x => In x t) o /\ u = opt code_of o.
Proof.
  intros t u. unfold maybe. rewrite table_ok. split.
  - intros [(x & Ix & ->)| ->]; [exists (Some x)|exists None]; (split; [first [exact Ix|exact I]|reflexivity]).
  - intros ([x|] & B & ->); [left; exists x; auto|right; reflexivity].
Qed.
Lemma flag_ok : forall s u, maybe (lit s) u <-> exists b, u = flag b s.
Proof. intros s u. split; [intros [->| ->]; [exists true|exists false]; reflexivity|]. intros ([] & ->); [left|right]; reflexivity. Qed.
Lemma runway_ok : forall u, (num 2 +++ maybe (oneof (map code_of sides))) u <-> exists r, runway_wf r /\ u = runway_code r.
Proof.
  intro u. split.
  - intros (u1 & v1 & -> & (n & Bn & ->) & A). apply maybe_table_ok in A. destruct A as (o & Bo & ->). exists (mk_runway n o). split; [split; assumption|reflexivity].
  - intros ([n o] & [Bn Bo] & ->). eapply cat_intro; [reflexivity|exists n; split; [exact Bn|reflexivity]|]. apply maybe_table_ok. exists o. auto.
Qed.
Ltac next := eapply cat_intro; [reflexivity| |].

(** ** Runway range *)

Lemma rvr_num_ok : forall u, alt (num 4) (alt (num 3) (num 2)) u <-> exists x, rvr_digits_wf x /\ u = rvr_digits_code x.
Proof.
  intro u. split.
  - intros [(n & B & ->)|[(n & B & ->)|(n & B & ->)]]; [exists (4, n)|exists (3, n)|exists (2, n)]; (split; [split; [cbn [fst]; lia|exact B]|reflexivity]).
  - intros ([k n] & [Bk B] & ->). cbn [fst snd] in *. assert (K : k = 4 \/ k = 3 \/ k = 2) by lia.
    destruct K as [->|[->| ->]]; [left|right; left|right; right]; exists n; (split; [exact B|reflexivity]).
Qed.
Definition high_code (h : option (option (string * string) * rvr_digits)) : str := opt (fun '(l, x) => py "V" ++ opt code_of l ++ rvr_digits_code x) h.
Lemma high_ok : forall u, maybe (lit "V" +++ maybe (oneof (map code_of limits)) +++ alt (num 4) (alt (num 3) (num 2))) u <->
  exists h, opt_all (fun '(l, x) => opt_all (fun y => In y limits) l /\ rvr_digits_wf x) h /\ u = high_code h.
Proof.
  intro u. split.
  - intros [(u1 & v1 & -> & -> & (u2 & v2 & -> & A & B))| ->]; [|exists None; split; [exact I|reflexivity]].
    apply maybe_table_ok in A. destruct A as (l & Bl & ->). apply rvr_num_ok in B. destruct B as (x & Bx & ->). exists (Some (l, x)). split; [split; assumption|reflexivity].
  - intros ([[l x]|] & B & ->); [left|right; reflexivity]. cbn [opt_all high_code opt] in *. destruct B as [Bl Bx]. next; [reflexivity|]. next; [apply maybe_table_ok; exists l; auto|].
    apply rvr_num_ok. exists x. auto.
Qed.
Lemma rvr_means : means r_RUNWAY_RANGE (lit "R" +++ (num 2 +++ maybe (oneof (map code_of sides))) +++ lit "/" +++ maybe (oneof (map code_of limits)) +++ alt (num 4) (alt (num 3) (num 2))
  +++ maybe (lit "V" +++ maybe (oneof (map code_of limits)) +++ alt (num 4) (alt (num 3) (num 2))) +++ maybe (lit "FT") +++ maybe (oneof (map code_of rvr_trends))).
Proof. unfold r_RUNWAY_RANGE. mean. Qed.
Theorem rvr_words : forall w, typed w -> (accepts r_RUNWAY_RANGE w <-> documented rvr_wf rvr_code w).
Proof.
  closed r_RUNWAY_RANGE rvr_means. split.
  - intros (u1 & v1 & -> & -> & (u2 & v2 & -> & A2 & (u3 & v3 & -> & -> & (u4 & v4 & -> & A4 & (u5 & v5 & -> & A5 & (u6 & v6 & -> & A6 & (u7 & v7 & -> & A7 & A8))))))).
    apply runway_ok in A2. destruct A2 as (r & Br & ->). apply maybe_table_ok in A4. destruct A4 as (l & Bl & ->). apply rvr_num_ok in A5. destruct A5 as (x & Bx & ->).
    apply high_ok in A6. destruct A6 as (h & Bh & ->). apply flag_ok in A7. destruct A7 as (f & ->). apply maybe_table_ok in A8. destruct A8 as (t & Bt & ->).
    exists (mk_rvr_g r l x h f t). split; [|reflexivity]. split; [exact Br|]. split; [exact Bl|]. split; [exact Bx|]. split; [exact Bh|exact Bt].
  - intros ([r l x h f t] & (Br & Bl & Bx & Bh & Bt) & ->). cbn [rg_runway rg_lim_low rg_low rg_high rg_feet rg_trend] in *.
    unfold rvr_code. cbn [rg_runway rg_lim_low rg_low rg_high rg_feet rg_trend].
    next; [reflexivity|]. next; [apply runway_ok; exists r; auto|]. next; [reflexivity|]. next; [apply maybe_table_ok; exists l; auto|].
    next; [apply rvr_num_ok; exists x; auto|]. next; [apply high_ok; exists h; auto|]. next; [apply flag_ok; exists f; reflexivity|]. apply maybe_table_ok. exists t. auto.
Qed.

(** ** Weather *)

Definition phenomena_lang : lang :=
  alt (oneof (map code_of precipitations)) (alt (oneof (map code_of obscurations)) (oneof (map code_of (others ++ [nsw]) ++ [py "/"]))).
Lemma phenomenon_ok : forall u, maybe phenomena_lang u <-> exists p, opt_all phenomenon_wf p /\ u = opt phenomenon_code p.
Proof.
  intro u. unfold maybe, phenomena_lang, alt. rewrite !table_ok. split.
  - intros [[(x & Ix & ->)|[(x & Ix & ->)|A]]| ->].
    + exists (Some (PhPrec x)). split; [exact Ix|reflexivity].
    + exists (Some (PhObsc x)). split; [exact Ix|reflexivity].
    + unfold oneof in A. apply in_app_or in A. destruct A as [A|[<-|[]]]; [|exists (Some PhUnknown); split; [exact I|reflexivity]].
      apply in_map_iff in A. destruct A as (x & <- & Ix). exists (Some (PhOther x)). split; [exact Ix|reflexivity].
    + exists None. split; [exact I|reflexivity].
  - intros ([[x|x|x|]|] & B & ->); [left; left; exists x; auto|left; right; left; exists x; auto| | |right; reflexivity]; left; right; right; apply in_or_app.
    + left. exact (in_map code_of _ _ B).
    + right. left. reflexivity.
Qed.
Lemma weather_means : means r_WEATHER (maybe (oneof (map code_of intensities)) +++ maybe (oneof (map code_of descriptors)) +++ maybe phenomena_lang).
Proof. unfold r_WEATHER, phenomena_lang. mean. Qed.
Theorem weather_words : forall w, typed w -> (accepts r_WEATHER w <-> documented weather_wf weather_code w).
Proof.
  closed r_WEATHER weather_means. split.
  - intros (u1 & v1 & -> & A1 & (u2 & v2 & -> & A2 & A3)). apply maybe_table_ok in A1. destruct A1 as (i & Bi & ->). apply maybe_table_ok in A2. destruct A2 as (d & Bd & ->).
    apply phenomenon_ok in A3. destruct A3 as (p & Bp & ->). exists (mk_weather_g i d p). split; [split; [exact Bi|split; [exact Bd|exact Bp]]|reflexivity].
  - intros ([i d p] & (Bi & Bd & Bp) & ->). unfold weather_code. cbn [xg_int xg_desc xg_phen] in *. next; [apply maybe_table_ok; exists i; auto|].
    next; [apply maybe_table_ok; exists d; auto|]. apply phenomenon_ok. exists p. auto.
Qed.

(** ** Recent weather *)

Lemma recent_means : means r_RECENT_WEATHER (lit "R" +++ lit "E" +++ maybe (oneof (map code_of descriptors)) +++ maybe (oneof (map code_of precipitations))
  +++ maybe (oneof (map code_of recent_obscurations)) +++ maybe (oneof (map code_of others))).
Proof. unfold r_RECENT_WEATHER. mean. Qed.
Theorem recent_words : forall w, typed w -> (accepts r_RECENT_WEATHER w <-> documented recent_wf recent_code w).
Proof.
  closed r_RECENT_WEATHER recent_means. split.
  - intros (u0 & v0 & -> & -> & (u1 & v1 & -> & -> & (u2 & v2 & -> & A2 & (u3 & v3 & -> & A3 & (u4 & v4 & -> & A4 & A5))))).
    apply maybe_table_ok in A2. destruct A2 as (a & Ba & ->). apply maybe_table_ok in A3. destruct A3 as (b & Bb & ->).
    apply maybe_table_ok in A4. destruct A4 as (c & Bc & ->). apply maybe_table_ok in A5. destruct A5 as (d & Bd & ->).
    exists (mk_recent_g a b c d). split; [split; [exact Ba|split; [exact Bb|split; [exact Bc|exact Bd]]]|reflexivity].
  - intros ([a b c d] & (Ba & Bb & Bc & Bd) & ->). cbn [eg_desc eg_prec eg_obsc eg_other] in *. unfold recent_code. cbn [eg_desc eg_prec eg_obsc eg_other].
    change (py "RE") with (py "R" ++ py "E"). rewrite <- app_assoc. next; [reflexivity|]. next; [reflexivity|]. next; [apply maybe_table_ok; exists a; auto|].
    next; [apply maybe_table_ok; exists b; auto|]. next; [apply maybe_table_ok; exists c; auto|]. apply maybe_table_ok. exists d. auto.
Qed.

(** ** Pressure *)

Lemma press_means : means r_PRESSURE (maybe (oneof [py "A"; py "Q"; py "QNH"]) +++ alt (num 4) (lit "////") +++ maybe (lit "INS")).
Proof. unfold r_PRESSURE. mean. Qed.
Theorem press_words : forall w, typed w -> (accepts r_PRESSURE w <-> documented press_wf press_code w).
Proof.
  closed r_PRESSURE press_means. split.
  - intros (u1 & v1 & -> & A1 & (u2 & v2 & -> & A2 & A3)). apply flag_ok in A3. destruct A3 as (b & ->).
    assert (K : exists x, press_wf (mk_press_g PfNone x b) /\ u2 = match x with Some n => digits 4 n | None => py "////" end)
      by (destruct A2 as [(n & Bn & E)|E]; [exists (Some n)|exists None]; (split; [first [exact Bn|exact I]|exact E])).
    destruct K as (x & Bx & ->). destruct A1 as [[<-|[<-|[<-|[]]]]| ->]; [exists (mk_press_g PfA x b)|exists (mk_press_g PfQ x b)|exists (mk_press_g PfQNH x b)|exists (mk_press_g PfNone x b)];
      (split; [exact Bx|reflexivity]).
  - intros ([p x b] & Bx & ->). unfold press_code. cbn [pg_prefix pg_value pg_ins] in *.
    next; [destruct p; [right; reflexivity|left; left; reflexivity|left; right; left; reflexivity|left; right; right; left; reflexivity]|].
    next; [destruct x as [n|]; [left; exists n; split; [exact Bx|reflexivity]|right; reflexivity]|]. apply flag_ok. exists b. reflexivity.
Qed.

(** ** Sea state *)

Lemma sea_means : means r_SEA_STATE (lit "W" +++ maybe (lit "M") +++ num 2 +++ lit "/" +++ alt (lit "S" +++ oneof (map code_of sea_states)) (lit "H" +++ num 3)).
Proof. unfold r_SEA_STATE. mean. Qed.
Theorem sea_words : forall w, typed w -> (accepts r_SEA_STATE w <-> documented sea_wf sea_code w).
Proof.
  closed r_SEA_STATE sea_means. split.
  - intros (u0 & v0 & -> & -> & (u1 & v1 & -> & A1 & (u2 & v2 & -> & (n & Bn & ->) & (u3 & v3 & -> & -> & A4)))). apply flag_ok in A1. destruct A1 as (b & ->).
    destruct A4 as [(u5 & v5 & -> & -> & A5)|(u5 & v5 & -> & -> & (m & Bm & ->))].
    + apply table_ok in A5. destruct A5 as (x & Ix & ->). exists (mk_sea_g b n (SeaState x)). split; [split; assumption|reflexivity].
    + exists (mk_sea_g b n (SeaHeight m)). split; [split; assumption|reflexivity].
  - intros ([b n p] & [Bn Bp] & ->). unfold sea_code. cbn [sg_minus sg_temp sg_part] in *. next; [reflexivity|]. next; [apply flag_ok; exists b; reflexivity|].
    next; [exists n; split; [exact Bn|reflexivity]|]. next; [reflexivity|]. destruct p as [x|m].
    + left. next; [reflexivity|]. apply table_ok. exists x. auto.
    + right. next; [reflexivity|]. exists m. split; [exact Bp|reflexivity].
Qed.

(** ** Runway state *)

Lemma two_code_ok : forall u, alt (num 2) (lit "//") u <-> exists x, opt_all (fun n => (n < 100)%N) x /\ u = two_code x.
Proof.
  intro u. split; [intros [(n & Bn & ->)| ->]; [exists (Some n)|exists None]; (split; [first [exact Bn|exact I]|reflexivity])|].
  intros ([n|] & B & ->); [left; exists n; split; [exact B|reflexivity]|right; reflexivity].
Qed.
Lemma rwy_means : means r_RUNWAY_STATE (lit "R" +++ maybe (num 2 +++ maybe (oneof (map code_of sides))) +++ lit "/"
  +++ alt (oneof (map code_of deposits) +++ oneof (map (fun x : string * option string => py (fst x)) contaminations) +++ alt (num 2) (lit "//") +++ alt (num 2) (lit "//"))
        (alt (lit "SNOCLO") (lit "CLRD//"))).
Proof. unfold r_RUNWAY_STATE. mean. Qed.
Theorem rwy_words : forall w, typed w -> (accepts r_RUNWAY_STATE w <-> documented rs_wf rs_code_of w).
Proof.
  closed r_RUNWAY_STATE rwy_means. split.
  - intros (u0 & v0 & -> & -> & (u1 & v1 & -> & A1 & (u2 & v2 & -> & -> & A3))).
    assert (K : exists r, opt_all runway_wf r /\ u1 = opt runway_code r).
    { destruct A1 as [A1| ->]; [|exists None; split; [exact I|reflexivity]]. apply runway_ok in A1. destruct A1 as (r & Br & ->). exists (Some r). split; [exact Br|reflexivity]. }
    destruct K as (r & Br & ->). destruct A3 as [(u4 & v4 & -> & A4 & (u5 & v5 & -> & A5 & (u6 & v6 & -> & A6 & A7)))|[->| ->]].
    + apply table_ok in A4. destruct A4 as (d & Id & ->). unfold oneof in A5. apply in_map_iff in A5. destruct A5 as (c & <- & Ic).
      apply two_code_ok in A6. destruct A6 as (h & Bh & ->). apply two_code_ok in A7. destruct A7 as (f & Bf & ->).
      exists (mk_rs_g r (RsCodes d c h f)). split; [split; [exact Br|split; [exact Id|split; [exact Ic|split; [exact Bh|exact Bf]]]]|reflexivity].
    + exists (mk_rs_g r RsSnoclo). split; [split; [exact Br|exact I]|reflexivity].
    + exists (mk_rs_g r RsClrd). split; [split; [exact Br|exact I]|reflexivity].
  - intros ([r x] & [Br Bx] & ->). unfold rs_code_of. cbn [sg_runway sg_state] in *. next; [reflexivity|].
    next; [destruct r as [r|]; [left; apply runway_ok; exists r; auto|right; reflexivity]|]. next; [reflexivity|]. destruct x as [d c h f| |].
    + destruct Bx as (Id & Ic & Bh & Bf). left. next; [apply table_ok; exists d; auto|]. next; [apply (in_map (fun x : string * option string => py (fst x))); exact Ic|].
      next; [apply two_code_ok; exists h; auto|]. apply two_code_ok. exists f. auto.
    + right. left. reflexivity.
    + right. right. reflexivity.
Qed.
