(** * Proofs: which words the patterns accept (C77), visibilities, clouds, times and headers *)
From Coq Require Import String Ascii.
From Coq Require Import List NArith ZArith Bool Arith Lia.
From Verif Require Import PyBase PyRegex AeroRegex StrFacts RegexPaths ProofStation SpecNum SpecGroups SpecGrammar ProofMeans ProofGrammar.
Import ListNotations.
Local Open Scope string_scope.
Local Open Scope nat_scope.
Local Open Scope list_scope.

(** ** Visibility in metres *)

Definition all_points : list str := map (fun x : string * Z => py (fst x)) points8 ++ map (fun x => py x) odd_points.
Definition metres_lang : lang := alt (num 4) (lit "////") +++ maybe (oneof all_points).
Lemma metres_ok : forall u, metres_lang u <-> documented min_wf vis_code u \/ odd_direction u.
Proof.
  intro u. unfold metres_lang. split.
  - intros (u1 & v1 & -> & A & B).
    assert (D : (exists d, opt_all (fun x => In x points8) d /\ v1 = dir8_code d) \/ exists d, In d odd_points /\ v1 = py d).
    { destruct B as [B|B]; [|left; exists None; split; [exact I|exact B]]. unfold oneof, all_points in B. apply in_app_or in B. destruct B as [B|B]; apply in_map_iff in B; destruct B as (x & E & Ix).
      - left. exists (Some x). split; [exact Ix|symmetry; exact E].
      - right. exists x. split; [exact Ix|symmetry; exact E]. }
    destruct D as [(d & Bd & ->)|(d & Id & ->)].
    + left. destruct A as [(n & Bn & ->)|A].
      * exists (VisMeters n d). split; [split; [split; [exact Bn|exact Bd]|exact I]|reflexivity].
      * exists (VisMissing d). split; [split; [exact Bd|exact I]|]. unfold lit in A. rewrite A. reflexivity.
    + right. exists d. split; [exact Id|]. destruct A as [(n & Bn & ->)|A]; [left; exists n; auto|right]. unfold lit in A. rewrite A. reflexivity.
  - assert (P : forall d, opt_all (fun x => In x points8) d -> maybe (oneof all_points) (dir8_code d)).
    { intros [x|] B; [left|right; reflexivity]. apply in_or_app. left. exact (in_map (fun x : string * Z => py (fst x)) _ _ B). }
    assert (O : forall d, In d odd_points -> maybe (oneof all_points) (py d)) by (intros d B; left; apply in_or_app; right; exact (in_map (fun x => py x) _ _ B)).
    intros [(g & (W & M) & ->)|(d & Id & [(n & Bn & ->)| ->])].
    + destruct g as [n d|d| | |]; try contradiction; cbn [vis_code vis_wf] in *.
      * next; [left; exists n; split; [exact (proj1 W)|reflexivity]|exact (P _ (proj2 W))].
      * next; [right; reflexivity|exact (P _ W)].
    + next; [left; exists n; auto|exact (O d Id)].
    + next; [right; reflexivity|exact (O d Id)].
Qed.
Lemma minvis_means : means r_MINIMUM_VISIBILITY metres_lang.
Proof. unfold r_MINIMUM_VISIBILITY, metres_lang. mean. Qed.
Theorem minvis_words : forall w, typed w -> (accepts r_MINIMUM_VISIBILITY w <-> documented min_wf vis_code w \/ odd_direction w).
Proof. closed r_MINIMUM_VISIBILITY minvis_means. apply metres_ok. Qed.

(** ** Visibility with units *)

Definition long_lang : lang := maybe (oneof [py "M"; py "P"]) +++ maybe (alt (num 2) (num 1)) +++ maybe (lit "_") +++ maybe (num 1 +++ lit "/" +++ num 1)
  +++ oneof [py "SM"; py "KM"; py "M"; py "U"].
Lemma long_ok : forall u, long_lang u <-> exists g, long_wf g /\ u = long_code g.
Proof.
  intro u. unfold long_lang. split.
  - intros (u1 & v1 & -> & A1 & (u2 & v2 & -> & A2 & (u3 & v3 & -> & A3 & (u4 & v4 & -> & A4 & A5)))).
    assert (K1 : exists l, u1 = limit_code l) by (destruct A1 as [[E|[E|[]]]|E]; [exists (Some true)|exists (Some false)|exists None]; first [symmetry; exact E|exact E]).
    assert (K2 : exists i, opt_all (fun '(two, n) => (n < 10 ^ (if two : bool then 2 else 1))%N) i /\ u2 = opt (fun '(two, n) => one_or_two two n) i).
    { destruct A2 as [[(n & B & E)|(n & B & E)]|E]; [exists (Some (true, n))|exists (Some (false, n))|exists None]; (split; [first [exact B|exact I]|exact E]). }
    assert (K4 : exists f, opt_all (fun '(a, b) => (a < 10)%N /\ (b < 10)%N) f /\ u4 = opt (fun '(a, b) => digits 1 a ++ py "/" ++ digits 1 b) f).
    { destruct A4 as [(x & y & E & (a & Ba & Ea) & (x' & y' & E' & Es & (b & Bb & Eb)))|E]; [exists (Some (a, b))|exists None; split; [exact I|exact E]].
      split; [split; [exact Ba|exact Bb]|]. unfold lit in Es. rewrite E, Ea, E', Es, Eb. reflexivity. }
    assert (K5 : exists s, In s ["SM"; "KM"; "M"; "U"] /\ v4 = py s) by (apply (in_map_iff (fun s => py s) ["SM"; "KM"; "M"; "U"]) in A5; destruct A5 as (s & E & Is); exists s; auto).
    apply flag_ok in A3. destruct K1 as (l & ->), K2 as (i & Bi & ->), A3 as (k & ->), K4 as (f & Bf & ->), K5 as (s & Is & ->).
    exists (mk_long l i k f s). split; [split; [exact Bi|split; [exact Bf|exact Is]]|reflexivity].
  - intros ([l i k f s] & (Bi & Bf & Is) & ->). cbn [lo_int lo_frac lo_unit] in *. unfold long_code. cbn [lo_limit lo_int lo_link lo_frac lo_unit].
    next; [destruct l as [[]|]; [left; left; reflexivity|left; right; left; reflexivity|right; reflexivity]|].
    next; [destruct i as [[[] n]|]; [left; left; exists n; split; [exact Bi|reflexivity]|left; right; exists n; split; [exact Bi|reflexivity]|right; reflexivity]|].
    next; [apply flag_ok; exists k; reflexivity|].
    next; [destruct f as [[a b]|]; [left|right; reflexivity]|exact (in_map (fun s => py s) _ _ Is)].
    destruct Bf as [Ba Bb]. next; [exists a; split; [exact Ba|reflexivity]|]. next; [reflexivity|]. exists b. split; [exact Bb|reflexivity].
Qed.
Lemma long_split : forall g, long_wf g -> documented vis_wf vis_code (long_code g) \/ long_odd g.
Proof.
  intros [l i k f s] (Bi & Bf & Is). cbn [lo_int lo_frac lo_unit] in *. unfold long_odd, documented. cbn [lo_int lo_frac lo_unit lo_link].
  cbn [In] in Is. destruct Is as [<-|[<-|[<-|[<-|[]]]]].
  - destruct i as [[tw n]|], f as [[a b]|].
    + destruct k; [|right; do 4 right; left; split; [reflexivity|split; discriminate]]. destruct (N.eq_dec b 0) as [->|Nb]; [right; do 5 right; left; exists a; reflexivity|].
      left. exists (VisMiles l (Some (tw, n)) (Some (a, b))). split; [|reflexivity]. cbn [vis_wf opt_all] in *. split; [exact Bi|]. split; [lia|left; discriminate].
    + destruct k; [right; do 3 right; left; auto|]. left. exists (VisMiles l (Some (tw, n)) None). split; [|reflexivity]. split; [exact Bi|]. split; [exact I|left; discriminate].
    + destruct k; [right; do 3 right; left; auto|]. destruct (N.eq_dec b 0) as [->|Nb]; [right; do 5 right; left; exists a; reflexivity|].
      left. exists (VisMiles l None (Some (a, b))). split; [|reflexivity]. cbn [vis_wf opt_all] in *. split; [exact I|]. split; [lia|right; discriminate].
    + right. right. right. left. auto.
  - destruct f as [[a b]|]; [right; do 6 right; split; [reflexivity|discriminate]|]. destruct i as [[tw n]|]; [|right; right; right; left; auto].
    destruct k; [right; do 3 right; left; auto|]. left. exists (VisKm l tw n). split; [exact Bi|reflexivity].
  - right. left. reflexivity.
  - right. right. left. reflexivity.
Qed.
Lemma vis_means : means r_VISIBILITY (alt metres_lang (alt long_lang (lit "CAVOK"))).
Proof. unfold r_VISIBILITY, metres_lang, long_lang. mean. Qed.
Theorem vis_words : forall w, typed w -> (accepts r_VISIBILITY w <-> documented vis_wf vis_code w \/ odd_direction w \/ odd_long w).
Proof.
  closed r_VISIBILITY vis_means. unfold alt. rewrite metres_ok, long_ok. split.
  - intros [[(g & (W & _) & ->)|H]|[(g & W & ->)|H]].
    + left. exists g. auto.
    + right. left. exact H.
    + destruct (long_split g W) as [D|O]; [left; exact D|]. right. right. exists g. auto.
    + left. exists VisCavok. split; [exact I|exact H].
  - intros [(g & W & ->)|[H|(g & W & _ & ->)]].
    + destruct g as [n d|d| |l i f|l tw n].
      * left. left. exists (VisMeters n d). split; [split; [exact W|exact I]|reflexivity].
      * left. left. exists (VisMissing d). split; [split; [exact W|exact I]|reflexivity].
      * right. right. reflexivity.
      * right. left. destruct W as (Bi & Bf & _). exists (mk_long l i (match i, f with Some _, Some _ => true | _, _ => false end) f "SM"). split.
        -- split; [exact Bi|]. split; [|left; reflexivity]. cbn [lo_frac]. destruct f as [[a b]|]; [cbn [opt_all] in *; lia|exact I].
        -- destruct i as [[tw n]|], f as [[a b]|]; reflexivity.
      * right. left. exists (mk_long l (Some (tw, n)) false None "KM"). split; [split; [exact W|split; [exact I|right; left; reflexivity]]|reflexivity].
    + left. right. exact H.
    + right. left. exists g. auto.
Qed.

(** ** Clouds *)

Definition cover_codes : list str := map (fun x : string * string * string => py (fst (fst x))) covers ++ [py "0VC"].
Lemma height_ok : forall u, maybe (alt (num 3) (lit "///")) u <-> exists h, (match h with HtHundreds n => (n < 1000)%N | _ => True end) /\ u = cheight_code h.
Proof.
  intro u. split; [intros [[(n & B & ->)|E]|E]; [exists (HtHundreds n)|exists HtSlashes|exists HtAbsent]; (split; [first [exact B|exact I]|first [exact E|reflexivity]])|].
  intros ([n| |] & B & ->); [left; left; exists n; split; [exact B|reflexivity]|left; right; reflexivity|right; reflexivity].
Qed.
Lemma type_ok : forall u, maybe (oneof [py "TCU"; py "CB"; py "///"]) u <-> exists t, u = ctype_code t.
Proof.
  intro u. split; [intros [[E|[E|[E|[]]]]|E]; [exists TyTCU|exists TyCB|exists TySlashes|exists TyAbsent]; first [exact E|symmetry; exact E]|].
  intros ([| | |] & ->); [left; left|left; right; left|left; right; right; left|right]; reflexivity.
Qed.
(** Slashes alone are a height. *)
Lemma slashes_once : forall c h t, (match h with HtHundreds n => (n < 1000)%N | _ => True end) -> In c covers ->
  exists g, cloud_wf g /\ cg_cover g = c /\ cheight_code h ++ ctype_code t = cheight_code (cg_height g) ++ ctype_code (cg_type g).
Proof.
  intros c h t B Ic. destruct h as [n| |]; [exists (mk_cloud_g c (HtHundreds n) t)|exists (mk_cloud_g c HtSlashes t)|].
  - split; [split; [exact Ic|split; [exact B|intros [E _]; discriminate E]]|split; reflexivity].
  - split; [split; [exact Ic|split; [exact I|intros [E _]; discriminate E]]|split; reflexivity].
  - destruct t; [exists (mk_cloud_g c HtAbsent TyTCU)|exists (mk_cloud_g c HtAbsent TyCB)|exists (mk_cloud_g c HtSlashes TyAbsent)|exists (mk_cloud_g c HtAbsent TyAbsent)];
      (split; [split; [exact Ic|split; [exact I|intros [E1 E2]; first [discriminate E1|discriminate E2]]]|split; reflexivity]).
Qed.
Lemma cloud_means : means r_CLOUD (oneof cover_codes +++ maybe (alt (num 3) (lit "///")) +++ maybe (oneof [py "TCU"; py "CB"; py "///"])).
Proof. unfold r_CLOUD, cover_codes. mean. Qed.
Theorem cloud_words : forall w, typed w -> (accepts r_CLOUD w <-> documented cloud_wf cloud_code w \/ zero_vc w).
Proof.
  closed r_CLOUD cloud_means. split.
  - intros (u1 & v1 & -> & A1 & (u2 & v2 & -> & A2 & A3)). apply height_ok in A2. destruct A2 as (h & Bh & ->). apply type_ok in A3. destruct A3 as (t & ->).
    unfold oneof, cover_codes in A1. apply in_app_or in A1. destruct A1 as [A1|[E|[]]].
    + apply in_map_iff in A1. destruct A1 as (c & <- & Ic). destruct (slashes_once c h t Bh Ic) as (g & W & <- & E). left. exists g. split; [exact W|]. rewrite E. reflexivity.
    + destruct (slashes_once ("OVC", "overcast", "8") h t Bh) as (g & W & Ec & Eh); [vm_compute; tauto|]. right. exists g. split; [exact W|]. split; [rewrite Ec; reflexivity|].
      rewrite Eh, <- E. reflexivity.
  - assert (K : forall c h t, In c cover_codes -> (match h with HtHundreds n => (n < 1000)%N | _ => True end) ->
      (oneof cover_codes +++ maybe (alt (num 3) (lit "///")) +++ maybe (oneof [py "TCU"; py "CB"; py "///"])) (c ++ cheight_code h ++ ctype_code t)).
    { intros c h t Ic Bh. next; [exact Ic|]. next; [apply height_ok; exists h; auto|]. apply type_ok. exists t. reflexivity. }
    intros [([c h t] & (Ic & Bh & _) & ->)|([c h t] & (_ & Bh & _) & _ & ->)]; apply K; try exact Bh; apply in_or_app.
    + left. exact (in_map (fun x : string * string * string => py (fst (fst x))) _ _ Ic).
    + right. left. reflexivity.
Qed.

(** ** Temperatures *)

Definition missing : list string := ["//"; "XX"; "MM"].
Definition side_lang : lang := maybe (oneof [py "M"; py "-"]) +++ alt (num 2) (oneof (map (fun x => py x) missing)).
Lemma side_ok : forall u, side_lang u <-> exists t, tside_wf t /\ side t u.
Proof.
  intro u. unfold side_lang. split.
  - intros (u1 & v1 & -> & A & B).
    assert (K : exists s, u1 = match s with Some b => sign_code b | None => [] end) by (destruct A as [[E|[E|[]]]|E]; [exists (Some true)|exists (Some false)|exists None]; first [symmetry; exact E|exact E]).
    destruct K as (s & ->). destruct B as [(n & Bn & ->)|B].
    + exists (TValue s n). split; [exact Bn|]. left. destruct s as [[]|]; reflexivity.
    + unfold oneof in B. apply in_map_iff in B. destruct B as (f & <- & If). exists (TMissing f). split; [exact If|]. destruct s as [b|]; [right; exists f, b; auto|left; reflexivity].
  - intros (t & W & [->|(f & s & -> & ->)]).
    + destruct t as [s n|f]; cbn [tside_code tside_wf] in *.
      * next; [destruct s as [[]|]; [left; left|left; right; left|right]; reflexivity|]. left. exists n. auto.
      * apply (cat_intro _ _ _ [] (py f) eq_refl); [right; reflexivity|]. right. exact (in_map (fun x => py x) _ _ W).
    + next; [destruct s; left; [left|right; left]; reflexivity|]. right. exact (in_map (fun x => py x) _ _ W).
Qed.
Lemma temps_means0 : means r_TEMPERATURES (maybe (oneof [py "M"; py "-"]) +++ alt (num 2) (oneof (map (fun x => py x) missing)) +++ lit "/" +++ side_lang).
Proof. unfold r_TEMPERATURES, side_lang. mean. Qed.
Lemma temps_means : means r_TEMPERATURES (side_lang +++ lit "/" +++ side_lang).
Proof.
  intros w T. rewrite (temps_means0 w T). split.
  - intros (u1 & v1 & -> & A1 & (u2 & v2 & -> & A2 & A3)). apply (cat_intro _ _ _ (u1 ++ u2) v2); [flat|exists u1, u2; auto|exact A3].
  - intros (u1 & v1 & -> & (x & y & -> & A1 & A2) & A3). apply (cat_intro _ _ _ x (y ++ v1)); [flat|exact A1|]. exists y, v1. auto.
Qed.
Theorem temps_words : forall w, typed w -> (accepts r_TEMPERATURES w <-> documented temps_wf temps_code w \/ signed_missing w).
Proof.
  closed r_TEMPERATURES temps_means. split.
  - intros (u & v1 & -> & A & (u2 & v & -> & E & B)). unfold lit in E. subst u2. apply side_ok in A. destruct A as (t & Wt & St). apply side_ok in B. destruct B as (d & Wd & Sd).
    destruct (list_eq_dec N.eq_dec u (tside_code t)) as [->|Nu]; [destruct (list_eq_dec N.eq_dec v (tside_code d)) as [->|Nv]|].
    + left. exists (mk_temps_g t d). split; [split; assumption|reflexivity].
    + right. exists (mk_temps_g t d), (tside_code t), v. split; [split; assumption|]. split; [exact St|]. split; [exact Sd|]. split; [reflexivity|right; exact Nv].
    + right. exists (mk_temps_g t d), u, v. split; [split; assumption|]. split; [exact St|]. split; [exact Sd|]. split; [reflexivity|left; exact Nu].
  - intros [([t d] & [Wt Wd] & ->)|([t d] & u & v & [Wt Wd] & St & Sd & -> & _)]; cbn [tg_temp tg_dewpt] in *.
    + next; [apply side_ok; exists t; split; [exact Wt|left; reflexivity]|]. next; [reflexivity|]. apply side_ok. exists d. split; [exact Wd|left; reflexivity].
    + next; [apply side_ok; exists t; auto|]. next; [reflexivity|]. apply side_ok. exists d. auto.
Qed.

(** ** Windshear *)

Lemma shear_means : means r_WINDSHEAR (lit "W" +++ lit "S" +++ maybe (lit "_ALL") +++ lit "_" +++ alt (lit "RWY") (lit "R" +++ (num 2 +++ maybe (oneof (map code_of sides))))).
Proof. unfold r_WINDSHEAR. mean. Qed.
Theorem shear_words : forall w, typed w -> (accepts r_WINDSHEAR w <-> documented ws_wf ws_token w \/ odd_shear w).
Proof.
  closed r_WINDSHEAR shear_means. split.
  - intros (u0 & v0 & -> & E0 & (u1 & v1 & -> & E1 & (u2 & v2 & -> & A2 & (u3 & v3 & -> & E3 & A4)))). unfold lit in E0, E1, E3. subst u0 u1 u3.
    apply flag_ok in A2. destruct A2 as (b & ->). destruct A4 as [E|(x & y & E & Ex & A)]; unfold lit in *.
    + subst v3. destruct b; [left; exists WsAll; split; [exact I|reflexivity]|right; left; reflexivity].
    + apply runway_ok in A. destruct A as (r & Br & Er). rewrite E, Ex, Er. destruct b; [right; right; exists r; auto|left; exists (WsRunway r); auto].
  - assert (K : forall b x, alt (lit "RWY") (lit "R" +++ (num 2 +++ maybe (oneof (map code_of sides)))) x ->
      (lit "W" +++ lit "S" +++ maybe (lit "_ALL") +++ lit "_" +++ alt (lit "RWY") (lit "R" +++ (num 2 +++ maybe (oneof (map code_of sides))))) (py "W" ++ py "S" ++ flag b "_ALL" ++ py "_" ++ x)).
    { intros b x H. next; [reflexivity|]. next; [reflexivity|]. next; [apply flag_ok; exists b; reflexivity|]. next; [reflexivity|exact H]. }
    assert (R : forall r, runway_wf r -> alt (lit "RWY") (lit "R" +++ (num 2 +++ maybe (oneof (map code_of sides)))) (py "R" ++ runway_code r)).
    { intros r Br. right. next; [reflexivity|]. apply runway_ok. exists r. auto. }
    intros [([|r] & W & ->)|[->|(r & Br & ->)]].
    + exact (K true (py "RWY") (or_introl eq_refl)).
    + exact (K false _ (R r W)).
    + exact (K false (py "RWY") (or_introl eq_refl)).
    + exact (K true _ (R r Br)).
Qed.

(** ** Header groups *)

Theorem type_words_ok : forall w, typed w -> (accepts r_TYPE w <-> of_table types w).
Proof.
  intros w T. rewrite (accepts_closed r_TYPE w eq_refl eq_refl T), <- table_ok. assert (M : means r_TYPE (oneof (map code_of types))) by (unfold r_TYPE; mean). exact (M w T).
Qed.
Theorem modifier_words : forall w, typed w -> (accepts r_MODIFIER w <-> of_table modifiers w).
Proof.
  intros w T. rewrite (accepts_closed r_MODIFIER w eq_refl eq_refl T), <- table_ok. assert (M : means r_MODIFIER (oneof (map code_of modifiers))) by (unfold r_MODIFIER; mean). exact (M w T).
Qed.
Lemma one_word : forall r s w, placed true true r = true -> closed_end r = true -> means r (lit s) -> typed w -> (accepts r w <-> w = py s).
Proof. intros r s w P C M T. rewrite (accepts_closed r w P C T). exact (M w T). Qed.
Theorem nil_words : forall w, typed w -> (accepts r_T_NIL w <-> w = py "NIL").
Proof. intros w T. apply one_word; [reflexivity|reflexivity| |exact T]. apply means_lit. vm_compute. reflexivity. Qed.
Theorem cancel_words : forall w, typed w -> (accepts r_T_CANCELLED w <-> w = py "CNL").
Proof. intros w T. apply one_word; [reflexivity|reflexivity| |exact T]. apply means_lit. vm_compute. reflexivity. Qed.
Theorem amd_words : forall w, typed w -> (accepts r_T_AMD_COR w <-> w = py "COR" \/ w = py "AMD").
Proof.
  intros w T. rewrite (accepts_closed r_T_AMD_COR w eq_refl eq_refl T). assert (M : means r_T_AMD_COR (oneof [py "COR"; py "AMD"])) by (unfold r_T_AMD_COR; mean).
  rewrite (M w T). unfold oneof. cbn [In]. split; [intros [E|[E|[]]]; [left|right]; symmetry; exact E|intros [E|E]; [left|right; left]; symmetry; exact E].
Qed.
Lemma upper_cls : forall c, in_cls c [CRange 65 90] = true <-> is_upper c.
Proof. intro c. unfold in_cls, is_upper. cbn [existsb in_citem]. rewrite orb_false_r, andb_true_iff, !N.leb_le. reflexivity. Qed.
Lemma alnum_cls : forall c, in_cls c [CRange 65 90; CRange 48 57] = true <-> is_alnum c.
Proof.
  intro c. unfold in_cls, is_alnum, is_upper. cbn [existsb in_citem]. rewrite orb_false_r, orb_true_iff, !andb_true_iff, !N.leb_le. reflexivity.
Qed.
Theorem station_words : forall w, typed w -> (accepts r_STATION w <-> station_wf w).
Proof.
  intros w T. rewrite (accepts_closed r_STATION w eq_refl eq_refl T). unfold r_STATION. cbn [den]. unfold station_wf. split.
  - intros (x0 & y0 & -> & -> & (x1 & y1 & -> & D & ->)). destruct D as (x2 & y2 & -> & (a & -> & A) & (x3 & y3 & -> & (b & -> & B) & (x4 & y4 & -> & (c & -> & C) & (d & -> & D)))).
    exists a, b, c, d. split; [reflexivity|]. split; [apply upper_cls; exact A|]. split; [apply alnum_cls; exact B|]. split; [apply alnum_cls; exact C|apply alnum_cls; exact D].
  - intros (a & b & c & d & -> & A & B & C & D). exists [], [a; b; c; d]. split; [reflexivity|]. split; [reflexivity|]. exists [a; b; c; d], []. split; [reflexivity|].
    split; [|reflexivity]. exists [a], [b; c; d]. split; [reflexivity|]. split; [exists a; split; [reflexivity|apply upper_cls; exact A]|].
    exists [b], [c; d]. split; [reflexivity|]. split; [exists b; split; [reflexivity|apply alnum_cls; exact B]|].
    exists [c], [d]. split; [reflexivity|]. split; [exists c; split; [reflexivity|apply alnum_cls; exact C]|]. exists d. split; [reflexivity|apply alnum_cls; exact D].
Qed.

(** ** Times *)

Ltac twos A n B := apply in_two in A; destruct A as (n & B & ->).
Ltac put n := apply in_two; exists n; split; [cbn; unfold day in *; lia|reflexivity].
Lemma time_means : means r_TIME (oneof (two 1 31) +++ oneof (two 0 24) +++ oneof (two 0 59) +++ lit "Z").
Proof. unfold r_TIME. mean. Qed.
Theorem time_words : forall w, typed w -> (accepts r_TIME w <-> written_time w).
Proof.
  closed r_TIME time_means. split.
  - intros (u1 & v1 & -> & A1 & (u2 & v2 & -> & A2 & (u3 & v3 & -> & A3 & E))). unfold lit in E. subst v3. twos A1 d Bd. twos A2 h Bh. twos A3 m Bm.
    exists d, h, m. split; [exact Bd|]. split; [exact (proj2 Bh)|]. split; [exact (proj2 Bm)|reflexivity].
  - intros (d & h & m & Bd & Bh & Bm & ->). next; [put d|]. next; [put h|]. next; [put m|reflexivity].
Qed.
Lemma period_means : means r_TREND_TIME_PERIOD (oneof (map (fun x => py x) ["FM"; "TL"; "AT"]) +++ oneof (two 0 24) +++ oneof (two 0 59)).
Proof. unfold r_TREND_TIME_PERIOD. mean. Qed.
Theorem period_words : forall w, typed w -> (accepts r_TREND_TIME_PERIOD w <-> written_period w).
Proof.
  closed r_TREND_TIME_PERIOD period_means. split.
  - intros (u1 & v1 & -> & A1 & (u2 & v2 & -> & A2 & A3)). twos A2 h Bh. twos A3 m Bm. apply in_map_iff in A1. destruct A1 as (p & <- & Ip).
    exists p, h, m. split; [exact Ip|]. split; [exact (proj2 Bh)|]. split; [exact (proj2 Bm)|reflexivity].
  - intros (p & h & m & Ip & Bh & Bm & ->). next; [exact (in_map (fun x => py x) _ _ Ip)|]. next; [put h|put m].
Qed.
Lemma valid_means : means r_T_VALID (oneof (two 1 31) +++ oneof (two 0 23) +++ lit "/" +++ oneof (two 1 31) +++ oneof (two 0 24)).
Proof. unfold r_T_VALID. mean. Qed.
Theorem valid_words : forall w, typed w -> (accepts r_T_VALID w <-> written_validity w).
Proof.
  closed r_T_VALID valid_means. split.
  - intros (u1 & v1 & -> & A1 & (u2 & v2 & -> & A2 & (u3 & v3 & -> & E & (u4 & v4 & -> & A4 & A5)))). unfold lit in E. subst u3. twos A1 d Bd. twos A2 h Bh. twos A4 d' Bd'. twos A5 h' Bh'.
    exists d, h, d', h'. split; [exact Bd|]. split; [exact (proj2 Bh)|]. split; [exact Bd'|]. split; [exact (proj2 Bh')|reflexivity].
  - intros (d & h & d' & h' & Bd & Bh & Bd' & Bh' & ->). next; [put d|]. next; [put h|]. next; [reflexivity|]. next; [put d'|put h'].
Qed.

(** ** Patterns without an end *)

Lemma typed_prefix : forall x t, typed (x ++ t) -> typed x.
Proof. intros x t T. apply Forall_app in T. exact (proj1 T). Qed.
Lemma open_words : forall r A w, placed true false r = true -> means r A -> typed w -> (accepts r w <-> exists x t, A x /\ w = x ++ t).
Proof.
  intros r A w P M T. rewrite (accepts_open r w P). split; intros (x & t & H1 & H2); exists x, t.
  - subst w. split; [|reflexivity]. apply (M x (typed_prefix _ _ T)). exact H2.
  - subst w. split; [reflexivity|]. apply (M x (typed_prefix _ _ T)). exact H1.
Qed.
Lemma open_lit : forall r s w, placed true false r = true -> means r (lit s) -> typed w -> (accepts r w <-> begins (py s) w).
Proof.
  intros r s w P M T. rewrite (open_words r _ w P M T). unfold begins, lit. split; [intros (x & t & -> & E); exists t; exact E|intros (t & E); exists (py s), t; auto].
Qed.
Lemma or_both : forall A A' B B' : Prop, (A <-> A') -> (B <-> B') -> (A \/ B <-> A' \/ B').
Proof. tauto. Qed.
Theorem change_words : forall w, typed w -> (accepts r_CHANGE_INDICATOR w <-> begins (py "TEMPO") w \/ begins (py "BECMG") w \/ w = py "NOSIG").
Proof.
  intros w T. unfold r_CHANGE_INDICATOR. rewrite accepts_alt, accepts_alt. apply or_both; [|apply or_both].
  - apply open_lit; [reflexivity| |exact T]. apply means_lit. vm_compute. reflexivity.
  - apply open_lit; [reflexivity| |exact T]. apply means_lit. vm_compute. reflexivity.
  - apply one_word; [reflexivity|reflexivity| |exact T]. apply means_lit. vm_compute. reflexivity.
Qed.

Lemma from_means : means (match r_T_CHANGE_INDICATOR with Alt _ (Alt _ (Alt f _)) => f | _ => Eps end)
  (lit "F" +++ lit "M" +++ oneof (two 1 31) +++ oneof (two 0 23) +++ oneof (two 0 59)).
Proof. cbn [r_T_CHANGE_INDICATOR]. mean. Qed.
Lemma from_ok : forall w, (lit "F" +++ lit "M" +++ oneof (two 1 31) +++ oneof (two 0 23) +++ oneof (two 0 59)) w <-> written_from w.
Proof.
  intro w. split.
  - intros (u0 & v0 & -> & E0 & (u1 & v1 & -> & E1 & (u2 & v2 & -> & A2 & (u3 & v3 & -> & A3 & A4)))). unfold lit in E0, E1. subst u0 u1. twos A2 d Bd. twos A3 h Bh. twos A4 m Bm.
    exists d, h, m. split; [exact Bd|]. split; [exact (proj2 Bh)|]. split; [exact (proj2 Bm)|reflexivity].
  - intros (d & h & m & Bd & Bh & Bm & ->). apply (cat_intro _ _ _ (py "F") (py "M" ++ digits 2 d ++ digits 2 h ++ digits 2 m) eq_refl); [reflexivity|].
    next; [reflexivity|]. next; [put d|]. next; [put h|put m].
Qed.
Theorem tchange_words : forall w, typed w -> (accepts r_T_CHANGE_INDICATOR w <->
  begins (py "TEMPO") w \/ begins (py "BECMG") w \/ (exists x t, written_from x /\ w = x ++ t) \/ exists p tempo, In p ["PROB30"; "PROB40"] /\ w = py p ++ flag tempo "_TEMPO").
Proof.
  intros w T. unfold r_T_CHANGE_INDICATOR. rewrite accepts_alt, accepts_alt, accepts_alt. apply or_both; [|apply or_both; [|apply or_both]].
  - apply open_lit; [reflexivity| |exact T]. apply means_lit. vm_compute. reflexivity.
  - apply open_lit; [reflexivity| |exact T]. apply means_lit. vm_compute. reflexivity.
  - match goal with |- accepts ?r w <-> _ => rewrite (open_words r _ w eq_refl from_means T) end. split; intros (x & t & A & E); exists x, t; (split; [apply from_ok; exact A|exact E]).
  - match goal with |- accepts ?r w <-> _ => rewrite (accepts_closed r w eq_refl eq_refl T);
      assert (M : means r (oneof [py "PROB30"; py "PROB40"; py "PROB30_TEMPO"; py "PROB40_TEMPO"])) by mean end.
    rewrite (M w T). unfold oneof. cbn [In]. split.
    + intros [E|[E|[E|[E|[]]]]]; rewrite <- E;
        [exists "PROB30", false|exists "PROB40", false|exists "PROB30", true|exists "PROB40", true]; (split; [auto|reflexivity]).
    + intros (p & b & [<-|[<-|[]]] & ->); destruct b; [right; right; left|left|right; right; right; left|right; left]; reflexivity.
Qed.

Theorem tvis_words : forall w, typed w -> (accepts r_T_VISIBILITY w <->
  (exists n t, (n < 10000)%N /\ w = digits 4 n ++ t) \/ (exists g t, long_wf g /\ w = long_code g ++ t) \/ w = py "CAVOK").
Proof.
  intros w T. unfold r_T_VISIBILITY. rewrite accepts_alt, accepts_alt. apply or_both; [|apply or_both].
  - match goal with |- accepts ?r w <-> _ => assert (M : means r (num 4 +++ maybe (oneof all_points))) by mean; rewrite (open_words r _ w eq_refl M T) end.
    split.
    + intros (x & t & (u & v & -> & (n & B & ->) & _) & ->). exists n, (v ++ t). split; [exact B|flat].
    + intros (n & t & B & ->). exists (digits 4 n), t. split; [|reflexivity]. apply (cat_intro _ _ _ (digits 4 n) []); [symmetry; apply app_nil_r|exists n; auto|right; reflexivity].
  - match goal with |- accepts ?r w <-> _ => assert (M : means r long_lang) by (unfold long_lang; mean); rewrite (open_words r _ w eq_refl M T) end.
    split.
    + intros (x & t & A & ->). apply long_ok in A. destruct A as (g & W & ->). exists g, t. auto.
    + intros (g & t & W & ->). exists (long_code g), t. split; [|reflexivity]. apply long_ok. exists g. auto.
  - apply one_word; [reflexivity|reflexivity| |exact T]. apply means_lit. vm_compute. reflexivity.
Qed.

Definition extreme_lang : lang := lit "T" +++ oneof [py "N"; py "X"] +++ maybe (lit "M") +++ num 2 +++ lit "/" +++ oneof (two 1 31) +++ oneof (two 0 23) +++ lit "Z".
Lemma extreme_means : means r_T_TEMPERATURE extreme_lang.
Proof. unfold r_T_TEMPERATURE, extreme_lang. mean. Qed.
Lemma extreme_ok : forall w, extreme_lang w <-> written_extreme w.
Proof.
  intro w. unfold extreme_lang. split.
  - intros (u0 & v0 & -> & E0 & (u1 & v1 & -> & A1 & (u2 & v2 & -> & A2 & (u3 & v3 & -> & (n & Bn & ->) & (u4 & v4 & -> & E4 & (u5 & v5 & -> & A5 & (u6 & v6 & -> & A6 & E7))))))).
    unfold lit in E0, E4, E7. subst u0 u4 v6. apply flag_ok in A2. destruct A2 as (b & ->). twos A5 d Bd. twos A6 h Bh.
    assert (K : exists k, In k ["N"; "X"] /\ u1 = py k) by (destruct A1 as [E|[E|[]]]; [exists "N"|exists "X"]; (split; [cbn; auto|symmetry; exact E])). destruct K as (k & Ik & ->).
    exists k, b, n, d, h. split; [exact Ik|]. split; [exact Bn|]. split; [exact Bd|]. split; [exact (proj2 Bh)|reflexivity].
  - intros (k & b & n & d & h & Ik & Bn & Bd & Bh & ->). next; [reflexivity|]. next; [exact (in_map (fun x => py x) ["N"; "X"] _ Ik)|]. next; [apply flag_ok; exists b; reflexivity|].
    next; [exists n; split; [exact Bn|reflexivity]|]. next; [reflexivity|]. next; [put d|]. next; [put h|reflexivity].
Qed.
Theorem extreme_words : forall w, typed w -> (accepts r_T_TEMPERATURE w <-> exists x t, written_extreme x /\ w = x ++ t).
Proof.
  intros w T. rewrite (open_words r_T_TEMPERATURE _ w eq_refl extreme_means T). split; intros (x & t & A & E); exists x, t; (split; [apply extreme_ok; exact A|exact E]).
Qed.
