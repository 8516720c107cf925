(** * The numbers of a group (C58) *)
From Coq Require Import String Ascii.
From Coq Require Import List NArith ZArith QArith Qabs Bool Lia Lqa.
From Coq Require Import Floats.SpecFloat.
From Verif Require Import PyBase PyRegex AeroRegex PyFloat PyTime Utils Base MetarGroups Trend Metar Taf SpecNum
  StrFacts RegexPaths Captures DigitFacts ReprFacts FloatFacts SpecGroups ProofGroups ProofValues ProofValues2 ProofValues3 SpecFailures Outcomes SpecRange.
Import ListNotations.
Local Open Scope string_scope.
Local Open Scope nat_scope.
Local Open Scope list_scope.

(** A number [repr] writes in fixed notation, between two bounds. *)
Definition okv (lo hi : Z) (v : option float) : Prop :=
  forall x, v = Some x -> plain x = true /\ (inject_Z lo <= val x <= inject_Z hi)%Q.
Definition okb (lo hi : Z) (v : option float) : bool :=
  match v with
  | None => true
  | Some x => plain x && Qle_bool (inject_Z lo) (val x) && Qle_bool (val x) (inject_Z hi)
  end.
Lemma okb_ok : forall lo hi v, okb lo hi v = true -> okv lo hi v.
Proof.
  intros lo hi v H x ->. cbn [okb] in H. rewrite !andb_true_iff in H. destruct H as ((P & A) & B).
  apply Qle_bool_iff in A, B. auto.
Qed.
Lemma okv_none : forall lo hi, okv lo hi None.
Proof. intros lo hi x E. discriminate. Qed.
Lemma okv_lies : forall lo hi v, okv lo hi v -> lies lo hi v.
Proof.
  intros lo hi v H x E. destruct (H x E) as [P B]. exists (val x). split; [|exact B].
  unfold val. destruct x as [s|s| |s m e]; try discriminate P; reflexivity.
Qed.
Lemma okv_weak : forall lo hi lo' hi' v, (lo' <= lo)%Z -> (hi <= hi')%Z -> okv lo hi v -> okv lo' hi' v.
Proof.
  intros lo hi lo' hi' v L H O x E. destruct (O x E) as [P [A B]]. split; [exact P|].
  rewrite Zle_Qle in L, H. split; eapply Qle_trans; eassumption.
Qed.

Lemma okv_near : forall k j x q B hi, near k j x q -> (0 <= j <= 1000000)%Z -> (k <= 900)%Z ->
  ((q == 0)%Q \/ ((2 # 1000) <= q)%Q) -> (q <= B)%Q -> (B <= inject_Z (10 ^ 14))%Q ->
  ((1 + inject_Z j * u) * B <= inject_Z hi)%Q -> okv 0 hi (Some x).
Proof.
  intros k j x q B hi N Hj Hk Q0 QB BM H y E. assert (y = x) by congruence. subst y.
  split; [exact (near_plain k j x q N Hj Hk Q0 (Qle_trans _ _ _ QB BM))|].
  assert (Ju : (0 <= inject_Z j * u)%Q).
  { apply Qmult_le_0_compat; [|vm_compute; discriminate]. change 0%Q with (inject_Z 0). rewrite <- Zle_Qle. lia. }
  pose proof (near_nonneg _ _ _ _ N) as Nq.
  assert (A : (val x <= (1 + inject_Z j * u) * q)%Q /\ (0 <= val x)%Q).
  { destruct N as [[-> Z0]|(N1 & N2 & N3)].
    - split; [|discriminate]. change (val (S754_zero false)) with 0%Q. apply Qmult_le_0_compat; [lra|exact Nq].
    - split; [apply N3|]. apply Qlt_le_weak, (nrm_pos k). exact N1. }
  destruct A as [A1 A2]. split; [exact A2|]. eapply Qle_trans; [exact A1|]. eapply Qle_trans; [|exact H].
  rewrite (Qmult_comm _ q), (Qmult_comm _ B). apply Qmult_le_compat_r; [exact QB|lra].
Qed.

Lemma okv_fN : forall n hi, (n < 1000000)%N -> (Z.of_N n <= hi)%Z -> okv 0 hi (Some (fN n)).
Proof.
  intros n hi H L. apply (okv_near 52 0 (fN n) (ofN n) (ofN n)); try lia.
  - apply fN_near. exact H.
  - destruct (ofN_pos n) as [E|E]; [left; exact E|right; lra].
  - lra.
  - apply Qle_trans with (ofN 1000000); [apply ofN_le; lia|discriminate].
  - setoid_replace ((1 + inject_Z 0 * u) * ofN n)%Q with (ofN n); [unfold ofN; rewrite <- Zle_Qle; exact L|].
    change (inject_Z 0) with 0%Q. ring.
Qed.

(** ** Text read as a number *)

Lemma parse_reads : forall c n, digits_val 0 c = Some n -> c <> [] -> length c <= 20 ->
  parse_float c = Some (fN n) /\ (n < 10 ^ N.of_nat (length c))%N.
Proof.
  intros c n E N L. destruct (ascii_digits c n E) as [_ B]. split; [|exact B]. rewrite (parse_float_ascii c n E).
  apply parse_digits; [|exact B]. destruct c; [congruence|]. cbn [length] in *. lia.
Qed.

Lemma pow_small : forall n k l, (n < 10 ^ N.of_nat k)%N -> k <= l -> (n < 10 ^ N.of_nat l)%N.
Proof. intros n k l H L. eapply N.lt_le_trans; [exact H|]. apply N.pow_le_mono_r; lia. Qed.

Lemma digits_read : forall c lo hi, all_digits c -> 1 <= lo -> lo <= length c <= hi -> hi <= 20 ->
  exists n, digits_val 0 c = Some n /\ parse_float c = Some (fN n) /\ (n < 10 ^ N.of_nat hi)%N.
Proof.
  intros c lo hi D Hlo L Hhi. destruct (digits_val_some c 0%N D) as (n & E). exists n. split; [exact E|].
  destruct (parse_reads c n E) as [P B]; [destruct c; [cbn in L; lia|discriminate]|lia|]. split; [exact P|].
  exact (pow_small _ _ _ B (proj2 L)).
Qed.

Lemma not_digits : forall c s, all_digits c -> existsb (fun x => negb (is_digit x)) s = true -> str_eqb c s = false.
Proof.
  intros c s D H. apply str_eqb_neq. intros ->. apply existsb_exists in H. destruct H as (x & I & N).
  unfold all_digits in D. rewrite Forall_forall in D. rewrite (D x I) in N. discriminate.
Qed.

(** ** Distances *)

Lemma distance_ok : forall c lo, all_digits c -> 1 <= lo -> lo <= length c <= 4 -> okv 0 10000 (distance_new (Some c)).
Proof.
  intros c lo D Hlo L. unfold distance_new. destruct (str_eqb c (py "9999")).
  - apply okb_ok. vm_compute. reflexivity.
  - destruct (digits_read c lo 4 D Hlo L ltac:(lia)) as (n & _ & P & B). unfold float_or_none. rewrite P.
    change (10 ^ N.of_nat 4)%N with 10000%N in B. apply okv_fN; lia.
Qed.

Lemma vis_path_ok : forall c ks, along c ks -> vis_path ks = true -> okv 0 10000 (distance_new (Some c)).
Proof.
  intros c ks A K. unfold vis_path in K. apply orb_true_iff in K. destruct K as [K|K].
  - destruct (digits_path_ok c ks 4 4 A K) as [D L]. apply (distance_ok c 4 D); lia.
  - apply (spells_ok _ _ _ K) in A. subst c. apply okb_ok. vm_compute. reflexivity.
Qed.

(** ** Directions *)

Definition within_cls (lo hi : N) (k : cls) : bool :=
  forallb (fun i => match i with CRange a b => (lo <=? a)%N && (b <=? hi)%N | _ => false end) k.
Lemma in_within : forall lo hi k c, within_cls lo hi k = true -> in_cls c k = true -> (lo <= c <= hi)%N.
Proof.
  intros lo hi k c H C. unfold in_cls in C. apply existsb_exists in C. destruct C as (i & I & C).
  unfold within_cls in H. rewrite forallb_forall in H. specialize (H i I). destruct i as [a b| |]; try discriminate.
  cbn in C. rewrite !andb_true_iff, !N.leb_le in *. lia.
Qed.

Definition deg_path (ks : list cls) : bool :=
  match ks with
  | [k1; k2; k3] =>
      (within_cls 48 50 k1 && within_cls 48 57 k2 || within_cls 51 51 k1 && within_cls 48 54 k2) && within_cls 48 48 k3
  | _ => false
  end.
Definition wdir_path (ks : list cls) : bool := deg_path ks || spells (py "///") ks || spells (py "VRB") ks.

Definition dirb (r : result direction) : bool := match r with Ok d => okb 0 360 (dir_value d) | Raise _ => true end.
Lemma dirb_ok : forall r d, dirb r = true -> r = Ok d -> okv 0 360 (dir_value d).
Proof. intros r d H ->. apply okb_ok. exact H. Qed.

Definition chars (lo n : nat) : list N := map N.of_nat (seq lo n).
Lemma in_chars : forall lo n c, (N.of_nat lo <= c < N.of_nat (lo + n))%N -> In c (chars lo n).
Proof.
  intros lo n c H. unfold chars. apply in_map_iff. exists (N.to_nat c). split; [apply N2Nat.id|]. apply in_seq. lia.
Qed.

Lemma degrees_checked :
  forallb (fun a => forallb (fun b => dirb (direction_new (Some [a; b; 48%N]))) (chars 48 10)) (chars 48 3) = true
  /\ forallb (fun b => dirb (direction_new (Some [51%N; b; 48%N]))) (chars 48 7) = true
  /\ dirb (direction_new (Some (py "///"))) = true /\ dirb (direction_new (Some (py "VRB"))) = true
  /\ dirb (direction_new None) = true.
Proof. conjs; vm_compute; reflexivity. Qed.

Lemma degrees_ok : forall c ks d, along c ks -> wdir_path ks = true -> direction_new (Some c) = Ok d ->
  okv 0 360 (dir_value d).
Proof.
  intros c ks d A K E. unfold wdir_path in K. rewrite !orb_true_iff in K. destruct K as [[K|K]|K].
  - unfold deg_path in K. destruct ks as [|k1 [|k2 [|k3 [|k4 ks]]]]; try discriminate K.
    apply along_cons in A. destruct A as (a & c1 & -> & Ha & A). apply along_cons in A. destruct A as (b & c2 & -> & Hb & A).
    apply along_cons in A. destruct A as (z & c3 & -> & Hz & A). apply along_nil in A. subst c3.
    apply andb_true_iff in K. destruct K as [K K3]. assert (z = 48%N) by (pose proof (in_within _ _ _ _ K3 Hz); lia). subst z.
    apply orb_true_iff in K. destruct K as [K|K]; apply andb_true_iff in K; destruct K as [K1 K2];
      pose proof (in_within _ _ _ _ K1 Ha) as Ba; pose proof (in_within _ _ _ _ K2 Hb) as Bb.
    + pose proof (proj1 degrees_checked) as C1. rewrite forallb_forall in C1. specialize (C1 a (in_chars 48 3 a ltac:(lia))). rewrite forallb_forall in C1.
      exact (dirb_ok _ _ (C1 b (in_chars 48 10 b ltac:(lia))) E).
    + assert (a = 51%N) by lia. subst a. pose proof (proj1 (proj2 degrees_checked)) as C2. rewrite forallb_forall in C2.
      exact (dirb_ok _ _ (C2 b (in_chars 48 7 b ltac:(lia))) E).
  - apply (spells_ok _ _ _ K) in A. subst c. exact (dirb_ok _ _ (proj1 (proj2 (proj2 degrees_checked))) E).
  - apply (spells_ok _ _ _ K) in A. subst c. exact (dirb_ok _ _ (proj1 (proj2 (proj2 (proj2 degrees_checked)))) E).
Qed.

Lemma no_direction_ok : forall d, direction_new None = Ok d -> okv 0 360 (dir_value d).
Proof. intros d E. exact (dirb_ok _ _ (proj2 (proj2 (proj2 (proj2 degrees_checked)))) E). Qed.

Lemma cardinals_checked :
  forallb (fun c => dirb (from_cardinal c)) (map (fun x => [x]) NSEW ++ flat_map (fun x => map (fun y => [x; y]) EW) NSEW) = true.
Proof. vm_compute. reflexivity. Qed.

(** ** Wind *)

Lemma speed_ok : forall (mps : bool) c s, (all_digits c /\ 2 <= length c <= 3) \/ c = py "//" \/ c = py "///" ->
  speed_new (Some (if mps then mps2kt (Some c) else c)) = Ok s -> okv 0 1942 s.
Proof.
  intros mps c s [[D L]|[->| ->]] E.
  - destruct (digits_val_some c 0%N D) as (n & En). destruct (ascii_digits c n En) as [_ B].
    assert (W : exists w, length c = width w /\ two_or_three w n).
    { assert (L2 : length c = 2 \/ length c = 3) by lia. destruct L2 as [L2|L2]; rewrite L2 in B.
      - exists false. split; [exact L2|exact B].
      - exists true. split; [exact L2|exact B]. }
    destruct W as (w & Lw & W). pose proof (coded_small w n W) as Sn. destruct mps.
    + assert (F : mps2kt (Some c) = mps2kt (Some (digits (width w) n))).
      { unfold mps2kt. rewrite (parse_float_ascii c n En), Lw. reflexivity. }
      rewrite F, (ProofValues.speed_mps w n W) in E. assert (Es : s = Some (mps_value n)) by congruence. rewrite Es.
      destruct (scaled_range n kn (2 # 1000) (inject_Z (10 ^ 14))) as [A1 A2];
        [reflexivity|vm_compute; discriminate|vm_compute; discriminate|lia|].
      apply (okv_near 64 5 _ (ofN n * kn) (ofN 999 * kn)); [apply mps_near; exact Sn|lia|lia|exact A1| | |].
      * apply Qmult_le_compat_r; [apply ofN_le; lia|vm_compute; discriminate].
      * vm_compute. discriminate.
      * vm_compute. discriminate.
    + assert (Es : s = Some (fN n)).
      { unfold speed_new in E. cbv zeta in E. rewrite (not_digits c (py "//") D eq_refl) in E.
        destruct (Nat.eqb_spec (length c) 2) as [L2|L2].
        - assert (D0 : all_digits (py "0" ++ c)) by (apply all_digits_app; [repeat constructor|exact D]).
          assert (V0 : digits_val 0 (py "0" ++ c) = Some n) by exact En.
          destruct (parse_reads (py "0" ++ c) n V0) as [P _]; [discriminate|rewrite app_length; cbn; lia|].
          unfold float_or_none in E. rewrite P in E. destruct (Nat.leb 3 _); [congruence|discriminate].
        - destruct (parse_reads c n En) as [P _]; [destruct c; [cbn in L; lia|discriminate]|lia|].
          unfold float_or_none in E. rewrite P in E. destruct (Nat.leb 3 _); [congruence|discriminate]. }
      rewrite Es. apply okv_fN; lia.
  - destruct mps; vm_compute in E; injection E as <-; apply okv_none.
  - destruct mps; vm_compute in E; injection E as <-; apply okv_none.
Qed.

Definition wind_ok (w : metar_wind) : Prop := okv 0 360 (dir_value (w_dir w)) /\ okv 0 1942 (w_speed w) /\ okv 0 1942 (w_gust w).

Lemma wind_dirs : group_ok "dir" wdir_path r_WIND = true /\ group_ok "dir" wdir_path r_T_WIND = true.
Proof. split; vm_compute; reflexivity. Qed.

Lemma wind_range : forall r g m w, wind_checks r = true -> group_ok "dir" wdir_path r = true -> re_match r g = Some m ->
  metar_wind_new (Some m) = Ok w -> wind_ok w.
Proof.
  intros r g m w C Pd M E. unfold wind_checks in C. rewrite !andb_true_iff in C.
  destruct C as (((((F & Cd) & _) & Cs) & Ps) & Pg).
  unfold metar_wind_new in E. destruct (speed_new None) as [g0|] eqn:E0; [|discriminate]. cbn [bind] in E. cbv zeta in E.
  destruct (direction_new (group m "dir")) as [d|] eqn:Ed; [|discriminate]. cbn [bind] in E.
  destruct (speed_new _) as [s|] eqn:Es in E; [|discriminate]. cbn [bind] in E.
  destruct (speed_new _) as [gu|] eqn:Eg in E; [|discriminate]. cbn [bind] in E. injection E as <-.
  unfold wind_ok. cbn [w_dir w_speed w_gust]. split; [|split].
  - destruct (captured_some _ _ _ _ F Cd M) as (c & Ec). rewrite Ec in Ed.
    destruct (group_ok_along _ _ _ _ _ _ F Pd M Ec) as (ks & A & K). exact (degrees_ok c ks d A K Ed).
  - destruct (captured_some _ _ _ _ F Cs M) as (c & Ec). rewrite Ec in Es.
    destruct (group_ok_along _ _ _ _ _ _ F Ps M Ec) as (ks & A & K). pose proof (speed_path_cases c ks A K) as S.
    apply (speed_ok (opt_str_eqb (group m "units") (py "MPS")) c s S). rewrite <- Es.
    destruct (opt_str_eqb (group m "units") (py "MPS")); reflexivity.
  - destruct (group m "gust") as [c|] eqn:Ec.
    + destruct (group_ok_along _ _ _ _ _ _ F Pg M Ec) as (ks & A & K). pose proof (speed_path_cases c ks A K) as S.
      apply (speed_ok (opt_str_eqb (group m "units") (py "MPS")) c gu S). rewrite <- Eg.
      destruct (opt_str_eqb (group m "units") (py "MPS")); reflexivity.
    + destruct (opt_str_eqb (group m "units") (py "MPS")); vm_compute in Eg; injection Eg as <-; apply okv_none.
Qed.

Definition wvar_ok (w : wind_variation) : Prop := okv 0 360 (dir_value (wv_from w)) /\ okv 0 360 (dir_value (wv_to w)).
Lemma wvar_dirs : group_ok "from" wdir_path r_WIND_VARIATION = true /\ group_ok "to" wdir_path r_WIND_VARIATION = true.
Proof. split; vm_compute; reflexivity. Qed.
Lemma wvar_range : forall g m w, re_match r_WIND_VARIATION g = Some m -> wind_variation_new (Some m) = Ok w -> wvar_ok w.
Proof.
  intros g m w M E. pose proof wvar_checks as C. rewrite !andb_true_iff in C.
  destruct C as ((((F & C1) & C2) & _) & _). destruct wvar_dirs as [P1 P2]. unfold wind_variation_new in E.
  destruct (direction_new (group m "from")) as [a|] eqn:Ea; [|discriminate]. cbn [bind] in E.
  destruct (direction_new (group m "to")) as [b|] eqn:Eb; [|discriminate]. cbn [bind] in E. injection E as <-.
  split; cbn [wv_from wv_to].
  - destruct (captured_some _ _ _ _ F C1 M) as (c & Ec). rewrite Ec in Ea.
    destruct (group_ok_along _ _ _ _ _ _ F P1 M Ec) as (ks & A & K). exact (degrees_ok c ks a A K Ea).
  - destruct (captured_some _ _ _ _ F C2 M) as (c & Ec). rewrite Ec in Eb.
    destruct (group_ok_along _ _ _ _ _ _ F P2 M Ec) as (ks & A & K). exact (degrees_ok c ks b A K Eb).
Qed.

(** ** Visibility *)

Definition vis_ok (hi : Z) (v : visibility) : Prop := okv 0 hi (v_vis v) /\ okv 0 360 (dir_value (v_dir v)).

Lemma km_checked : forallb (fun n => okb 0 99000 (distance_new (Some (Z_pad 4 (Z.of_N n * 1000))))) (upto 100) = true.
Proof. vm_compute. reflexivity. Qed.

Section Vis.
Variables (r : regex) (g : str) (m : rmatch).
Hypothesis C : vis_checks r = true.
Hypothesis M : re_match r g = Some m.

Let parts : starfree r = true /\ group_ok "integer" (digits_path 1 2) r = true /\ group_ok "fraction" frac_path r = true
  /\ group_ok "dir" dir_path r = true /\ group_ok "vis" vis_path r = true.
Proof. unfold vis_checks in C. rewrite !andb_true_iff in C. tauto. Qed.

Lemma vis_dir_range : forall d0 d, direction_new None = Ok d0 ->
  match group m "dir" with Some (c :: k) => from_cardinal (c :: k) | _ => Ok d0 end = Ok d -> okv 0 360 (dir_value d).
Proof.
  intros d0 d E0 E. destruct (group m "dir") as [[|c k]|] eqn:Ed.
  - injection E as <-. exact (no_direction_ok _ E0).
  - pose proof (vis_dir r g m C M (c :: k) Ed) as I. pose proof cardinals_checked as K. rewrite forallb_forall in K.
    exact (dirb_ok _ _ (K _ I) E).
  - injection E as <-. exact (no_direction_ok _ E0).
Qed.

Lemma integer_small : forall c, group m "integer" = Some c ->
  exists n, digits_val 0 c = Some n /\ parse_float c = Some (fN n) /\ (n < 100)%N /\ c <> [].
Proof.
  intros c E. destruct parts as (F & P & _). destruct (group_ok_along _ _ _ _ _ _ F P M E) as (ks & A & K).
  destruct (digits_path_ok c ks 1 2 A K) as [D L]. destruct (digits_read c 1 2 D) as (n & V & Pf & B); try lia.
  exists n. split; [exact V|]. split; [exact Pf|]. split; [exact B|]. destruct c; [cbn in L; lia|discriminate].
Qed.

Lemma digit_small : forall a n, reads [a] n -> (n < 10)%N.
Proof. intros a n [_ E]. apply ascii_digits in E. exact (proj2 E). Qed.

Lemma miles_ok : forall v, from_sea_miles (group m "integer") (group m "fraction") = Ok v -> okv 0 200017 v.
Proof.
  intros v E. unfold from_sea_miles in E.
  set (I := match group m "integer" with Some c => match digits_val 0 c with Some n => Some (true, n) | None => None end | None => None end).
  assert (F : exists f, match group m "fraction" with
         | Some (c :: f) =>
             match split_on 47%N (c :: f) with
             | i0 :: i1 :: _ =>
                 a <- int_of_str i0 ;;
                 b <- int_of_str i1 ;;
                 int_div a b
             | i0 :: _ => a <- int_of_str i0 ;; Raise IndexError
             | [] => Raise IndexError
             end
         | _ => Ok (float_of_Z 0)
         end = Ok (sm_fraction f) /\ opt_all (fun '(a, b) => (a < 10)%N /\ (1 <= b < 10)%N) f).
  { destruct (group m "fraction") as [c|] eqn:Ef; [|exists None; split; [reflexivity|exact Logic.I]].
    destruct (vis_fraction r g m C M c Ef) as (a & z & n & k & -> & Ra & Rz & Na & Nz).
    rewrite (split_slash a z Na Nz) in *. rewrite (reads_int [a] n Ra), (reads_int [z] k Rz) in *. cbn [bind] in *.
    unfold int_div in *. destruct (Z.eqb_spec (Z.of_N k) 0) as [Z0|Z0]; [discriminate E|].
    exists (Some (n, k)). split; [reflexivity|]. cbn. split; [exact (digit_small a n Ra)|].
    pose proof (digit_small z k Rz). lia. }
  destruct F as (f & Ef & Wf). rewrite Ef in E. cbn [bind] in E.
  assert (T : match group m "integer" with
          | Some (c :: k) => x <- float_of_str (c :: k) ;; Ok (fadd (sm_fraction f) x)
          | _ => Ok (sm_fraction f)
          end = Ok (sm_total I f) /\ sm_wf I f).
  { unfold I. destruct (group m "integer") as [c|] eqn:Ei; [|split; [reflexivity|split; [exact Logic.I|exact Wf]]].
    destruct (integer_small c Ei) as (n & V & P & B & N). rewrite V. destruct c as [|c0 c]; [congruence|].
    unfold float_of_str. rewrite P. split; [reflexivity|]. split; [cbn; exact B|exact Wf]. }
  destruct T as [T W]. rewrite T in E. cbn [bind] in E. change (fmul (fmul (sm_total I f) SMI_TO_KM) KM_TO_M) with (sm_value I f) in E.
  destruct (sm_distance I f W) as [D _]. rewrite D in E. injection E as <-.
  destruct (miles_range I f W) as (R1 & R2 & R3).
  apply (okv_near 132 9 _ _ ((108 # 1) * (1852 # 1)) _ (sm_near I f W)); try lia.
  - destruct R1 as [R1|R1]; [left; rewrite R1; reflexivity|right; lra].
  - apply Qmult_le_compat_r; [exact R2|discriminate].
  - vm_compute. discriminate.
  - vm_compute. discriminate.
Qed.

Lemma seen_vis : okv 0 10000 (distance_new (group m "vis")).
Proof.
  destruct (group m "vis") as [c|] eqn:E; [|apply okb_ok; vm_compute; reflexivity].
  destruct parts as (F & _ & _ & _ & P). destruct (group_ok_along _ _ _ _ _ _ F P M E) as (ks & A & K).
  exact (vis_path_ok c ks A K).
Qed.

Lemma prevailing_range : forall v, prevailing_new (Some m) = Ok v -> vis_ok 200017 v.
Proof.
  intros v E. unfold prevailing_new in E. destruct (direction_new None) as [d0|] eqn:E0; [|discriminate]. cbn [bind] in E. cbv zeta in E.
  set (v1 := if truthy (group m "vis") || opt_str_eqb (group m "units") (py "M") then distance_new (group m "vis") else distance_new None) in E.
  assert (O1 : okv 0 200017 v1).
  { unfold v1. destruct (_ || _); [apply (okv_weak 0 10000); [lia|lia|exact seen_vis]|apply okb_ok; vm_compute; reflexivity]. }
  destruct (if truthy (group m "integer") || truthy (group m "fraction") then _ else Ok v1) as [v2|] eqn:E2; [|discriminate].
  cbn [bind] in E.
  assert (O2 : okv 0 200017 v2).
  { destruct (truthy (group m "integer") || truthy (group m "fraction")); [|injection E2 as <-; exact O1].
    destruct (if opt_str_eqb (group m "units") (py "SM") then from_sea_miles (group m "integer") (group m "fraction") else Ok v1)
      as [v3|] eqn:E3; [|discriminate]. cbn [bind] in E2.
    assert (O3 : okv 0 200017 v3).
    { destruct (opt_str_eqb (group m "units") (py "SM")); [exact (miles_ok _ E3)|injection E3 as <-; exact O1]. }
    destruct (opt_str_eqb (group m "units") (py "KM")); [|injection E2 as <-; exact O3].
    destruct (group m "integer") as [c|] eqn:Ei; [|discriminate]. destruct (integer_small c Ei) as (n & V & _ & B & N).
    cbn [int_of_opt] in E2. rewrite (reads_int c n (conj N V)) in E2. cbn [bind] in E2.
    assert (Ev : v2 = distance_new (Some (Z_pad 4 (Z.of_N n * 1000)))) by congruence. rewrite Ev.
    pose proof km_checked as K. rewrite forallb_forall in K. apply (okv_weak 0 99000); [lia|lia|].
    apply okb_ok. exact (K n (in_upto 100 n B)). }
  destruct (match group m "dir" with Some (c :: k) => from_cardinal (c :: k) | _ => Ok d0 end) as [d|] eqn:Ed; [|discriminate].
  cbn [bind] in E. pose proof (vis_dir_range _ _ E0 Ed) as Od.
  destruct (truthy (group m "cavok")); injection E as <-; (split; [|exact Od]); cbn [v_vis].
  - apply okb_ok. vm_compute. reflexivity.
  - exact O2.
Qed.

Lemma minimum_range : forall v, minimum_visibility_new (Some m) = Ok v -> vis_ok 10000 v.
Proof.
  intros v E. unfold minimum_visibility_new in E. destruct (direction_new None) as [d0|] eqn:E0; [|discriminate]. cbn [bind] in E. cbv zeta in E.
  destruct (match group m "dir" with Some (c :: k) => from_cardinal (c :: k) | _ => Ok d0 end) as [d|] eqn:Ed; [|discriminate].
  cbn [bind] in E. pose proof (vis_dir_range _ _ E0 Ed) as Od. injection E as <-. split; [|exact Od]. cbn [v_vis].
  destruct (truthy (group m "vis")); [exact seen_vis|apply okb_ok; vm_compute; reflexivity].
Qed.
End Vis.

(** ** Runway visual range *)

Definition rvr_ok (x : runway_range) : Prop := okv 0 10000 (rr_low x) /\ okv 0 10000 (rr_high x).

Lemma rvr_range : forall g m x, re_match r_RUNWAY_RANGE g = Some m -> runway_range_new (Some m) = Ok x -> rvr_ok x.
Proof.
  intros g m x M E. pose proof rvr_checks as C. rewrite !andb_true_iff in C. destruct C as ((F & P1) & P2).
  assert (K : forall n u v, group_ok n (digits_path 2 4) r_RUNWAY_RANGE = true -> rvr_set_range (group m n) u = Ok v -> okv 0 10000 v).
  { intros n u v P Ev. unfold rvr_set_range in Ev. destruct (group m n) as [c|] eqn:Ec.
    - destruct (group_ok_along _ _ _ _ _ _ F P M Ec) as (ks & A & K). destruct (digits_path_ok c ks 2 4 A K) as [D L].
      destruct (opt_str_eqb u (py "FT")).
      + destruct (digits_read c 2 4 D) as (n' & _ & Pf & B); try lia. unfold float_of_str in Ev. rewrite Pf in Ev. cbn [bind] in Ev.
        change (fmul (fN n') FT_TO_M) with (feet_value n') in Ev. change (10 ^ N.of_nat 4)%N with 10000%N in B.
        rewrite (proj1 (feet_ok n' B)) in Ev. injection Ev as <-.
        destruct (scaled_range n' (3048 # 10000) (2 # 1000) (inject_Z (10 ^ 14))) as [A1 A2];
          [reflexivity|vm_compute; discriminate|vm_compute; discriminate|lia|].
        apply (okv_near 64 3 _ _ (ofN 9999 * (3048 # 10000)) _ (feet_near n' B)); [lia|lia|exact A1| | |].
        * apply Qmult_le_compat_r; [apply ofN_le; lia|discriminate].
        * vm_compute. discriminate.
        * vm_compute. discriminate.
      + injection Ev as <-. apply (distance_ok c 2 D); lia.
    - injection Ev as <-. apply okb_ok. vm_compute. reflexivity. }
  unfold runway_range_new in E.
  destruct (rvr_set_range (group m "low") _) as [a|] eqn:Ea; [|discriminate E]. cbn [bind] in E.
  destruct (rvr_set_range (group m "high") _) as [b|] eqn:Eb; [|discriminate E]. cbn [bind] in E. injection E as <-.
  split; [exact (K _ _ _ P1 Ea)|exact (K _ _ _ P2 Eb)].
Qed.

(** ** Clouds *)

Definition cloud_ok (c : cloud) : Prop := okv 0 30450 (cl_height c).

Lemma hundred : forall h n, digits_val 0 h = Some n -> digits_val 0 (h ++ py "00") = Some (n * 100)%N.
Proof.
  intros h n. generalize 0%N as acc. induction h as [|c h IH]; intros acc E.
  - injection E as <-. cbn [app digits_val]. change (digits_val acc (py "00")) with (Some ((acc * 10 + 0) * 10 + 0)%N). f_equal. lia.
  - cbn [app digits_val] in *. destruct (digit_val c); [exact (IH _ E)|discriminate].
Qed.

Lemma okv_shift : forall y q q' d B hi, near 300 1 y q -> (Qabs (q - q') <= d)%Q -> (d <= 1 # 1000)%Q ->
  ((q' == 0)%Q -> y = S754_zero false) ->
  ((q' == 0)%Q \/ ((1 # 100) <= q')%Q) -> (q' <= B)%Q -> (B <= inject_Z (10 ^ 13))%Q ->
  ((1 + inject_Z 1 * u) * (B + d) <= inject_Z hi)%Q -> (0 <= inject_Z hi)%Q -> okv 0 hi (Some y).
Proof.
  intros y q q' d B hi N D Hd Z0 Q0 QB BM H Hh. destruct Q0 as [Q0|Q0].
  - rewrite (Z0 Q0). intros x E. assert (x = S754_zero false) by congruence. subst x. split; [reflexivity|]. split; [discriminate|exact Hh].
  - apply Qabs_Qle_condition in D. destruct D as [D1 D2].
    apply (okv_near 300 1 y q (B + d) hi N); try lia; [right; lra|lra| |exact H].
    apply Qle_trans with (inject_Z (10 ^ 13) + (1 # 1000))%Q; [lra|]. vm_compute. discriminate.
Qed.

Lemma cloud_range : forall g m c, re_match r_CLOUD g = Some m -> cloud_from_metar (Some m) = Ok c -> cloud_ok c.
Proof.
  intros g m c M E. pose proof cloud_checks as C. rewrite !andb_true_iff in C. destruct C as ((F & C1) & P).
  unfold cloud_from_metar in E. destruct (captured_some _ _ _ _ F C1 M) as (cv & Ec). rewrite Ec in E. cbv zeta in E.
  unfold cloud_ok. destruct (group m "height") as [h|] eqn:Eh; [|injection E as <-; apply okb_ok; vm_compute; reflexivity].
  destruct (str_eqb h (py "///")) eqn:Es; [injection E as <-; apply okb_ok; vm_compute; reflexivity|].
  destruct (group_ok_along _ _ _ _ _ _ F P M Eh) as (ks & A & K). unfold height_path in K.
  apply orb_true_iff in K. destruct K as [K|K].
  - destruct (digits_path_ok h ks 3 3 A K) as [D L].
    destruct (digits_read h 3 3 D) as (n & V & _ & B); try lia. change (10 ^ N.of_nat 3)%N with 1000%N in B.
    destruct (parse_reads (h ++ py "00") (n * 100) (hundred h n V)) as [Pf _]; [destruct h; discriminate|rewrite app_length; cbn; lia|].
    unfold float_of_str in E. rewrite Pf in E. cbn [bind] in E. injection E as <-. cbn [cl_height].
    change (fmul (fN (n * 100)) FT_TO_M) with (cloud_x n).
    destruct (cloud_height_ok n B) as (y & q & Ey & N & Dq). rewrite Ey.
    apply (okv_shift y q (ofN n * (3048 # 100)) (7 # 10 ^ 11) (ofN 999 * (3048 # 100))); auto.
    + vm_compute. discriminate.
    + intro Z0. assert (n = 0%N).
      { destruct (ofN_pos n) as [Z|Z]; [|exfalso; lra]. unfold ofN in Z. destruct n; [reflexivity|discriminate Z]. }
      subst n. assert (Ez : distance_new (Some (format_fixed 10 (cloud_x 0))) = Some (S754_zero false)) by (vm_compute; reflexivity).
      congruence.
    + destruct (ofN_pos n) as [Z|Z]; [left; rewrite Z; reflexivity|right; lra].
    + apply Qmult_le_compat_r; [apply ofN_le; lia|discriminate].
    + vm_compute. discriminate.
    + vm_compute. discriminate.
    + discriminate.
  - apply (spells_ok _ _ _ K) in A. subst h. vm_compute in Es. discriminate.
Qed.

(** ** Temperatures *)

Definition tenth (v : option float) : option float := option_map (fun x => fdiv x f10) v.
Lemma temps_checked :
  forallb (fun n => okb (-99) 99 (tenth (parse_float (digits 3 n))) && okb (-99) 99 (tenth (parse_float (py "-" ++ digits 3 n))))
    (map (fun n => n * 10)%N (upto 100)) = true.
Proof. vm_compute. reflexivity. Qed.

Lemma ten : forall h n, digits_val 0 h = Some n -> digits_val 0 (h ++ py "0") = Some (n * 10)%N.
Proof.
  intros h n. generalize 0%N as acc. induction h as [|c h IH]; intros acc E.
  - injection E as <-. cbn [app]. change (digits_val acc (py "0")) with (Some (acc * 10 + 0)%N). rewrite N.add_0_r. reflexivity.
  - cbn [app digits_val] in *. destruct (digit_val c); [exact (IH _ E)|discriminate].
Qed.

Definition words : list str := [py "//"; py "XX"; py "MM"].
Definition tempb (r : result (option float)) : bool := match r with Ok v => okb (-99) 99 v | Raise _ => true end.
Lemma words_checked : forallb (fun w => tempb (temperature_new (Some w)) && tempb (temperature_new (Some (py "-" ++ w)))) words = true.
Proof. vm_compute. reflexivity. Qed.

Lemma temperature_ok : forall c ks v, along c ks -> temp_path ks = true ->
  temperature_new (Some c) = Ok v \/ temperature_new (Some (py "-" ++ c)) = Ok v -> okv (-99) 99 v.
Proof.
  intros c ks v A K E.
  assert (T : all_digits c /\ length c = 2 \/ In c words).
  { unfold temp_path in K. rewrite !orb_true_iff in K. destruct K as [[[K|K]|K]|K].
    - destruct (digits_path_ok c ks 2 2 A K) as [D L]. left. split; [exact D|lia].
    - right. left. symmetry. exact (spells_ok _ _ _ K A).
    - right. right. left. symmetry. exact (spells_ok _ _ _ K A).
    - right. right. right. left. symmetry. exact (spells_ok _ _ _ K A). }
  destruct T as [[D L]|W].
  - destruct (temp_path_cases c ks A K) as [_ N].
    destruct (digits_read c 2 2 D) as (n & V & _ & B); try lia. change (10 ^ N.of_nat 2)%N with 100%N in B.
    pose proof temps_checked as C. rewrite forallb_forall in C.
    specialize (C (n * 10)%N (in_map _ _ _ (in_upto 100 n B))). apply andb_true_iff in C. destruct C as [C1 C2].
    pose proof (ten c n V) as V0. pose proof (proj1 (ascii_digits _ _ V0)) as As.
    assert (L0 : length (c ++ py "0") = 3) by (rewrite app_length, L; reflexivity). rewrite L0 in As.
    destruct E as [E|E]; unfold temperature_new in E; cbv zeta in E.
    + assert (M0 : mem c [py "//"; py "///"] = false).
      { cbn [mem existsb]. rewrite !(not_digits c _ D) by reflexivity. reflexivity. }
      rewrite M0, (no_minus c N), L in E. cbn [Nat.eqb] in E. rewrite (no_minus _ (no_minus_0 c N)), L0 in E. cbn [Nat.eqb] in E.
      injection E as <-. apply okb_ok. unfold float_or_none. rewrite (parse_float_ascii _ _ V0), L0. exact C1.
    + assert (M0 : mem (py "-" ++ c) [py "//"; py "///"] = false) by reflexivity.
      rewrite M0, (minus_gone c N), L in E. cbn [Nat.eqb] in E. rewrite <- app_assoc, (minus_gone _ (no_minus_0 c N)), L0 in E.
      cbn [Nat.eqb] in E. injection E as <-. apply okb_ok. unfold float_or_none.
      assert (Ep : parse_float (py "-" ++ c ++ py "0") = parse_float (py "-" ++ digits 3 (n * 10))).
      { unfold parse_float. rewrite !map_app, <- map_app, As, to_ascii_digits. reflexivity. }
      change (okb (-99) 99 (tenth (parse_float (py "-" ++ c ++ py "0"))) = true). rewrite Ep. exact C2.
  - pose proof words_checked as C. rewrite forallb_forall in C. specialize (C c W). apply andb_true_iff in C. destruct C as [C1 C2].
    destruct E as [E|E]; apply okb_ok; [rewrite E in C1; exact C1|rewrite E in C2; exact C2].
Qed.

Lemma set_temperature_ok : forall r g m n s v, starfree r = true -> captured n r = true ->
  group_ok n temp_path r = true -> re_match r g = Some m -> set_temperature (group m n) s = Ok v -> okv (-99) 99 v.
Proof.
  intros r g m n s v F C P M E. destruct (captured_some _ _ _ _ F C M) as (c & Ec). rewrite Ec in E.
  destruct (group_ok_along _ _ _ _ _ _ F P M Ec) as (ks & A & K).
  apply (temperature_ok c ks v A K). unfold set_temperature in E. destruct (_ || _); [right; exact E|left; exact E].
Qed.

Definition temps_ok (t : temperatures) : Prop := okv (-99) 99 (te_temp t) /\ okv (-99) 99 (te_dewpt t).

Lemma temps_range : forall g m t, re_match r_TEMPERATURES g = Some m -> temperatures_new (Some m) = Ok t -> temps_ok t.
Proof.
  intros g m t M E. pose proof temps_checks as C. rewrite !andb_true_iff in C. destruct C as ((((F & C1) & C2) & P1) & P2).
  unfold temperatures_new in E. destruct (set_temperature (group m "temp") _) as [a|] eqn:Ea; [|discriminate E]. cbn [bind] in E.
  destruct (set_temperature (group m "dewpt") _) as [b|] eqn:Eb; [|discriminate E]. cbn [bind] in E. injection E as <-.
  split; [exact (set_temperature_ok _ _ _ _ _ _ F C1 P1 M Ea)|exact (set_temperature_ok _ _ _ _ _ _ F C2 P2 M Eb)].
Qed.

(** ** Sea state *)

Definition sea_ok (s : sea_state) : Prop := okv (-99) 99 (se_temp s) /\ okv 0 100 (se_height s).

Lemma sea_heights : group_ok "height" (digits_path 3 3) r_SEA_STATE = true.
Proof. vm_compute. reflexivity. Qed.

Lemma sea_range : forall g m s, re_match r_SEA_STATE g = Some m -> sea_state_new (Some m) = Ok s -> sea_ok s.
Proof.
  intros g m s M E. pose proof sea_checks as C. rewrite !andb_true_iff in C. destruct C as ((F & C1) & P1).
  unfold sea_state_new in E. destruct (set_temperature (group m "temp") _) as [a|] eqn:Ea; [|discriminate E]. cbn [bind] in E.
  injection E as <-. split; [exact (set_temperature_ok _ _ _ _ _ _ F C1 P1 M Ea)|]. cbn [se_height].
  destruct (group m "height") as [c|] eqn:Ec; [|apply okb_ok; vm_compute; reflexivity].
  destruct (group_ok_along _ _ _ _ _ _ F sea_heights M Ec) as (ks & A & K). destruct (digits_path_ok c ks 3 3 A K) as [D L].
  destruct (digits_read c 3 3 D) as (n & V & _ & B); try lia. change (10 ^ N.of_nat 3)%N with 1000%N in B.
  unfold sea_height. cbn [int_of_opt]. rewrite (reads_int c n); [|split; [destruct c; [cbn in L; lia|discriminate]|exact V]].
  change (fdiv (float_of_Z (Z.of_N n)) f10) with (deci n). rewrite (proj1 (deci_ok n B)).
  destruct (scaled_range n (1 # 10) (2 # 1000) (inject_Z (10 ^ 14))) as [A1 A2];
    [reflexivity|vm_compute; discriminate|vm_compute; discriminate|lia|].
  apply (okv_near 64 2 _ (ofN n / (10 # 1)) (ofN 999 * (1 # 10))); [apply deci_near; lia|lia|lia|exact A1| | |].
  - change (ofN n / (10 # 1))%Q with (ofN n * (1 # 10))%Q. apply Qmult_le_compat_r; [apply ofN_le; lia|discriminate].
  - vm_compute. discriminate.
  - vm_compute. discriminate.
Qed.

(** ** Pressure *)

Definition press_ok (p : pressure) : Prop := okv 0 338605 (pr_value p).

Definition raw_inches (n : N) : float := fmul (fN n) INHG_TO_HPA.
Lemma raw_near : forall n, (n < 10000)%N -> near 90 7 (raw_inches n) (ofN n * (100000 # 2953)).
Proof.
  intros n H. apply (near_weak (52 + 10 + 2) (0 + 3 + 2)); try lia.
  apply near_mul; try lia; [apply fN_near; lia|]. apply near_b_sound. vm_compute. reflexivity.
Qed.

(** The ten decimals of a number near [q]. *)
Lemma format_ok : forall x q B hi, near 90 7 x q -> ((1 # 100) <= q)%Q -> (q <= B)%Q -> (B <= 800000 # 1)%Q ->
  ((1 + inject_Z 1 * u) * (B + (1 # 1000)) <= inject_Z hi)%Q -> (0 <= inject_Z hi)%Q ->
  okv 0 hi (parse_float (format_fixed 10 x)).
Proof.
  intros x q B hi M Ql Qh BM H Hh.
  destruct (near_format _ _ _ _ M) as (y & q' & Ey & Ny & Dy); [lia|right; lra|change (inject_Z 900000) with (900000 # 1)%Q; lra|].
  rewrite Ey. apply (okv_shift y q' q (1 # 1000) B hi Ny); auto.
  - eapply Qle_trans; [exact Dy|]. apply Qle_trans with ((1 # 2) * (1 # 10 ^ 10) + inject_Z 7 * u * (800000 # 1))%Q.
    + apply Qplus_le_r. apply Qmult_le_l; [reflexivity|]. lra.
    + vm_compute. discriminate.
  - lra.
  - intro Z0. exfalso. lra.
  - eapply Qle_trans; [exact BM|]. vm_compute. discriminate.
Qed.

Lemma press_range : forall g m p, re_match r_PRESSURE g = Some m -> metar_pressure_new (Some m) = Ok p -> press_ok p.
Proof.
  intros g m p M E. pose proof press_checks as C. rewrite !andb_true_iff in C. destruct C as ((F & C1) & P).
  unfold metar_pressure_new in E. cbv zeta in E. destruct (captured_some _ _ _ _ F C1 M) as (c & Ec). rewrite Ec in E.
  unfold press_ok. destruct (str_eqb c (py "////")) eqn:Es.
  { injection E as <-. cbn [pr_value]. apply str_eqb_eq in Es. subst c. apply okb_ok. vm_compute. reflexivity. }
  destruct (group_ok_along _ _ _ _ _ _ F P M Ec) as (ks & A & K). unfold press_path in K.
  apply orb_true_iff in K. destruct K as [K|K].
  2:{ apply (spells_ok _ _ _ K) in A. subst c. vm_compute in Es. discriminate. }
  destruct (digits_path_ok c ks 4 4 A K) as [D L]. destruct (digits_read c 4 4 D) as (n & V & Pf & B); try lia.
  change (10 ^ N.of_nat 4)%N with 10000%N in B. unfold float_of_str in E. rewrite Pf in E. cbn [bind] in E.
  assert (Ep : pr_value p = parse_float (format_fixed 10 (pressure_convert (group m "units") (group m "units2") (fN n))))
    by (injection E as <-; reflexivity).
  rewrite Ep. clear E Ep.
  assert (Y : pressure_convert (group m "units") (group m "units2") (fN n) = inches n
    \/ pressure_convert (group m "units") (group m "units2") (fN n) = fN n
    \/ pressure_convert (group m "units") (group m "units2") (fN n) = raw_inches n).
  { unfold pressure_convert. destruct (_ || _); [left; reflexivity|]. destruct (_ || _); [right; left; reflexivity|].
    destruct (fltb _ _); [right; right; reflexivity|]. right. left. apply times_one. lia. }
  destruct (N.eq_dec n 0) as [->|N0].
  { destruct Y as [->|[->| ->]]; apply okb_ok; vm_compute; reflexivity. }
  assert (G : (1 <= ofN n)%Q) by (change 1%Q with (ofN 1); apply ofN_le; lia).
  assert (H : (ofN n <= 9999 # 1)%Q) by (change (9999 # 1)%Q with (ofN 9999); apply ofN_le; lia).
  destruct Y as [->|[->| ->]].
  - pose proof (inches_near n B) as Mn.
    assert (Eq : (ofN n / (100 # 1) / (2953 # 100000) == ofN n * (1000 # 2953))%Q) by field.
    apply (near_eq _ _ _ _ _ Eq) in Mn.
    apply (format_ok _ _ (4000 # 1) _ Mn); [lra|lra|lra|vm_compute; discriminate|discriminate].
  - assert (Mn : near 90 7 (fN n) (ofN n)) by (apply (near_weak 52 0); try lia; apply fN_near; lia).
    apply (format_ok _ _ (9999 # 1) _ Mn); [lra|lra|lra|vm_compute; discriminate|discriminate].
  - pose proof (raw_near n B) as Mn.
    apply (format_ok _ _ ((9999 # 1) * (100000 # 2953)) _ Mn); [lra|lra|lra|vm_compute; discriminate|discriminate].
Qed.

(** ** Temperatures of a TAF *)

Definition ttemp_ok (t : taf_temp) : Prop := okv (-99) 99 (tt_value t).
Lemma ttemp_checks : starfree r_T_TEMPERATURE = true /\ captured "temp" r_T_TEMPERATURE = true
  /\ group_ok "temp" temp_path r_T_TEMPERATURE = true.
Proof. conjs; vm_compute; reflexivity. Qed.

Lemma ttemp_range : forall g m d t, re_match r_T_TEMPERATURE g = Some m -> taf_temp_new m d = Ok t -> ttemp_ok t.
Proof.
  intros g m d t M E. destruct ttemp_checks as (F & C & P). unfold taf_temp_new in E.
  destruct (dt_replace_minute d 0) as [d1|]; [|discriminate E]. cbn [bind] in E.
  destruct (captured_some _ _ _ _ F C M) as (c & Ec). rewrite Ec in E.
  destruct (group_ok_along _ _ _ _ _ _ F P M Ec) as (ks & A & K).
  destruct (if truthy (group m "sign") then temperature_new (Some (py "-" ++ c)) else temperature_new (Some c)) as [v|] eqn:Ev;
    [|discriminate E]. cbn [bind] in E.
  assert (Et : tt_value t = v).
  { repeat match type of E with bind ?r _ = _ => destruct r; [cbn [bind] in E|discriminate E] end. injection E as <-. reflexivity. }
  unfold ttemp_ok. rewrite Et. apply (temperature_ok c ks v A K). destruct (truthy (group m "sign")); [right; exact Ev|left; exact Ev].
Qed.

(** ** Weather

    Every term is one of its table. *)
Definition from_table (tbl : list (str * str)) (o : option str) : Prop := forall t, o = Some t -> In t (map snd tbl).
Lemma dict_from : forall tbl k, from_table tbl (dict_get tbl k).
Proof.
  intros tbl k t E. unfold dict_get in E. destruct k as [k|]; [|discriminate E]. induction tbl as [|[a b] tbl IH]; [discriminate E|].
  cbn [assoc] in E. cbn [map snd]. destruct (str_eqb k a); [injection E as <-; left; reflexivity|right; exact (IH E)].
Qed.
Lemma none_from : forall tbl, from_table tbl None.
Proof. intros tbl t E. discriminate E. Qed.

Definition weather_ok (w : weather) : Prop :=
  from_table INTENSITY (we_int w) /\ from_table DESCRIPTION (we_desc w) /\ from_table PRECIPITATION (we_prec w)
  /\ from_table OBSCURATION (we_obsc w) /\ from_table OTHER (we_other w).
Definition recent_ok (w : recent_weather) : Prop :=
  from_table DESCRIPTION (rw_desc w) /\ from_table PRECIPITATION (rw_prec w)
  /\ from_table OBSCURATION (rw_obsc w) /\ from_table OTHER (rw_other w).
Lemma weather_range : forall m, weather_ok (weather_new m).
Proof. intros [m|]; unfold weather_ok; cbn [weather_new we_int we_desc we_prec we_obsc we_other]; auto 10 using dict_from, none_from. Qed.
Lemma recent_range : forall m, recent_ok (recent_weather_new m).
Proof. intros [m|]; unfold recent_ok; cbn [recent_weather_new rw_desc rw_prec rw_obsc rw_other]; auto 10 using dict_from, none_from. Qed.
