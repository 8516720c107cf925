(** * Values of the decoded groups, continued *)
From Coq Require Import String Ascii.
From Coq Require Import List NArith ZArith Bool Lia QArith Qabs Lqa.
From Coq Require Import Floats.SpecFloat.
From Verif Require Import PyBase PyRegex AeroRegex PyFloat Utils Base MetarGroups SpecNum
  SpecGroups Rounding ReprFacts FloatFacts SymRegex ProofGroups ProofGroups2 ProofValues.
Import ListNotations.
Local Open Scope string_scope.
Local Open Scope nat_scope.
Local Open Scope list_scope.

(** ** Ten decimals *)

Lemma format_dot : forall k x, finite x = true -> In 46%N (format_fixed k x).
Proof.
  intros k x H. destruct x as [s|s| |s m e]; try discriminate; cbn [format_fixed];
    [|destruct (frac_of m e)]; unfold fixed_point; rewrite !in_app_iff; do 2 right; left; left; reflexivity.
Qed.
Lemma near_finite : forall k j x q, near k j x q -> finite x = true.
Proof. intros k j x q [[-> _]|((m & e & -> & _) & _)]; reflexivity. Qed.
Lemma format_9999 : forall k x, finite x = true -> str_eqb (format_fixed k x) (py "9999") = false.
Proof.
  intros k x H. apply str_eqb_neq. intro E. assert (D := format_dot k x H). rewrite E in D.
  simpl in D. decompose [or] D; discriminate || contradiction.
Qed.

(** ** Clouds *)

Lemma digits_snoc : forall k n d, (d < 10)%N -> digits k n ++ [dig d] = digits (S k) (n * 10 + d).
Proof.
  intros k n d H. cbn [digits]. rewrite N.div_add_l, N.div_small, N.add_0_r by lia.
  rewrite N.add_comm, N.mod_add, N.mod_small by lia. reflexivity.
Qed.

Lemma hundreds : forall n, digits 3 n ++ py "00" = digits 5 (n * 100).
Proof.
  intro n. change (py "00") with ([dig 0] ++ [dig 0]). rewrite app_assoc.
  rewrite !digits_snoc by reflexivity. f_equal. lia.
Qed.

Definition cloud_x (n : N) : float := fmul (fN (n * 100)) FT_TO_M.

Lemma cloud_near : forall n, (n < 1000)%N -> near 64 3 (cloud_x n) (ofN n * (3048 # 100)).
Proof.
  intros n H. apply (near_eq _ _ _ (ofN (n * 100) * (3048 # 10000))).
  { unfold ofN. rewrite N2Z.inj_mul, inject_Z_mult. change (inject_Z (Z.of_N 100)) with (100 # 1)%Q. ring. }
  apply (near_weak (52 + 10 + 2) (0 + 1 + 2)); try lia.
  apply near_mul; try lia; [apply fN_near; lia|]. apply near_b_sound. vm_compute. reflexivity.
Qed.

(** The height read back from its ten decimals, in metres and in feet. *)
Lemma cloud_height_ok : forall n, (n < 1000)%N ->
  exists y q, distance_new (Some (format_fixed 10 (cloud_x n))) = Some y
    /\ near 300 1 y q /\ (Qabs (q - ofN n * (3048 # 100)) <= 7 # 10 ^ 11)%Q.
Proof.
  intros n H. assert (M := cloud_near n H).
  assert (L : (ofN n <= ofN 999)%Q) by (apply ofN_le; lia).
  assert (R : (ofN n * (3048 # 100) <= ofN 999 * (3048 # 100))%Q)
    by (apply Qmult_le_compat_r; [exact L|discriminate]).
  destruct (near_format _ _ _ _ M) as (y & q & E & N & D).
  - lia.
  - destruct (ofN_pos n) as [Z0|G]; [left; rewrite Z0; reflexivity|right; lra].
  - eapply Qle_trans; [exact R|discriminate].
  - exists y, q. split; [|split; [exact N|]].
    + unfold distance_new. rewrite format_9999 by exact (near_finite _ _ _ _ M). exact E.
    + eapply Qle_trans; [exact D|].
      apply Qle_trans with ((1 # 2) * (1 # 10 ^ 10) + inject_Z 3 * u * (ofN 999 * (3048 # 100)))%Q.
      * apply Qplus_le_r. apply Qmult_le_l; [reflexivity|exact R].
      * vm_compute. discriminate.
Qed.

(** Something near [q'], which is within [d] of [q]. *)
Lemma near_within_shift : forall k j x q' q eps B d, near k j x q' -> (0 <= j)%Z -> (q' <= B)%Q ->
  (Qabs (q' - q) <= d)%Q -> (inject_Z j * u * B + d <= eps)%Q -> within eps (Some x) q.
Proof.
  intros k j x q' q eps B d H Hj HB Hd He. exists x, (val x). split; [reflexivity|].
  split; [exact (near_value _ _ _ _ H)|].
  setoid_replace (val x - q)%Q with ((val x - q') + (q' - q))%Q by ring.
  eapply Qle_trans; [apply Qabs_triangle|]. eapply Qle_trans; [|exact He].
  apply Qplus_le_compat; [|exact Hd].
  eapply Qle_trans; [apply (near_abs k j); auto|].
  assert (0 <= inject_Z j * u)%Q.
  { apply Qmult_le_0_compat; [|vm_compute; discriminate].
    change 0%Q with (inject_Z 0). rewrite <- Zle_Qle. exact Hj. }
  rewrite (Qmult_comm _ q'), (Qmult_comm _ B). apply Qmult_le_compat_r; assumption.
Qed.

Lemma cloud_m_ft : forall n, (n < 1000)%N ->
  exists y, distance_new (Some (format_fixed 10 (cloud_x n))) = Some y
    /\ within (1 # 10 ^ 9) (Some y) (ofN n * (3048 # 100))
    /\ within (1 # 10 ^ 9) (in_feet (Some y)) (ofN n * (100 # 1))
    /\ sound y /\ sound (fmul y M_TO_FT).
Proof.
  intros n H. destruct (cloud_height_ok n H) as (y & q & E & N & D).
  assert (L : (ofN n <= 999 # 1)%Q) by (change (999 # 1)%Q with (ofN 999); apply ofN_le; lia).
  assert (Hq : (q <= 31000 # 1)%Q).
  { apply Qabs_Qle_condition in D. destruct D as [_ D]. change (7 # 10 ^ 11)%Q with (7 # 100000000000)%Q in D. lra. }
  assert (F : near 314 5 (fmul y M_TO_FT) (q * (10000 # 3048))).
  { apply (near_weak (300 + 10 + 2) (1 + 2 + 2)); try lia.
    apply near_mul; try lia; [exact N|]. apply near_b_sound. vm_compute. reflexivity. }
  assert (D' : (Qabs (q * (10000 # 3048) - ofN n * (100 # 1)) <= 3 # 10 ^ 10)%Q).
  { setoid_replace (q * (10000 # 3048) - ofN n * (100 # 1))%Q
      with ((q - ofN n * (3048 # 100)) * (10000 # 3048))%Q by ring.
    rewrite Qabs_Qmult. apply Qle_trans with ((7 # 10 ^ 11) * Qabs (10000 # 3048))%Q.
    - apply Qmult_le_compat_r; [exact D|discriminate].
    - vm_compute. discriminate. }
  exists y. split; [exact E|]. split; [|split].
  - apply (near_within_shift 300 1 y q _ _ (31000 # 1) (7 # 10 ^ 11)); auto; [lia|].
    vm_compute. discriminate.
  - cbn [in_feet converted option_map].
    apply (near_within_shift 314 5 _ _ _ _ (120000 # 1) (3 # 10 ^ 10) F); auto; [lia|lra|].
    vm_compute. discriminate.
  - split; [apply (near_sound _ _ _ _ N)|apply (near_sound _ _ _ _ F)]; lia.
Qed.

Lemma cloud_nou : forall g, cloud_wf g -> nou (cloud_code g).
Proof.
  intros [c h t] (Hc & _). cbn [cg_cover] in Hc. unfold cloud_code. cbn [cg_cover cg_height cg_type].
  apply nou_app; [|apply nou_app].
  - apply (nou_in _ (fun x => py (fst (fst x))) covers); [reflexivity|exact Hc].
  - destruct h; cbn [cheight_code]; auto with nou.
  - destruct t; cbn [ctype_code]; auto with nou.
Qed.

Definition cloud_height_spec (h : cheight) (c : cloud) : Prop :=
  opt_within (1 # 10 ^ 9) (cl_height c) (height_meters h)
  /\ opt_within (1 # 10 ^ 9) (cl_feet c) (height_feet h).

Lemma cover_ok : forall c, In c covers ->
  assoc (py (fst (fst c))) SKY_COVER = Some (py (snd (fst c)))
  /\ set_oktas (py (fst (fst c))) = py (snd c).
Proof.
  intros c H. simpl in H. repeat (destruct H as [<-|H]; [split; reflexivity|]). destruct H.
Qed.

Lemma cloud_full : forall g, cloud_wf g ->
  exists c, cloud_from_metar (re_match r_CLOUD (cloud_code g)) = Ok c
    /\ cl_code c = Some (cloud_code g)
    /\ cl_cover c = Some (py (snd (fst (cg_cover g))))
    /\ cl_oktas c = Some (py (snd (cg_cover g)))
    /\ cl_type c = type_text (cg_type g)
    /\ opt_within (1 # 10 ^ 9) (cl_height c) (height_meters (cg_height g))
    /\ opt_within (1 # 10 ^ 9) (cl_feet c) (height_feet (cg_height g))
    /\ opt_all sound (cl_height c) /\ opt_all sound (cl_feet c)
    /\ (cg_height g = HtHundreds 15 -> opt_all (fun f => fleb f f1500 = true) (cl_feet c)).
Proof.
  intros g H. destruct (cloud_captures g H) as (m & Em & Es & Hc). rewrite Em.
  unfold cloud_from_metar. captured Hc ["cover"; "height"; "type"].
  rewrite Es, group_code_id by exact (cloud_nou g H). clear Em Es Hc m.
  set (code := Some (cloud_code g)). destruct H as (H1 & H2 & H3).
  destruct (cover_ok _ H1) as [K1 K2].
  assert (T : dict_get CLOUD_TYPE (lookup "type" (cloud_text g)) = type_text (cg_type g)).
  { destruct g as [c h t]. unfold cloud_text. cbn [cg_cover cg_height cg_type].
    destruct h, t; reflexivity. }
  assert (C : lookup "cover" (cloud_text g) = Some (py (fst (fst (cg_cover g)))))
    by reflexivity.
  rewrite C, T, K1, K2.
  destruct g as [c h t]. cbn [cg_cover cg_height cg_type] in *.
  unfold cloud_text. cbn [cg_cover cg_height cg_type].
  destruct h as [n| |].
  - change (lookup "height" _) with (Some (digits 3 n)). cbn iota.
    rewrite digits_neq by reflexivity. rewrite hundreds. unfold float_of_str.
    rewrite parse_digits; [|lia|change (10 ^ N.of_nat 5)%N with 100000%N; lia]. cbn [bind].
    change (fmul (float_of_Z (Z.of_N (n * 100))) FT_TO_M) with (cloud_x n).
    destruct (cloud_m_ft n H2) as (y & E & Y1 & Y2 & Y3 & Y4). rewrite E.
    eexists. split; [reflexivity|]. cbn [cl_code cl_cover cl_oktas cl_type cl_height height_meters
      height_feet opt_within cl_feet]. conjs; auto.
    intro K. injection K as ->. apply (f_equal (fun o => opt_all (fun f => fleb f f1500 = true) (in_feet o))) in E.
    change (opt_all (fun f => fleb f f1500 = true) (in_feet (Some y))). rewrite <- E.
    vm_compute. reflexivity.
  - eexists. split; [reflexivity|]. conjs; try reflexivity; try exact I; discriminate.
  - eexists. split; [destruct t; reflexivity|]. conjs; try reflexivity; try exact I; discriminate.
Qed.

Lemma cloud_ok : forall g, cloud_wf g ->
  exists c, cloud_from_metar (re_match r_CLOUD (cloud_code g)) = Ok c
    /\ cl_code c = Some (cloud_code g)
    /\ cl_cover c = Some (py (snd (fst (cg_cover g))))
    /\ cl_oktas c = Some (py (snd (cg_cover g)))
    /\ cl_type c = type_text (cg_type g)
    /\ opt_within (1 # 10 ^ 9) (cl_height c) (height_meters (cg_height g))
    /\ opt_within (1 # 10 ^ 9) (cl_feet c) (height_feet (cg_height g)).
Proof.
  intros g H. destruct (cloud_full g H) as (c & H1 & H2 & H3 & H4 & H5 & H6 & H7 & _).
  exists c. tauto.
Qed.
