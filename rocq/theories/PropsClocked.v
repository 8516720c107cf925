(** * C82: every moment of an accepted report is the one its code names *)
From Coq Require Import String Ascii.
From Coq Require Import List NArith ZArith Bool Lia.
From Verif Require Import PyBase PyTime Base MetarGroups Trend Metar Taf SpecGroups SpecTime SpecStated SpecMoment SpecClocked
  ProofValues ProofClocked ProofClockedTaf PropsFailures.
From Verif Require SpecTaf.
Import ListNotations.
Local Open Scope string_scope.
Local Open Scope nat_scope.
Local Open Scope list_scope.

(** C82 (all METARs): the times of every trend. *)
Theorem C82_metar : forall e code y mo tr x, metar_parse e code y mo tr = Ok x ->
  Forall (fun p => trend_named (t_dt (me_time x)) (cp_ind p)) (gl_list (me_trends x)).
Proof. exact metar_named. Qed.
Print Assumptions C82_metar.

(** C82 (all TAFs): the time, the validity and the extreme temperatures. *)
Theorem C82_taf_time : forall e code y mo tr x, taf_parse e code y mo tr = Ok x ->
  (1000 <= opt_default (now_year e) y <= 9999)%Z -> (1 <= opt_default (now_month e) mo <= 12)%Z ->
  explained t_code (time_says (opt_default (now_year e) y) (opt_default (now_month e) mo)) [ta_time x].
Proof. exact taf_time_named. Qed.
Print Assumptions C82_taf_time.

Theorem C82_taf_validity : forall e code y mo tr x, taf_parse e code y mo tr = Ok x ->
  explained va_code (validity_named (t_dt (ta_time x))) [ta_valid x].
Proof. exact taf_validity_named. Qed.
Print Assumptions C82_taf_validity.

Theorem C82_taf_extremes : forall e code y mo tr x, taf_parse e code y mo tr = Ok x ->
  explained tt_code (extreme_named true (t_dt (ta_time x))) (gl_list (ta_max x))
  /\ explained tt_code (extreme_named false (t_dt (ta_time x))) (gl_list (ta_min x)).
Proof. exact taf_extremes_named. Qed.
Print Assumptions C82_taf_extremes.

(** C82 (all changes of TAFs): when each begins, and when those that do not
    begin with FM end. *)
Theorem C82_taf_changes : forall e code y mo tr x, taf_parse e code y mo tr = Ok x ->
  explained tc_code (change_named (ta_valid x)) (map cf_ind (gl_list (ta_changes x))).
Proof. exact taf_changes_named. Qed.
Print Assumptions C82_taf_changes.

(** C82 (all TAFs): the ends of FM changes. *)
Theorem C82_taf_ends : forall e code y mo tr x, taf_parse e code y mo tr = Ok x -> ends_chained (ta_valid x) (gl_list (ta_changes x)).
Proof. exact taf_ends_chained. Qed.
Print Assumptions C82_taf_ends.

(** Reports that are accepted, with codes that are typed. *)
Example C82_metar_case :
  exists x p, metar_parse some_env (py "METAR SEQM 312300Z 24008KT 9999 NSC 15/10 Q1014 TEMPO FM2330 TL0030 4000 foo") (Some 2026%Z) (Some 12%Z) false = Ok x
    /\ gl_list (me_trends x) = [p] /\ t_dt (me_time x) = mk_dt 2026 12 31 23 0
    /\ t_code (ti_from (cp_ind p)) = Some (py "FM2330") /\ t_dt (ti_from (cp_ind p)) = mk_dt 2026 12 31 23 30
    /\ t_code (ti_until (cp_ind p)) = Some (py "TL0030") /\ t_dt (ti_until (cp_ind p)) = mk_dt 2027 1 1 0 30.
Proof. do 2 eexists. conjs; vm_compute; reflexivity. Qed.

Definition ending_year :=
  py "TAF SEQM 311630Z 3118/0124 24008KT 9999 FEW060 TX12/3120Z TNM02/0110Z FM312000 30010KT TEMPO 3121/3122 0700 PROB30 0102/0104 FG bar BECMG 0106/0108 9999 FM011200 VRB02KT".
Definition when_named (p : change_fc) : option str * datetime * datetime :=
  (tc_code (cf_ind p), t_dt (va_from (tc_valid (cf_ind p))), t_dt (va_until (tc_valid (cf_ind p)))).
Example C82_taf_case :
  exists x, taf_parse some_env ending_year (Some 2026%Z) (Some 12%Z) false = Ok x
    /\ t_dt (ta_time x) = mk_dt 2026 12 31 16 30 /\ t_code (ta_time x) = Some (py "311630Z")
    /\ va_code (ta_valid x) = Some (py "3118/0124") /\ t_dt (va_from (ta_valid x)) = mk_dt 2026 12 31 18 0 /\ t_dt (va_until (ta_valid x)) = mk_dt 2027 1 2 0 0
    /\ map (fun t => (tt_code t, t_dt (tt_time t))) (gl_list (ta_max x)) = [(Some (py "TX12/3120Z"), mk_dt 2026 12 31 20 0)]
    /\ map (fun t => (tt_code t, t_dt (tt_time t))) (gl_list (ta_min x)) = [(Some (py "TNM02/0110Z"), mk_dt 2027 1 1 10 0)]
    /\ map when_named (gl_list (ta_changes x)) =
         [(Some (py "FM312000"), mk_dt 2026 12 31 20 0, mk_dt 2027 1 1 5 0);
          (Some (py "TEMPO 3121/3122"), mk_dt 2026 12 31 21 0, mk_dt 2026 12 31 22 0);
          (Some (py "PROB30 0102/0104"), mk_dt 2027 1 1 2 0, mk_dt 2027 1 1 4 0);
          (Some (py "BECMG 0106/0108"), mk_dt 2027 1 1 6 0, mk_dt 2027 1 1 8 0);
          (Some (py "FM011200"), mk_dt 2027 1 1 12 0, mk_dt 2027 1 2 0 0)].
Proof. eexists. conjs; vm_compute; reflexivity. Qed.

(** What the theorems say of that report: the first change ends an hour before
    the BECMG change, the last with the forecast. *)
Example C82_taf_ends_case :
  exists x p a q, taf_parse some_env ending_year (Some 2026%Z) (Some 12%Z) false = Ok x /\ gl_list (ta_changes x) = [] ++ p :: a ++ q :: skipn 4 (gl_list (ta_changes x))
    /\ SpecTaf.is_from p /\ Forall SpecTaf.passing a /\ ~ SpecTaf.passing q /\ closing q.
Proof.
  do 4 eexists. split; [vm_compute; reflexivity|]. split; [cbn [gl_list ta_changes]; match goal with |- [?p; ?a; ?b; ?q; ?r] = _ => instantiate (3 := p); instantiate (2 := [a; b]); instantiate (1 := q) end; reflexivity|].
  split; [eexists; reflexivity|]. split; [constructor; [right; eexists; reflexivity|constructor; [left; eexists; reflexivity|constructor]]|].
  split; [intros [(r & K)|(r & K)]; discriminate K|]. right. eexists. reflexivity.
Qed.

(** A validity group after FM replaces both of its moments. *)
Example C82_taf_own_case :
  exists x, taf_parse some_env (py "TAF SEQM 311630Z 3118/0124 24008KT 9999 FM312000 3122/0102 30010KT") (Some 2026%Z) (Some 12%Z) false = Ok x
    /\ map when_named (gl_list (ta_changes x)) = [(Some (py "FM312000"), mk_dt 2026 12 31 22 0, mk_dt 2027 1 1 2 0)].
Proof. eexists. conjs; vm_compute; reflexivity. Qed.
