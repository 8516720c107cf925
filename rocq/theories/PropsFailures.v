(** * Properties C19, C24, C40, C43, C44, C45 (failures): statements only *)
From Coq Require Import String Ascii.
From Coq Require Import List NArith ZArith Bool Lia.
From Verif Require Import PyBase PyRegex AeroRegex PyFloat PyTime Utils Base MetarGroups Trend Metar Taf SpecNum SpecTime SpecMetar
  SpecFailures OutTime OutReport ProofFailures.
Import ListNotations.
Local Open Scope string_scope.
Local Open Scope nat_scope.
Local Open Scope list_scope.

Definition some_env : env := mk_env 2026 11 [] [].
Definition fails_with {A} (r : result A) (ex : exn) : bool := match r with Raise e => exn_eqb e ex | Ok _ => false end.
Definition read_in (y mo : Z) (s : string) : result metar := metar_parse some_env (py s) (Some y) (Some mo) false.

(** ** C19: accepted visibilities *)

Theorem C19_refuted :
  exists g1 g2 g3 m1 m2 m3,
    re_match r_VISIBILITY g1 = Some m1 /\ prevailing_new (Some m1) = Raise ValueError
    /\ re_match r_VISIBILITY g2 = Some m2 /\ prevailing_new (Some m2) = Raise ZeroDivisionError
    /\ re_match r_VISIBILITY g3 = Some m3 /\ prevailing_new (Some m3) = Raise TypeError.
Proof.
  exists (py "4000EW"), (py "1/0SM"), (py "1/2KM"). do 3 eexists. repeat (split; [vm_compute; reflexivity|]). vm_compute. reflexivity.
Qed.
Print Assumptions C19_refuted.

(** Missing from the full statement: the accepted texts that hold a fraction
    over zero, a fraction of kilometres or a direction such as EW. *)
Theorem C19_prevailing_partial : forall r g m, In r [r_VISIBILITY; r_T_VISIBILITY] -> re_match r g = Some m ->
  (forall x, contains g x -> ~ over_zero x /\ ~ fraction_km x /\ ~ no_direction x) ->
  exists v, prevailing_new (Some m) = Ok v.
Proof. exact prevailing_fine. Qed.
Print Assumptions C19_prevailing_partial.

Theorem C19_minimum_partial : forall g m, re_match r_MINIMUM_VISIBILITY g = Some m ->
  (forall x, contains g x -> ~ over_zero x /\ ~ fraction_km x /\ ~ no_direction x) ->
  exists v, minimum_visibility_new (Some m) = Ok v.
Proof. exact minimum_fine. Qed.
Print Assumptions C19_minimum_partial.

(** 4000 holds none of the three. *)
Lemma plain_4000 : forall x, contains (py "4000") x -> ~ over_zero x /\ ~ fraction_km x /\ ~ no_direction x.
Proof.
  intros x (a & b & E).
  assert (N : forall c, In c x -> In c (py "4000")).
  { intros c I. rewrite E. apply in_or_app. right. apply in_or_app. left. exact I. }
  repeat split.
  - intros (p & q & n & -> & _). assert (K : In 47%N (py "4000")) by (apply N, in_or_app; right; left; reflexivity).
    cbn in K. intuition discriminate.
  - intros (p & q & n & k & -> & _). assert (K : In 47%N (py "4000")) by (apply N, in_or_app; right; left; reflexivity).
    cbn in K. intuition discriminate.
  - intros (v & d & -> & D & _). assert (K : In 69%N (py "4000") \/ In 87%N (py "4000")).
    { destruct D as [<-|[<-|[<-|[<-|[]]]]]; [left|left|right|right]; apply N, in_or_app; right; left; reflexivity. }
    cbn in K. intuition discriminate.
Qed.
Example C19_case : exists m v, re_match r_VISIBILITY (py "4000") = Some m /\ prevailing_new (Some m) = Ok v.
Proof.
  destruct (re_match r_VISIBILITY (py "4000")) as [m|] eqn:E; [|vm_compute in E; discriminate].
  destruct (C19_prevailing_partial r_VISIBILITY (py "4000") m (or_introl eq_refl) E plain_4000) as (v & H).
  exists m, v. split; [reflexivity|exact H].
Qed.

(** ** C24: accepted covers *)

Theorem C24_refuted : exists m c, re_match r_CLOUD (py "0VC010") = Some m /\ cloud_from_metar (Some m) = Ok c /\ cl_cover c = None.
Proof. do 2 eexists. repeat (split; [vm_compute; reflexivity|]). vm_compute. reflexivity. Qed.
Print Assumptions C24_refuted.

(** Missing from the full statement: the cover 0VC, which has no meaning. *)
Theorem C24_partial : forall g m, re_match r_CLOUD g = Some m -> ~ contains g (py "0VC") ->
  exists c d, cloud_from_metar (Some m) = Ok c /\ cl_cover c = Some d.
Proof. exact cover_meaning. Qed.
Print Assumptions C24_partial.
Example C24_case : exists m, re_match r_CLOUD (py "OVC010CB") = Some m.
Proof. eexists. vm_compute. reflexivity. Qed.

(** ** C40: truncation *)

Theorem C40_metar : forall e code y mo,
  metar_parse e code y mo true = Raise ParserError
  <-> exists x, metar_parse e code y mo false = Ok x /\ me_unparsed x <> [].
Proof. exact metar_parser_error. Qed.
Print Assumptions C40_metar.

Theorem C40_metar_same : forall e code y mo r, metar_parse e code y mo true = r -> r <> Raise ParserError ->
  metar_parse e code y mo false = r.
Proof. exact metar_same. Qed.
Print Assumptions C40_metar_same.

Theorem C40_taf : forall e code y mo,
  taf_parse e code y mo true = Raise ParserError
  <-> exists x, taf_parse e code y mo false = Ok x /\ ta_unparsed x <> [].
Proof. exact taf_parser_error. Qed.
Print Assumptions C40_taf.

Theorem C40_taf_same : forall e code y mo r, taf_parse e code y mo true = r -> r <> Raise ParserError ->
  taf_parse e code y mo false = r.
Proof. exact taf_same. Qed.
Print Assumptions C40_taf_same.

Example C40_case :
  fails_with (metar_parse some_env (py "METAR SEQM 162000Z xxx NOSIG") (Some 2026%Z) (Some 1%Z) true) ParserError = true
  /\ fails_with (taf_parse some_env (py "TAF SEQM 162000Z 1620/1720 xxx") (Some 2026%Z) (Some 1%Z) true) ParserError = true.
Proof. vm_compute. split; reflexivity. Qed.

(** ** C43: the lists of the body *)

Theorem C43_body : forall e raw y mo x, metar_init e raw y mo = Ok x ->
  match parse_body e y mo x with
  | Ok x' => length (gl_list (me_rvr x')) <= 3 /\ length (gl_list (c_weathers (me_common x'))) <= 3
             /\ length (gl_list (c_clouds (me_common x'))) <= 4 /\ length (gl_list (me_ws x')) <= 3
  | Raise ex => ex <> RangeError
  end.
Proof. exact body_no_range. Qed.
Print Assumptions C43_body.

(** Five clouds: the last one is left unparsed. *)
Example C43_case : exists x, read_in 2026 1 "METAR SEQM 162000Z FEW010 SCT020 BKN030 OVC040 OVC050 18/12" = Ok x
  /\ length (gl_list (c_clouds (me_common x))) = 4 /\ me_unparsed x = [py "OVC050"].
Proof. eexists. split; [vm_compute; reflexivity|]. split; vm_compute; reflexivity. Qed.

(** ** C44: the exceptions of a METAR *)

Theorem C44_failures : forall e code year month truncate ex, clock_wf e -> month_wf e year month ->
  metar_parse e code year month truncate = Raise ex ->
  metar_fails (opt_default (now_year e) year) (opt_default (now_month e) month) truncate code ex.
Proof. exact metar_outcome. Qed.
Print Assumptions C44_failures.

(** Each of them happens. *)
Example C44_cases :
  clock_wf some_env /\ month_wf some_env (Some 2026%Z) (Some 2%Z)
  /\ fails_with (read_in 2026 2 "") AssertionError = true
  /\ fails_with (read_in 2026 2 "METAR SEQM 302000Z") ValueError = true
  /\ fails_with (read_in 2026 2 "METAR SEQM 102400Z") ValueError = true
  /\ fails_with (read_in 2026 2 "METAR SEQM 102000Z 4000EW") ValueError = true
  /\ fails_with (read_in 2026 2 "METAR SEQM 102000Z 1/0SM") ZeroDivisionError = true
  /\ fails_with (read_in 2026 2 "METAR SEQM 102000Z 1/=0SM") ZeroDivisionError = true
  /\ fails_with (read_in 2026 2 "METAR SEQM 102000Z 1/2KM") TypeError = true
  /\ fails_with (read_in 2026 2 "METAR SEQM 102000Z NOSIGX FM1200") TypeError = true
  /\ fails_with (read_in 2026 2 "METAR SEQM 102000Z TEMPO 4000 TEMPO 3000 BECMG 9999") RangeError = true
  /\ fails_with (read_in 9999 12 "METAR SEQM 312300Z NOSIG") OverflowError = true.
Proof. unfold clock_wf, month_wf. cbn [now_year now_month some_env opt_default]. repeat (split; [first [lia|vm_compute; reflexivity]|]). vm_compute. reflexivity. Qed.

(** ** C45: three trends *)

Theorem C45_refuted : fails_with (read_in 2026 1 "METAR SEQM 162000Z TEMPO 4000 TEMPO 3000 BECMG 9999") RangeError = true.
Proof. vm_compute. reflexivity. Qed.
Print Assumptions C45_refuted.

(** Missing from the full statement: more than two trends. *)
Theorem C45_partial : forall e code year month tr, clock_wf e -> month_wf e year month ->
  places trend_words (unsigned code) <= 2 -> metar_parse e code year month tr <> Raise RangeError.
Proof. exact few_trends. Qed.
Print Assumptions C45_partial.
Example C45_case : places trend_words (unsigned (py "METAR SEQM 162000Z TEMPO 4000 BECMG 9999=")) = 2.
Proof. reflexivity. Qed.
