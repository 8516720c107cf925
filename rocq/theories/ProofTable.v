(** * The rows of the table of stations (C88): proofs *)
From Coq Require Import String Ascii.
From Coq Require Import List NArith ZArith Bool Lia.
From Verif Require Import PyBase PyRegex PyTime Base MetarGroups Trend Metar Taf Stations SpecGroups SpecTime SpecText SpecMetar SpecTaf SpecTafReport
  SpecStation SpecTable StrFacts ProofValues ProofStation PropsMetar PropsTaf.
Import ListNotations.
Local Open Scope string_scope.
Local Open Scope nat_scope.
Local Open Scope list_scope.

Definition between (a b c : N) : bool := N.leb a c && N.leb c b.
Lemma between_ok : forall a b c, between a b c = true -> (a <= c <= b)%N.
Proof. intros a b c H. apply andb_prop in H. destruct H as [H1 H2]. apply N.leb_le in H1, H2. lia. Qed.
Lemma all_between : forall a b s, forallb (between a b) s = true -> Forall (fun c => (a <= c <= b)%N) s.
Proof. intros a b s H. rewrite forallb_forall in H. apply Forall_forall. intros c I. apply between_ok, H, I. Qed.

Definition number (s : str) : option N :=
  match s with [] => None | _ => if forallb (between 48 57) s then Some (fold_left (fun a c => a * 10 + (c - 48))%N s 0%N) else None end.
Lemma number_ok : forall s n, number s = Some n -> written s n.
Proof.
  intros s n. unfold number. destruct s as [|c s]; [discriminate|]. destruct (forallb _ _) eqn:E; [|discriminate].
  intro H. injection H as H. split; [discriminate|]. split; [exact (all_between _ _ _ E)|exact H].
Qed.
Definition number_b (p : N -> bool) (s : str) : bool := match number s with Some n => p n | None => false end.
Lemma number_b_ok : forall p s, number_b p s = true -> exists n, written s n /\ p n = true.
Proof. intros p s. unfold number_b. destruct (number s) as [n|] eqn:E; [|discriminate]. intro H. exists n. split; [exact (number_ok s n E)|exact H]. Qed.

Definition degrees_b (places : nat) (below : N) (ds : list string) (s : str) : bool :=
  let d := firstn places s in
  match skipn places s with
  | 46%N :: a :: b :: h =>
      Nat.eqb (length d) places && number_b (fun n => N.ltb n below) d && number_b (fun n => N.ltb n 60) [a; b]
      && existsb (fun x => str_eqb h (py x)) ds
  | _ => false
  end.
Lemma degrees_ok : forall k n ds s, degrees_b k n ds s = true -> degrees k n ds s.
Proof.
  intros k n ds s. unfold degrees_b. cbv zeta. pose proof (firstn_skipn k s) as E.
  set (d := firstn k s) in *. destruct (skipn k s) as [|p t]; [discriminate|].
  destruct (N.eq_dec p 46) as [->|Np].
  2:{ intro H. exfalso. destruct p as [|p]; [discriminate H|]. do 6 (destruct p as [p|p|]; try discriminate H). apply Np. reflexivity. }
  destruct t as [|a [|b h]]; try discriminate.
  intro H. apply andb_prop in H. destruct H as [H H4]. apply andb_prop in H. destruct H as [H H3].
  apply andb_prop in H. destruct H as [H1 H2]. apply Nat.eqb_eq in H1.
  destruct (number_b_ok _ _ H2) as (nd & W1 & B1). destruct (number_b_ok _ _ H3) as (nm & W2 & B2).
  apply N.ltb_lt in B1, B2. apply existsb_exists in H4. destruct H4 as (x & I & X). apply str_eqb_eq in X.
  exists d, [a; b], x, nd, nm. rewrite <- X. split; [rewrite <- E; reflexivity|]. conjs; try assumption. reflexivity.
Qed.

Definition elevation_b (s : str) : bool :=
  match s with
  | 45%N :: t => number_b (fun n => N.leb n 35) t
  | _ => number_b (fun n => N.leb n 4057) s
  end.
Lemma elevation_ok : forall s, elevation_b s = true -> elevation s.
Proof.
  intros s H. assert (C : (exists t, s = 45%N :: t) \/ elevation_b s = number_b (fun n => N.leb n 4057) s).
  { destruct s as [|c t]; [right; reflexivity|]. destruct (N.eq_dec c 45) as [->|Nc]; [left; exists t; reflexivity|right].
    destruct c as [|c]; [reflexivity|]. do 6 (destruct c as [c|c|]; try reflexivity). exfalso. apply Nc. reflexivity. }
  destruct C as [[t ->]|C].
  - cbn [elevation_b] in H. destruct (number_b_ok _ _ H) as (n & W & B). apply N.leb_le in B. right. exists t, n. conjs; try assumption. reflexivity.
  - rewrite C in H. destruct (number_b_ok _ _ H) as (n & W & B). apply N.leb_le in B. left. exists n. split; assumption.
Qed.

Definition upper_b (c : N) : bool := between 65 90 c.
Definition alnum_b (c : N) : bool := if between 65 90 c then true else between 48 57 c.
Lemma alnum_ok : forall c, alnum_b c = true -> is_alnum c.
Proof. intros c. unfold alnum_b. destruct (between 65 90 c) eqn:E; intro H; [left; exact (between_ok _ _ _ E)|right; exact (between_ok _ _ _ H)]. Qed.
Definition station_b (s : str) : bool :=
  match s with
  | [a; b; c; d] => upper_b a && alnum_b b && alnum_b c && alnum_b d
  | _ => false
  end.
Lemma station_ok : forall s, station_b s = true -> station_wf s.
Proof.
  intros [|a [|b [|c [|d [|e s]]]]] H; try discriminate H. cbn [station_b] in H.
  apply andb_prop in H. destruct H as [H H4]. apply andb_prop in H. destruct H as [H H3]. apply andb_prop in H. destruct H as [H1 H2].
  exists a, b, c, d. split; [reflexivity|]. split; [exact (between_ok _ _ _ H1)|]. conjs; apply alnum_ok; assumption.
Qed.
Definition maybe_b (p : str -> bool) (s : str) : bool := if str_eqb s (py "None") then true else p s.
Lemma maybe_ok : forall p (P : str -> Prop) s, (forall t, p t = true -> P t) -> maybe_b p s = true -> maybe P s.
Proof.
  intros p P s K H. unfold maybe_b in H. destruct (str_eqb s (py "None")) eqn:E; [left; apply str_eqb_eq; exact E|right; exact (K s H)].
Qed.

Definition row_b (long_b : str -> bool) (row : list str) : bool :=
  match row with
  | [name; icao; iata; synop; lat; long; elev; country] =>
      match name with [] => false | _ => true end && forallb (between 32 126) name && maybe_b station_b icao
      && maybe_b (fun s => Nat.eqb (length s) 3 && forallb alnum_b s) iata
      && maybe_b (fun s => Nat.eqb (length s) 5 && number_b (fun _ => true) s) synop
      && degrees_b 2 90 ["N"; "S"] lat && long_b long && elevation_b elev
      && (Nat.eqb (length country) 2 && forallb upper_b country)
  | _ => false
  end.
Lemma row_ok : forall lb (L : str -> Prop) row, (forall s, lb s = true -> L s) -> row_b lb row = true -> row_wf L row.
Proof.
  intros lb L row K H.
  destruct row as [|name [|icao [|iata [|synop [|lat [|long [|elev [|country [|more rest]]]]]]]]]; try discriminate H.
  cbn [row_b] in H. apply andb_prop in H. destruct H as [H H9]. apply andb_prop in H. destruct H as [H H8].
  apply andb_prop in H. destruct H as [H H7]. apply andb_prop in H. destruct H as [H H6]. apply andb_prop in H. destruct H as [H H5].
  apply andb_prop in H. destruct H as [H H4]. apply andb_prop in H. destruct H as [H H3]. apply andb_prop in H. destruct H as [H1 H2].
  apply andb_prop in H9. destruct H9 as [H9 H10]. apply Nat.eqb_eq in H9.
  exists name, icao, iata, synop, lat, long, elev, country. split; [reflexivity|].
  split; [split; [destruct name; [discriminate H1|discriminate]|exact (all_between _ _ _ H2)]|].
  split; [exact (maybe_ok _ _ _ station_ok H3)|].
  split. { refine (maybe_ok _ _ _ _ H4). intros t T. apply andb_prop in T. destruct T as [T1 T2]. apply Nat.eqb_eq in T1.
    split; [exact T1|]. rewrite forallb_forall in T2. apply Forall_forall. intros c I. apply alnum_ok, T2, I. }
  split. { refine (maybe_ok _ _ _ _ H5). intros t T. apply andb_prop in T. destruct T as [T1 T2]. apply Nat.eqb_eq in T1.
    split; [exact T1|]. destruct (number_b_ok _ _ T2) as (n & W & _). exists n. exact W. }
  split; [exact (degrees_ok _ _ _ _ H6)|]. split; [exact (K _ H7)|]. split; [exact (elevation_ok _ H8)|].
  split; [exact H9|exact (all_between _ _ _ H10)].
Qed.

Fixpoint same_row (r q : list str) : bool :=
  match r, q with
  | [], [] => true
  | a :: r', b :: q' => if str_eqb a b then same_row r' q' else false
  | _, _ => false
  end.
Lemma same_row_ok : forall r q, same_row r q = true -> r = q.
Proof.
  induction r as [|a r IH]; intros [|b q]; cbn [same_row]; try discriminate; [reflexivity|].
  destruct (str_eqb a b) eqn:E; [|discriminate]. intro H. apply str_eqb_eq in E. rewrite E, (IH q H). reflexivity.
Qed.
Definition entry_b (row : list str) : bool :=
  if row_b (degrees_b 3 180 ["E"; "W"]) row then true else same_row row armstrong.
Definition head_b (row : list str) : bool := if starts_with (py "RMK") (nth 1 row []) then false else true.
Definition change_b (row : list str) : bool :=
  if begins_any change_words (nth 1 row []) then starts_with (py "FM") (nth 1 row []) else true.
Lemma table_all : forallb entry_b STATIONS = true.
Proof. vm_compute. reflexivity. Qed.
Lemma table_heads : forallb head_b STATIONS = true.
Proof. vm_compute. reflexivity. Qed.
Lemma table_changes : forallb change_b STATIONS = true.
Proof. vm_compute. reflexivity. Qed.
Lemma armstrong_there : existsb (fun r => same_row r armstrong) STATIONS = true.
Proof. vm_compute. reflexivity. Qed.

Local Opaque STATIONS COUNTRIES.

Lemma rows_wf : forall row, In row STATIONS -> row_wf longitude row \/ row = armstrong.
Proof.
  intros row I. pose proof table_all as T. rewrite forallb_forall in T. specialize (T row I). unfold entry_b in T.
  destruct (row_b _ row) eqn:E; [left|right; apply same_row_ok; exact T].
  exact (row_ok _ longitude row (degrees_ok 3 180 ["E"; "W"]) E).
Qed.
Lemma armstrong_wf : row_wf (fun s => s = py ".88.54W") armstrong.
Proof.
  apply (row_ok (fun s => str_eqb s (py ".88.54W"))); [intros s E; apply str_eqb_eq; exact E|vm_compute; reflexivity].
Qed.
Lemma armstrong_off : In armstrong STATIONS /\ ~ longitude (py ".88.54W").
Proof.
  split.
  - pose proof armstrong_there as T. apply existsb_exists in T. destruct T as (r & I & E). apply same_row_ok in E. rewrite <- E. exact I.
  - intros (d & m & h & nd & nm & E & L & (_ & W & _) & _).
    destruct d as [|c d]; [discriminate L|]. inversion W as [|x y C _]. subst x y.
    change (py ".88.54W") with [46;56;56;46;53;52;87]%N in E. cbn [app] in E. injection E as E _. lia.
Qed.

Lemma row_at : forall (row : list str) c, icao_of row = Some c -> nth 1 row [] = c.
Proof. intros row c E. destruct row as [|a [|b row]]; cbn in E; try discriminate. injection E as <-. reflexivity. Qed.
Lemma row_icao : forall row c, In row STATIONS -> icao_of row = Some c -> c <> py "None" ->
  station_wf c /\ starts_with (py "RMK") c = false.
Proof.
  intros row c I E N. pose proof table_heads as T. rewrite forallb_forall in T. specialize (T row I).
  assert (K : maybe station_wf c).
  { destruct (rows_wf row I) as [(name & icao & iata & synop & lat & long & elev & country & R & _ & K & _)|R].
    - rewrite R in E. cbn in E. injection E as <-. exact K.
    - destruct armstrong_wf as (name & icao & iata & synop & lat & long & elev & country & R' & _ & K & _).
      rewrite R, R' in E. cbn in E. injection E as <-. exact K. }
  split; [destruct K as [K|K]; [contradiction|exact K]|].
  unfold head_b in T. rewrite (row_at row c E) in T. destruct (starts_with _ c); [discriminate T|reflexivity].
Qed.
Lemma row_change : forall row c, In row STATIONS -> icao_of row = Some c -> begins_any change_words c = true -> starts_with (py "FM") c = true.
Proof.
  intros row c I E B. pose proof table_changes as T. rewrite forallb_forall in T. specialize (T row I).
  unfold change_b in T. rewrite (row_at row c E), B in T. exact T.
Qed.

(** ** Reports *)

(** A known station is that of its row. *)
Lemma right_row : forall e s row c, station_right e s -> st_code s = Some c -> In row STATIONS -> icao_of row = Some c -> SpecStation.shows e s row.
Proof.
  intros e s row c R E I Ec. unfold station_right in R. rewrite E in R.
  destruct R as [(r & (i & Ei & _ & U) & H)|[N _]]; [|elim (N row I Ec)].
  apply In_nth_error in I. destruct I as [j Ej]. pose proof (U j row Ej Ec) as J. rewrite J, Ei in Ej. injection Ej as <-. exact H.
Qed.
Lemma right_known : forall e s, station_right e s -> st_name s <> None -> exists row, In row STATIONS /\ icao_of row = st_code s /\ SpecStation.shows e s row.
Proof.
  intros e s R N. unfold station_right in R. destruct (st_code s) as [c|].
  - destruct R as [(r & (i & Ei & Ec & _) & H)|[_ U]]; [|elim N; exact (proj1 U)].
    exists r. split; [exact (nth_error_In _ _ Ei)|]. split; [exact Ec|exact H].
  - elim N. exact (proj1 R).
Qed.
Lemma known_place : forall e s, station_right e s -> st_name s <> None -> placed s.
Proof.
  intros e s R N. destruct (right_known e s R N) as (row & I & Ec & n & ic & ia & sy & la & lo & el & co & Er & E1 & E2 & E3 & E4 & E5 & E6 & E7 & _).
  assert (F : forall P, row_wf P row -> latitude la /\ P lo /\ elevation el).
  { intros P (n' & ic' & ia' & sy' & la' & lo' & el' & co' & R' & _ & _ & _ & _ & L1 & L2 & L3 & _).
    rewrite Er in R'. injection R' as -> -> -> -> -> -> -> ->. conjs; assumption. }
  exists la, lo, el. split; [exact E5|]. split; [exact E6|]. split; [exact E7|].
  destruct (rows_wf row I) as [W|W].
  - destruct (F _ W) as (L1 & L2 & L3). conjs; [exact L1|left; exact L2|exact L3].
  - rewrite W in F. destruct (F _ armstrong_wf) as (L1 & L2 & L3). conjs; [exact L1| |exact L3].
    right. split; [rewrite <- Ec, W; reflexivity|exact L2].
Qed.

Lemma metar_place : forall cy cm code y mo tr x, metar_parse (database cy cm) code y mo tr = Ok x -> st_name (me_station x) <> None -> placed (me_station x).
Proof. intros cy cm code y mo tr x E. exact (known_place _ _ (metar_station _ _ _ _ _ _ _ E)). Qed.
Lemma taf_place : forall cy cm code y mo tr x, taf_parse (database cy cm) code y mo tr = Ok x -> st_name (ta_station x) <> None -> placed (ta_station x).
Proof. intros cy cm code y mo tr x E. exact (known_place _ _ (taf_station _ _ _ _ _ _ _ E)). Qed.

Lemma metar_known : forall cy cm y mo g rmk tr code row,
  clock_wf (database cy cm) -> metar_wf y mo g -> not_last g -> remark_wf rmk -> SpecMetar.shows (metar_words g ++ rmk) code ->
  In row STATIONS -> icao_of row = Some (g_station g) ->
  exists x, metar_parse (database cy cm) code (Some y) (Some mo) tr = Ok x /\ SpecStation.shows (database cy cm) (me_station x) row.
Proof.
  intros cy cm y mo g rmk tr code row C W NL RW Sh I Ec.
  destruct (C47_round_trip_partial _ y mo g rmk tr code C W NL RW Sh) as (x & E & (_ & St & _) & _).
  exists x. split; [exact E|]. exact (right_row _ _ row _ (metar_station _ _ _ _ _ _ _ E) St I Ec).
Qed.
Lemma taf_known : forall cy cm y mo g tr code row,
  clock_wf (database cy cm) -> taf_wf y mo g -> SpecMetar.shows (taf_words g) code ->
  In row STATIONS -> icao_of row = Some (h_station g) ->
  exists x, taf_parse (database cy cm) code (Some y) (Some mo) tr = Ok x /\ SpecStation.shows (database cy cm) (ta_station x) row.
Proof.
  intros cy cm y mo g tr code row C W Sh I Ec.
  destruct (C48_round_trip_partial _ y mo g tr code C W Sh) as (x & E & H & _).
  assert (St : st_code (ta_station x) = Some (h_station g)) by (destruct H as (_ & _ & H & _); exact H).
  exists x. split; [exact E|]. exact (right_row _ _ row _ (taf_station _ _ _ _ _ _ _ E) St I Ec).
Qed.

Lemma fm_change : forall c, starts_with (py "FM") c = true -> begins_any change_words c = true.
Proof. intros c H. unfold begins_any. apply existsb_exists. exists (py "FM"). split; [cbn; auto|exact H]. Qed.
Lemma fm_lost : forall cy cm m row c dd h mi rest y mo tr code x, In row STATIONS -> icao_of row = Some c -> starts_with (py "FM") c = true ->
  In m taf_modifiers -> Forall (fun w => word w /\ ~ In 61%N w) rest ->
  SpecMetar.shows (py "TAF" :: code_of m :: c :: stamp_code dd h mi :: rest) code ->
  taf_parse (database cy cm) code y mo tr = Ok x -> st_code (ta_station x) = None /\ unknown (database cy cm) (ta_station x).
Proof.
  intros cy cm m row c dd h mi rest y mo tr code x I Ec F Im R Sh E.
  assert (N : c <> py "None") by (intros ->; discriminate F).
  destruct (C38_refuted _ m c dd h mi rest y mo tr code x Im (proj1 (row_icao row c I Ec N)) (fm_change c F) R Sh E) as [K _].
  split; [exact K|]. pose proof (taf_station _ _ _ _ _ _ _ E) as T. unfold station_right in T. rewrite K in T. exact T.
Qed.
