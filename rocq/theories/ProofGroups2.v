(** * The documented groups and the patterns, continued *)
From Coq Require Import String Ascii.
From Coq Require Import List NArith ZArith Bool Lia QArith.
From Verif Require Import PyBase PyRegex AeroRegex PyFloat Base MetarGroups SpecNum SpecGroups
  SymRegex ProofGroups.
Import ListNotations.
Local Open Scope string_scope.
Local Open Scope nat_scope.
Local Open Scope list_scope.

(** ** Weather *)

Definition lcode (x : string * string) : list sym := lit (fst x).
Definition phen_text (p : phenomenon) : text :=
  match p with
  | PhPrec x => [("prec", code_of x)]
  | PhObsc x => [("obsc", code_of x)]
  | PhOther x => [("other", code_of x)]
  | PhUnknown => [("other", py "/")]
  end.
Definition phen_shape (p : phenomenon) : shape :=
  match p with
  | PhPrec x => [("prec", lcode x)]
  | PhObsc x => [("obsc", lcode x)]
  | PhOther x => [("other", lcode x)]
  | PhUnknown => [("other", lit "/")]
  end.
Definition weather_text (g : weather_g) : text :=
  oseg "int" code_of (xg_int g) ++ oseg "desc" code_of (xg_desc g)
  ++ match xg_phen g with Some p => phen_text p | None => [] end.
Definition weather_shape (g : weather_g) : shape :=
  oshape "int" lcode (xg_int g) ++ oshape "desc" lcode (xg_desc g)
  ++ match xg_phen g with Some p => phen_shape p | None => [] end.

Lemma weather_text_code : forall g, tcode (weather_text g) = weather_code g.
Proof.
  intros [i d p]. unfold weather_text, weather_code. cbn [xg_int xg_desc xg_phen].
  rewrite !tcode_app, !tcode_oseg. do 2 f_equal.
  destruct p as [[x|x|x|]|]; unfold opt, phenomenon_code, phen_text, tcode; simpl;
    rewrite ?app_nil_r; reflexivity.
Qed.

Lemma inst_lcode : forall x, inst (code_of x) (lcode x).
Proof. intro x. unfold code_of, lcode. auto with inst. Qed.
#[global] Hint Resolve inst_lcode : inst.

Lemma weather_fits : forall g, fits (weather_text g) (weather_shape g).
Proof.
  intros [i d p]. unfold weather_text, weather_shape. cbn [xg_int xg_desc xg_phen].
  apply fits_app; [auto with inst|]. apply fits_app; [auto with inst|].
  destruct p as [[x|x|x|]|]; cbn [phen_text phen_shape]; auto with inst.
Qed.

(** All weather groups. *)
Definition options {A} (l : list A) : list (option A) := None :: map Some l.
Lemma in_options : forall A (l : list A) o, opt_all (fun x => In x l) o -> In o (options l).
Proof. intros A l [x|] H; simpl in *; auto. right. apply in_map. exact H. Qed.

Definition all_phenomena : list phenomenon :=
  map PhPrec precipitations ++ map PhObsc obscurations ++ map PhOther (others ++ [nsw])
  ++ [PhUnknown].
Lemma in_phenomena : forall p, phenomenon_wf p -> In p all_phenomena.
Proof.
  intros [x|x|x|] H; unfold all_phenomena; simpl phenomenon_wf in H;
    repeat (apply in_or_app; (left; apply in_map; exact H) || right); simpl; auto.
Qed.

Definition all_weather : list weather_g :=
  flat_map (fun i => flat_map (fun d => map (fun p => mk_weather_g i d p) (options all_phenomena))
                              (options descriptors)) (options intensities).
Lemma in_weather : forall g, weather_wf g -> In g all_weather.
Proof.
  intros [i d p] (H1 & H2 & H3). cbn [xg_int xg_desc xg_phen] in *.
  unfold all_weather. apply in_flat_map. exists i. split; [apply in_options; exact H1|].
  apply in_flat_map. exists d. split; [apply in_options; exact H2|].
  apply in_map. apply in_options. destruct p; simpl opt_all in *; auto.
  apply in_phenomena. exact H3.
Qed.

Definition weather_names := ["int"; "desc"; "prec"; "obsc"; "other"].

Lemma weather_shape_ok : forall g, weather_wf g ->
  captures_ok r_WEATHER weather_names (weather_shape g) = true.
Proof.
  assert (H : forallb (fun g => captures_ok r_WEATHER weather_names (weather_shape g)) all_weather
              = true) by (vm_compute; reflexivity).
  rewrite forallb_forall in H. intros g Hg. apply H. apply in_weather. exact Hg.
Qed.

Lemma weather_captures : forall g, weather_wf g ->
  exists m, re_match r_WEATHER (weather_code g) = Some m /\ m_string m = weather_code g
    /\ forall n, In n weather_names -> group m n = lookup n (weather_text g).
Proof.
  intros g H. rewrite <- weather_text_code.
  exact (captures _ _ _ _ (weather_fits g) (weather_shape_ok g H)).
Qed.

(** ** Recent weather *)

Definition recent_text (g : recent_g) : text :=
  [("", py "RE")] ++ oseg "desc" code_of (eg_desc g) ++ oseg "prec" code_of (eg_prec g)
  ++ oseg "obsc" code_of (eg_obsc g) ++ oseg "other" code_of (eg_other g).
Definition recent_shape (g : recent_g) : shape :=
  [("", lit "RE")] ++ oshape "desc" lcode (eg_desc g) ++ oshape "prec" lcode (eg_prec g)
  ++ oshape "obsc" lcode (eg_obsc g) ++ oshape "other" lcode (eg_other g).

Lemma recent_text_code : forall g, tcode (recent_text g) = recent_code g.
Proof.
  intros [d p o x]. unfold recent_text, recent_code.
  rewrite !tcode_app, !tcode_oseg, tcode_cons, tcode_nil, app_nil_r. reflexivity.
Qed.

Lemma recent_fits : forall g, fits (recent_text g) (recent_shape g).
Proof. intro g. unfold recent_text, recent_shape. auto 10 with inst. Qed.

Definition all_recent : list recent_g :=
  flat_map (fun d => flat_map (fun p => flat_map (fun o => map (mk_recent_g d p o) (options others))
                                                 (options recent_obscurations))
                              (options precipitations)) (options descriptors).
Lemma in_recent : forall g, recent_wf g -> In g all_recent.
Proof.
  intros [d p o x] (H1 & H2 & H3 & H4). cbn [eg_desc eg_prec eg_obsc eg_other] in *.
  unfold all_recent. apply in_flat_map. exists d. split; [apply in_options; exact H1|].
  apply in_flat_map. exists p. split; [apply in_options; exact H2|].
  apply in_flat_map. exists o. split; [apply in_options; exact H3|].
  apply in_map. apply in_options. exact H4.
Qed.

Definition recent_names := ["desc"; "prec"; "obsc"; "other"].

Lemma recent_shape_ok : forall g, recent_wf g ->
  captures_ok r_RECENT_WEATHER recent_names (recent_shape g) = true.
Proof.
  assert (H : forallb (fun g => captures_ok r_RECENT_WEATHER recent_names (recent_shape g))
                all_recent = true) by (vm_compute; reflexivity).
  rewrite forallb_forall in H. intros g Hg. apply H. apply in_recent. exact Hg.
Qed.

Lemma recent_captures : forall g, recent_wf g ->
  exists m, re_match r_RECENT_WEATHER (recent_code g) = Some m /\ m_string m = recent_code g
    /\ forall n, In n recent_names -> group m n = lookup n (recent_text g).
Proof.
  intros g H. rewrite <- recent_text_code.
  exact (captures _ _ _ _ (recent_fits g) (recent_shape_ok g H)).
Qed.

(** ** Clouds *)

Definition cloud_text (g : cloud_g) : text :=
  [("cover", py (fst (fst (cg_cover g))))]
  ++ match cg_height g with HtAbsent => [] | h => [("height", cheight_code h)] end
  ++ match cg_type g with TyAbsent => [] | t => [("type", ctype_code t)] end.
Definition cheight_sym (h : cheight) : list sym :=
  match h with HtHundreds n => dsym 3 | HtSlashes => lit "///" | HtAbsent => [] end.
Definition ctype_sym (t : ctype) : list sym :=
  match t with TyTCU => lit "TCU" | TyCB => lit "CB" | TySlashes => lit "///" | TyAbsent => [] end.
Definition cloud_shape (g : cloud_g) : shape :=
  [("cover", lit (fst (fst (cg_cover g))))]
  ++ match cg_height g with HtAbsent => [] | h => [("height", cheight_sym h)] end
  ++ match cg_type g with TyAbsent => [] | t => [("type", ctype_sym t)] end.

Lemma cloud_text_code : forall g, tcode (cloud_text g) = cloud_code g.
Proof.
  intros [c h t]. unfold cloud_text, cloud_code. cbn [cg_cover cg_height cg_type].
  rewrite !tcode_app, tcode_cons, tcode_nil, app_nil_r. f_equal. f_equal.
  - destruct h; auto.
  - destruct t; auto.
Qed.

Lemma cloud_fits : forall g, fits (cloud_text g) (cloud_shape g).
Proof.
  intros [c h t]. unfold cloud_text, cloud_shape. cbn [cg_cover cg_height cg_type].
  apply fits_app; [auto with inst|]. apply fits_app.
  - destruct h; cbn [cheight_code cheight_sym]; auto with inst.
  - destruct t; cbn [ctype_code ctype_sym]; auto with inst.
Qed.

Definition cloud_names := ["cover"; "height"; "type"].

Lemma cloud_shape_ok : forall g, cloud_wf g -> captures_ok r_CLOUD cloud_names (cloud_shape g) = true.
Proof.
  intros [c h t] (H1 & _ & H2). cbn [cg_cover cg_height cg_type] in *.
  simpl in H1.
  destruct h, t; try (exfalso; apply H2; split; reflexivity); clear H2;
    repeat (destruct H1 as [<-|H1]; [vm_compute; reflexivity|]); destruct H1.
Qed.

Lemma cloud_captures : forall g, cloud_wf g ->
  exists m, re_match r_CLOUD (cloud_code g) = Some m /\ m_string m = cloud_code g
    /\ forall n, In n cloud_names -> group m n = lookup n (cloud_text g).
Proof.
  intros g H. rewrite <- cloud_text_code.
  exact (captures _ _ _ _ (cloud_fits g) (cloud_shape_ok g H)).
Qed.

(** ** Temperatures *)

Definition sign_code (s : bool) : str := if s then py "M" else py "-".
Definition side_text (ns nt : string) (t : tside) : text :=
  match t with
  | TValue s n => oseg ns sign_code s ++ [(nt, digits 2 n)]
  | TMissing f => [(nt, py f)]
  end.
Definition side_shape (ns nt : string) (t : tside) : shape :=
  match t with
  | TValue s n => oshape ns (fun s : bool => if s then lit "M" else lit "-") s ++ [(nt, dsym 2)]
  | TMissing f => [(nt, lit f)]
  end.
Definition temps_text (g : temps_g) : text :=
  side_text "tsign" "temp" (tg_temp g) ++ [("", py "/")] ++ side_text "dsign" "dewpt" (tg_dewpt g).
Definition temps_shape (g : temps_g) : shape :=
  side_shape "tsign" "temp" (tg_temp g) ++ [("", lit "/")] ++ side_shape "dsign" "dewpt" (tg_dewpt g).

Lemma side_text_code : forall ns nt t, tcode (side_text ns nt t) = tside_code t.
Proof.
  intros ns nt [[[|]|] n|f]; unfold side_text, tcode; simpl; rewrite ?app_nil_r; reflexivity.
Qed.
Lemma temps_text_code : forall g, tcode (temps_text g) = temps_code g.
Proof.
  intros [a b]. unfold temps_text, temps_code.
  rewrite !tcode_app, !side_text_code, tcode_cons, tcode_nil, app_nil_r. reflexivity.
Qed.

Lemma side_fits : forall ns nt t, fits (side_text ns nt t) (side_shape ns nt t).
Proof.
  intros ns nt [s n|f]; cbn [side_text side_shape]; auto with inst.
  apply fits_app; auto with inst. apply fits_oseg_any. intros [|]; unfold sign_code; auto with inst.
Qed.
Lemma temps_fits : forall g, fits (temps_text g) (temps_shape g).
Proof. intro g. unfold temps_text, temps_shape. auto using side_fits with inst. Qed.

Definition temps_names := ["tsign"; "temp"; "dsign"; "dewpt"].

Lemma temps_shape_ok : forall g, temps_wf g ->
  captures_ok r_TEMPERATURES temps_names (temps_shape g) = true.
Proof.
  intros [a b] [H1 H2]. cbn [tg_temp tg_dewpt] in *.
  destruct a as [[[|]|] n|f]; destruct b as [[[|]|] n'|f'];
    cbn [tside_wf] in H1, H2;
    repeat match goal with
    | H : In _ [_; _; _] |- _ => destruct H as [<-|[<-|[<-|[]]]]
    end; vm_compute; reflexivity.
Qed.

Lemma temps_captures : forall g, temps_wf g ->
  exists m, re_match r_TEMPERATURES (temps_code g) = Some m /\ m_string m = temps_code g
    /\ forall n, In n temps_names -> group m n = lookup n (temps_text g).
Proof.
  intros g H. rewrite <- temps_text_code.
  exact (captures _ _ _ _ (temps_fits g) (temps_shape_ok g H)).
Qed.

(** ** Pressure *)

Definition press_text (g : press_g) : text :=
  match pg_prefix g with
  | PfNone => [] | PfA => [("units", py "A")] | PfQ => [("units", py "Q")]
  | PfQNH => [("units", py "QNH")]
  end
  ++ [("press", match pg_value g with Some n => digits 4 n | None => py "////" end)]
  ++ (if pg_ins g then [("units2", py "INS")] else []).
Definition press_shape (g : press_g) : shape :=
  match pg_prefix g with
  | PfNone => [] | PfA => [("units", lit "A")] | PfQ => [("units", lit "Q")]
  | PfQNH => [("units", lit "QNH")]
  end
  ++ [("press", match pg_value g with Some n => dsym 4 | None => lit "////" end)]
  ++ (if pg_ins g then [("units2", lit "INS")] else []).

Lemma press_text_code : forall g, tcode (press_text g) = press_code g.
Proof. intros [[| | |] [n|] [|]]; reflexivity. Qed.

Lemma press_fits : forall g, fits (press_text g) (press_shape g).
Proof.
  intros [p v i]. unfold press_text, press_shape. cbn [pg_prefix pg_value pg_ins].
  apply fits_app; [destruct p; auto with inst|]. apply fits_app; [|destruct i; auto with inst].
  apply fits_cons; [|auto with inst]. destruct v; auto with inst.
Qed.

Definition press_names := ["units"; "press"; "units2"].

Lemma press_shape_ok : forall g, captures_ok r_PRESSURE press_names (press_shape g) = true.
Proof. intros [[| | |] [n|] [|]]; vm_compute; reflexivity. Qed.

Lemma press_captures : forall g,
  exists m, re_match r_PRESSURE (press_code g) = Some m /\ m_string m = press_code g
    /\ forall n, In n press_names -> group m n = lookup n (press_text g).
Proof.
  intros g. rewrite <- press_text_code.
  exact (captures _ _ _ _ (press_fits g) (press_shape_ok g)).
Qed.

(** ** Windshear *)

Definition ws_text (g : ws_g) : text :=
  match g with
  | WsAll => [("", py "WS"); ("all", py "_ALL"); ("", py "_RWY")]
  | WsRunway r => [("", py "WS_R"); ("name", runway_code r)]
  end.
Definition ws_shape (g : ws_g) : shape :=
  match g with
  | WsAll => [("", lit "WS"); ("all", lit "_ALL"); ("", lit "_RWY")]
  | WsRunway r => [("", lit "WS_R"); ("name", runway_sym r)]
  end.
Lemma ws_text_code : forall g, tcode (ws_text g) = ws_token g.
Proof. intros [|r]; [reflexivity|]. unfold ws_text, ws_token, tcode. cbn [map snd concat].
  rewrite app_nil_r. reflexivity. Qed.
Lemma ws_fits : forall g, ws_wf g -> fits (ws_text g) (ws_shape g).
Proof. intros [|r] H; cbn [ws_text ws_shape ws_wf] in *; auto 8 with inst. Qed.
Lemma ws_shape_ok : forall g, captures_ok r_WINDSHEAR ["all"; "name"] (ws_shape g) = true.
Proof. intros [|[n [s|]]]; vm_compute; reflexivity. Qed.
Lemma ws_captures : forall g, ws_wf g ->
  exists m, re_match r_WINDSHEAR (ws_token g) = Some m /\ m_string m = ws_token g
    /\ forall n, In n ["all"; "name"] -> group m n = lookup n (ws_text g).
Proof.
  intros g H. rewrite <- ws_text_code.
  exact (captures _ _ _ _ (ws_fits g H) (ws_shape_ok g)).
Qed.

(** ** Sea state *)

Definition sea_text (g : sea_g) : text :=
  [("", py "W")] ++ (if sg_minus g then [("sign", py "M")] else [])
  ++ [("temp", digits 2 (sg_temp g)); ("", py "/")]
  ++ match sg_part g with
     | SeaState x => [("", py "S"); ("state", code_of x)]
     | SeaHeight n => [("", py "H"); ("height", digits 3 n)]
     end.
Definition sea_shape (g : sea_g) : shape :=
  [("", lit "W")] ++ (if sg_minus g then [("sign", lit "M")] else [])
  ++ [("temp", dsym 2); ("", lit "/")]
  ++ match sg_part g with
     | SeaState x => [("", lit "S"); ("state", [digits10])]
     | SeaHeight n => [("", lit "H"); ("height", dsym 3)]
     end.
Lemma sea_text_code : forall g, tcode (sea_text g) = sea_code g.
Proof.
  intros [[|] t [x|n]]; unfold sea_text, sea_code, tcode, flag;
    cbn [sg_minus sg_temp sg_part map snd concat app];
    rewrite ?app_nil_r, <- ?app_assoc; reflexivity.
Qed.
Lemma sea_fits : forall g, sea_wf g -> fits (sea_text g) (sea_shape g).
Proof.
  intros [s t p] [H1 H2]. unfold sea_text, sea_shape. cbn [sg_minus sg_temp sg_part] in *.
  apply fits_app; [auto with inst|]. apply fits_app; [destruct s; auto with inst|].
  apply fits_app; [auto with inst|]. destruct p; [|auto with inst].
  apply fits_cons; [auto with inst|]. apply fits_cons; [|auto with inst].
  apply (inst_table sea_states); auto.
Qed.
Definition sea_names := ["sign"; "temp"; "state"; "height"].
Lemma sea_shape_ok : forall g, captures_ok r_SEA_STATE sea_names (sea_shape g) = true.
Proof. intros [[|] t [x|n]]; vm_compute; reflexivity. Qed.
Lemma sea_captures : forall g, sea_wf g ->
  exists m, re_match r_SEA_STATE (sea_code g) = Some m /\ m_string m = sea_code g
    /\ forall n, In n sea_names -> group m n = lookup n (sea_text g).
Proof.
  intros g H. rewrite <- sea_text_code.
  exact (captures _ _ _ _ (sea_fits g H) (sea_shape_ok g)).
Qed.

(** ** Runway state *)

Definition digit_or_slash (s : string) : list sym :=
  if String.eqb s "/" then lit "/" else [digits10].
Definition two_sym (n : option N) : list sym :=
  match n with Some _ => dsym 2 | None => lit "//" end.
Definition rs_text (g : rs_g) : text :=
  [("", py "R")] ++ oseg "name" runway_code (sg_runway g) ++ [("", py "/")]
  ++ match sg_state g with
     | RsCodes d c h f => [("deposit", code_of d); ("cont", py (fst c)); ("depth", two_code h);
                           ("fric", two_code f)]
     | RsSnoclo => [("snoclo", py "SNOCLO")]
     | RsClrd => [("clrd", py "CLRD//")]
     end.
Definition rs_shape (g : rs_g) : shape :=
  [("", lit "R")] ++ oshape "name" runway_sym (sg_runway g) ++ [("", lit "/")]
  ++ match sg_state g with
     | RsCodes d c h f => [("deposit", digit_or_slash (fst d)); ("cont", digit_or_slash (fst c));
                           ("depth", two_sym h); ("fric", two_sym f)]
     | RsSnoclo => [("snoclo", lit "SNOCLO")]
     | RsClrd => [("clrd", lit "CLRD//")]
     end.
Lemma rs_text_code : forall g, tcode (rs_text g) = rs_code_of g.
Proof.
  intros [r s]. unfold rs_text, rs_code_of. cbn [sg_runway sg_state].
  rewrite !tcode_app, tcode_oseg, !tcode_cons, !tcode_nil, !app_nil_r. do 3 f_equal.
  destruct s; unfold tcode; cbn [map snd concat]; rewrite ?app_nil_r; reflexivity.
Qed.
Lemma inst_deposit : forall d, In d deposits -> inst (code_of d) (digit_or_slash (fst d)).
Proof.
  intros d H. apply inst_b_sound.
  assert (E : forallb (fun d => inst_b (code_of d) (digit_or_slash (fst d))) deposits = true)
    by (vm_compute; reflexivity).
  rewrite forallb_forall in E. auto.
Qed.
Lemma inst_cont : forall d, In d contaminations -> inst (py (fst d)) (digit_or_slash (fst d)).
Proof.
  intros d H. apply inst_b_sound.
  assert (E : forallb (fun d => inst_b (py (fst d)) (digit_or_slash (fst d))) contaminations = true)
    by (vm_compute; reflexivity).
  rewrite forallb_forall in E. auto.
Qed.
Lemma inst_two : forall n, inst (two_code n) (two_sym n).
Proof. intros [n|]; cbn [two_code two_sym]; auto with inst. Qed.
#[global] Hint Resolve inst_deposit inst_cont inst_two : inst.

Lemma rs_fits : forall g, rs_wf g -> fits (rs_text g) (rs_shape g).
Proof.
  intros [r s] [H1 H2]. unfold rs_text, rs_shape. cbn [sg_runway sg_state] in *.
  apply fits_app; [auto with inst|]. apply fits_app.
  - apply fits_oseg. destruct r; simpl opt_all in *; auto with inst.
  - apply fits_app; [auto with inst|]. destruct s as [d c h f| |]; auto with inst.
    destruct H2 as (Hd & Hc & Hh & Hf). auto 8 with inst.
Qed.
Definition rs_names := ["name"; "deposit"; "cont"; "depth"; "fric"; "snoclo"; "clrd"].
Lemma rs_shape_ok : forall g, captures_ok r_RUNWAY_STATE rs_names (rs_shape g) = true.
Proof.
  intros [r s]. unfold rs_shape, oshape, runway_sym, digit_or_slash, two_sym.
  cbn [sg_runway sg_state].
  destruct r as [[n [sd|]]|]; cbn [rn_side]; (destruct s as [d c h f| |];
    [destruct (String.eqb (fst d) "/"), (String.eqb (fst c) "/"), h, f| |];
    vm_compute; reflexivity).
Qed.
Lemma rs_captures : forall g, rs_wf g ->
  exists m, re_match r_RUNWAY_STATE (rs_code_of g) = Some m /\ m_string m = rs_code_of g
    /\ forall n, In n rs_names -> group m n = lookup n (rs_text g).
Proof.
  intros g H. rewrite <- rs_text_code.
  exact (captures _ _ _ _ (rs_fits g H) (rs_shape_ok g)).
Qed.
