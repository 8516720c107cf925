(** * Property C59: statements only *)
From Coq Require Import String Ascii.
From Coq Require Import List NArith ZArith Bool Lia.
From Verif Require Import PyBase PyRegex AeroRegex PyFloat PyTime Utils Base MetarGroups Trend Metar Taf AsDict Json SpecNum SpecJson
  ProofJson ProofJsonReport PropsFailures PropsAbsent.
Import ListNotations.
Local Open Scope string_scope.
Local Open Scope nat_scope.
Local Open Scope list_scope.

(** ** C59: the JSON of a report says what its dictionary says *)

Theorem C59_metar : forall e code y mo tr x, metar_parse e code y mo tr = Ok x ->
  exists d t, metar_dict e x = Ok d /\ metar_json e x = Ok t /\ faithful d t.
Proof. exact metar_to_json. Qed.
Print Assumptions C59_metar.

Theorem C59_taf : forall e code y mo tr x, taf_parse e code y mo tr = Ok x ->
  exists d t, taf_dict e x = Ok d /\ taf_json e x = Ok t /\ faithful d t.
Proof. exact taf_to_json. Qed.
Print Assumptions C59_taf.

(** Reading strings as UTF-16 units loses no character. *)
Theorem C59_characters : forall s t, Forall scalar s -> Forall scalar t -> utf16 s = utf16 t -> s = t.
Proof. exact utf16_inj. Qed.
Print Assumptions C59_characters.

(** A METAR with a quotation mark, a backslash, an accent and an emoji among
    its groups is accepted; the groups end up among the unparsed ones. *)
Definition odd_groups : str := py "METAR SEQM 071200Z 01018KT 9999 " ++ [34; 92; 32; 233; 32; 128512]%N ++ py " 10/08 Q1013".
Example C59_case :
  gives (x <- metar_parse some_env odd_groups (Some 2024%Z) (Some 2%Z) false ;; d <- metar_dict some_env x ;; t <- metar_json some_env x ;; Ok (d, t))
    (fun p => existsb (fun kv => str_eqb (fst kv) (py "unparsed_groups") &&
                match snd kv with VList [VStr a; VStr b; VStr c] => str_eqb a [34; 92]%N && str_eqb b [233]%N && str_eqb c [128512]%N | _ => false end) (fst p)
              && match json_text (snd p) with
                 | Some (JObj m) => existsb (fun kv => str_eqb (fst kv) (py "unparsed_groups") &&
                     match snd kv with JArr [JStr a; JStr b; JStr c] => str_eqb a [34; 92]%N && str_eqb b [233]%N && str_eqb c [55357; 56832]%N | _ => false end) m
                 | _ => false
                 end) = true
  /\ gives (x <- taf_parse some_env (py "TAF SEQM 142300Z 1500/1524 05005KT 9999 BKN030 TX25/1516Z") (Some 2024%Z) (Some 2%Z) false ;; taf_json some_env x)
       (fun t => match json_text t with Some (JObj m) => Nat.eqb (length m) 17 | _ => false end) = true.
Proof. vm_compute. split; reflexivity. Qed.

(** What the encoder writes. *)
Example C59_text :
  dumps (VDict [(py "code", VNone); (py "speed", VFloat (float_of_Z 18)); (py "l", VList [VBool true; VStr [34; 233; 10; 128512]%N])])
  = py "{""code"": null, ""speed"": 18.0, ""l"": [true, ""\""\u00e9\n\ud83d\ude00""]}".
Proof. vm_compute. reflexivity. Qed.

(** The reader follows the grammar: it takes white space and every form of
    number, and refuses what is no JSON. *)
Example C59_reader :
  json_text (py " [ 1 , -0.5e+3 ,{ ""a"" : 1E2 , ""b"" : [ ] } ] ")
    = Some (JArr [JNum (py "1"); JNum (py "-0.5e+3"); JObj [(py "a", JNum (py "1E2")); (py "b", JArr [])]])
  /\ map json_text (map py ["NaN"; "Infinity"; "-Infinity"; "nan"; "01"; "1."; ".5"; "+1"; "1e"; "[1,]"; "[1 2]"; "{""a"":1,}"; "{a:1}"; "'a'";
       """a"; """\x"""; """\u12g4"""; "1 1"; ""; "nul"; "[1}"])%string = repeat None 21
  /\ json_text [34; 10; 34]%N = None.
Proof. vm_compute. repeat split. Qed.

Example C59_scalar : Forall scalar (py "METAR" ++ [233; 128512]%N).
Proof. repeat (constructor; [unfold scalar; vm_compute; auto|]). constructor. Qed.
