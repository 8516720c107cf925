(** * The expectations of the repository's test-suite, replayed on the model

    Generated from the assertions of /repo/tests (tests, not proofs).  Each
    [Check] is evaluated when the file is compiled.  The station table is cut
    down to the stations these reports mention. *)
From Coq Require Import String Ascii.
From Coq Require Import List NArith ZArith Bool.
From Coq Require Import Floats.SpecFloat.
From Verif Require Import PyBase PyRegex AeroRegex PyFloat PyTime Utils Base MetarGroups
  Trend Metar Taf AsDict Stations ListText.
Import ListNotations.
Open Scope list_scope.

Definition rmap {A B} (f : A -> B) (x : result A) : result B := bind x (fun a => Ok (f a)).

(** Equality of values; dictionaries compare without order. *)
Fixpoint veq (fuel : nat) (a b : pyval) : bool :=
  match fuel with
  | O => false
  | S k =>
      match a, b with
      | VNone, VNone => true
      | VBool x, VBool y => Bool.eqb x y
      | VStr x, VStr y => str_eqb x y
      | VFloat x, VFloat y => feqb x y
      | VList x, VList y =>
          Nat.eqb (length x) (length y)
          && forallb (fun p => veq k (fst p) (snd p)) (combine x y)
      | VDict x, VDict y =>
          Nat.eqb (length x) (length y)
          && forallb (fun p => match assoc (fst p) y with
                               | Some w => veq k (snd p) w
                               | None => false
                               end) x
      | _, _ => false
      end
  end.
Definition iseq (a : result pyval) (b : pyval) : bool :=
  match a with Ok a => veq 10 a b | Raise _ => false end.
Definition fabs (x : float) : float := SFabs x.
Definition approx (a : result pyval) (b rel : float) : bool :=
  match a with
  | Ok (VFloat x) => fleb (fabs (fsub x b)) (fmul rel (fabs b))
  | _ => false
  end.
Definition israise {A} (a : result A) (e : exn) : bool :=
  match a with Ok _ => false | Raise e' => exn_eqb e e' end.

Definition rows : list (list str) := [
[py "AK ANCHORAGE INTL"; py "PANC"; py "ANC"; py "70273"; py "61.10N"; py "150.01W"; py "38"; py "US"];
[py "AK ANCHORAGE/LAKE H"; py "PALH"; py "LHD"; py "None"; py "61.11N"; py "149.58W"; py "22"; py "US"];
[py "AZ PHOENIX/SKY HRBR"; py "KPHX"; py "PHX"; py "72278"; py "33.26N"; py "112.01W"; py "336"; py "US"];
[py "CA LOS ANGELES"; py "KLAX"; py "LAX"; py "72295"; py "33.56N"; py "118.23W"; py "46"; py "US"];
[py "CA SAN DIEGO"; py "KSAN"; py "SAN"; py "72290"; py "32.44N"; py "117.11W"; py "12"; py "US"];
[py "CA SAN FRANCISCO"; py "KSFO"; py "SFO"; py "72494"; py "37.37N"; py "122.22W"; py "3"; py "US"];
[py "CO DENVER (DIA)"; py "KDEN"; py "DEN"; py "72565"; py "39.51N"; py "104.39W"; py "1640"; py "US"];
[py "FL FT LAUDERD/HOLLY"; py "KFLL"; py "FLL"; py "None"; py "26.04N"; py "080.09W"; py "3"; py "US"];
[py "FL MIAMI"; py "KMIA"; py "MIA"; py "None"; py "25.48N"; py "080.17W"; py "3"; py "US"];
[py "FL ORLANDO"; py "KMCO"; py "MCO"; py "72205"; py "28.25N"; py "081.20W"; py "29"; py "US"];
[py "FL TAMPA"; py "KTPA"; py "TPA"; py "72211"; py "27.58N"; py "082.32W"; py "11"; py "US"];
[py "GA ATLANTA"; py "KATL"; py "ATL"; py "72219"; py "33.38N"; py "084.27W"; py "296"; py "US"];
[py "IL CHICAGO"; py "KMDW"; py "MDW"; py "72534"; py "41.47N"; py "087.45W"; py "188"; py "US"];
[py "IL CHICAGO O'HARE"; py "KORD"; py "ORD"; py "72530"; py "41.59N"; py "087.56W"; py "200"; py "US"];
[py "KY COVINGTON"; py "KCVG"; py "CVG"; py "72421"; py "39.03N"; py "084.40W"; py "269"; py "US"];
[py "MA BOSTON"; py "KBOS"; py "BOS"; py "72509"; py "42.22N"; py "071.01W"; py "6"; py "US"];
[py "MD BALTO/WASH INTL"; py "KBWI"; py "BWI"; py "72406"; py "39.10N"; py "076.41W"; py "59"; py "US"];
[py "MI DETROIT/WAYNE"; py "KDTW"; py "DTW"; py "72537"; py "42.14N"; py "083.20W"; py "195"; py "US"];
[py "MN MINNEAPOLIS"; py "KMSP"; py "MSP"; py "72658"; py "44.53N"; py "093.14W"; py "265"; py "US"];
[py "MO ST. LOUIS"; py "KSTL"; py "STL"; py "72434"; py "38.45N"; py "090.22W"; py "171"; py "US"];
[py "NC CHARLOTTE"; py "KCLT"; py "CLT"; py "72314"; py "35.13N"; py "080.57W"; py "220"; py "US"];
[py "NJ NEWARK"; py "KEWR"; py "EWR"; py "72502"; py "40.41N"; py "074.10W"; py "7"; py "US"];
[py "NV LAS VEGAS"; py "KLAS"; py "LAS"; py "72386"; py "36.04N"; py "115.10W"; py "636"; py "US"];
[py "NY NYC/JFK ARPT"; py "KJFK"; py "JFK"; py "74486"; py "40.38N"; py "073.46W"; py "9"; py "US"];
[py "NY NYC/LA GUARDIA"; py "KLGA"; py "LGA"; py "72503"; py "40.47N"; py "073.53W"; py "11"; py "US"];
[py "OH CLEVELAND"; py "KCLE"; py "CLE"; py "72524"; py "41.25N"; py "081.51W"; py "233"; py "US"];
[py "OR PORTLAND"; py "KPDX"; py "PDX"; py "72698"; py "45.36N"; py "122.37W"; py "7"; py "US"];
[py "PA JOHNSTOWN"; py "KJST"; py "JST"; py "None"; py "40.19N"; py "078.50W"; py "694"; py "US"];
[py "PA PHILADELPHIA"; py "KPHL"; py "PHL"; py "72408"; py "39.52N"; py "075.14W"; py "18"; py "US"];
[py "PA PITTSBURGH"; py "KPIT"; py "PIT"; py "72520"; py "40.30N"; py "080.16W"; py "357"; py "US"];
[py "TN MEMPHIS"; py "KMEM"; py "MEM"; py "72334"; py "35.04N"; py "089.59W"; py "86"; py "US"];
[py "TX DALLAS/FT WORTH"; py "KDFW"; py "DFW"; py "72259"; py "32.54N"; py "097.01W"; py "174"; py "US"];
[py "TX CALDWELL"; py "KRWV"; py "RWV"; py "None"; py "30.31N"; py "096.42W"; py "119"; py "US"];
[py "TX HOUSTON/INTNL"; py "KIAH"; py "IAH"; py "72243"; py "30.00N"; py "095.22W"; py "36"; py "US"];
[py "UT SALT LAKE CITY"; py "KSLC"; py "SLC"; py "72572"; py "40.46N"; py "111.58W"; py "1286"; py "US"];
[py "VA WASH DC/DULLES"; py "KIAD"; py "IAD"; py "72403"; py "38.56N"; py "077.27W"; py "93"; py "US"];
[py "WA SEATTLE/METRO"; py "KSEA"; py "SEA"; py "72793"; py "47.27N"; py "122.19W"; py "136"; py "US"];
[py "DC WASHINGTON/NATL"; py "KDCA"; py "DCA"; py "72405"; py "38.51N"; py "077.02W"; py "18"; py "US"];
[py "NB MONCTON AIRPORT"; py "CYQM"; py "YQM"; py "71705"; py "46.07N"; py "064.40W"; py "71"; py "CA"];
[py "NT FORT SMITH"; py "CZSM"; py "None"; py "71362"; py "60.02N"; py "111.56W"; py "203"; py "CA"];
[py "GUADALAJARA"; py "MMGL"; py "GDL"; py "None"; py "20.31N"; py "103.19W"; py "1528"; py "MX"];
[py "MEXICO CITY/LICE"; py "MMMX"; py "MEX"; py "None"; py "19.25N"; py "099.05W"; py "2238"; py "MX"];
[py "PALENQUE"; py "MMPQ"; py "None"; py "None"; py "17.32N"; py "091.59W"; py "61"; py "MX"];
[py "PUERTO VALLARTA"; py "MMPR"; py "PVR"; py "None"; py "20.40N"; py "105.15W"; py "6"; py "MX"];
[py "TIJUANA INTL ARP"; py "MMTJ"; py "TIJ"; py "None"; py "32.32N"; py "116.58W"; py "152"; py "MX"];
[py "BEEF ISL/ROADTOW"; py "TUPJ"; py "None"; py "78550"; py "18.26N"; py "064.31W"; py "4"; py "VI"];
[py "GUATEMALA/LA AU"; py "MGGT"; py "None"; py "78641"; py "14.34N"; py "090.32W"; py "1509"; py "GT"];
[py "PUERTO BARRIOS("; py "MGPB"; py "None"; py "78637"; py "15.43N"; py "088.35W"; py "10"; py "GT"];
[py "TEGUCIGALPA/TON"; py "MHTG"; py "None"; py "78720"; py "14.04N"; py "087.13W"; py "1004"; py "HN"];
[py "ILOPANGO/S.SALV"; py "MSSS"; py "None"; py "78663"; py "13.42N"; py "089.07W"; py "616"; py "SV"];
[py "MANAGUA/AUGUSTO"; py "MNMG"; py "None"; py "78741"; py "12.09N"; py "086.10W"; py "59"; py "NI"];
[py "LIMON INTL AIRP"; py "MRLM"; py "LIO"; py "78767"; py "09.58N"; py "083.02W"; py "2"; py "CR"];
[py "JUAN SANTAMARIA"; py "MROC"; py "SJO"; py "78762"; py "10.00N"; py "084.13W"; py "920"; py "CR"];
[py "TOBIAS BOLANOS"; py "MRPV"; py "SQY"; py "78764"; py "09.57N"; py "084.09W"; py "994"; py "CR"];
[py "TOCUMEN"; py "MPTO"; py "None"; py "78792"; py "09.03N"; py "079.22W"; py "45"; py "PA"];
[py "BOGOTA/ELDORADO"; py "SKBO"; py "None"; py "80222"; py "04.42N"; py "074.07W"; py "2548"; py "CO"];
[py "CARTAGENA/RAFAEL"; py "SKCG"; py "None"; py "80022"; py "10.26N"; py "075.31W"; py "1"; py "CO"];
[py "QUITO/NEW INTL"; py "SEQM"; py "None"; py "None"; py "00.07S"; py "078.21W"; py "2400"; py "EC"];
[py "BOA VISTA (CIV/M"; py "SBBV"; py "None"; py "82022"; py "02.51N"; py "060.42W"; py "140"; py "BR"];
[py "DESIERTO ATACAMA"; py "SCAT"; py "None"; py "None"; py "27.16S"; py "070.46W"; py "204"; py "CL"];
[py "ANTOFAGASTA/CERR"; py "SCFA"; py "None"; py "85442"; py "23.25S"; py "070.25W"; py "120"; py "CL"];
[py "VINA DEL MAR"; py "SCVM"; py "None"; py "None"; py "32.57S"; py "071.29W"; py "141"; py "CL"];
[py "ROSARIO AIRPORT"; py "SAAR"; py "None"; py "87480"; py "32.55S"; py "060.46W"; py "25"; py "AR"];
[py "COMODORO RIVADAV"; py "SAVC"; py "None"; py "87860"; py "45.46S"; py "067.28W"; py "46"; py "AR"];
[py "AKUREYRI"; py "BIAR"; py "None"; py "04063"; py "65.40N"; py "018.04W"; py "27"; py "IS"];
[py "BILDUDALUR"; py "BIBD"; py "None"; py "None"; py "65.38N"; py "023.33W"; py "6"; py "IS"];
[py "HJARDARNES/HORNA"; py "BIHN"; py "None"; py "04082"; py "64.18N"; py "015.14W"; py "7"; py "IS"];
[py "TENERIFE SUR/REI"; py "GCTS"; py "None"; py "60025"; py "28.03N"; py "016.34W"; py "72"; py "ES"];
[py "BERGERAC/ROUMANI"; py "LFBE"; py "None"; py "07530"; py "44.49N"; py "000.31E"; py "52"; py "FR"];
[py "PARIS/LE BOURGET"; py "LFPB"; py "None"; py "07150"; py "48.58N"; py "002.27E"; py "65"; py "FR"];
[py "BUDAPEST/FERIHEG"; py "LHBP"; py "None"; py "12839"; py "47.25N"; py "019.16E"; py "185"; py "HU"];
[py "GUIDONIA (IT-AFB"; py "LIRG"; py "None"; py "16234"; py "42.00N"; py "012.43E"; py "89"; py "IT"];
[py "LISBON/PORTELA"; py "LPPT"; py "None"; py "08536"; py "38.46N"; py "009.07W"; py "123"; py "PT"];
[py "TIVAT"; py "LYTV"; py "None"; py "13457"; py "42.23N"; py "018.43E"; py "5"; py "CS"];
[py "ANKARA/ETIMESGUT"; py "LTAD"; py "None"; py "17129"; py "39.57N"; py "032.40E"; py "806"; py "TR"];
[py "BANDIRMA (CIV/AF"; py "LTBG"; py "None"; py "17115"; py "40.19N"; py "027.58E"; py "49"; py "TR"];
[py "GAZIPASA"; py "LTFG"; py "None"; py "None"; py "36.18N"; py "032.18E"; py "95"; py "TR"];
[py "GIBRALTAR (CIV/M"; py "LXGB"; py "None"; py "08495"; py "36.08N"; py "005.20W"; py "5"; py "GI"];
[py "KAOLACK"; py "GOOK"; py "None"; py "61679"; py "14.09N"; py "016.04W"; py "7"; py "SN"];
[py "NAIMTOUGOU(CIV/M"; py "DXNG"; py "None"; py "65355"; py "09.46N"; py "001.06E"; py "343"; py "TG"];
[py "MANONO"; py "FZRA"; py "None"; py "64282"; py "07.16S"; py "027.25E"; py "633"; py "CD"];
[py "DOUALA (CIV/MIL)"; py "FKKD"; py "None"; py "64910"; py "04.00N"; py "009.43E"; py "9"; py "CM"];
[py "ST. DENIS/GILLOT"; py "FMEE"; py "None"; py "61980"; py "20.52S"; py "055.31E"; py "25"; py "FR"];
[py "KING FAHD INTL"; py "OEDF"; py "None"; py "None"; py "26.28N"; py "049.48E"; py "22"; py "SA"];
[py "SHARURAH (CIV/MI"; py "OESH"; py "None"; py "41136"; py "17.28N"; py "047.07E"; py "722"; py "SA"];
[py "KUWAIT INTL (MIL"; py "OKBK"; py "None"; py "40582"; py "29.13N"; py "047.58E"; py "55"; py "KW"];
[py "DUBAI INTL AIRPO"; py "OMDB"; py "None"; py "41194"; py "25.15N"; py "055.22E"; py "5"; py "AE"];
[py "SHAIKH ZAID"; py "OPRK"; py "None"; py "None"; py "28.23N"; py "070.17E"; py "83"; py "PK"];
[py "ARHANGELSK"; py "ULAA"; py "None"; py "22550"; py "64.36N"; py "040.43E"; py "19"; py "RU"];
[py "TSENTRALNY/OMSK"; py "UNOO"; py "OMS"; py "None"; py "54.58N"; py "073.19E"; py "95"; py "RU"];
[py "MOSCOW/DOMODEDOV"; py "UUDD"; py "None"; py "None"; py "55.24N"; py "037.54E"; py "168"; py "RU"];
[py "YANGYANG INTL"; py "RKNY"; py "None"; py "None"; py "38.04N"; py "128.40E"; py "74"; py "KR"];
[py "DAVAO/FRANCISCO"; py "RPMD"; py "None"; py "98753"; py "07.07N"; py "125.39E"; py "18"; py "PH"]].
Definition E : env := mk_env 2026 11 rows COUNTRIES.

(* tests/metar/test_cloud.py:7 test_two_cloud_layers *)
Definition t_metar_test_cloud_test_two_cloud_layers : list bool :=
  let x0 := (metar_parse E (py "METAR BIAR 190800Z 20015KT 9999 FEW049 BKN056 10/03 Q1016") None None false) in
  [iseq (rmap (fun l => VList (map vopt l)) (rmap (fun g => map cl_code (gl_list g)) (rmap (fun x => c_clouds (me_common x)) x0))) (VList [VStr (py "FEW049"); VStr (py "BKN056")]);
   iseq (rmap VStr (rmap (fun g => join (py " | ") (map cloud_str (gl_list g))) (rmap (fun x => c_clouds (me_common x)) x0))) (VStr (py "a few at 4900.0 feet | broken at 5600.0 feet"));
   iseq (rmap VBool (bind (rmap (fun x => c_clouds (me_common x)) x0) (fun g => ceiling_of (gl_list g)))) (VBool false);
   iseq (rmap vopt (rmap cl_code (bind (rmap (fun x => c_clouds (me_common x)) x0) (fun g => gl_get g 0%Z)))) (VStr (py "FEW049"));
   iseq (rmap vopt (rmap cl_cover (bind (rmap (fun x => c_clouds (me_common x)) x0) (fun g => gl_get g 0%Z)))) (VStr (py "a few"));
   iseq (rmap vopt (rmap cl_oktas (bind (rmap (fun x => c_clouds (me_common x)) x0) (fun g => gl_get g 0%Z)))) (VStr (py "1-2"));
   iseq (rmap vflo (rmap cl_feet (bind (rmap (fun x => c_clouds (me_common x)) x0) (fun g => gl_get g 0%Z)))) (VFloat (flit "4899.999999999999"));
   iseq (rmap vflo (rmap cl_height (bind (rmap (fun x => c_clouds (me_common x)) x0) (fun g => gl_get g 0%Z)))) (VFloat (flit "1493.52"));
   iseq (rmap vflo (rmap (fun c => in_kilometers (cl_height c)) (bind (rmap (fun x => c_clouds (me_common x)) x0) (fun g => gl_get g 0%Z)))) (VFloat (flit "1.49352"));
   iseq (rmap vflo (rmap (fun c => in_sea_miles (cl_height c)) (bind (rmap (fun x => c_clouds (me_common x)) x0) (fun g => gl_get g 0%Z)))) (VFloat (flit "0.8064362850971921"));
   iseq (rmap vopt (rmap cl_type (bind (rmap (fun x => c_clouds (me_common x)) x0) (fun g => gl_get g 0%Z)))) (VNone);
   iseq (rmap (fun v => v) (rmap (fun x => VDict (cloud_dict x)) (bind (rmap (fun x => c_clouds (me_common x)) x0) (fun g => gl_get g 0%Z)))) (VDict [(py "code", VStr (py "FEW049")); (py "cover", VStr (py "a few")); (py "height", VFloat (flit "1493.52")); (py "height_units", VStr (py "meters")); (py "oktas", VStr (py "1-2")); (py "type", VNone)]);
   iseq (rmap vopt (rmap cl_code (bind (rmap (fun x => c_clouds (me_common x)) x0) (fun g => gl_get g 1%Z)))) (VStr (py "BKN056"));
   iseq (rmap vopt (rmap cl_cover (bind (rmap (fun x => c_clouds (me_common x)) x0) (fun g => gl_get g 1%Z)))) (VStr (py "broken"));
   iseq (rmap vopt (rmap cl_oktas (bind (rmap (fun x => c_clouds (me_common x)) x0) (fun g => gl_get g 1%Z)))) (VStr (py "5-7"));
   iseq (rmap vflo (rmap cl_feet (bind (rmap (fun x => c_clouds (me_common x)) x0) (fun g => gl_get g 1%Z)))) (VFloat (flit "5600.0"));
   iseq (rmap vflo (rmap cl_height (bind (rmap (fun x => c_clouds (me_common x)) x0) (fun g => gl_get g 1%Z)))) (VFloat (flit "1706.88"));
   iseq (rmap vflo (rmap (fun c => in_kilometers (cl_height c)) (bind (rmap (fun x => c_clouds (me_common x)) x0) (fun g => gl_get g 1%Z)))) (VFloat (flit "1.7068800000000002"));
   iseq (rmap vflo (rmap (fun c => in_sea_miles (cl_height c)) (bind (rmap (fun x => c_clouds (me_common x)) x0) (fun g => gl_get g 1%Z)))) (VFloat (flit "0.9216414686825053"));
   iseq (rmap vopt (rmap cl_type (bind (rmap (fun x => c_clouds (me_common x)) x0) (fun g => gl_get g 1%Z)))) (VNone);
   iseq (rmap (fun v => v) (rmap (fun x => VDict (cloud_dict x)) (bind (rmap (fun x => c_clouds (me_common x)) x0) (fun g => gl_get g 1%Z)))) (VDict [(py "code", VStr (py "BKN056")); (py "cover", VStr (py "broken")); (py "height", VFloat (flit "1706.88")); (py "height_units", VStr (py "meters")); (py "oktas", VStr (py "5-7")); (py "type", VNone)]);
   israise (rmap cl_code (bind (rmap (fun x => c_clouds (me_common x)) x0) (fun g => gl_get g 2%Z))) IndexError].

Check (eq_refl true <: forallb (fun b => b) t_metar_test_cloud_test_two_cloud_layers = true).

(* tests/metar/test_cloud.py:53 test_three_cloud_layers *)
Definition t_metar_test_cloud_test_three_cloud_layers : list bool :=
  let x0 := (metar_parse E (py "METAR KMIA 191458Z 33006KT 5SM R09/1800V4500FT -TSRA BR FEW013 BKN021CB OVC040 23/21 A3003 RMK AO2 OCNL LTGICCG OHD TS OHD MOV SE P0007 T02280211") None None false) in
  [iseq (rmap (fun l => VList (map vopt l)) (rmap (fun g => map cl_code (gl_list g)) (rmap (fun x => c_clouds (me_common x)) x0))) (VList [VStr (py "FEW013"); VStr (py "BKN021CB"); VStr (py "OVC040")]);
   iseq (rmap VStr (rmap (fun g => join (py " | ") (map cloud_str (gl_list g))) (rmap (fun x => c_clouds (me_common x)) x0))) (VStr (py "a few at 1300.0 feet | broken at 2100.0 feet of cumulonimbus | overcast at 4000.0 feet"));
   iseq (rmap VBool (bind (rmap (fun x => c_clouds (me_common x)) x0) (fun g => ceiling_of (gl_list g)))) (VBool false);
   iseq (rmap vopt (rmap cl_code (bind (rmap (fun x => c_clouds (me_common x)) x0) (fun g => gl_get g 0%Z)))) (VStr (py "FEW013"));
   iseq (rmap vopt (rmap cl_cover (bind (rmap (fun x => c_clouds (me_common x)) x0) (fun g => gl_get g 0%Z)))) (VStr (py "a few"));
   iseq (rmap vopt (rmap cl_oktas (bind (rmap (fun x => c_clouds (me_common x)) x0) (fun g => gl_get g 0%Z)))) (VStr (py "1-2"));
   iseq (rmap vflo (rmap cl_feet (bind (rmap (fun x => c_clouds (me_common x)) x0) (fun g => gl_get g 0%Z)))) (VFloat (flit "1300.0"));
   iseq (rmap vflo (rmap cl_height (bind (rmap (fun x => c_clouds (me_common x)) x0) (fun g => gl_get g 0%Z)))) (VFloat (flit "396.24"));
   iseq (rmap vflo (rmap (fun c => in_kilometers (cl_height c)) (bind (rmap (fun x => c_clouds (me_common x)) x0) (fun g => gl_get g 0%Z)))) (VFloat (flit "0.39624000000000004"));
   iseq (rmap vflo (rmap (fun c => in_sea_miles (cl_height c)) (bind (rmap (fun x => c_clouds (me_common x)) x0) (fun g => gl_get g 0%Z)))) (VFloat (flit "0.21395248380129586"));
   iseq (rmap vopt (rmap cl_type (bind (rmap (fun x => c_clouds (me_common x)) x0) (fun g => gl_get g 0%Z)))) (VNone);
   iseq (rmap (fun v => v) (rmap (fun x => VDict (cloud_dict x)) (bind (rmap (fun x => c_clouds (me_common x)) x0) (fun g => gl_get g 0%Z)))) (VDict [(py "code", VStr (py "FEW013")); (py "cover", VStr (py "a few")); (py "height", VFloat (flit "396.24")); (py "height_units", VStr (py "meters")); (py "oktas", VStr (py "1-2")); (py "type", VNone)]);
   iseq (rmap vopt (rmap cl_code (bind (rmap (fun x => c_clouds (me_common x)) x0) (fun g => gl_get g 1%Z)))) (VStr (py "BKN021CB"));
   iseq (rmap vopt (rmap cl_cover (bind (rmap (fun x => c_clouds (me_common x)) x0) (fun g => gl_get g 1%Z)))) (VStr (py "broken"));
   iseq (rmap vopt (rmap cl_oktas (bind (rmap (fun x => c_clouds (me_common x)) x0) (fun g => gl_get g 1%Z)))) (VStr (py "5-7"));
   iseq (rmap vflo (rmap cl_feet (bind (rmap (fun x => c_clouds (me_common x)) x0) (fun g => gl_get g 1%Z)))) (VFloat (flit "2100.0"));
   iseq (rmap vflo (rmap cl_height (bind (rmap (fun x => c_clouds (me_common x)) x0) (fun g => gl_get g 1%Z)))) (VFloat (flit "640.08"));
   iseq (rmap vflo (rmap (fun c => in_kilometers (cl_height c)) (bind (rmap (fun x => c_clouds (me_common x)) x0) (fun g => gl_get g 1%Z)))) (VFloat (flit "0.6400800000000001"));
   iseq (rmap vflo (rmap (fun c => in_sea_miles (cl_height c)) (bind (rmap (fun x => c_clouds (me_common x)) x0) (fun g => gl_get g 1%Z)))) (VFloat (flit "0.34561555075593947"));
   iseq (rmap vopt (rmap cl_type (bind (rmap (fun x => c_clouds (me_common x)) x0) (fun g => gl_get g 1%Z)))) (VStr (py "cumulonimbus"));
   iseq (rmap (fun v => v) (rmap (fun x => VDict (cloud_dict x)) (bind (rmap (fun x => c_clouds (me_common x)) x0) (fun g => gl_get g 1%Z)))) (VDict [(py "code", VStr (py "BKN021CB")); (py "cover", VStr (py "broken")); (py "height", VFloat (flit "640.08")); (py "height_units", VStr (py "meters")); (py "oktas", VStr (py "5-7")); (py "type", VStr (py "cumulonimbus"))]);
   iseq (rmap vopt (rmap cl_code (bind (rmap (fun x => c_clouds (me_common x)) x0) (fun g => gl_get g 2%Z)))) (VStr (py "OVC040"));
   iseq (rmap vopt (rmap cl_cover (bind (rmap (fun x => c_clouds (me_common x)) x0) (fun g => gl_get g 2%Z)))) (VStr (py "overcast"));
   iseq (rmap vopt (rmap cl_oktas (bind (rmap (fun x => c_clouds (me_common x)) x0) (fun g => gl_get g 2%Z)))) (VStr (py "8"));
   iseq (rmap vflo (rmap cl_feet (bind (rmap (fun x => c_clouds (me_common x)) x0) (fun g => gl_get g 2%Z)))) (VFloat (flit "3999.9999999999995"));
   iseq (rmap vflo (rmap cl_height (bind (rmap (fun x => c_clouds (me_common x)) x0) (fun g => gl_get g 2%Z)))) (VFloat (flit "1219.2"));
   iseq (rmap vflo (rmap (fun c => in_kilometers (cl_height c)) (bind (rmap (fun x => c_clouds (me_common x)) x0) (fun g => gl_get g 2%Z)))) (VFloat (flit "1.2192"));
   iseq (rmap vflo (rmap (fun c => in_sea_miles (cl_height c)) (bind (rmap (fun x => c_clouds (me_common x)) x0) (fun g => gl_get g 2%Z)))) (VFloat (flit "0.6583153347732181"));
   iseq (rmap vopt (rmap cl_type (bind (rmap (fun x => c_clouds (me_common x)) x0) (fun g => gl_get g 2%Z)))) (VNone);
   iseq (rmap (fun v => v) (rmap (fun x => VDict (cloud_dict x)) (bind (rmap (fun x => c_clouds (me_common x)) x0) (fun g => gl_get g 2%Z)))) (VDict [(py "code", VStr (py "OVC040")); (py "cover", VStr (py "overcast")); (py "height", VFloat (flit "1219.2")); (py "height_units", VStr (py "meters")); (py "oktas", VStr (py "8")); (py "type", VNone)]);
   israise (rmap cl_code (bind (rmap (fun x => c_clouds (me_common x)) x0) (fun g => gl_get g 4%Z))) RangeError].

Check (eq_refl true <: forallb (fun b => b) t_metar_test_cloud_test_three_cloud_layers = true).

(* tests/metar/test_cloud.py:121 test_no_clouds *)
Definition t_metar_test_cloud_test_no_clouds : list bool :=
  let x0 := (metar_parse E (py "METAR MROC 190700Z 11009KT CAVOK 22/19 A2997 NOSIG") None None false) in
  [iseq (rmap (fun l => VList (map vopt l)) (rmap (fun g => map cl_code (gl_list g)) (rmap (fun x => c_clouds (me_common x)) x0))) (VList []);
   iseq (rmap VStr (rmap (fun g => join (py " | ") (map cloud_str (gl_list g))) (rmap (fun x => c_clouds (me_common x)) x0))) (VStr []);
   israise (rmap cl_code (bind (rmap (fun x => c_clouds (me_common x)) x0) (fun g => gl_get g 0%Z))) IndexError;
   israise (rmap cl_code (bind (rmap (fun x => c_clouds (me_common x)) x0) (fun g => gl_get g 1%Z))) IndexError;
   israise (rmap cl_code (bind (rmap (fun x => c_clouds (me_common x)) x0) (fun g => gl_get g 2%Z))) IndexError;
   israise (rmap cl_code (bind (rmap (fun x => c_clouds (me_common x)) x0) (fun g => gl_get g 3%Z))) IndexError].

Check (eq_refl true <: forallb (fun b => b) t_metar_test_cloud_test_no_clouds = true).

(* tests/metar/test_cloud.py:133 test_vertical_visibility *)
Definition t_metar_test_cloud_test_vertical_visibility : list bool :=
  let x0 := (metar_parse E (py "METAR BIHN 051900Z AUTO 33008KT 1000 +SN VV/// M02/M04 Q1006") None None false) in
  [iseq (rmap (fun l => VList (map vopt l)) (rmap (fun g => map cl_code (gl_list g)) (rmap (fun x => c_clouds (me_common x)) x0))) (VList [VStr (py "VV///")]);
   iseq (rmap VStr (rmap (fun g => join (py " | ") (map cloud_str (gl_list g))) (rmap (fun x => c_clouds (me_common x)) x0))) (VStr (py "indefinite ceiling"));
   iseq (rmap VBool (bind (rmap (fun x => c_clouds (me_common x)) x0) (fun g => ceiling_of (gl_list g)))) (VBool false);
   iseq (rmap vopt (rmap cl_code (bind (rmap (fun x => c_clouds (me_common x)) x0) (fun g => gl_get g 0%Z)))) (VStr (py "VV///"));
   iseq (rmap vopt (rmap cl_cover (bind (rmap (fun x => c_clouds (me_common x)) x0) (fun g => gl_get g 0%Z)))) (VStr (py "indefinite ceiling"));
   iseq (rmap vopt (rmap cl_oktas (bind (rmap (fun x => c_clouds (me_common x)) x0) (fun g => gl_get g 0%Z)))) (VStr (py "undefined"));
   iseq (rmap vflo (rmap cl_feet (bind (rmap (fun x => c_clouds (me_common x)) x0) (fun g => gl_get g 0%Z)))) (VNone);
   iseq (rmap vflo (rmap cl_height (bind (rmap (fun x => c_clouds (me_common x)) x0) (fun g => gl_get g 0%Z)))) (VNone);
   iseq (rmap vflo (rmap (fun c => in_kilometers (cl_height c)) (bind (rmap (fun x => c_clouds (me_common x)) x0) (fun g => gl_get g 0%Z)))) (VNone);
   iseq (rmap vflo (rmap (fun c => in_sea_miles (cl_height c)) (bind (rmap (fun x => c_clouds (me_common x)) x0) (fun g => gl_get g 0%Z)))) (VNone);
   iseq (rmap vopt (rmap cl_type (bind (rmap (fun x => c_clouds (me_common x)) x0) (fun g => gl_get g 0%Z)))) (VNone);
   iseq (rmap (fun v => v) (rmap (fun x => VDict (cloud_dict x)) (bind (rmap (fun x => c_clouds (me_common x)) x0) (fun g => gl_get g 0%Z)))) (VDict [(py "code", VStr (py "VV///")); (py "cover", VStr (py "indefinite ceiling")); (py "height", VNone); (py "height_units", VStr (py "meters")); (py "oktas", VStr (py "undefined")); (py "type", VNone)]);
   israise (rmap cl_code (bind (rmap (fun x => c_clouds (me_common x)) x0) (fun g => gl_get g 1%Z))) IndexError;
   israise (rmap cl_code (bind (rmap (fun x => c_clouds (me_common x)) x0) (fun g => gl_get g 2%Z))) IndexError].

Check (eq_refl true <: forallb (fun b => b) t_metar_test_cloud_test_vertical_visibility = true).

(* tests/metar/test_cloud.py:163 test_vertical_visibility_with_height *)
Definition t_metar_test_cloud_test_vertical_visibility_with_height : list bool :=
  let x0 := (metar_parse E (py "METAR BIHN 051900Z AUTO 33008KT 1000 +SN VV005 M02/M04 Q1006") None None false) in
  [iseq (rmap (fun l => VList (map vopt l)) (rmap (fun g => map cl_code (gl_list g)) (rmap (fun x => c_clouds (me_common x)) x0))) (VList [VStr (py "VV005")]);
   iseq (rmap VStr (rmap (fun g => join (py " | ") (map cloud_str (gl_list g))) (rmap (fun x => c_clouds (me_common x)) x0))) (VStr (py "indefinite ceiling at 500.0 feet"));
   iseq (rmap VBool (bind (rmap (fun x => c_clouds (me_common x)) x0) (fun g => ceiling_of (gl_list g)))) (VBool false);
   iseq (rmap vopt (rmap cl_code (bind (rmap (fun x => c_clouds (me_common x)) x0) (fun g => gl_get g 0%Z)))) (VStr (py "VV005"));
   iseq (rmap vopt (rmap cl_cover (bind (rmap (fun x => c_clouds (me_common x)) x0) (fun g => gl_get g 0%Z)))) (VStr (py "indefinite ceiling"));
   iseq (rmap vopt (rmap cl_oktas (bind (rmap (fun x => c_clouds (me_common x)) x0) (fun g => gl_get g 0%Z)))) (VStr (py "undefined"));
   iseq (rmap vflo (rmap cl_feet (bind (rmap (fun x => c_clouds (me_common x)) x0) (fun g => gl_get g 0%Z)))) (VFloat (flit "499.99999999999994"));
   iseq (rmap vflo (rmap cl_height (bind (rmap (fun x => c_clouds (me_common x)) x0) (fun g => gl_get g 0%Z)))) (VFloat (flit "152.4"));
   iseq (rmap vflo (rmap (fun c => in_kilometers (cl_height c)) (bind (rmap (fun x => c_clouds (me_common x)) x0) (fun g => gl_get g 0%Z)))) (VFloat (flit "0.1524"));
   iseq (rmap vflo (rmap (fun c => in_sea_miles (cl_height c)) (bind (rmap (fun x => c_clouds (me_common x)) x0) (fun g => gl_get g 0%Z)))) (VFloat (flit "0.08228941684665227"));
   iseq (rmap vopt (rmap cl_type (bind (rmap (fun x => c_clouds (me_common x)) x0) (fun g => gl_get g 0%Z)))) (VNone);
   iseq (rmap (fun v => v) (rmap (fun x => VDict (cloud_dict x)) (bind (rmap (fun x => c_clouds (me_common x)) x0) (fun g => gl_get g 0%Z)))) (VDict [(py "code", VStr (py "VV005")); (py "cover", VStr (py "indefinite ceiling")); (py "height", VFloat (flit "152.4")); (py "height_units", VStr (py "meters")); (py "oktas", VStr (py "undefined")); (py "type", VNone)]);
   israise (rmap cl_code (bind (rmap (fun x => c_clouds (me_common x)) x0) (fun g => gl_get g 1%Z))) IndexError;
   israise (rmap cl_code (bind (rmap (fun x => c_clouds (me_common x)) x0) (fun g => gl_get g 2%Z))) IndexError].

Check (eq_refl true <: forallb (fun b => b) t_metar_test_cloud_test_vertical_visibility_with_height = true).

(* tests/metar/test_flight_rules.py:4 test_vfr *)
Definition t_metar_test_flight_rules_test_vfr : list bool :=
  let x0 := (metar_parse E (py "METAR MROC 202000Z 25011KT 210V290 9999 FEW025TCU SCT040 BKN250 29/20 A2992 NOSIG") None None false) in
  let x1 := (metar_parse E (py "METAR DXNG 010000Z 22004KT CAVOK 26/22 Q1010") None None false) in
  let x2 := (metar_parse E (py "METAR MNMG 151700Z 11014KT 9999 FEW025 SCT300 33/19 Q1010 A2984 NOSIG") None None false) in
  let x3 := (metar_parse E (py "METAR MPTO 272200Z 14009KT 9000 SCT018 31/22 Q1005 NOSIG RMK HZY") None None false) in
  let x4 := (metar_parse E (py "SPECI MSSS 101450Z 04003KT 9999 FEW030 27/18 Q1015 A2998") None None false) in
  [iseq (rmap vopt (rmap (fun x => flight_rules (me_common x)) x0)) (VStr (py "VFR"));
   iseq (rmap vopt (rmap (fun x => flight_rules (me_common x)) x1)) (VStr (py "VFR"));
   iseq (rmap vopt (rmap (fun x => flight_rules (me_common x)) x2)) (VStr (py "VFR"));
   iseq (rmap vopt (rmap (fun x => flight_rules (me_common x)) x3)) (VStr (py "VFR"));
   iseq (rmap vopt (rmap (fun x => flight_rules (me_common x)) x4)) (VStr (py "VFR"))].

Check (eq_refl true <: forallb (fun b => b) t_metar_test_flight_rules_test_vfr = true).

(* tests/metar/test_flight_rules.py:18 test_mvfr *)
Definition t_metar_test_flight_rules_test_mvfr : list bool :=
  let x0 := (metar_parse E (py "METAR UUDD 200900Z 16005MPS 9999 BKN025 01/M06 Q1010 R14R/CLRD60 R14C/190050 NOSIG") None None false) in
  let x1 := (metar_parse E (py "METAR MGGT 260900Z 21008KT 9000 BKN014 17/15 Q1017 A3003") None None false) in
  let x2 := (metar_parse E (py "SPECI MMMX 151942Z 10015KT 4SM SCT250 29/M06 A3009 NOSIG RMK 8/001 HZY BLDU") None None false) in
  let x3 := (metar_parse E (py "SPECI KJFK 010751Z 29010KT 5SM RA BR FEW002 BKN018 OVC075 13/13 A2947 RMK AO2 RAB25 SLP978 P0006 T01330128") None None false) in
  let x4 := (metar_parse E (py "METAR SKBO 050800Z 03003KT 9999 BKN010 09/09 Q1025 NOSIG RMK A3028") None None false) in
  [iseq (rmap vopt (rmap (fun x => flight_rules (me_common x)) x0)) (VStr (py "MVFR"));
   iseq (rmap vopt (rmap (fun x => flight_rules (me_common x)) x1)) (VStr (py "MVFR"));
   iseq (rmap vopt (rmap (fun x => flight_rules (me_common x)) x2)) (VStr (py "MVFR"));
   iseq (rmap vopt (rmap (fun x => flight_rules (me_common x)) x3)) (VStr (py "MVFR"));
   iseq (rmap vopt (rmap (fun x => flight_rules (me_common x)) x4)) (VStr (py "MVFR"))].

Check (eq_refl true <: forallb (fun b => b) t_metar_test_flight_rules_test_mvfr = true).

(* tests/metar/test_flight_rules.py:32 test_ifr *)
Definition t_metar_test_flight_rules_test_ifr : list bool :=
  let x0 := (metar_parse E (py "METAR KBOS 011254Z 30022G35KT 1 1/2SM +RA SCT011 OVC019 12/09 A2947 RMK AO2 PK WND 30035/1251 TWR VIS 3 RAB31 SLP980 T01220094 PNO") None None false) in
  let x1 := (metar_parse E (py "METAR MROC 162100Z 25012KT 3000 TSRA BKN008CB SCT040 26/20 A2990 NOSIG") None None false) in
  let x2 := (metar_parse E (py "METAR MHTG 011700Z 36006KT 4000 HZ NSC 28/16 Q1020 A3012 NOSIG") None None false) in
  let x3 := (metar_parse E (py "METAR KCLE 111502Z 28016KT 2 1/2SM -SN BKN006 BKN028 OVC042 02/M02 A2983 RMK AO2 P0000 T00171022") None None false) in
  let x4 := (metar_parse E (py "METAR MSSS 222150Z 17012KT 2000 BR VV007 28/22 Q1011 A2988") None None false) in
  [iseq (rmap vopt (rmap (fun x => flight_rules (me_common x)) x0)) (VStr (py "IFR"));
   iseq (rmap vopt (rmap (fun x => flight_rules (me_common x)) x1)) (VStr (py "IFR"));
   iseq (rmap vopt (rmap (fun x => flight_rules (me_common x)) x2)) (VStr (py "IFR"));
   iseq (rmap vopt (rmap (fun x => flight_rules (me_common x)) x3)) (VStr (py "IFR"));
   iseq (rmap vopt (rmap (fun x => flight_rules (me_common x)) x4)) (VStr (py "IFR"))].

Check (eq_refl true <: forallb (fun b => b) t_metar_test_flight_rules_test_ifr = true).

(* tests/metar/test_flight_rules.py:46 test_lifr *)
Definition t_metar_test_flight_rules_test_lifr : list bool :=
  let x0 := (metar_parse E (py "METAR GOOK 211800Z 36004KT 1000 BR VV/// 40/12 Q1006") None None false) in
  let x1 := (metar_parse E (py "METAR SAVC 032200Z 29015KT 0800 FG NSC 24/M02 Q1006 RMK PP000") None None false) in
  let x2 := (metar_parse E (py "METAR CYQM 122240Z 33007KT 1 1/4SM +RA BR BKN003 OVC015 04/03 A2925 RMK SF7SC1 PRESRR SLP909") None None false) in
  let x3 := (metar_parse E (py "METAR CZSM 011800Z AUTO 33007KT 3/4SM HZ SCT030 BKN100 M15/M22 RMK AO1 SOG 57 8002 SLP208 T11471219") None None false) in
  let x4 := (metar_parse E (py "METAR SPJC 202100Z 18011KT 1500 TSRA SCT010CB BKN035 21/15 Q1011 NOSIG RMK PP000") None None false) in
  [iseq (rmap vopt (rmap (fun x => flight_rules (me_common x)) x0)) (VStr (py "LIFR"));
   iseq (rmap vopt (rmap (fun x => flight_rules (me_common x)) x1)) (VStr (py "LIFR"));
   iseq (rmap vopt (rmap (fun x => flight_rules (me_common x)) x2)) (VStr (py "LIFR"));
   iseq (rmap vopt (rmap (fun x => flight_rules (me_common x)) x3)) (VStr (py "LIFR"));
   iseq (rmap vopt (rmap (fun x => flight_rules (me_common x)) x4)) (VStr (py "LIFR"))].

Check (eq_refl true <: forallb (fun b => b) t_metar_test_flight_rules_test_lifr = true).

(* tests/metar/test_flight_rules.py:60 test_vlifr *)
Definition t_metar_test_flight_rules_test_vlifr : list bool :=
  let x0 := (metar_parse E (py "METAR KJFK 250451Z 17010KT 1/8SM R04R/4000VP6000FT -RA BR BKN002 OVC025 11/11 A2949 RMK AO2 PK WND 18027/0408 SFC VIS 2 1/2 SLP986 P0000 T01110111 401390067") None None false) in
  let x1 := (metar_parse E (py "METAR MMPR 011844Z 26008KT 1/4SM SN SCT050 BKN100 24/16 A2994 RMK 8/501") None None false) in
  let x2 := (metar_parse E (py "METAR MRLM 152100Z 06008KT 1500 TSRA OVC001CB 21/21 A2978") None None false) in
  let x3 := (metar_parse E (py "METAR TUPJ 032200Z 10013KT 2SM BR VV001 22/21 A3002 RMK Q1017 VIS16KM") None None false) in
  let x4 := (metar_parse E (py "METAR SKCG 012200Z 29006KT 260V330 0500 FG OVC003 28/24 Q1008 RMK A2979") None None false) in
  [iseq (rmap vopt (rmap (fun x => flight_rules (me_common x)) x0)) (VStr (py "VLIFR"));
   iseq (rmap vopt (rmap (fun x => flight_rules (me_common x)) x1)) (VStr (py "VLIFR"));
   iseq (rmap vopt (rmap (fun x => flight_rules (me_common x)) x2)) (VStr (py "VLIFR"));
   iseq (rmap vopt (rmap (fun x => flight_rules (me_common x)) x3)) (VStr (py "VLIFR"));
   iseq (rmap vopt (rmap (fun x => flight_rules (me_common x)) x4)) (VStr (py "VLIFR"))].

Check (eq_refl true <: forallb (fun b => b) t_metar_test_flight_rules_test_vlifr = true).

(* tests/metar/test_flight_rules.py:74 test_trend_vfr *)
Definition t_metar_test_flight_rules_test_trend_vfr : list bool :=
  let x0 := (metar_parse E (py "METAR KJFK 250451Z 17010KT 1/8SM R04R/4000VP6000FT -RA BR BKN002 OVC025 11/11 A2949 ") None None false) in
  let x1 := (metar_parse E (py "METAR MMPR 011844Z 26008KT 1/4SM SN SCT050 BKN100 24/16 A2994 RMK 8/501") None None false) in
  let x2 := (metar_parse E (py "METAR MRLM 152100Z 06008KT 1500 TSRA OVC001CB 21/21 A2978") None None false) in
  let x3 := (metar_parse E (py "METAR TUPJ 032200Z 10013KT 2SM BR VV001 22/21 A3002 RMK Q1017 VIS16KM") None None false) in
  let x4 := (metar_parse E (py "METAR SKCG 012200Z 29006KT 260V330 0500 FG OVC003 28/24 Q1008 RMK A2979") None None false) in
  [iseq (rmap vopt (rmap (fun x => flight_rules (me_common x)) x0)) (VStr (py "VLIFR"));
   iseq (rmap vopt (rmap (fun x => flight_rules (me_common x)) x1)) (VStr (py "VLIFR"));
   iseq (rmap vopt (rmap (fun x => flight_rules (me_common x)) x2)) (VStr (py "VLIFR"));
   iseq (rmap vopt (rmap (fun x => flight_rules (me_common x)) x3)) (VStr (py "VLIFR"));
   iseq (rmap vopt (rmap (fun x => flight_rules (me_common x)) x4)) (VStr (py "VLIFR"))].

Check (eq_refl true <: forallb (fun b => b) t_metar_test_flight_rules_test_trend_vfr = true).

(* tests/metar/test_flight_rules.py:88 test_no_data_to_set_flight_rules *)
Definition t_metar_test_flight_rules_test_no_data_to_set_flight_rules : list bool :=
  let x0 := (metar_parse E (py "METAR MRLM 152100Z 06008KT //// TSRA OVC///CB 21/21 A2978") None None false) in
  let x1 := (metar_parse E (py "METAR TUPJ 032200Z AUTO 10013KT //// BR VV/// 22/21 A3002 RMK Q1017 VIS16KM") None None false) in
  [iseq (rmap vopt (rmap (fun x => flight_rules (me_common x)) x0)) (VNone);
   iseq (rmap vopt (rmap (fun x => flight_rules (me_common x)) x1)) (VNone)].

Check (eq_refl true <: forallb (fun b => b) t_metar_test_flight_rules_test_no_data_to_set_flight_rules = true).

(* tests/metar/test_flight_rules.py:99 test_trend_flight_rules_nosig *)
Definition t_metar_test_flight_rules_test_trend_flight_rules_nosig : list bool :=
  let x0 := (metar_parse E (py "SPECI MROC 062121Z VRB02KT 9999 3000SW -RA VCTS FEW020CB SCT035 BKN100 19/19 A2996 RETS NOSIG") None None false) in
  [iseq (rmap vopt (rmap (fun x => flight_rules (cp_common x)) (bind (rmap me_trends x0) (fun g => gl_get g 0%Z)))) (VNone)].

Check (eq_refl true <: forallb (fun b => b) t_metar_test_flight_rules_test_trend_flight_rules_nosig = true).

(* tests/metar/test_modifier.py:4 test_auto_modifier *)
Definition t_metar_test_modifier_test_auto_modifier : list bool :=
  let x0 := (metar_parse E (py "METAR KJST 060154Z AUTO 05007KT 10SM OVC085 13/01 A3004 RMK AO2 SLP174 T01280006") None None false) in
  [iseq (rmap vopt (rmap mo_code (rmap me_modifier x0))) (VStr (py "AUTO"));
   iseq (rmap vopt (rmap mo_desc (rmap me_modifier x0))) (VStr (py "Automatic report"));
   iseq (rmap VStr (rmap modifier_str (rmap me_modifier x0))) (VStr (py "automatic report"));
   iseq (rmap (fun v => v) (rmap (fun x => VDict (modifier_dict x)) (rmap me_modifier x0))) (VDict [(py "code", VStr (py "AUTO")); (py "modifier", VStr (py "Automatic report"))])].

Check (eq_refl true <: forallb (fun b => b) t_metar_test_modifier_test_auto_modifier = true).

(* tests/metar/test_modifier.py:15 test_nil_modifier *)
Definition t_metar_test_modifier_test_nil_modifier : list bool :=
  let x0 := (metar_parse E (py "METAR KJST 060100Z NIL") None None false) in
  [iseq (rmap vopt (rmap mo_code (rmap me_modifier x0))) (VStr (py "NIL"));
   iseq (rmap vopt (rmap mo_desc (rmap me_modifier x0))) (VStr (py "Missing report"));
   iseq (rmap VStr (rmap modifier_str (rmap me_modifier x0))) (VStr (py "missing report"));
   iseq (rmap (fun v => v) (rmap (fun x => VDict (modifier_dict x)) (rmap me_modifier x0))) (VDict [(py "code", VStr (py "NIL")); (py "modifier", VStr (py "Missing report"))])].

Check (eq_refl true <: forallb (fun b => b) t_metar_test_modifier_test_nil_modifier = true).

(* tests/metar/test_modifier.py:24 test_cor_modifier *)
Definition t_metar_test_modifier_test_cor_modifier : list bool :=
  let x0 := (metar_parse E (py "METAR MROC 202200Z COR 08011KT 9999 FEW045 SCT200 29/17 A2989 NOSIG") None None false) in
  [iseq (rmap vopt (rmap mo_code (rmap me_modifier x0))) (VStr (py "COR"));
   iseq (rmap vopt (rmap mo_desc (rmap me_modifier x0))) (VStr (py "Correction"));
   iseq (rmap VStr (rmap modifier_str (rmap me_modifier x0))) (VStr (py "correction"));
   iseq (rmap (fun v => v) (rmap (fun x => VDict (modifier_dict x)) (rmap me_modifier x0))) (VDict [(py "code", VStr (py "COR")); (py "modifier", VStr (py "Correction"))])].

Check (eq_refl true <: forallb (fun b => b) t_metar_test_modifier_test_cor_modifier = true).

(* tests/metar/test_modifier.py:33 test_no_modifier *)
Definition t_metar_test_modifier_test_no_modifier : list bool :=
  let x0 := (metar_parse E (py "SPECI UUDD 152330Z 29005MPS 9999 SCT019 07/04 Q1014 R32L/290042 NOSIG") None None false) in
  [iseq (rmap vopt (rmap mo_code (rmap me_modifier x0))) (VNone);
   iseq (rmap vopt (rmap mo_desc (rmap me_modifier x0))) (VNone);
   iseq (rmap VStr (rmap modifier_str (rmap me_modifier x0))) (VStr []);
   iseq (rmap (fun v => v) (rmap (fun x => VDict (modifier_dict x)) (rmap me_modifier x0))) (VDict [(py "code", VNone); (py "modifier", VNone)])].

Check (eq_refl true <: forallb (fun b => b) t_metar_test_modifier_test_no_modifier = true).

(* tests/metar/test_pressure.py:5 test_from_hpa *)
Definition t_metar_test_pressure_test_from_hpa : list bool :=
  let x0 := (metar_parse E (py "METAR OESH 201700Z 06004KT CAVOK 31/00 Q1013 NOSIG") None None false) in
  [iseq (rmap vopt (rmap pr_code (rmap me_press x0))) (VStr (py "Q1013"));
   iseq (rmap vflo (rmap pr_value (rmap me_press x0))) (VFloat (flit "1013.0"));
   approx (rmap vflo (rmap (fun p => in_inHg (pr_value p)) (rmap me_press x0))) (flit "29.91") (flit "0.0009");
   iseq (rmap vflo (rmap (fun p => in_mbar (pr_value p)) (rmap me_press x0))) (VFloat (flit "1013.0"));
   approx (rmap vflo (rmap (fun p => in_bar (pr_value p)) (rmap me_press x0))) (flit "1.013") (flit "1e-06");
   approx (rmap vflo (rmap (fun p => in_atm (pr_value p)) (rmap me_press x0))) (flit "0.999753269183321") (flit "1e-06");
   iseq (rmap VStr (rmap (fun p => pressure_str (pr_value p)) (rmap me_press x0))) (VStr (py "1013.0 hPa"));
   iseq (rmap (fun v => v) (rmap (fun x => VDict ((fun p => pressure_dict (pr_value p)) x)) (rmap me_press x0))) (VDict [(py "pressure", VFloat (flit "1013.0")); (py "units", VStr (py "hectopascals"))])].

Check (eq_refl true <: forallb (fun b => b) t_metar_test_pressure_test_from_hpa = true).

(* tests/metar/test_pressure.py:19 test_from_inhg *)
Definition t_metar_test_pressure_test_from_inhg : list bool :=
  let x0 := (metar_parse E (py "METAR MMGL 201721Z 00000KT 7SM NSC 26/M07 A3025 RMK HZY CI") None None false) in
  [iseq (rmap vopt (rmap pr_code (rmap me_press x0))) (VStr (py "A3025"));
   approx (rmap vflo (rmap pr_value (rmap me_press x0))) (flit "1024.38") (flit "0.001");
   approx (rmap vflo (rmap (fun p => in_inHg (pr_value p)) (rmap me_press x0))) (flit "30.25") (flit "1e-06");
   approx (rmap vflo (rmap (fun p => in_mbar (pr_value p)) (rmap me_press x0))) (flit "1024.38") (flit "0.001");
   approx (rmap vflo (rmap (fun p => in_bar (pr_value p)) (rmap me_press x0))) (flit "1.02438") (flit "2e-06");
   approx (rmap vflo (rmap (fun p => in_atm (pr_value p)) (rmap me_press x0))) (flit "1.0109864144314047") (flit "1e-06");
   iseq (rmap VStr (rmap (fun p => pressure_str (pr_value p)) (rmap me_press x0))) (VStr (py "1024.4 hPa"));
   iseq (rmap (fun v => v) (rmap (fun x => VDict ((fun p => pressure_dict (pr_value p)) x)) (rmap me_press x0))) (VDict [(py "pressure", VFloat (flit "1024.3819844226")); (py "units", VStr (py "hectopascals"))])].

Check (eq_refl true <: forallb (fun b => b) t_metar_test_pressure_test_from_inhg = true).

(* tests/metar/test_pressure.py:33 test_two_pressures_from_hPa_and_inHg *)
Definition t_metar_test_pressure_test_two_pressures_from_hPa_and_inHg : list bool :=
  let x0 := (metar_parse E (py "METAR MSSS 091250Z 00000KT 5000 BR FEW040CB 22/21 Q1013 A2993") None None false) in
  [iseq (rmap vopt (rmap pr_code (rmap me_press x0))) (VStr (py "A2993"));
   approx (rmap vflo (rmap pr_value (rmap me_press x0))) (flit "1013.54") (flit "0.05");
   approx (rmap vflo (rmap (fun p => in_inHg (pr_value p)) (rmap me_press x0))) (flit "29.91") (flit "0.0009");
   approx (rmap vflo (rmap (fun p => in_mbar (pr_value p)) (rmap me_press x0))) (flit "1013.54") (flit "0.05");
   approx (rmap vflo (rmap (fun p => in_bar (pr_value p)) (rmap me_press x0))) (flit "1.013") (flit "0.005");
   approx (rmap vflo (rmap (fun p => in_atm (pr_value p)) (rmap me_press x0))) (flit "1.00029") (flit "1e-05");
   iseq (rmap VStr (rmap (fun p => pressure_str (pr_value p)) (rmap me_press x0))) (VStr (py "1013.5 hPa"));
   iseq (rmap (fun v => v) (rmap (fun x => VDict ((fun p => pressure_dict (pr_value p)) x)) (rmap me_press x0))) (VDict [(py "pressure", VFloat (flit "1013.5455469015")); (py "units", VStr (py "hectopascals"))])].

Check (eq_refl true <: forallb (fun b => b) t_metar_test_pressure_test_two_pressures_from_hPa_and_inHg = true).

(* tests/metar/test_pressure.py:47 test_no_pressure *)
Definition t_metar_test_pressure_test_no_pressure : list bool :=
  let x0 := (metar_parse E (py "SPECI KMIA 152353Z 00000KT 10SM FEW024 BKN150 BKN250 27/23 A//// RMK AO2 RAB2254E04 SLP127 P0000 60029 T02670233 10317 20256 50004 $") None None false) in
  [iseq (rmap vopt (rmap pr_code (rmap me_press x0))) (VStr (py "A////"));
   iseq (rmap vflo (rmap pr_value (rmap me_press x0))) (VNone);
   iseq (rmap vflo (rmap (fun p => in_inHg (pr_value p)) (rmap me_press x0))) (VNone);
   iseq (rmap vflo (rmap (fun p => in_mbar (pr_value p)) (rmap me_press x0))) (VNone);
   iseq (rmap vflo (rmap (fun p => in_bar (pr_value p)) (rmap me_press x0))) (VNone);
   iseq (rmap vflo (rmap (fun p => in_atm (pr_value p)) (rmap me_press x0))) (VNone);
   iseq (rmap VStr (rmap (fun p => pressure_str (pr_value p)) (rmap me_press x0))) (VStr []);
   iseq (rmap (fun v => v) (rmap (fun x => VDict ((fun p => pressure_dict (pr_value p)) x)) (rmap me_press x0))) (VDict [(py "pressure", VNone); (py "units", VStr (py "hectopascals"))])].

Check (eq_refl true <: forallb (fun b => b) t_metar_test_pressure_test_no_pressure = true).

(* tests/metar/test_recent_weather.py:4 test_recent_weather_first *)
Definition t_metar_test_recent_weather_test_recent_weather_first : list bool :=
  let x0 := (metar_parse E (py "METAR MRLM 192300Z 05010KT 5000 +DZ FEW010 OVC080 24/23 A2987 RERA") None None false) in
  [iseq (rmap vopt (rmap rw_code (rmap me_recent x0))) (VStr (py "RERA"));
   iseq (rmap vopt (rmap rw_desc (rmap me_recent x0))) (VNone);
   iseq (rmap vopt (rmap rw_prec (rmap me_recent x0))) (VStr (py "rain"));
   iseq (rmap vopt (rmap rw_obsc (rmap me_recent x0))) (VNone);
   iseq (rmap vopt (rmap rw_other (rmap me_recent x0))) (VNone);
   iseq (rmap VStr (rmap recent_weather_str (rmap me_recent x0))) (VStr (py "rain"));
   iseq (rmap (fun v => v) (rmap (fun x => VDict (recent_dict x)) (rmap me_recent x0))) (VDict [(py "code", VStr (py "RERA")); (py "description", VNone); (py "obscuration", VNone); (py "other", VNone); (py "precipitation", VStr (py "rain"))])].

Check (eq_refl true <: forallb (fun b => b) t_metar_test_recent_weather_test_recent_weather_first = true).

(* tests/metar/test_recent_weather.py:23 test_recent_weather_second *)
Definition t_metar_test_recent_weather_test_recent_weather_second : list bool :=
  let x0 := (metar_parse E (py "METAR SKBO 200800Z 36004KT 5000 RA FEW017 SCT070 10/09 Q1025 RETSGR NOSIG RMK A3029") None None false) in
  [iseq (rmap vopt (rmap rw_code (rmap me_recent x0))) (VStr (py "RETSGR"));
   iseq (rmap vopt (rmap rw_desc (rmap me_recent x0))) (VStr (py "thunderstorm"));
   iseq (rmap vopt (rmap rw_prec (rmap me_recent x0))) (VStr (py "hail"));
   iseq (rmap vopt (rmap rw_obsc (rmap me_recent x0))) (VNone);
   iseq (rmap vopt (rmap rw_other (rmap me_recent x0))) (VNone);
   iseq (rmap VStr (rmap recent_weather_str (rmap me_recent x0))) (VStr (py "thunderstorm hail"));
   iseq (rmap (fun v => v) (rmap (fun x => VDict (recent_dict x)) (rmap me_recent x0))) (VDict [(py "code", VStr (py "RETSGR")); (py "description", VStr (py "thunderstorm")); (py "obscuration", VNone); (py "other", VNone); (py "precipitation", VStr (py "hail"))])].

Check (eq_refl true <: forallb (fun b => b) t_metar_test_recent_weather_test_recent_weather_second = true).

(* tests/metar/test_recent_weather.py:44 test_no_recent_weather *)
Definition t_metar_test_recent_weather_test_no_recent_weather : list bool :=
  let x0 := (metar_parse E (py "METAR MRPV 160000Z 32006KT 4000 TSRA OVC008CB 20/20 A3002 NOSIG") None None false) in
  [iseq (rmap vopt (rmap rw_code (rmap me_recent x0))) (VNone);
   iseq (rmap vopt (rmap rw_desc (rmap me_recent x0))) (VNone);
   iseq (rmap vopt (rmap rw_prec (rmap me_recent x0))) (VNone);
   iseq (rmap vopt (rmap rw_obsc (rmap me_recent x0))) (VNone);
   iseq (rmap vopt (rmap rw_other (rmap me_recent x0))) (VNone);
   iseq (rmap VStr (rmap recent_weather_str (rmap me_recent x0))) (VStr []);
   iseq (rmap (fun v => v) (rmap (fun x => VDict (recent_dict x)) (rmap me_recent x0))) (VDict [(py "code", VNone); (py "description", VNone); (py "obscuration", VNone); (py "other", VNone); (py "precipitation", VNone)])].

Check (eq_refl true <: forallb (fun b => b) t_metar_test_recent_weather_test_no_recent_weather = true).

(* tests/metar/test_runway_range.py:8 test_runway_range *)
Definition t_metar_test_runway_range_test_runway_range : list bool :=
  let x0 := (metar_parse E (py "METAR SCFA 121300Z 21008KT 9999 3000W R07L/M0150V0600U TSRA FEW020 20/13 Q1014 NOSIG") None None false) in
  [iseq (rmap (fun l => VList (map vopt l)) (rmap (fun g => map rr_code (gl_list g)) (rmap me_rvr x0))) (VList [VStr (py "R07L/M0150V0600U")]);
   iseq (rmap vopt (rmap rr_code (bind (rmap me_rvr x0) (fun g => gl_get g 0%Z)))) (VStr (py "R07L/M0150V0600U"));
   iseq (rmap vflo (rmap rr_low (bind (rmap me_rvr x0) (fun g => gl_get g 0%Z)))) (VFloat (flit "150.0"));
   iseq (rmap vflo (rmap (fun r => in_kilometers (rr_low r)) (bind (rmap me_rvr x0) (fun g => gl_get g 0%Z)))) (VFloat (flit "0.15"));
   iseq (rmap vflo (rmap (fun r => in_sea_miles (rr_low r)) (bind (rmap me_rvr x0) (fun g => gl_get g 0%Z)))) (VFloat (flit "0.08099352051835852"));
   iseq (rmap vflo (rmap (fun r => in_feet (rr_low r)) (bind (rmap me_rvr x0) (fun g => gl_get g 0%Z)))) (VFloat (flit "492.1259842519685"));
   iseq (rmap vflo (rmap rr_high (bind (rmap me_rvr x0) (fun g => gl_get g 0%Z)))) (VFloat (flit "600.0"));
   iseq (rmap vflo (rmap (fun r => in_kilometers (rr_high r)) (bind (rmap me_rvr x0) (fun g => gl_get g 0%Z)))) (VFloat (flit "0.6"));
   iseq (rmap vflo (rmap (fun r => in_sea_miles (rr_high r)) (bind (rmap me_rvr x0) (fun g => gl_get g 0%Z)))) (VFloat (flit "0.3239740820734341"));
   iseq (rmap vflo (rmap (fun r => in_feet (rr_high r)) (bind (rmap me_rvr x0) (fun g => gl_get g 0%Z)))) (VFloat (flit "1968.503937007874"));
   iseq (rmap vopt (rmap rr_name (bind (rmap me_rvr x0) (fun g => gl_get g 0%Z)))) (VStr (py "07 left"));
   iseq (rmap VStr (rmap (fun r => range2str (rr_low r) (rr_rvr_low r)) (bind (rmap me_rvr x0) (fun g => gl_get g 0%Z)))) (VStr (py "below of 150.0 m"));
   iseq (rmap VStr (rmap (fun r => range2str (rr_high r) (rr_rvr_high r)) (bind (rmap me_rvr x0) (fun g => gl_get g 0%Z)))) (VStr (py "600.0 m"));
   iseq (rmap VStr (rmap runway_range_str (bind (rmap me_rvr x0) (fun g => gl_get g 0%Z)))) (VStr (py "runway 07 left below of 150.0 m varying to 600.0 m, increasing"));
   iseq (rmap (fun v => v) (rmap (fun x => VDict (rvr_dict x)) (bind (rmap me_rvr x0) (fun g => gl_get g 0%Z)))) (VDict [(py "code", VStr (py "R07L/M0150V0600U")); (py "high_range", VDict [(py "distance", VFloat (flit "600.0")); (py "units", VStr (py "meters"))]); (py "low_range", VDict [(py "distance", VFloat (flit "150.0")); (py "units", VStr (py "meters"))]); (py "name", VStr (py "07 left")); (py "rvr_high", VNone); (py "rvr_low", VStr (py "below of")); (py "trend", VStr (py "increasing"))]);
   israise (rmap rr_code (bind (rmap me_rvr x0) (fun g => gl_get g 1%Z))) IndexError].

Check (eq_refl true <: forallb (fun b => b) t_metar_test_runway_range_test_runway_range = true).

(* tests/metar/test_runway_range.py:46 test_runway_range_no_high *)
Definition t_metar_test_runway_range_test_runway_range_no_high : list bool :=
  let x0 := (metar_parse E (py "METAR SCFA 121300Z 21008KT 9999 3000W R25C/P0150D TSRA FEW020 20/13 Q1014 NOSIG") None None false) in
  [iseq (rmap (fun l => VList (map vopt l)) (rmap (fun g => map rr_code (gl_list g)) (rmap me_rvr x0))) (VList [VStr (py "R25C/P0150D")]);
   iseq (rmap vopt (rmap rr_code (bind (rmap me_rvr x0) (fun g => gl_get g 0%Z)))) (VStr (py "R25C/P0150D"));
   iseq (rmap vflo (rmap rr_low (bind (rmap me_rvr x0) (fun g => gl_get g 0%Z)))) (VFloat (flit "150.0"));
   iseq (rmap vflo (rmap (fun r => in_kilometers (rr_low r)) (bind (rmap me_rvr x0) (fun g => gl_get g 0%Z)))) (VFloat (flit "0.15"));
   iseq (rmap vflo (rmap (fun r => in_sea_miles (rr_low r)) (bind (rmap me_rvr x0) (fun g => gl_get g 0%Z)))) (VFloat (flit "0.08099352051835852"));
   iseq (rmap vflo (rmap (fun r => in_feet (rr_low r)) (bind (rmap me_rvr x0) (fun g => gl_get g 0%Z)))) (VFloat (flit "492.1259842519685"));
   iseq (rmap vflo (rmap rr_high (bind (rmap me_rvr x0) (fun g => gl_get g 0%Z)))) (VNone);
   iseq (rmap vflo (rmap (fun r => in_kilometers (rr_high r)) (bind (rmap me_rvr x0) (fun g => gl_get g 0%Z)))) (VNone);
   iseq (rmap vflo (rmap (fun r => in_sea_miles (rr_high r)) (bind (rmap me_rvr x0) (fun g => gl_get g 0%Z)))) (VNone);
   iseq (rmap vflo (rmap (fun r => in_feet (rr_high r)) (bind (rmap me_rvr x0) (fun g => gl_get g 0%Z)))) (VNone);
   iseq (rmap vopt (rmap rr_name (bind (rmap me_rvr x0) (fun g => gl_get g 0%Z)))) (VStr (py "25 center"));
   iseq (rmap VStr (rmap (fun r => range2str (rr_low r) (rr_rvr_low r)) (bind (rmap me_rvr x0) (fun g => gl_get g 0%Z)))) (VStr (py "above of 150.0 m"));
   iseq (rmap VStr (rmap (fun r => range2str (rr_high r) (rr_rvr_high r)) (bind (rmap me_rvr x0) (fun g => gl_get g 0%Z)))) (VStr []);
   iseq (rmap VStr (rmap runway_range_str (bind (rmap me_rvr x0) (fun g => gl_get g 0%Z)))) (VStr (py "runway 25 center above of 150.0 m, decreasing"));
   iseq (rmap (fun v => v) (rmap (fun x => VDict (rvr_dict x)) (bind (rmap me_rvr x0) (fun g => gl_get g 0%Z)))) (VDict [(py "code", VStr (py "R25C/P0150D")); (py "high_range", VDict [(py "distance", VNone); (py "units", VStr (py "meters"))]); (py "low_range", VDict [(py "distance", VFloat (flit "150.0")); (py "units", VStr (py "meters"))]); (py "name", VStr (py "25 center")); (py "rvr_high", VNone); (py "rvr_low", VStr (py "above of")); (py "trend", VStr (py "decreasing"))]);
   israise (rmap rr_code (bind (rmap me_rvr x0) (fun g => gl_get g 1%Z))) IndexError].

Check (eq_refl true <: forallb (fun b => b) t_metar_test_runway_range_test_runway_range_no_high = true).

(* tests/metar/test_runway_range.py:81 test_runway_range_in_feet *)
Definition t_metar_test_runway_range_test_runway_range_in_feet : list bool :=
  let x0 := (metar_parse E (py "SPECI KMIA 280558Z 16010G20KT 5SM R09/5000VP6000FT -RA BR SCT020 BKN035CB OVC060 26/24 A2973 RMK AO2 WSHFT 0544 LTG DSNT NW CB W-N MOV NW P0009 T02610244") None None false) in
  [iseq (rmap (fun l => VList (map vopt l)) (rmap (fun g => map rr_code (gl_list g)) (rmap me_rvr x0))) (VList [VStr (py "R09/5000VP6000FT")]);
   iseq (rmap vopt (rmap rr_code (bind (rmap me_rvr x0) (fun g => gl_get g 0%Z)))) (VStr (py "R09/5000VP6000FT"));
   iseq (rmap vflo (rmap rr_low (bind (rmap me_rvr x0) (fun g => gl_get g 0%Z)))) (VFloat (flit "1524.0"));
   iseq (rmap vflo (rmap (fun r => in_kilometers (rr_low r)) (bind (rmap me_rvr x0) (fun g => gl_get g 0%Z)))) (VFloat (flit "1.524"));
   approx (rmap vflo (rmap (fun r => in_sea_miles (rr_low r)) (bind (rmap me_rvr x0) (fun g => gl_get g 0%Z)))) (flit "0.822894") (flit "1e-06");
   approx (rmap vflo (rmap (fun r => in_feet (rr_low r)) (bind (rmap me_rvr x0) (fun g => gl_get g 0%Z)))) (flit "5000.0") (flit "1e-06");
   approx (rmap vflo (rmap rr_high (bind (rmap me_rvr x0) (fun g => gl_get g 0%Z)))) (flit "1828.8") (flit "1e-06");
   approx (rmap vflo (rmap (fun r => in_kilometers (rr_high r)) (bind (rmap me_rvr x0) (fun g => gl_get g 0%Z)))) (flit "1.8288") (flit "1e-06");
   approx (rmap vflo (rmap (fun r => in_sea_miles (rr_high r)) (bind (rmap me_rvr x0) (fun g => gl_get g 0%Z)))) (flit "0.987473") (flit "1e-06");
   approx (rmap vflo (rmap (fun r => in_feet (rr_high r)) (bind (rmap me_rvr x0) (fun g => gl_get g 0%Z)))) (flit "6000.0") (flit "1e-06");
   iseq (rmap vopt (rmap rr_name (bind (rmap me_rvr x0) (fun g => gl_get g 0%Z)))) (VStr (py "09"));
   iseq (rmap VStr (rmap (fun r => range2str (rr_low r) (rr_rvr_low r)) (bind (rmap me_rvr x0) (fun g => gl_get g 0%Z)))) (VStr (py "1524.0 m"));
   iseq (rmap VStr (rmap (fun r => range2str (rr_high r) (rr_rvr_high r)) (bind (rmap me_rvr x0) (fun g => gl_get g 0%Z)))) (VStr (py "above of 1828.8 m"));
   iseq (rmap VStr (rmap runway_range_str (bind (rmap me_rvr x0) (fun g => gl_get g 0%Z)))) (VStr (py "runway 09 1524.0 m varying to above of 1828.8 m"));
   iseq (rmap (fun v => v) (rmap (fun x => VDict (rvr_dict x)) (bind (rmap me_rvr x0) (fun g => gl_get g 0%Z)))) (VDict [(py "code", VStr (py "R09/5000VP6000FT")); (py "high_range", VDict [(py "distance", VFloat (flit "1828.8000000000002")); (py "units", VStr (py "meters"))]); (py "low_range", VDict [(py "distance", VFloat (flit "1524.0")); (py "units", VStr (py "meters"))]); (py "name", VStr (py "09")); (py "rvr_high", VStr (py "above of")); (py "rvr_low", VNone); (py "trend", VNone)]);
   israise (rmap rr_code (bind (rmap me_rvr x0) (fun g => gl_get g 1%Z))) IndexError].

Check (eq_refl true <: forallb (fun b => b) t_metar_test_runway_range_test_runway_range_in_feet = true).

(* tests/metar/test_runway_range.py:116 test_two_runway_ranges *)
Definition t_metar_test_runway_range_test_two_runway_ranges : list bool :=
  let x0 := (metar_parse E (py "METAR SCFA 121300Z 21008KT 9999 3000W R07L/M0150V0600U R25C/P0150D TSRA FEW020 20/13 Q1014 NOSIG") None None false) in
  [iseq (rmap (fun l => VList (map vopt l)) (rmap (fun g => map rr_code (gl_list g)) (rmap me_rvr x0))) (VList [VStr (py "R07L/M0150V0600U"); VStr (py "R25C/P0150D")]);
   iseq (rmap vopt (rmap rr_code (bind (rmap me_rvr x0) (fun g => gl_get g 0%Z)))) (VStr (py "R07L/M0150V0600U"));
   iseq (rmap vflo (rmap rr_low (bind (rmap me_rvr x0) (fun g => gl_get g 0%Z)))) (VFloat (flit "150.0"));
   iseq (rmap vflo (rmap (fun r => in_kilometers (rr_low r)) (bind (rmap me_rvr x0) (fun g => gl_get g 0%Z)))) (VFloat (flit "0.15"));
   iseq (rmap vflo (rmap (fun r => in_sea_miles (rr_low r)) (bind (rmap me_rvr x0) (fun g => gl_get g 0%Z)))) (VFloat (flit "0.08099352051835852"));
   iseq (rmap vflo (rmap rr_high (bind (rmap me_rvr x0) (fun g => gl_get g 0%Z)))) (VFloat (flit "600.0"));
   iseq (rmap vflo (rmap (fun r => in_kilometers (rr_high r)) (bind (rmap me_rvr x0) (fun g => gl_get g 0%Z)))) (VFloat (flit "0.6"));
   iseq (rmap vflo (rmap (fun r => in_sea_miles (rr_high r)) (bind (rmap me_rvr x0) (fun g => gl_get g 0%Z)))) (VFloat (flit "0.3239740820734341"));
   iseq (rmap vopt (rmap rr_name (bind (rmap me_rvr x0) (fun g => gl_get g 0%Z)))) (VStr (py "07 left"));
   iseq (rmap VStr (rmap (fun r => range2str (rr_low r) (rr_rvr_low r)) (bind (rmap me_rvr x0) (fun g => gl_get g 0%Z)))) (VStr (py "below of 150.0 m"));
   iseq (rmap VStr (rmap (fun r => range2str (rr_high r) (rr_rvr_high r)) (bind (rmap me_rvr x0) (fun g => gl_get g 0%Z)))) (VStr (py "600.0 m"));
   iseq (rmap VStr (rmap runway_range_str (bind (rmap me_rvr x0) (fun g => gl_get g 0%Z)))) (VStr (py "runway 07 left below of 150.0 m varying to 600.0 m, increasing"));
   iseq (rmap (fun v => v) (rmap (fun x => VDict (rvr_dict x)) (bind (rmap me_rvr x0) (fun g => gl_get g 0%Z)))) (VDict [(py "code", VStr (py "R07L/M0150V0600U")); (py "high_range", VDict [(py "distance", VFloat (flit "600.0")); (py "units", VStr (py "meters"))]); (py "low_range", VDict [(py "distance", VFloat (flit "150.0")); (py "units", VStr (py "meters"))]); (py "name", VStr (py "07 left")); (py "rvr_high", VNone); (py "rvr_low", VStr (py "below of")); (py "trend", VStr (py "increasing"))]);
   iseq (rmap vopt (rmap rr_code (bind (rmap me_rvr x0) (fun g => gl_get g 1%Z)))) (VStr (py "R25C/P0150D"));
   iseq (rmap vflo (rmap rr_low (bind (rmap me_rvr x0) (fun g => gl_get g 1%Z)))) (VFloat (flit "150.0"));
   iseq (rmap vflo (rmap (fun r => in_kilometers (rr_low r)) (bind (rmap me_rvr x0) (fun g => gl_get g 1%Z)))) (VFloat (flit "0.15"));
   iseq (rmap vflo (rmap (fun r => in_sea_miles (rr_low r)) (bind (rmap me_rvr x0) (fun g => gl_get g 1%Z)))) (VFloat (flit "0.08099352051835852"));
   iseq (rmap vflo (rmap rr_high (bind (rmap me_rvr x0) (fun g => gl_get g 1%Z)))) (VNone);
   iseq (rmap vflo (rmap (fun r => in_kilometers (rr_high r)) (bind (rmap me_rvr x0) (fun g => gl_get g 1%Z)))) (VNone);
   iseq (rmap vflo (rmap (fun r => in_sea_miles (rr_high r)) (bind (rmap me_rvr x0) (fun g => gl_get g 1%Z)))) (VNone);
   iseq (rmap vopt (rmap rr_name (bind (rmap me_rvr x0) (fun g => gl_get g 1%Z)))) (VStr (py "25 center"));
   iseq (rmap VStr (rmap (fun r => range2str (rr_low r) (rr_rvr_low r)) (bind (rmap me_rvr x0) (fun g => gl_get g 1%Z)))) (VStr (py "above of 150.0 m"));
   iseq (rmap VStr (rmap (fun r => range2str (rr_high r) (rr_rvr_high r)) (bind (rmap me_rvr x0) (fun g => gl_get g 1%Z)))) (VStr []);
   iseq (rmap VStr (rmap runway_range_str (bind (rmap me_rvr x0) (fun g => gl_get g 1%Z)))) (VStr (py "runway 25 center above of 150.0 m, decreasing"));
   iseq (rmap (fun v => v) (rmap (fun x => VDict (rvr_dict x)) (bind (rmap me_rvr x0) (fun g => gl_get g 1%Z)))) (VDict [(py "code", VStr (py "R25C/P0150D")); (py "high_range", VDict [(py "distance", VNone); (py "units", VStr (py "meters"))]); (py "low_range", VDict [(py "distance", VFloat (flit "150.0")); (py "units", VStr (py "meters"))]); (py "name", VStr (py "25 center")); (py "rvr_high", VNone); (py "rvr_low", VStr (py "above of")); (py "trend", VStr (py "decreasing"))]);
   israise (rmap rr_code (bind (rmap me_rvr x0) (fun g => gl_get g 2%Z))) IndexError].

Check (eq_refl true <: forallb (fun b => b) t_metar_test_runway_range_test_two_runway_ranges = true).

(* tests/metar/test_runway_range.py:173 test_no_runway_range *)
Definition t_metar_test_runway_range_test_no_runway_range : list bool :=
  let x0 := (metar_parse E (py "METAR SCFA 121300Z 21008KT 9999 3000W TSRA FEW020 20/13 Q1014 NOSIG") None None false) in
  [iseq (rmap (fun l => VList (map vopt l)) (rmap (fun g => map rr_code (gl_list g)) (rmap me_rvr x0))) (VList []);
   iseq (rmap VStr (rmap (fun g => join (py " | ") (map runway_range_str (gl_list g))) (rmap me_rvr x0))) (VStr []);
   iseq (rmap (fun v => v) (rmap VDict (bind (rmap me_rvr x0) (list_dict rvr_dict)))) (VDict []);
   israise (rmap rr_code (bind (rmap me_rvr x0) (fun g => gl_get g 0%Z))) IndexError;
   israise (rmap rr_code (bind (rmap me_rvr x0) (fun g => gl_get g 1%Z))) IndexError;
   israise (rmap rr_code (bind (rmap me_rvr x0) (fun g => gl_get g 2%Z))) IndexError].

Check (eq_refl true <: forallb (fun b => b) t_metar_test_runway_range_test_no_runway_range = true).

(* tests/metar/test_runway_range.py:186 test_try_to_get_item_4 *)
Definition t_metar_test_runway_range_test_try_to_get_item_4 : list bool :=
  let x0 := (metar_parse E (py "METAR SCFA 121300Z 21008KT 9999 3000W R07L/M0150V0600U R25C/P0150D R25L/P0500N TSRA FEW020 20/13 Q1014 NOSIG") None None false) in
  [iseq (rmap (fun l => VList (map vopt l)) (rmap (fun g => map rr_code (gl_list g)) (rmap me_rvr x0))) (VList [VStr (py "R07L/M0150V0600U"); VStr (py "R25C/P0150D"); VStr (py "R25L/P0500N")]);
   iseq (rmap VStr (rmap (fun g => join (py " | ") (map runway_range_str (gl_list g))) (rmap me_rvr x0))) (VStr (py "runway 07 left below of 150.0 m varying to 600.0 m, increasing | runway 25 center above of 150.0 m, decreasing | runway 25 left above of 500.0 m, no change"));
   iseq (rmap (fun v => v) (rmap VDict (bind (rmap me_rvr x0) (list_dict rvr_dict)))) (VDict [(py "first", VDict [(py "code", VStr (py "R07L/M0150V0600U")); (py "high_range", VDict [(py "distance", VFloat (flit "600.0")); (py "units", VStr (py "meters"))]); (py "low_range", VDict [(py "distance", VFloat (flit "150.0")); (py "units", VStr (py "meters"))]); (py "name", VStr (py "07 left")); (py "rvr_high", VNone); (py "rvr_low", VStr (py "below of")); (py "trend", VStr (py "increasing"))]); (py "second", VDict [(py "code", VStr (py "R25C/P0150D")); (py "high_range", VDict [(py "distance", VNone); (py "units", VStr (py "meters"))]); (py "low_range", VDict [(py "distance", VFloat (flit "150.0")); (py "units", VStr (py "meters"))]); (py "name", VStr (py "25 center")); (py "rvr_high", VNone); (py "rvr_low", VStr (py "above of")); (py "trend", VStr (py "decreasing"))]); (py "third", VDict [(py "code", VStr (py "R25L/P0500N")); (py "high_range", VDict [(py "distance", VNone); (py "units", VStr (py "meters"))]); (py "low_range", VDict [(py "distance", VFloat (flit "500.0")); (py "units", VStr (py "meters"))]); (py "name", VStr (py "25 left")); (py "rvr_high", VNone); (py "rvr_low", VStr (py "above of")); (py "trend", VStr (py "no change"))])]);
   israise (rmap rr_code (bind (rmap me_rvr x0) (fun g => gl_get g 3%Z))) RangeError].

Check (eq_refl true <: forallb (fun b => b) t_metar_test_runway_range_test_try_to_get_item_4 = true).

(* tests/metar/test_runway_state.py:4 test_snoclo *)
Definition t_metar_test_runway_state_test_snoclo : list bool :=
  let x0 := (metar_parse E (py "METAR PANC 210353Z 01006KT 10SM FEW045 BKN070 OVC100 M05/M17 A2965 R09L/SNOCLO") None None false) in
  [iseq (rmap vopt (rmap rs_code (rmap me_rwy x0))) (VStr (py "R09L/SNOCLO"));
   iseq (rmap vopt (rmap rs_name (rmap me_rwy x0))) (VStr (py "09 left"));
   iseq (rmap vopt (rmap rs_deposits (rmap me_rwy x0))) (VNone);
   iseq (rmap vopt (rmap rs_contamination (rmap me_rwy x0))) (VNone);
   iseq (rmap vopt (rmap rs_depth (rmap me_rwy x0))) (VNone);
   iseq (rmap vopt (rmap rs_friction (rmap me_rwy x0))) (VNone);
   iseq (rmap VBool (rmap rs_snoclo (rmap me_rwy x0))) (VBool true);
   iseq (rmap vopt (rmap rs_clrd_text (rmap me_rwy x0))) (VNone);
   iseq (rmap VStr (rmap runway_state_str (rmap me_rwy x0))) (VStr (py "aerodrome is closed due to extreme deposit of snow"));
   iseq (rmap (fun v => v) (rmap (fun x => VDict (rs_dict x)) (rmap me_rwy x0))) (VDict [(py "clrd", VNone); (py "code", VStr (py "R09L/SNOCLO")); (py "contamination", VNone); (py "deposits", VNone); (py "deposits_depth", VNone); (py "name", VStr (py "09 left")); (py "snoclo", VBool true); (py "surface_friction", VNone)])].

Check (eq_refl true <: forallb (fun b => b) t_metar_test_runway_state_test_snoclo = true).

(* tests/metar/test_runway_state.py:31 test_clrd *)
Definition t_metar_test_runway_state_test_clrd : list bool :=
  let x0 := (metar_parse E (py "METAR PANC 210353Z 01006KT 10SM FEW045 BKN070 OVC100 M05/M17 A2965 R25C/CLRD//") None None false) in
  [iseq (rmap vopt (rmap rs_code (rmap me_rwy x0))) (VStr (py "R25C/CLRD//"));
   iseq (rmap vopt (rmap rs_name (rmap me_rwy x0))) (VStr (py "25 center"));
   iseq (rmap vopt (rmap rs_deposits (rmap me_rwy x0))) (VNone);
   iseq (rmap vopt (rmap rs_contamination (rmap me_rwy x0))) (VNone);
   iseq (rmap vopt (rmap rs_depth (rmap me_rwy x0))) (VNone);
   iseq (rmap vopt (rmap rs_friction (rmap me_rwy x0))) (VNone);
   iseq (rmap VBool (rmap rs_snoclo (rmap me_rwy x0))) (VBool false);
   iseq (rmap vopt (rmap rs_clrd_text (rmap me_rwy x0))) (VStr (py "contaminations have ceased to exists on runway 25 center"));
   iseq (rmap VStr (rmap runway_state_str (rmap me_rwy x0))) (VStr (py "contaminations have ceased to exists on runway 25 center"));
   iseq (rmap (fun v => v) (rmap (fun x => VDict (rs_dict x)) (rmap me_rwy x0))) (VDict [(py "clrd", VStr (py "contaminations have ceased to exists on runway 25 center")); (py "code", VStr (py "R25C/CLRD//")); (py "contamination", VNone); (py "deposits", VNone); (py "deposits_depth", VNone); (py "name", VStr (py "25 center")); (py "snoclo", VBool false); (py "surface_friction", VNone)])].

Check (eq_refl true <: forallb (fun b => b) t_metar_test_runway_state_test_clrd = true).

(* tests/metar/test_runway_state.py:58 test_runway_state *)
Definition t_metar_test_runway_state_test_runway_state : list bool :=
  let x0 := (metar_parse E (py "METAR PANC 210353Z 01006KT 10SM FEW045 BKN070 OVC100 M05/M17 A2965 R10R/527650") None None false) in
  [iseq (rmap vopt (rmap rs_code (rmap me_rwy x0))) (VStr (py "R10R/527650"));
   iseq (rmap vopt (rmap rs_name (rmap me_rwy x0))) (VStr (py "10 right"));
   iseq (rmap vopt (rmap rs_deposits (rmap me_rwy x0))) (VStr (py "wet snow"));
   iseq (rmap vopt (rmap rs_contamination (rmap me_rwy x0))) (VStr (py "11%-25% of runway"));
   iseq (rmap vopt (rmap rs_depth (rmap me_rwy x0))) (VStr (py "76 mm"));
   iseq (rmap vopt (rmap rs_friction (rmap me_rwy x0))) (VStr (py "0.50"));
   iseq (rmap VBool (rmap rs_snoclo (rmap me_rwy x0))) (VBool false);
   iseq (rmap vopt (rmap rs_clrd_text (rmap me_rwy x0))) (VNone);
   iseq (rmap VStr (rmap runway_state_str (rmap me_rwy x0))) (VStr (py "10 right, deposits of 76 mm of wet snow, contamination 11%-25% of runway, estimated surface friction 0.50"));
   iseq (rmap (fun v => v) (rmap (fun x => VDict (rs_dict x)) (rmap me_rwy x0))) (VDict [(py "clrd", VNone); (py "code", VStr (py "R10R/527650")); (py "contamination", VStr (py "11%-25% of runway")); (py "deposits", VStr (py "wet snow")); (py "deposits_depth", VStr (py "76 mm")); (py "name", VStr (py "10 right")); (py "snoclo", VBool false); (py "surface_friction", VStr (py "0.50"))])].

Check (eq_refl true <: forallb (fun b => b) t_metar_test_runway_state_test_runway_state = true).

(* tests/metar/test_runway_state.py:88 test_no_runway_state *)
Definition t_metar_test_runway_state_test_no_runway_state : list bool :=
  let x0 := (metar_parse E (py "METAR PANC 210353Z 01006KT 10SM FEW045 BKN070 OVC100 M05/M17 A2965") None None false) in
  [iseq (rmap vopt (rmap rs_code (rmap me_rwy x0))) (VNone);
   iseq (rmap vopt (rmap rs_name (rmap me_rwy x0))) (VNone);
   iseq (rmap vopt (rmap rs_deposits (rmap me_rwy x0))) (VNone);
   iseq (rmap vopt (rmap rs_contamination (rmap me_rwy x0))) (VNone);
   iseq (rmap vopt (rmap rs_depth (rmap me_rwy x0))) (VNone);
   iseq (rmap vopt (rmap rs_friction (rmap me_rwy x0))) (VNone);
   iseq (rmap VBool (rmap rs_snoclo (rmap me_rwy x0))) (VBool false);
   iseq (rmap vopt (rmap rs_clrd_text (rmap me_rwy x0))) (VNone);
   iseq (rmap VStr (rmap runway_state_str (rmap me_rwy x0))) (VStr []);
   iseq (rmap (fun v => v) (rmap (fun x => VDict (rs_dict x)) (rmap me_rwy x0))) (VDict [(py "clrd", VNone); (py "code", VNone); (py "contamination", VNone); (py "deposits", VNone); (py "deposits_depth", VNone); (py "name", VNone); (py "snoclo", VBool false); (py "surface_friction", VNone)])].

Check (eq_refl true <: forallb (fun b => b) t_metar_test_runway_state_test_no_runway_state = true).

(* tests/metar/test_sea_state.py:5 test_sea_state_with_positive_temperature *)
Definition t_metar_test_sea_state_test_sea_state_with_positive_temperature : list bool :=
  let x0 := (metar_parse E (py "METAR LXGB 201950Z AUTO 09012KT 9999 BKN080/// 14/07 Q1016 RERA W20/S5") None None false) in
  [iseq (rmap vopt (rmap se_code (rmap me_sea x0))) (VStr (py "W20/S5"));
   iseq (rmap vopt (rmap se_state (rmap me_sea x0))) (VStr (py "rough"));
   iseq (rmap VStr (rmap sea_state_str (rmap me_sea x0))) (VStr ((py "temperature 20.0" ++ [176%N] ++ py "C, no significant wave height, rough")));
   iseq (rmap vflo (rmap se_temp (rmap me_sea x0))) (VFloat (flit "20.0"));
   approx (rmap vflo (rmap (fun t => in_fahrenheit (se_temp t)) (rmap me_sea x0))) (flit "68.0") (flit "1e-06");
   iseq (rmap vflo (rmap (fun t => in_kelvin (se_temp t)) (rmap me_sea x0))) (VFloat (flit "293.15"));
   approx (rmap vflo (rmap (fun t => in_rankine (se_temp t)) (rmap me_sea x0))) (flit "527.67") (flit "1e-06");
   iseq (rmap vflo (rmap se_height (rmap me_sea x0))) (VNone);
   iseq (rmap vflo (rmap (fun s => converted (se_height s) M_TO_CM) (rmap me_sea x0))) (VNone);
   iseq (rmap vflo (rmap (fun s => converted (se_height s) M_TO_DM) (rmap me_sea x0))) (VNone);
   iseq (rmap vflo (rmap (fun s => converted (se_height s) M_TO_FT) (rmap me_sea x0))) (VNone);
   iseq (rmap vflo (rmap (fun s => converted (se_height s) M_TO_IN) (rmap me_sea x0))) (VNone);
   iseq (rmap (fun v => v) (rmap (fun x => VDict (sea_dict x)) (rmap me_sea x0))) (VDict [(py "code", VStr (py "W20/S5")); (py "height", VDict [(py "distance", VNone); (py "units", VStr (py "meters"))]); (py "state", VStr (py "rough")); (py "temperature", VDict [(py "temperature", VFloat (flit "20.0")); (py "units", VStr (py "celsius"))])])].

Check (eq_refl true <: forallb (fun b => b) t_metar_test_sea_state_test_sea_state_with_positive_temperature = true).

(* tests/metar/test_sea_state.py:31 test_sea_state_with_negative_temperature *)
Definition t_metar_test_sea_state_test_sea_state_with_negative_temperature : list bool :=
  let x0 := (metar_parse E (py "METAR LXGB 201950Z AUTO 09012KT 9999 BKN080/// 14/07 Q1016 RERA WM01/S8") None None false) in
  [iseq (rmap vopt (rmap se_code (rmap me_sea x0))) (VStr (py "WM01/S8"));
   iseq (rmap vopt (rmap se_state (rmap me_sea x0))) (VStr (py "very high"));
   iseq (rmap VStr (rmap sea_state_str (rmap me_sea x0))) (VStr ((py "temperature -1.0" ++ [176%N] ++ py "C, no significant wave height, very high")));
   iseq (rmap vflo (rmap se_temp (rmap me_sea x0))) (VFloat (flit "-1.0"));
   approx (rmap vflo (rmap (fun t => in_fahrenheit (se_temp t)) (rmap me_sea x0))) (flit "30.2") (flit "1e-06");
   iseq (rmap vflo (rmap (fun t => in_kelvin (se_temp t)) (rmap me_sea x0))) (VFloat (flit "272.15"));
   approx (rmap vflo (rmap (fun t => in_rankine (se_temp t)) (rmap me_sea x0))) (flit "489.87") (flit "1e-06");
   iseq (rmap vflo (rmap se_height (rmap me_sea x0))) (VNone);
   iseq (rmap vflo (rmap (fun s => converted (se_height s) M_TO_CM) (rmap me_sea x0))) (VNone);
   iseq (rmap vflo (rmap (fun s => converted (se_height s) M_TO_DM) (rmap me_sea x0))) (VNone);
   iseq (rmap vflo (rmap (fun s => converted (se_height s) M_TO_FT) (rmap me_sea x0))) (VNone);
   iseq (rmap vflo (rmap (fun s => converted (se_height s) M_TO_IN) (rmap me_sea x0))) (VNone);
   iseq (rmap (fun v => v) (rmap (fun x => VDict (sea_dict x)) (rmap me_sea x0))) (VDict [(py "code", VStr (py "WM01/S8")); (py "height", VDict [(py "distance", VNone); (py "units", VStr (py "meters"))]); (py "state", VStr (py "very high")); (py "temperature", VDict [(py "temperature", VFloat (flit "-1.0")); (py "units", VStr (py "celsius"))])])].

Check (eq_refl true <: forallb (fun b => b) t_metar_test_sea_state_test_sea_state_with_negative_temperature = true).

(* tests/metar/test_sea_state.py:57 test_sea_state_with_significant_wave_height *)
Definition t_metar_test_sea_state_test_sea_state_with_significant_wave_height : list bool :=
  let x0 := (metar_parse E (py "METAR LXGB 032250Z 25006KT CAVOK 16/07 Q1022 W15/H008 NOSIG RMK BLU BLU") None None false) in
  [iseq (rmap vopt (rmap se_code (rmap me_sea x0))) (VStr (py "W15/H008"));
   iseq (rmap vopt (rmap se_state (rmap me_sea x0))) (VNone);
   iseq (rmap VStr (rmap sea_state_str (rmap me_sea x0))) (VStr ((py "temperature 15.0" ++ [176%N] ++ py "C, significant wave height 0.8 m, no sea state")));
   iseq (rmap vflo (rmap se_temp (rmap me_sea x0))) (VFloat (flit "15.0"));
   iseq (rmap vflo (rmap (fun t => in_fahrenheit (se_temp t)) (rmap me_sea x0))) (VFloat (flit "59.0"));
   iseq (rmap vflo (rmap (fun t => in_kelvin (se_temp t)) (rmap me_sea x0))) (VFloat (flit "288.15"));
   approx (rmap vflo (rmap (fun t => in_rankine (se_temp t)) (rmap me_sea x0))) (flit "518.67") (flit "1e-06");
   iseq (rmap vflo (rmap se_height (rmap me_sea x0))) (VFloat (flit "0.8"));
   iseq (rmap vflo (rmap (fun s => converted (se_height s) M_TO_CM) (rmap me_sea x0))) (VFloat (flit "80.0"));
   iseq (rmap vflo (rmap (fun s => converted (se_height s) M_TO_DM) (rmap me_sea x0))) (VFloat (flit "8.0"));
   approx (rmap vflo (rmap (fun s => converted (se_height s) M_TO_FT) (rmap me_sea x0))) (flit "2.62467") (flit "1e-06");
   approx (rmap vflo (rmap (fun s => converted (se_height s) M_TO_IN) (rmap me_sea x0))) (flit "31.49608") (flit "1e-06");
   iseq (rmap (fun v => v) (rmap (fun x => VDict (sea_dict x)) (rmap me_sea x0))) (VDict [(py "code", VStr (py "W15/H008")); (py "height", VDict [(py "distance", VFloat (flit "0.8")); (py "units", VStr (py "meters"))]); (py "state", VNone); (py "temperature", VDict [(py "temperature", VFloat (flit "15.0")); (py "units", VStr (py "celsius"))])])].

Check (eq_refl true <: forallb (fun b => b) t_metar_test_sea_state_test_sea_state_with_significant_wave_height = true).

(* tests/metar/test_sea_state.py:86 test_no_sea_state *)
Definition t_metar_test_sea_state_test_no_sea_state : list bool :=
  let x0 := (metar_parse E (py "METAR LXGB 201950Z AUTO 09012KT 9999 BKN080/// 14/07 Q1016 RERA") None None false) in
  [iseq (rmap vopt (rmap se_code (rmap me_sea x0))) (VNone);
   iseq (rmap vopt (rmap se_state (rmap me_sea x0))) (VNone);
   iseq (rmap VStr (rmap sea_state_str (rmap me_sea x0))) (VStr []);
   iseq (rmap vflo (rmap se_temp (rmap me_sea x0))) (VNone);
   iseq (rmap vflo (rmap (fun t => in_fahrenheit (se_temp t)) (rmap me_sea x0))) (VNone);
   iseq (rmap vflo (rmap (fun t => in_kelvin (se_temp t)) (rmap me_sea x0))) (VNone);
   iseq (rmap vflo (rmap (fun t => in_rankine (se_temp t)) (rmap me_sea x0))) (VNone);
   iseq (rmap vflo (rmap se_height (rmap me_sea x0))) (VNone);
   iseq (rmap vflo (rmap (fun s => converted (se_height s) M_TO_CM) (rmap me_sea x0))) (VNone);
   iseq (rmap vflo (rmap (fun s => converted (se_height s) M_TO_DM) (rmap me_sea x0))) (VNone);
   iseq (rmap vflo (rmap (fun s => converted (se_height s) M_TO_FT) (rmap me_sea x0))) (VNone);
   iseq (rmap vflo (rmap (fun s => converted (se_height s) M_TO_IN) (rmap me_sea x0))) (VNone);
   iseq (rmap (fun v => v) (rmap (fun x => VDict (sea_dict x)) (rmap me_sea x0))) (VDict [(py "code", VNone); (py "height", VDict [(py "distance", VNone); (py "units", VStr (py "meters"))]); (py "state", VNone); (py "temperature", VDict [(py "temperature", VNone); (py "units", VStr (py "celsius"))])])].

Check (eq_refl true <: forallb (fun b => b) t_metar_test_sea_state_test_no_sea_state = true).

(* tests/metar/test_sections.py:6 test_sections_weather_trend_nosig *)
Definition t_metar_test_sections_test_sections_weather_trend_nosig : list bool :=
  let x0 := (metar_parse E ([9%N] ++ [9%N] ++ [9%N] ++ py "METAR MROC 181500Z 09012G23KT 050V110 9999 FEW035 SCT130 BKN200 27/18 A3004 RMK TS TO S NOSIG" ++ [10%N] ++ [10%N]) None None false) in
  [iseq (rmap (fun l => VList (map VStr l)) (rmap me_sections x0)) (VList [VStr (py "METAR MROC 181500Z 09012G23KT 050V110 9999 FEW035 SCT130 BKN200 27/18 A3004"); VStr (py "NOSIG"); VStr (py "RMK TS TO S")]);
   iseq (rmap VStr (rmap (fun x => section 0 (me_sections x)) x0)) (VStr (py "METAR MROC 181500Z 09012G23KT 050V110 9999 FEW035 SCT130 BKN200 27/18 A3004"));
   iseq (rmap VStr (rmap (fun x => section 1 (me_sections x)) x0)) (VStr (py "NOSIG"));
   iseq (rmap VStr (rmap (fun x => section 2 (me_sections x)) x0)) (VStr (py "RMK TS TO S"))].

Check (eq_refl true <: forallb (fun b => b) t_metar_test_sections_test_sections_weather_trend_nosig = true).

(* tests/metar/test_sections.py:20 test_sections_weather_trend_tempo *)
Definition t_metar_test_sections_test_sections_weather_trend_tempo : list bool :=
  let x0 := (metar_parse E ([9%N] ++ [9%N] ++ [9%N] ++ py "METAR MMTJ 180842Z 12006KT 7SM SKC 11/M04 A3027" ++ [9%N] ++ py "TEMPO 25005KT 5SM HZ" ++ [9%N] ++ py "RMK SLP258 54000 941" ++ [10%N] ++ [10%N]) None None false) in
  [iseq (rmap (fun l => VList (map VStr l)) (rmap me_sections x0)) (VList [VStr (py "METAR MMTJ 180842Z 12006KT 7SM SKC 11/M04 A3027"); VStr (py "TEMPO 25005KT 5SM HZ"); VStr (py "RMK SLP258 54000 941")]);
   iseq (rmap VStr (rmap (fun x => section 0 (me_sections x)) x0)) (VStr (py "METAR MMTJ 180842Z 12006KT 7SM SKC 11/M04 A3027"));
   iseq (rmap VStr (rmap (fun x => section 1 (me_sections x)) x0)) (VStr (py "TEMPO 25005KT 5SM HZ"));
   iseq (rmap VStr (rmap (fun x => section 2 (me_sections x)) x0)) (VStr (py "RMK SLP258 54000 941"))].

Check (eq_refl true <: forallb (fun b => b) t_metar_test_sections_test_sections_weather_trend_tempo = true).

(* tests/metar/test_sections.py:34 test_sections_two_weather_trends *)
Definition t_metar_test_sections_test_sections_two_weather_trends : list bool :=
  let x0 := (metar_parse E ([9%N] ++ [9%N] ++ [9%N] ++ py "SPECI LTBG 181003Z VRB02KT 9999 -SHRA BKN030 BKN100 09/09 Q1013 RESHRA" ++ [10%N] ++ py "BECMG TL1045 RA TEMPO FM1100 DZ RMK RWY18 04006KT 360V070" ++ [10%N] ++ [10%N]) None None false) in
  [iseq (rmap (fun l => VList (map VStr l)) (rmap me_sections x0)) (VList [VStr (py "SPECI LTBG 181003Z VRB02KT 9999 -SHRA BKN030 BKN100 09/09 Q1013 RESHRA"); VStr (py "BECMG TL1045 RA TEMPO FM1100 DZ"); VStr (py "RMK RWY18 04006KT 360V070")]);
   iseq (rmap VStr (rmap (fun x => section 0 (me_sections x)) x0)) (VStr (py "SPECI LTBG 181003Z VRB02KT 9999 -SHRA BKN030 BKN100 09/09 Q1013 RESHRA"));
   iseq (rmap VStr (rmap (fun x => section 1 (me_sections x)) x0)) (VStr (py "BECMG TL1045 RA TEMPO FM1100 DZ"));
   iseq (rmap VStr (rmap (fun x => section 2 (me_sections x)) x0)) (VStr (py "RMK RWY18 04006KT 360V070"))].

Check (eq_refl true <: forallb (fun b => b) t_metar_test_sections_test_sections_two_weather_trends = true).

(* tests/metar/test_should_be_cavok.py:7 test_clear_conditions *)
Definition t_metar_test_should_be_cavok_test_clear_conditions : list bool :=
  let x0 := (metar_parse E (py "METAR KLAX 302053Z 25009KT 10SM CLR 23/17 A2985 RMK AO2 SLP107 T02330167 58018") None None false) in
  let x1 := (metar_parse E (py "METAR UUDD 300400Z 15003MPS 5000 BR NSC 05/05 Q1014 R14R/CLRD60 TEMPO 0300 FG") None None false) in
  let x2 := (metar_parse E (py "METAR MROC 030500Z 07005KT 030V100 9999 SKC 21/18 A3011 NOSIG") None None false) in
  [iseq (rmap vopt (rmap cl_cover (bind (rmap (fun x => c_clouds (me_common x)) x0) (fun g => gl_get g 0%Z)))) (VStr (py "clear"));
   iseq (rmap VBool (bind (rmap (fun x => c_clouds (me_common x)) x0) (fun g => ceiling_of (gl_list g)))) (VBool false);
   iseq (rmap VBool (rmap fst (bind x0 (fun x => should_be_cavok false (me_common x))))) (VBool true);
   iseq (rmap vopt (rmap cl_cover (bind (rmap (fun x => c_clouds (me_common x)) x1) (fun g => gl_get g 0%Z)))) (VStr (py "clear"));
   iseq (rmap VBool (bind (rmap (fun x => c_clouds (me_common x)) x1) (fun g => ceiling_of (gl_list g)))) (VBool false);
   iseq (rmap VBool (rmap fst (bind x1 (fun x => should_be_cavok false (me_common x))))) (VBool false);
   iseq (rmap vopt (rmap cl_cover (bind (rmap (fun x => c_clouds (me_common x)) x2) (fun g => gl_get g 0%Z)))) (VStr (py "clear"));
   iseq (rmap VBool (bind (rmap (fun x => c_clouds (me_common x)) x2) (fun g => ceiling_of (gl_list g)))) (VBool false);
   iseq (rmap VBool (rmap fst (bind x2 (fun x => should_be_cavok false (me_common x))))) (VBool true)].

Check (eq_refl true <: forallb (fun b => b) t_metar_test_should_be_cavok_test_clear_conditions = true).

(* tests/metar/test_should_be_cavok.py:31 test_general_conditions *)
Definition t_metar_test_should_be_cavok_test_general_conditions : list bool :=
  let x0 := (metar_parse E (py "KATL 052052Z 33009G16KT 10SM FEW200 FEW250 26/03 A3002 RMK AO2 SLP162 T02560028 56014") None None false) in
  let x1 := (metar_parse E (py "KBOS 052054Z 01012KT 7SM BKN009 OVC013 14/13 A2991 RMK AO2 DZB18E34 SLP128 P0000 60000 T01440128 50004 $") None None false) in
  let x2 := (metar_parse E (py "KBWI 052054Z 31005KT 10SM SCT020 BKN035 BKN045 18/13 A2995 RMK AO2 SLP140 T01780128 55001 $") None None false) in
  let x3 := (metar_parse E (py "KCLE 052051Z 01007KT 10SM FEW250 22/06 A3005 RMK AO2 SLP191 T02170061 56012") None None false) in
  let x4 := (metar_parse E (py "KCLT 052052Z 32007KT 10SM FEW200 25/09 A2999 RMK SLP149 T02500089 56009") None None false) in
  let x5 := (metar_parse E (py "KCVG 052052Z 31005KT 10SM BKN300 24/04 A3008 RMK AO2 SLP182 T02390039 56017") None None false) in
  let x6 := (metar_parse E (py "KDCA 052058Z 35010KT 10SM SCT028 BKN039 OVC046 19/13 A2996 RMK AO2 T01940133") None None false) in
  let x7 := (metar_parse E (py "KDEN 052053Z 04007KT 10SM SCT045 SCT200 20/06 A3030 RMK AO2 SLP204 T02000056 58012") None None false) in
  let x8 := (metar_parse E (py "KDFW 052053Z 04004KT 10SM SCT250 31/06 A3004 RMK AO2 SLP164 T03060056 56020") None None false) in
  let x9 := (metar_parse E (py "KDTW 052053Z 32009KT 10SM FEW130 BKN250 24/08 A3005 RMK AO2 SLP173 T02440083 56016 PNO") None None false) in
  let x10 := (metar_parse E (py "KEWR 052055Z 02008KT 6SM -RA BR SCT008 BKN013 OVC025 13/13 A2992 RMK AO2 P0000 T01280128") None None false) in
  let x11 := (metar_parse E (py "KFLL 052053Z 06009KT 10SM SCT040 SCT075 BKN090 28/19 A2995 RMK AO2 SLP140 T02780194 55007") None None false) in
  let x12 := (metar_parse E (py "KIAD 052052Z 33012KT 10SM FEW037 BKN100 21/12 A2996 RMK AO2 SLP145 T02110117 55006") None None false) in
  let x13 := (metar_parse E (py "KIAH 052053Z 05005KT 10SM FEW060 30/12 A3002 RMK AO2 SLP164 T03000122 56023") None None false) in
  let x14 := (metar_parse E (py "KJFK 052102Z 33011KT 10SM -RA FEW006 BKN080 OVC100 13/13 A2989 RMK AO2 VIS 2 1/2 W P0002 T01330133") None None false) in
  let x15 := (metar_parse E (py "KLAS 052056Z 00000KT 10SM FEW140 31/01 A3002 RMK AO2 SLP141 T03110011 58023") None None false) in
  let x16 := (metar_parse E (py "KLAX 052053Z 24012KT 8SM FEW009 SCT018 23/18 A2996 RMK AO2 SLP142 T02330178 58013") None None false) in
  let x17 := (metar_parse E (py "KLGA 052113Z 33010KT 10SM SCT016 OVC065 14/12 A2989 RMK AO2 T01440122") None None false) in
  let x18 := (metar_parse E (py "KMCO 052053Z 03004KT 10SM SCT055 28/14 A2998 RMK AO2 SLP150 T02780144 55013") None None false) in
  let x19 := (metar_parse E (py "KMDW 052053Z 24010KT 10SM SCT150 BKN200 BKN250 25/00 A3005 RMK AO2 SLP171 T02500000 56020") None None false) in
  let x20 := (metar_parse E (py "KMEM 052054Z 35006KT 10SM FEW250 26/04 A3008 RMK AO2 SLP181 T02610044 56018") None None false) in
  let x21 := (metar_parse E (py "KMIA 052053Z COR 05010KT 10SM -RA BKN035 BKN060 BKN080 28/20 A2995 RMK AO2 RAB41 SLP144 P0000 60000 T02830200 55004") None None false) in
  let x22 := (metar_parse E (py "KMSP 052053Z 28006KT 10SM FEW030 FEW040 BKN090 21/13 A2999 RMK AO2 SLP152 T02060128 55007") None None false) in
  let x23 := (metar_parse E (py "KORD 052051Z VRB06KT 10SM SCT170 BKN200 BKN250 24/01 A3004 RMK AO2 SLP172 T02390006 56020") None None false) in
  let x24 := (metar_parse E (py "KPDX 052118Z 00000KT 10SM BKN017 19/13 A3013 RMK AO2 T01940133") None None false) in
  let x25 := (metar_parse E (py "KPHL 052054Z 36007G18KT 10SM OVC016 18/13 A2993 RMK AO2 SLP134 T01780133 53004") None None false) in
  let x26 := (metar_parse E (py "KPHX 052051Z 18004KT 10SM FEW090 FEW250 33/10 A2990 RMK AO2 SLP107 CB DSNT E AND S AND NW T03330100 58028") None None false) in
  let x27 := (metar_parse E (py "KPIT 052051Z 32007KT 10SM FEW250 21/03 A3005 RMK AO2 SLP183 T02110033 56010") None None false) in
  let x28 := (metar_parse E (py "KSAN 052102Z 29006KT 10SM OVC009 21/17 A2997 RMK AO2 T02060172") None None false) in
  let x29 := (metar_parse E (py "KSEA 052053Z 28004KT 3SM BR OVC007 15/13 A3019 RMK AO2 SLP229 T01500128 58007") None None false) in
  let x30 := (metar_parse E (py "KSFO 052056Z 34008KT 10SM FEW006 22/14 A2999 RMK AO2 SLP155 T02170139 58018") None None false) in
  let x31 := (metar_parse E (py "KSLC 052054Z 31008KT 10SM FEW100 26/04 A3021 RMK AO2 SLP187 T02560039 58014") None None false) in
  let x32 := (metar_parse E (py "KSTL 052051Z VRB03KT 10SM BKN140 BKN250 26/03 A3007 RMK AO2 SLP179 T02560033 56021") None None false) in
  let x33 := (metar_parse E (py "KTPA 052053Z 26007KT 10SM SCT050 SCT250 27/17 A2997 RMK AO2 SLP149 T02720167 56014") None None false) in
  [iseq (rmap VBool (rmap fst (bind x0 (fun x => should_be_cavok false (me_common x))))) (VBool true);
   iseq (rmap VBool (rmap fst (bind x1 (fun x => should_be_cavok false (me_common x))))) (VBool false);
   iseq (rmap VBool (rmap fst (bind x2 (fun x => should_be_cavok false (me_common x))))) (VBool false);
   iseq (rmap VBool (rmap fst (bind x3 (fun x => should_be_cavok false (me_common x))))) (VBool true);
   iseq (rmap VBool (rmap fst (bind x4 (fun x => should_be_cavok false (me_common x))))) (VBool true);
   iseq (rmap VBool (rmap fst (bind x5 (fun x => should_be_cavok false (me_common x))))) (VBool true);
   iseq (rmap VBool (rmap fst (bind x6 (fun x => should_be_cavok false (me_common x))))) (VBool false);
   iseq (rmap VBool (rmap fst (bind x7 (fun x => should_be_cavok false (me_common x))))) (VBool false);
   iseq (rmap VBool (rmap fst (bind x8 (fun x => should_be_cavok false (me_common x))))) (VBool true);
   iseq (rmap VBool (rmap fst (bind x9 (fun x => should_be_cavok false (me_common x))))) (VBool true);
   iseq (rmap VBool (rmap fst (bind x10 (fun x => should_be_cavok false (me_common x))))) (VBool false);
   iseq (rmap VBool (rmap fst (bind x11 (fun x => should_be_cavok false (me_common x))))) (VBool false);
   iseq (rmap VBool (rmap fst (bind x12 (fun x => should_be_cavok false (me_common x))))) (VBool false);
   iseq (rmap VBool (rmap fst (bind x13 (fun x => should_be_cavok false (me_common x))))) (VBool true);
   iseq (rmap VBool (rmap fst (bind x14 (fun x => should_be_cavok false (me_common x))))) (VBool false);
   iseq (rmap VBool (rmap fst (bind x15 (fun x => should_be_cavok false (me_common x))))) (VBool true);
   iseq (rmap VBool (rmap fst (bind x16 (fun x => should_be_cavok false (me_common x))))) (VBool false);
   iseq (rmap VBool (rmap fst (bind x17 (fun x => should_be_cavok false (me_common x))))) (VBool false);
   iseq (rmap VBool (rmap fst (bind x18 (fun x => should_be_cavok false (me_common x))))) (VBool true);
   iseq (rmap VBool (rmap fst (bind x19 (fun x => should_be_cavok false (me_common x))))) (VBool true);
   iseq (rmap VBool (rmap fst (bind x20 (fun x => should_be_cavok false (me_common x))))) (VBool true);
   iseq (rmap VBool (rmap fst (bind x21 (fun x => should_be_cavok false (me_common x))))) (VBool false);
   iseq (rmap VBool (rmap fst (bind x22 (fun x => should_be_cavok false (me_common x))))) (VBool false);
   iseq (rmap VBool (rmap fst (bind x23 (fun x => should_be_cavok false (me_common x))))) (VBool true);
   iseq (rmap VBool (rmap fst (bind x24 (fun x => should_be_cavok false (me_common x))))) (VBool false);
   iseq (rmap VBool (rmap fst (bind x25 (fun x => should_be_cavok false (me_common x))))) (VBool false);
   iseq (rmap VBool (rmap fst (bind x26 (fun x => should_be_cavok false (me_common x))))) (VBool true);
   iseq (rmap VBool (rmap fst (bind x27 (fun x => should_be_cavok false (me_common x))))) (VBool true);
   iseq (rmap VBool (rmap fst (bind x28 (fun x => should_be_cavok false (me_common x))))) (VBool false);
   iseq (rmap VBool (rmap fst (bind x29 (fun x => should_be_cavok false (me_common x))))) (VBool false);
   iseq (rmap VBool (rmap fst (bind x30 (fun x => should_be_cavok false (me_common x))))) (VBool false);
   iseq (rmap VBool (rmap fst (bind x31 (fun x => should_be_cavok false (me_common x))))) (VBool true);
   iseq (rmap VBool (rmap fst (bind x32 (fun x => should_be_cavok false (me_common x))))) (VBool true);
   iseq (rmap VBool (rmap fst (bind x33 (fun x => should_be_cavok false (me_common x))))) (VBool true)].

Check (eq_refl true <: forallb (fun b => b) t_metar_test_should_be_cavok_test_general_conditions = true).

(* tests/metar/test_station.py:4 test_metar_station *)
Definition t_metar_test_station_test_metar_station : list bool :=
  let x0 := (metar_parse E (py "METAR KJFK 122051Z 32004KT 10SM OVC065 M02/M15 A3031 RMK AO2 SLP264 T10171150 56004") None None false) in
  [iseq (rmap vopt (rmap st_code (rmap me_station x0))) (VStr (py "KJFK"));
   iseq (rmap vopt (rmap st_name (rmap me_station x0))) (VStr (py "NY NYC/JFK ARPT"));
   iseq (rmap vopt (rmap st_icao (rmap me_station x0))) (VStr (py "KJFK"));
   iseq (rmap vopt (rmap st_iata (rmap me_station x0))) (VStr (py "JFK"));
   iseq (rmap vopt (rmap st_synop (rmap me_station x0))) (VStr (py "74486"));
   iseq (rmap vopt (rmap st_latitude (rmap me_station x0))) (VStr (py "40.38N"));
   iseq (rmap vopt (rmap st_longitude (rmap me_station x0))) (VStr (py "073.46W"));
   iseq (rmap vopt (rmap st_elevation (rmap me_station x0))) (VStr (py "9"));
   iseq (rmap vopt (rmap (st_country E) (rmap me_station x0))) (VStr (py "United States of America (the)"));
   iseq (rmap VStr (rmap (station_str E) (rmap me_station x0))) (VStr (py "Name: NY NYC/JFK ARPT | Coordinates: 40.38N 073.46W | Elevation: 9 m MSL | Country: United States of America (the)"));
   iseq (rmap (fun v => v) (rmap (fun x => VDict ((station_dict E) x)) (rmap me_station x0))) (VDict [(py "code", VStr (py "KJFK")); (py "country", VStr (py "United States of America (the)")); (py "elevation", VStr (py "9")); (py "iata", VStr (py "JFK")); (py "icao", VStr (py "KJFK")); (py "latitude", VStr (py "40.38N")); (py "longitude", VStr (py "073.46W")); (py "name", VStr (py "NY NYC/JFK ARPT")); (py "synop", VStr (py "74486"))])].

Check (eq_refl true <: forallb (fun b => b) t_metar_test_station_test_metar_station = true).

(* tests/metar/test_temperatures.py:6 test_positive_temperatures *)
Definition t_metar_test_temperatures_test_positive_temperatures : list bool :=
  let x0 := (metar_parse E (py "METAR LHBP 191530Z 17007KT 9999 VCSH FEW018CB SCT029 04/02 Q1015 NOSIG") None None false) in
  [iseq (rmap vopt (rmap te_code (rmap me_temps x0))) (VStr (py "04/02"));
   iseq (rmap vflo (rmap te_temp (rmap me_temps x0))) (VFloat (flit "4.0"));
   iseq (rmap vflo (rmap (fun t => in_kelvin (te_temp t)) (rmap me_temps x0))) (VFloat (flit "277.15"));
   approx (rmap vflo (rmap (fun t => in_fahrenheit (te_temp t)) (rmap me_temps x0))) (flit "39.2") (flit "1e-06");
   approx (rmap vflo (rmap (fun t => in_rankine (te_temp t)) (rmap me_temps x0))) (flit "498.87") (flit "1e-06");
   iseq (rmap vflo (rmap te_dewpt (rmap me_temps x0))) (VFloat (flit "2.0"));
   iseq (rmap vflo (rmap (fun t => in_kelvin (te_dewpt t)) (rmap me_temps x0))) (VFloat (flit "275.15"));
   approx (rmap vflo (rmap (fun t => in_fahrenheit (te_dewpt t)) (rmap me_temps x0))) (flit "35.6") (flit "1e-06");
   approx (rmap vflo (rmap (fun t => in_rankine (te_dewpt t)) (rmap me_temps x0))) (flit "495.27") (flit "1e-06");
   iseq (rmap VStr (rmap temperatures_str (rmap me_temps x0))) (VStr ((py "temperature: 4.0" ++ [176%N] ++ py "C | dewpoint: 2.0" ++ [176%N] ++ py "C")));
   iseq (rmap (fun v => v) (rmap (fun x => VDict (temps_dict x)) (rmap me_temps x0))) (VDict [(py "code", VStr (py "04/02")); (py "dewpoint", VDict [(py "temperature", VFloat (flit "2.0")); (py "units", VStr (py "celsius"))]); (py "temperature", VDict [(py "temperature", VFloat (flit "4.0")); (py "units", VStr (py "celsius"))])])].

Check (eq_refl true <: forallb (fun b => b) t_metar_test_temperatures_test_positive_temperatures = true).

(* tests/metar/test_temperatures.py:29 test_negative_temperatures *)
Definition t_metar_test_temperatures_test_negative_temperatures : list bool :=
  let x0 := (metar_parse E (py "METAR LHBP 191530Z 17007KT 9999 VCSH FEW018CB SCT029 M01/M04 Q1015 NOSIG") None None false) in
  [iseq (rmap vopt (rmap te_code (rmap me_temps x0))) (VStr (py "M01/M04"));
   iseq (rmap vflo (rmap te_temp (rmap me_temps x0))) (VFloat (flit "-1.0"));
   iseq (rmap vflo (rmap (fun t => in_kelvin (te_temp t)) (rmap me_temps x0))) (VFloat (flit "272.15"));
   approx (rmap vflo (rmap (fun t => in_fahrenheit (te_temp t)) (rmap me_temps x0))) (flit "30.2") (flit "1e-06");
   approx (rmap vflo (rmap (fun t => in_rankine (te_temp t)) (rmap me_temps x0))) (flit "489.87") (flit "1e-06");
   iseq (rmap vflo (rmap te_dewpt (rmap me_temps x0))) (VFloat (flit "-4.0"));
   iseq (rmap vflo (rmap (fun t => in_kelvin (te_dewpt t)) (rmap me_temps x0))) (VFloat (flit "269.15"));
   approx (rmap vflo (rmap (fun t => in_fahrenheit (te_dewpt t)) (rmap me_temps x0))) (flit "24.8") (flit "1e-06");
   approx (rmap vflo (rmap (fun t => in_rankine (te_dewpt t)) (rmap me_temps x0))) (flit "484.47") (flit "1e-06");
   iseq (rmap VStr (rmap temperatures_str (rmap me_temps x0))) (VStr ((py "temperature: -1.0" ++ [176%N] ++ py "C | dewpoint: -4.0" ++ [176%N] ++ py "C")));
   iseq (rmap (fun v => v) (rmap (fun x => VDict (temps_dict x)) (rmap me_temps x0))) (VDict [(py "code", VStr (py "M01/M04")); (py "dewpoint", VDict [(py "temperature", VFloat (flit "-4.0")); (py "units", VStr (py "celsius"))]); (py "temperature", VDict [(py "temperature", VFloat (flit "-1.0")); (py "units", VStr (py "celsius"))])])].

Check (eq_refl true <: forallb (fun b => b) t_metar_test_temperatures_test_negative_temperatures = true).

(* tests/metar/test_temperatures.py:52 test_no_temperatures *)
Definition t_metar_test_temperatures_test_no_temperatures : list bool :=
  let x0 := (metar_parse E (py "METAR MSSS 182050Z 17011KT 130V220 9999 FEW060 ///// Q1012 A2990") None None false) in
  [iseq (rmap vopt (rmap te_code (rmap me_temps x0))) (VStr (py "/////"));
   iseq (rmap vflo (rmap te_temp (rmap me_temps x0))) (VNone);
   iseq (rmap vflo (rmap (fun t => in_kelvin (te_temp t)) (rmap me_temps x0))) (VNone);
   iseq (rmap vflo (rmap (fun t => in_fahrenheit (te_temp t)) (rmap me_temps x0))) (VNone);
   iseq (rmap vflo (rmap (fun t => in_rankine (te_temp t)) (rmap me_temps x0))) (VNone);
   iseq (rmap vflo (rmap te_dewpt (rmap me_temps x0))) (VNone);
   iseq (rmap vflo (rmap (fun t => in_kelvin (te_dewpt t)) (rmap me_temps x0))) (VNone);
   iseq (rmap vflo (rmap (fun t => in_fahrenheit (te_dewpt t)) (rmap me_temps x0))) (VNone);
   iseq (rmap vflo (rmap (fun t => in_rankine (te_dewpt t)) (rmap me_temps x0))) (VNone);
   iseq (rmap VStr (rmap temperatures_str (rmap me_temps x0))) (VStr []);
   iseq (rmap (fun v => v) (rmap (fun x => VDict (temps_dict x)) (rmap me_temps x0))) (VDict [(py "code", VStr (py "/////")); (py "dewpoint", VDict [(py "temperature", VNone); (py "units", VStr (py "celsius"))]); (py "temperature", VDict [(py "temperature", VNone); (py "units", VStr (py "celsius"))])])].

Check (eq_refl true <: forallb (fun b => b) t_metar_test_temperatures_test_no_temperatures = true).

(* tests/metar/test_time.py:4 test_code *)
Definition t_metar_test_time_test_code : list bool :=
  let x0 := (metar_parse E (py "SPECI UUDD 212130Z COR 35003MPS 320V020 CAVOK 18/12 Q1008 R88/60D NOSIG") (Some 2021%Z) (Some 7%Z) false) in
  [iseq (rmap vopt (rmap t_code (rmap me_time x0))) (VStr (py "212130Z"));
   iseq (rmap (fun z => VFloat (float_of_Z z)) (rmap (fun t => dt_year (t_dt t)) (rmap me_time x0))) (VFloat (flit "2021.0"));
   iseq (rmap (fun z => VFloat (float_of_Z z)) (rmap (fun t => dt_month (t_dt t)) (rmap me_time x0))) (VFloat (flit "7.0"));
   iseq (rmap (fun z => VFloat (float_of_Z z)) (rmap (fun t => dt_day (t_dt t)) (rmap me_time x0))) (VFloat (flit "21.0"));
   iseq (rmap (fun z => VFloat (float_of_Z z)) (rmap (fun t => dt_hour (t_dt t)) (rmap me_time x0))) (VFloat (flit "21.0"));
   iseq (rmap (fun z => VFloat (float_of_Z z)) (rmap (fun t => dt_minute (t_dt t)) (rmap me_time x0))) (VFloat (flit "30.0"));
   iseq (rmap VStr (rmap time_str (rmap me_time x0))) (VStr (py "2021-07-21 21:30:00"));
   iseq (rmap (fun v => v) (rmap (fun x => VDict (time_dict x)) (rmap me_time x0))) (VDict [(py "code", VStr (py "212130Z")); (py "datetime", VStr (py "2021-07-21 21:30:00"))])].

Check (eq_refl true <: forallb (fun b => b) t_metar_test_time_test_code = true).

(* tests/metar/test_time.py:22 test_no_code *)
Definition t_metar_test_time_test_no_code : list bool :=
  let x0 := (metar_parse E (py "METAR UUDD NIL") (Some 2021%Z) (Some 7%Z) false) in
  [iseq (rmap vopt (rmap t_code (rmap me_time x0))) (VNone);
   iseq (rmap (fun z => VFloat (float_of_Z z)) (rmap (fun t => dt_year (t_dt t)) (rmap me_time x0))) (VFloat (flit "2021.0"));
   iseq (rmap (fun z => VFloat (float_of_Z z)) (rmap (fun t => dt_month (t_dt t)) (rmap me_time x0))) (VFloat (flit "7.0"));
   iseq (rmap (fun z => VFloat (float_of_Z z)) (rmap (fun t => dt_day (t_dt t)) (rmap me_time x0))) (VFloat (flit "1.0"));
   iseq (rmap (fun z => VFloat (float_of_Z z)) (rmap (fun t => dt_hour (t_dt t)) (rmap me_time x0))) (VFloat (flit "0.0"));
   iseq (rmap (fun z => VFloat (float_of_Z z)) (rmap (fun t => dt_minute (t_dt t)) (rmap me_time x0))) (VFloat (flit "0.0"));
   iseq (rmap VStr (rmap time_str (rmap me_time x0))) (VStr (py "2021-07-01 00:00:00"));
   iseq (rmap (fun v => v) (rmap (fun x => VDict (time_dict x)) (rmap me_time x0))) (VDict [(py "code", VNone); (py "datetime", VStr (py "2021-07-01 00:00:00"))])].

Check (eq_refl true <: forallb (fun b => b) t_metar_test_time_test_no_code = true).

(* tests/metar/test_type.py:4 test_metar_type *)
Definition t_metar_test_type_test_metar_type : list bool :=
  let x0 := (metar_parse E (py "METAR UUDD 060000Z 18004MPS CAVOK M01/M04 Q1002 R14R/CLRD60 NOSIG") None None false) in
  [iseq (rmap vopt (rmap ty_code (rmap me_type x0))) (VStr (py "METAR"));
   iseq (rmap vopt (rmap ty_type (rmap me_type x0))) (VStr (py "Meteorological Aerodrome Report"));
   iseq (rmap VStr (rmap type_str (rmap me_type x0))) (VStr (py "Meteorological Aerodrome Report (METAR)"));
   iseq (rmap (fun v => v) (rmap (fun x => VDict (type_dict x)) (rmap me_type x0))) (VDict [(py "code", VStr (py "METAR")); (py "type", VStr (py "Meteorological Aerodrome Report"))])].

Check (eq_refl true <: forallb (fun b => b) t_metar_test_type_test_metar_type = true).

(* tests/metar/test_type.py:15 test_special_type *)
Definition t_metar_test_type_test_special_type : list bool :=
  let x0 := (metar_parse E (py "SPECI UUDD 060030Z 18004MPS CAVOK M01/M04 Q1002 R14R/CLRD60 NOSIG") None None false) in
  [iseq (rmap vopt (rmap ty_code (rmap me_type x0))) (VStr (py "SPECI"));
   iseq (rmap vopt (rmap ty_type (rmap me_type x0))) (VStr (py "Special Aerodrome Report"));
   iseq (rmap VStr (rmap type_str (rmap me_type x0))) (VStr (py "Special Aerodrome Report (SPECI)"));
   iseq (rmap (fun v => v) (rmap (fun x => VDict (type_dict x)) (rmap me_type x0))) (VDict [(py "code", VStr (py "SPECI")); (py "type", VStr (py "Special Aerodrome Report"))])].

Check (eq_refl true <: forallb (fun b => b) t_metar_test_type_test_special_type = true).

(* tests/metar/test_type.py:26 test_no_type *)
Definition t_metar_test_type_test_no_type : list bool :=
  let x0 := (metar_parse E (py "UUDD 060030Z 18004MPS CAVOK M01/M04 Q1002 R14R/CLRD60 NOSIG") None None false) in
  [iseq (rmap vopt (rmap ty_code (rmap me_type x0))) (VStr (py "METAR"));
   iseq (rmap vopt (rmap ty_type (rmap me_type x0))) (VStr (py "Meteorological Aerodrome Report"));
   iseq (rmap VStr (rmap type_str (rmap me_type x0))) (VStr (py "Meteorological Aerodrome Report (METAR)"));
   iseq (rmap (fun v => v) (rmap (fun x => VDict (type_dict x)) (rmap me_type x0))) (VDict [(py "code", VStr (py "METAR")); (py "type", VStr (py "Meteorological Aerodrome Report"))])].

Check (eq_refl true <: forallb (fun b => b) t_metar_test_type_test_no_type = true).

(* tests/metar/test_unparsed_groups.py:30 test_unparsed_groups *)
Definition t_metar_test_unparsed_groups_test_unparsed_groups : list bool :=
  let x0 := (metar_parse E (py "METAR MRLM 141200Z 000O0KT 9999 SCT0320 BKN080 22/21 A2990") None None false) in
  let x1 := (metar_parse E (py "METAR MRLM 271500Z 11005KT 9999 FEW025 BKN25O 29/22 A2984 RMK HZY") None None false) in
  let x2 := (metar_parse E (py "METAR MRLM 072200Z 00000KT 9999 TSRA FEW015CV SCT018 BKN130 27/24 A2978") None None false) in
  let x3 := (metar_parse E (py "METAR MRLM 041300Z 23003KT 9999 FEW0230 SCT240 25/22 A2983") None None false) in
  let x4 := (metar_parse E (py "METAR MRLM 101800Z 25005KT 9999 3000 SW TSRA FEW006 SCT15CB BKN035  23/22 A2984 RMK TS SW W") None None false) in
  let x5 := (metar_parse E (py "METAR MRLM 010000Z VRB03KT 9999 FEW018 SCT0130 BKN270 27/23 A2973") None None false) in
  let x6 := (metar_parse E (py "METAR MRLM 111400Z VBR03KT 9999 CAVOK 26/23 A2982") None None false) in
  let x7 := (metar_parse E (py "METAR MRLM 221800Z 08012KT 9999 FEW028 SCT110 BKN270 30/24 Q1011 A2986 RMK CB DST SW RN DST ENE") None None false) in
  let x8 := (metar_parse E (py "METAR MRLM 272200Z 31107KT 9999 FEW032 RA BKN140 28/2 A2977 RMK CB RN DST S") None None false) in
  let x9 := (metar_parse E (py "METAR MSSS 081250Z 13003KT 2000 BR SCT010 22/22 Q1015 BECMG 34505KT") None None false) in
  [iseq (rmap (fun l => VList (map VStr l)) (rmap me_unparsed x0)) (VList [VStr (py "000O0KT"); VStr (py "SCT0320")]);
   iseq (rmap (fun l => VList (map VStr l)) (rmap me_unparsed x1)) (VList [VStr (py "BKN25O")]);
   iseq (rmap (fun l => VList (map VStr l)) (rmap me_unparsed x2)) (VList [VStr (py "FEW015CV")]);
   iseq (rmap (fun l => VList (map VStr l)) (rmap me_unparsed x3)) (VList [VStr (py "FEW0230")]);
   iseq (rmap (fun l => VList (map VStr l)) (rmap me_unparsed x4)) (VList [VStr (py "SW"); VStr (py "SCT15CB")]);
   iseq (rmap (fun l => VList (map VStr l)) (rmap me_unparsed x5)) (VList [VStr (py "SCT0130")]);
   iseq (rmap (fun l => VList (map VStr l)) (rmap me_unparsed x6)) (VList [VStr (py "VBR03KT"); VStr (py "CAVOK")]);
   iseq (rmap (fun l => VList (map VStr l)) (rmap me_unparsed x7)) (VList []);
   iseq (rmap (fun l => VList (map VStr l)) (rmap me_unparsed x8)) (VList [VStr (py "31107KT"); VStr (py "RA"); VStr (py "28/2")]);
   iseq (rmap (fun l => VList (map VStr l)) (rmap me_unparsed x9)) (VList [VStr (py "34505KT")])].

Check (eq_refl true <: forallb (fun b => b) t_metar_test_unparsed_groups_test_unparsed_groups = true).

(* tests/metar/test_visibility.py:4 test_visibility_from_meters *)
Definition t_metar_test_visibility_test_visibility_from_meters : list bool :=
  let x0 := (metar_parse E (py "METAR SBBV 170400Z 08004KT 9999 SCT030 FEW035TCU BKN070 26/23 Q1012") None None false) in
  [iseq (rmap vopt (rmap v_code (rmap (fun x => c_vis (me_common x)) x0))) (VStr (py "9999"));
   iseq (rmap vflo (rmap v_vis (rmap (fun x => c_vis (me_common x)) x0))) (VFloat (flit "10000.0"));
   iseq (rmap vflo (rmap (fun v => in_kilometers (v_vis v)) (rmap (fun x => c_vis (me_common x)) x0))) (VFloat (flit "10.0"));
   iseq (rmap vflo (rmap (fun v => in_sea_miles (v_vis v)) (rmap (fun x => c_vis (me_common x)) x0))) (VFloat (flit "5.399568034557235"));
   iseq (rmap vflo (rmap (fun v => in_feet (v_vis v)) (rmap (fun x => c_vis (me_common x)) x0))) (VFloat (flit "32808.39895013123"));
   iseq (rmap VBool (rmap v_cavok (rmap (fun x => c_vis (me_common x)) x0))) (VBool false);
   iseq (rmap vopt (rmap (fun v => cardinal (v_dir v)) (rmap (fun x => c_vis (me_common x)) x0))) (VNone);
   iseq (rmap vflo (rmap (fun v => dir_value (v_dir v)) (rmap (fun x => c_vis (me_common x)) x0))) (VNone);
   iseq (rmap vflo (rmap (fun v => in_radians (v_dir v)) (rmap (fun x => c_vis (me_common x)) x0))) (VNone);
   iseq (rmap VStr (rmap prevailing_str (rmap (fun x => c_vis (me_common x)) x0))) (VStr (py "10.0 km"));
   iseq (rmap (fun v => v) (rmap (fun x => VDict (prevailing_dict x)) (rmap (fun x => c_vis (me_common x)) x0))) (VDict [(py "cavok", VBool false); (py "code", VStr (py "9999")); (py "direction", VDict [(py "cardinal", VNone); (py "direction", VNone); (py "units", VStr (py "degrees")); (py "variable", VBool false)]); (py "visibility", VDict [(py "distance", VFloat (flit "10000.0")); (py "units", VStr (py "meters"))])])].

Check (eq_refl true <: forallb (fun b => b) t_metar_test_visibility_test_visibility_from_meters = true).

(* tests/metar/test_visibility.py:31 test_visibility_from_seamiles *)
Definition t_metar_test_visibility_test_visibility_from_seamiles : list bool :=
  let x0 := (metar_parse E (py "METAR PALH 170933Z 00000KT 1 1/4SM BR FEW002 M14/M16 A2980 RMK AO2 T11441156") None None false) in
  [iseq (rmap vopt (rmap v_code (rmap (fun x => c_vis (me_common x)) x0))) (VStr (py "1 1/4SM"));
   iseq (rmap vflo (rmap v_vis (rmap (fun x => c_vis (me_common x)) x0))) (VFloat (flit "2315.0"));
   iseq (rmap vflo (rmap (fun v => in_kilometers (v_vis v)) (rmap (fun x => c_vis (me_common x)) x0))) (VFloat (flit "2.315"));
   iseq (rmap vflo (rmap (fun v => in_sea_miles (v_vis v)) (rmap (fun x => c_vis (me_common x)) x0))) (VFloat (flit "1.2499999999999998"));
   iseq (rmap vflo (rmap (fun v => in_feet (v_vis v)) (rmap (fun x => c_vis (me_common x)) x0))) (VFloat (flit "7595.144356955379"));
   iseq (rmap VBool (rmap v_cavok (rmap (fun x => c_vis (me_common x)) x0))) (VBool false);
   iseq (rmap vopt (rmap (fun v => cardinal (v_dir v)) (rmap (fun x => c_vis (me_common x)) x0))) (VNone);
   iseq (rmap vflo (rmap (fun v => dir_value (v_dir v)) (rmap (fun x => c_vis (me_common x)) x0))) (VNone);
   iseq (rmap vflo (rmap (fun v => in_radians (v_dir v)) (rmap (fun x => c_vis (me_common x)) x0))) (VNone);
   iseq (rmap VStr (rmap prevailing_str (rmap (fun x => c_vis (me_common x)) x0))) (VStr (py "2.3 km"));
   iseq (rmap (fun v => v) (rmap (fun x => VDict (prevailing_dict x)) (rmap (fun x => c_vis (me_common x)) x0))) (VDict [(py "cavok", VBool false); (py "code", VStr (py "1 1/4SM")); (py "direction", VDict [(py "cardinal", VNone); (py "direction", VNone); (py "units", VStr (py "degrees")); (py "variable", VBool false)]); (py "visibility", VDict [(py "distance", VFloat (flit "2315.0")); (py "units", VStr (py "meters"))])])].

Check (eq_refl true <: forallb (fun b => b) t_metar_test_visibility_test_visibility_from_seamiles = true).

(* tests/metar/test_visibility.py:60 test_visibility_from_seamiles_only_fraction *)
Definition t_metar_test_visibility_test_visibility_from_seamiles_only_fraction : list bool :=
  let x0 := (metar_parse E (py "METAR PALH 170933Z 00000KT 1/2SM BR FEW002 M14/M16 A2980 RMK AO2 T11441156") None None false) in
  [iseq (rmap vopt (rmap v_code (rmap (fun x => c_vis (me_common x)) x0))) (VStr (py "1/2SM"));
   iseq (rmap vflo (rmap v_vis (rmap (fun x => c_vis (me_common x)) x0))) (VFloat (flit "926.0"));
   iseq (rmap vflo (rmap (fun v => in_kilometers (v_vis v)) (rmap (fun x => c_vis (me_common x)) x0))) (VFloat (flit "0.926"));
   iseq (rmap vflo (rmap (fun v => in_sea_miles (v_vis v)) (rmap (fun x => c_vis (me_common x)) x0))) (VFloat (flit "0.49999999999999994"));
   iseq (rmap vflo (rmap (fun v => in_feet (v_vis v)) (rmap (fun x => c_vis (me_common x)) x0))) (VFloat (flit "3038.0577427821518"));
   iseq (rmap VBool (rmap v_cavok (rmap (fun x => c_vis (me_common x)) x0))) (VBool false);
   iseq (rmap vopt (rmap (fun v => cardinal (v_dir v)) (rmap (fun x => c_vis (me_common x)) x0))) (VNone);
   iseq (rmap vflo (rmap (fun v => dir_value (v_dir v)) (rmap (fun x => c_vis (me_common x)) x0))) (VNone);
   iseq (rmap vflo (rmap (fun v => in_radians (v_dir v)) (rmap (fun x => c_vis (me_common x)) x0))) (VNone);
   iseq (rmap VStr (rmap prevailing_str (rmap (fun x => c_vis (me_common x)) x0))) (VStr (py "0.9 km"));
   iseq (rmap (fun v => v) (rmap (fun x => VDict (prevailing_dict x)) (rmap (fun x => c_vis (me_common x)) x0))) (VDict [(py "cavok", VBool false); (py "code", VStr (py "1/2SM")); (py "direction", VDict [(py "cardinal", VNone); (py "direction", VNone); (py "units", VStr (py "degrees")); (py "variable", VBool false)]); (py "visibility", VDict [(py "distance", VFloat (flit "926.0")); (py "units", VStr (py "meters"))])])].

Check (eq_refl true <: forallb (fun b => b) t_metar_test_visibility_test_visibility_from_seamiles_only_fraction = true).

(* tests/metar/test_visibility.py:89 test_visibility_from_kilometers *)
Definition t_metar_test_visibility_test_visibility_from_kilometers : list bool :=
  let x0 := (metar_parse E (py "METAR SCAT 210900Z AUTO 18005KT 5KM OVC027/// 16/12 Q1013") None None false) in
  [iseq (rmap vopt (rmap v_code (rmap (fun x => c_vis (me_common x)) x0))) (VStr (py "5KM"));
   iseq (rmap vflo (rmap v_vis (rmap (fun x => c_vis (me_common x)) x0))) (VFloat (flit "5000.0"));
   iseq (rmap vflo (rmap (fun v => in_kilometers (v_vis v)) (rmap (fun x => c_vis (me_common x)) x0))) (VFloat (flit "5.0"));
   iseq (rmap vflo (rmap (fun v => in_sea_miles (v_vis v)) (rmap (fun x => c_vis (me_common x)) x0))) (VFloat (flit "2.6997840172786174"));
   iseq (rmap vflo (rmap (fun v => in_feet (v_vis v)) (rmap (fun x => c_vis (me_common x)) x0))) (VFloat (flit "16404.199475065616"));
   iseq (rmap VBool (rmap v_cavok (rmap (fun x => c_vis (me_common x)) x0))) (VBool false);
   iseq (rmap vopt (rmap (fun v => cardinal (v_dir v)) (rmap (fun x => c_vis (me_common x)) x0))) (VNone);
   iseq (rmap vflo (rmap (fun v => dir_value (v_dir v)) (rmap (fun x => c_vis (me_common x)) x0))) (VNone);
   iseq (rmap vflo (rmap (fun v => in_radians (v_dir v)) (rmap (fun x => c_vis (me_common x)) x0))) (VNone);
   iseq (rmap VStr (rmap prevailing_str (rmap (fun x => c_vis (me_common x)) x0))) (VStr (py "5.0 km"));
   iseq (rmap (fun v => v) (rmap (fun x => VDict (prevailing_dict x)) (rmap (fun x => c_vis (me_common x)) x0))) (VDict [(py "cavok", VBool false); (py "code", VStr (py "5KM")); (py "direction", VDict [(py "cardinal", VNone); (py "direction", VNone); (py "units", VStr (py "degrees")); (py "variable", VBool false)]); (py "visibility", VDict [(py "distance", VFloat (flit "5000.0")); (py "units", VStr (py "meters"))])])].

Check (eq_refl true <: forallb (fun b => b) t_metar_test_visibility_test_visibility_from_kilometers = true).

(* tests/metar/test_visibility.py:116 test_visibility_from_cavok *)
Definition t_metar_test_visibility_test_visibility_from_cavok : list bool :=
  let x0 := (metar_parse E (py "METAR SAAR 222000Z 13011KT 100V160 CAVOK 32/15 Q1012 RMK PP000") None None false) in
  [iseq (rmap vopt (rmap v_code (rmap (fun x => c_vis (me_common x)) x0))) (VStr (py "CAVOK"));
   iseq (rmap vflo (rmap v_vis (rmap (fun x => c_vis (me_common x)) x0))) (VFloat (flit "10000.0"));
   iseq (rmap vflo (rmap (fun v => in_kilometers (v_vis v)) (rmap (fun x => c_vis (me_common x)) x0))) (VFloat (flit "10.0"));
   iseq (rmap vflo (rmap (fun v => in_sea_miles (v_vis v)) (rmap (fun x => c_vis (me_common x)) x0))) (VFloat (flit "5.399568034557235"));
   iseq (rmap vflo (rmap (fun v => in_feet (v_vis v)) (rmap (fun x => c_vis (me_common x)) x0))) (VFloat (flit "32808.39895013123"));
   iseq (rmap VBool (rmap v_cavok (rmap (fun x => c_vis (me_common x)) x0))) (VBool true);
   iseq (rmap vopt (rmap (fun v => cardinal (v_dir v)) (rmap (fun x => c_vis (me_common x)) x0))) (VNone);
   iseq (rmap vflo (rmap (fun v => dir_value (v_dir v)) (rmap (fun x => c_vis (me_common x)) x0))) (VNone);
   iseq (rmap vflo (rmap (fun v => in_radians (v_dir v)) (rmap (fun x => c_vis (me_common x)) x0))) (VNone);
   iseq (rmap VStr (rmap prevailing_str (rmap (fun x => c_vis (me_common x)) x0))) (VStr (py "Ceiling and Visibility OK"));
   iseq (rmap (fun v => v) (rmap (fun x => VDict (prevailing_dict x)) (rmap (fun x => c_vis (me_common x)) x0))) (VDict [(py "cavok", VBool true); (py "code", VStr (py "CAVOK")); (py "direction", VDict [(py "cardinal", VNone); (py "direction", VNone); (py "units", VStr (py "degrees")); (py "variable", VBool false)]); (py "visibility", VDict [(py "distance", VFloat (flit "10000.0")); (py "units", VStr (py "meters"))])])].

Check (eq_refl true <: forallb (fun b => b) t_metar_test_visibility_test_visibility_from_cavok = true).

(* tests/metar/test_visibility.py:143 test_no_visibility *)
Definition t_metar_test_visibility_test_no_visibility : list bool :=
  let x0 := (metar_parse E (py "METAR PALH 170933Z 00000KT BR FEW002 M14/M16 A2980 RMK AO2 T11441156") None None false) in
  [iseq (rmap vopt (rmap v_code (rmap (fun x => c_vis (me_common x)) x0))) (VNone);
   iseq (rmap vflo (rmap v_vis (rmap (fun x => c_vis (me_common x)) x0))) (VNone);
   iseq (rmap vflo (rmap (fun v => in_kilometers (v_vis v)) (rmap (fun x => c_vis (me_common x)) x0))) (VNone);
   iseq (rmap vflo (rmap (fun v => in_sea_miles (v_vis v)) (rmap (fun x => c_vis (me_common x)) x0))) (VNone);
   iseq (rmap vflo (rmap (fun v => in_feet (v_vis v)) (rmap (fun x => c_vis (me_common x)) x0))) (VNone);
   iseq (rmap VBool (rmap v_cavok (rmap (fun x => c_vis (me_common x)) x0))) (VBool false);
   iseq (rmap vopt (rmap (fun v => cardinal (v_dir v)) (rmap (fun x => c_vis (me_common x)) x0))) (VNone);
   iseq (rmap vflo (rmap (fun v => dir_value (v_dir v)) (rmap (fun x => c_vis (me_common x)) x0))) (VNone);
   iseq (rmap vflo (rmap (fun v => in_radians (v_dir v)) (rmap (fun x => c_vis (me_common x)) x0))) (VNone);
   iseq (rmap VStr (rmap prevailing_str (rmap (fun x => c_vis (me_common x)) x0))) (VStr []);
   iseq (rmap (fun v => v) (rmap (fun x => VDict (prevailing_dict x)) (rmap (fun x => c_vis (me_common x)) x0))) (VDict [(py "cavok", VBool false); (py "code", VNone); (py "direction", VDict [(py "cardinal", VNone); (py "direction", VNone); (py "units", VStr (py "degrees")); (py "variable", VBool false)]); (py "visibility", VDict [(py "distance", VNone); (py "units", VStr (py "meters"))])])].

Check (eq_refl true <: forallb (fun b => b) t_metar_test_visibility_test_no_visibility = true).

(* tests/metar/test_visibility.py:172 test_minimum_visibility *)
Definition t_metar_test_visibility_test_minimum_visibility : list bool :=
  let x0 := (metar_parse E (py "METAR UUDD 180100Z 00000MPS 4800 2100NW -SN BR SCT025 M02/M03 Q1007 R32L/290042 NOSIG") None None false) in
  [iseq (rmap vopt (rmap v_code (rmap me_minvis x0))) (VStr (py "2100NW"));
   iseq (rmap vflo (rmap v_vis (rmap me_minvis x0))) (VFloat (flit "2100.0"));
   iseq (rmap vflo (rmap (fun v => in_kilometers (v_vis v)) (rmap me_minvis x0))) (VFloat (flit "2.1"));
   iseq (rmap vflo (rmap (fun v => in_sea_miles (v_vis v)) (rmap me_minvis x0))) (VFloat (flit "1.1339092872570193"));
   iseq (rmap vflo (rmap (fun v => in_feet (v_vis v)) (rmap me_minvis x0))) (VFloat (flit "6889.763779527559"));
   iseq (rmap vopt (rmap (fun v => cardinal (v_dir v)) (rmap me_minvis x0))) (VStr (py "NW"));
   iseq (rmap vflo (rmap (fun v => dir_value (v_dir v)) (rmap me_minvis x0))) (VFloat (flit "315.0"));
   iseq (rmap vflo (rmap (fun v => in_radians (v_dir v)) (rmap me_minvis x0))) (VFloat (flit "5.497787143782138"));
   iseq (rmap VStr (rmap visibility_dir_str (rmap me_minvis x0))) (VStr ((py "2.1 km to NW (315.0" ++ [176%N] ++ py ")")));
   iseq (rmap (fun v => v) (rmap (fun x => VDict (vis_dict x)) (rmap me_minvis x0))) (VDict [(py "code", VStr (py "2100NW")); (py "direction", VDict [(py "cardinal", VStr (py "NW")); (py "direction", VFloat (flit "315.0")); (py "units", VStr (py "degrees")); (py "variable", VBool false)]); (py "visibility", VDict [(py "distance", VFloat (flit "2100.0")); (py "units", VStr (py "meters"))])])].

Check (eq_refl true <: forallb (fun b => b) t_metar_test_visibility_test_minimum_visibility = true).

(* tests/metar/test_visibility.py:199 test_no_minimum_visibility *)
Definition t_metar_test_visibility_test_no_minimum_visibility : list bool :=
  let x0 := (metar_parse E (py "METAR UUDD 180100Z 25005MPS 4800 -SN BR SCT025 M02/M03 Q1007 R32L/290042 NOSIG") None None false) in
  [iseq (rmap vopt (rmap v_code (rmap me_minvis x0))) (VNone);
   iseq (rmap vflo (rmap v_vis (rmap me_minvis x0))) (VNone);
   iseq (rmap vflo (rmap (fun v => in_kilometers (v_vis v)) (rmap me_minvis x0))) (VNone);
   iseq (rmap vflo (rmap (fun v => in_sea_miles (v_vis v)) (rmap me_minvis x0))) (VNone);
   iseq (rmap vflo (rmap (fun v => in_feet (v_vis v)) (rmap me_minvis x0))) (VNone);
   iseq (rmap vopt (rmap (fun v => cardinal (v_dir v)) (rmap me_minvis x0))) (VNone);
   iseq (rmap vflo (rmap (fun v => dir_value (v_dir v)) (rmap me_minvis x0))) (VNone);
   iseq (rmap vflo (rmap (fun v => in_radians (v_dir v)) (rmap me_minvis x0))) (VNone);
   iseq (rmap VStr (rmap visibility_dir_str (rmap me_minvis x0))) (VStr []);
   iseq (rmap (fun v => v) (rmap (fun x => VDict (vis_dict x)) (rmap me_minvis x0))) (VDict [(py "code", VNone); (py "direction", VDict [(py "cardinal", VNone); (py "direction", VNone); (py "units", VStr (py "degrees")); (py "variable", VBool false)]); (py "visibility", VDict [(py "distance", VNone); (py "units", VStr (py "meters"))])])].

Check (eq_refl true <: forallb (fun b => b) t_metar_test_visibility_test_no_minimum_visibility = true).

(* tests/metar/test_weather.py:7 test_one_weather *)
Definition t_metar_test_weather_test_one_weather : list bool :=
  let x0 := (metar_parse E (py "METAR UUDD 190430Z 35004MPS 8000 -SN FEW012 M01/M03 Q1009 R32L/590240 NOSIG") None None false) in
  [iseq (rmap (fun l => VList (map vopt l)) (rmap (fun g => map we_code (gl_list g)) (rmap (fun x => c_weathers (me_common x)) x0))) (VList [VStr (py "-SN")]);
   iseq (rmap VStr (rmap (fun g => join (py " | ") (map weather_str (gl_list g))) (rmap (fun x => c_weathers (me_common x)) x0))) (VStr (py "light snow"));
   iseq (rmap vopt (rmap we_int (bind (rmap (fun x => c_weathers (me_common x)) x0) (fun g => gl_get g 0%Z)))) (VStr (py "light"));
   iseq (rmap vopt (rmap we_desc (bind (rmap (fun x => c_weathers (me_common x)) x0) (fun g => gl_get g 0%Z)))) (VNone);
   iseq (rmap vopt (rmap we_prec (bind (rmap (fun x => c_weathers (me_common x)) x0) (fun g => gl_get g 0%Z)))) (VStr (py "snow"));
   iseq (rmap vopt (rmap we_obsc (bind (rmap (fun x => c_weathers (me_common x)) x0) (fun g => gl_get g 0%Z)))) (VNone);
   iseq (rmap vopt (rmap we_other (bind (rmap (fun x => c_weathers (me_common x)) x0) (fun g => gl_get g 0%Z)))) (VNone);
   iseq (rmap (fun v => v) (rmap (fun x => VDict (weather_dict x)) (bind (rmap (fun x => c_weathers (me_common x)) x0) (fun g => gl_get g 0%Z)))) (VDict [(py "code", VStr (py "-SN")); (py "description", VNone); (py "intensity", VStr (py "light")); (py "obscuration", VNone); (py "other", VNone); (py "precipitation", VStr (py "snow"))]);
   israise (rmap we_code (bind (rmap (fun x => c_weathers (me_common x)) x0) (fun g => gl_get g 1%Z))) IndexError].

Check (eq_refl true <: forallb (fun b => b) t_metar_test_weather_test_one_weather = true).

(* tests/metar/test_weather.py:33 test_two_weathers *)
Definition t_metar_test_weather_test_two_weathers : list bool :=
  let x0 := (metar_parse E (py "METAR MRLM 191300Z 22005KT 6000 +DZ VCSH FEW010TCU OVC070 24/23 A2991 RERA") None None false) in
  [iseq (rmap (fun l => VList (map vopt l)) (rmap (fun g => map we_code (gl_list g)) (rmap (fun x => c_weathers (me_common x)) x0))) (VList [VStr (py "+DZ"); VStr (py "VCSH")]);
   iseq (rmap VStr (rmap (fun g => join (py " | ") (map weather_str (gl_list g))) (rmap (fun x => c_weathers (me_common x)) x0))) (VStr (py "heavy drizzle | nearby showers"));
   iseq (rmap vopt (rmap we_int (bind (rmap (fun x => c_weathers (me_common x)) x0) (fun g => gl_get g 0%Z)))) (VStr (py "heavy"));
   iseq (rmap vopt (rmap we_desc (bind (rmap (fun x => c_weathers (me_common x)) x0) (fun g => gl_get g 0%Z)))) (VNone);
   iseq (rmap vopt (rmap we_prec (bind (rmap (fun x => c_weathers (me_common x)) x0) (fun g => gl_get g 0%Z)))) (VStr (py "drizzle"));
   iseq (rmap vopt (rmap we_obsc (bind (rmap (fun x => c_weathers (me_common x)) x0) (fun g => gl_get g 0%Z)))) (VNone);
   iseq (rmap vopt (rmap we_other (bind (rmap (fun x => c_weathers (me_common x)) x0) (fun g => gl_get g 0%Z)))) (VNone);
   iseq (rmap (fun v => v) (rmap (fun x => VDict (weather_dict x)) (bind (rmap (fun x => c_weathers (me_common x)) x0) (fun g => gl_get g 0%Z)))) (VDict [(py "code", VStr (py "+DZ")); (py "description", VNone); (py "intensity", VStr (py "heavy")); (py "obscuration", VNone); (py "other", VNone); (py "precipitation", VStr (py "drizzle"))]);
   iseq (rmap vopt (rmap we_int (bind (rmap (fun x => c_weathers (me_common x)) x0) (fun g => gl_get g 1%Z)))) (VStr (py "nearby"));
   iseq (rmap vopt (rmap we_desc (bind (rmap (fun x => c_weathers (me_common x)) x0) (fun g => gl_get g 1%Z)))) (VStr (py "showers"));
   iseq (rmap vopt (rmap we_prec (bind (rmap (fun x => c_weathers (me_common x)) x0) (fun g => gl_get g 1%Z)))) (VNone);
   iseq (rmap vopt (rmap we_obsc (bind (rmap (fun x => c_weathers (me_common x)) x0) (fun g => gl_get g 1%Z)))) (VNone);
   iseq (rmap vopt (rmap we_other (bind (rmap (fun x => c_weathers (me_common x)) x0) (fun g => gl_get g 1%Z)))) (VNone);
   iseq (rmap (fun v => v) (rmap (fun x => VDict (weather_dict x)) (bind (rmap (fun x => c_weathers (me_common x)) x0) (fun g => gl_get g 1%Z)))) (VDict [(py "code", VStr (py "VCSH")); (py "description", VStr (py "showers")); (py "intensity", VStr (py "nearby")); (py "obscuration", VNone); (py "other", VNone); (py "precipitation", VNone)]);
   israise (rmap we_code (bind (rmap (fun x => c_weathers (me_common x)) x0) (fun g => gl_get g 2%Z))) IndexError].

Check (eq_refl true <: forallb (fun b => b) t_metar_test_weather_test_two_weathers = true).

(* tests/metar/test_weather.py:74 test_three_weathers *)
Definition t_metar_test_weather_test_three_weathers : list bool :=
  let x0 := (metar_parse E (py "METAR BIBD 191100Z 03002KT 5000 -RA BR VCTS SCT008CB OVC020 04/03 Q1013") None None false) in
  [iseq (rmap (fun l => VList (map vopt l)) (rmap (fun g => map we_code (gl_list g)) (rmap (fun x => c_weathers (me_common x)) x0))) (VList [VStr (py "-RA"); VStr (py "BR"); VStr (py "VCTS")]);
   iseq (rmap VStr (rmap (fun g => join (py " | ") (map weather_str (gl_list g))) (rmap (fun x => c_weathers (me_common x)) x0))) (VStr (py "light rain | mist | nearby thunderstorm"));
   iseq (rmap vopt (rmap we_int (bind (rmap (fun x => c_weathers (me_common x)) x0) (fun g => gl_get g 0%Z)))) (VStr (py "light"));
   iseq (rmap vopt (rmap we_desc (bind (rmap (fun x => c_weathers (me_common x)) x0) (fun g => gl_get g 0%Z)))) (VNone);
   iseq (rmap vopt (rmap we_prec (bind (rmap (fun x => c_weathers (me_common x)) x0) (fun g => gl_get g 0%Z)))) (VStr (py "rain"));
   iseq (rmap vopt (rmap we_obsc (bind (rmap (fun x => c_weathers (me_common x)) x0) (fun g => gl_get g 0%Z)))) (VNone);
   iseq (rmap vopt (rmap we_other (bind (rmap (fun x => c_weathers (me_common x)) x0) (fun g => gl_get g 0%Z)))) (VNone);
   iseq (rmap (fun v => v) (rmap (fun x => VDict (weather_dict x)) (bind (rmap (fun x => c_weathers (me_common x)) x0) (fun g => gl_get g 0%Z)))) (VDict [(py "code", VStr (py "-RA")); (py "description", VNone); (py "intensity", VStr (py "light")); (py "obscuration", VNone); (py "other", VNone); (py "precipitation", VStr (py "rain"))]);
   iseq (rmap vopt (rmap we_int (bind (rmap (fun x => c_weathers (me_common x)) x0) (fun g => gl_get g 1%Z)))) (VNone);
   iseq (rmap vopt (rmap we_desc (bind (rmap (fun x => c_weathers (me_common x)) x0) (fun g => gl_get g 1%Z)))) (VNone);
   iseq (rmap vopt (rmap we_prec (bind (rmap (fun x => c_weathers (me_common x)) x0) (fun g => gl_get g 1%Z)))) (VNone);
   iseq (rmap vopt (rmap we_obsc (bind (rmap (fun x => c_weathers (me_common x)) x0) (fun g => gl_get g 1%Z)))) (VStr (py "mist"));
   iseq (rmap vopt (rmap we_other (bind (rmap (fun x => c_weathers (me_common x)) x0) (fun g => gl_get g 1%Z)))) (VNone);
   iseq (rmap (fun v => v) (rmap (fun x => VDict (weather_dict x)) (bind (rmap (fun x => c_weathers (me_common x)) x0) (fun g => gl_get g 1%Z)))) (VDict [(py "code", VStr (py "BR")); (py "description", VNone); (py "intensity", VNone); (py "obscuration", VStr (py "mist")); (py "other", VNone); (py "precipitation", VNone)]);
   iseq (rmap vopt (rmap we_int (bind (rmap (fun x => c_weathers (me_common x)) x0) (fun g => gl_get g 2%Z)))) (VStr (py "nearby"));
   iseq (rmap vopt (rmap we_desc (bind (rmap (fun x => c_weathers (me_common x)) x0) (fun g => gl_get g 2%Z)))) (VStr (py "thunderstorm"));
   iseq (rmap vopt (rmap we_prec (bind (rmap (fun x => c_weathers (me_common x)) x0) (fun g => gl_get g 2%Z)))) (VNone);
   iseq (rmap vopt (rmap we_obsc (bind (rmap (fun x => c_weathers (me_common x)) x0) (fun g => gl_get g 2%Z)))) (VNone);
   iseq (rmap vopt (rmap we_other (bind (rmap (fun x => c_weathers (me_common x)) x0) (fun g => gl_get g 2%Z)))) (VNone);
   iseq (rmap (fun v => v) (rmap (fun x => VDict (weather_dict x)) (bind (rmap (fun x => c_weathers (me_common x)) x0) (fun g => gl_get g 2%Z)))) (VDict [(py "code", VStr (py "VCTS")); (py "description", VStr (py "thunderstorm")); (py "intensity", VStr (py "nearby")); (py "obscuration", VNone); (py "other", VNone); (py "precipitation", VNone)])].

Check (eq_refl true <: forallb (fun b => b) t_metar_test_weather_test_three_weathers = true).

(* tests/metar/test_weather.py:126 test_no_weathers *)
Definition t_metar_test_weather_test_no_weathers : list bool :=
  let x0 := (metar_parse E (py "METAR LIRG 211755Z 27003KT CAVOK 24/14 Q1020 RMK FEW FEW200 MON NE LIB NC VIS MIN 9999 BLU") None None false) in
  [iseq (rmap (fun l => VList (map vopt l)) (rmap (fun g => map we_code (gl_list g)) (rmap (fun x => c_weathers (me_common x)) x0))) (VList []);
   iseq (rmap VStr (rmap (fun g => join (py " | ") (map weather_str (gl_list g))) (rmap (fun x => c_weathers (me_common x)) x0))) (VStr []);
   iseq (rmap (fun v => v) (rmap VDict (bind (rmap (fun x => c_weathers (me_common x)) x0) (list_dict weather_dict)))) (VDict []);
   israise (rmap we_code (bind (rmap (fun x => c_weathers (me_common x)) x0) (fun g => gl_get g 0%Z))) IndexError;
   israise (rmap we_code (bind (rmap (fun x => c_weathers (me_common x)) x0) (fun g => gl_get g 1%Z))) IndexError;
   israise (rmap we_code (bind (rmap (fun x => c_weathers (me_common x)) x0) (fun g => gl_get g 2%Z))) IndexError].

Check (eq_refl true <: forallb (fun b => b) t_metar_test_weather_test_no_weathers = true).

(* tests/metar/test_weather.py:141 test_try_to_get_item_4 *)
Definition t_metar_test_weather_test_try_to_get_item_4 : list bool :=
  let x0 := (metar_parse E (py "METAR SCVM 060000Z 28007KT 250V310 9999 RA BR VCTS SCT016CB 16/13 Q1014") None None false) in
  [iseq (rmap (fun l => VList (map vopt l)) (rmap (fun g => map we_code (gl_list g)) (rmap (fun x => c_weathers (me_common x)) x0))) (VList [VStr (py "RA"); VStr (py "BR"); VStr (py "VCTS")]);
   iseq (rmap VStr (rmap (fun g => join (py " | ") (map weather_str (gl_list g))) (rmap (fun x => c_weathers (me_common x)) x0))) (VStr (py "rain | mist | nearby thunderstorm"));
   iseq (rmap (fun v => v) (rmap VDict (bind (rmap (fun x => c_weathers (me_common x)) x0) (list_dict weather_dict)))) (VDict [(py "first", VDict [(py "code", VStr (py "RA")); (py "description", VNone); (py "intensity", VNone); (py "obscuration", VNone); (py "other", VNone); (py "precipitation", VStr (py "rain"))]); (py "second", VDict [(py "code", VStr (py "BR")); (py "description", VNone); (py "intensity", VNone); (py "obscuration", VStr (py "mist")); (py "other", VNone); (py "precipitation", VNone)]); (py "third", VDict [(py "code", VStr (py "VCTS")); (py "description", VStr (py "thunderstorm")); (py "intensity", VStr (py "nearby")); (py "obscuration", VNone); (py "other", VNone); (py "precipitation", VNone)])]);
   israise (rmap we_code (bind (rmap (fun x => c_weathers (me_common x)) x0) (fun g => gl_get g 3%Z))) RangeError].

Check (eq_refl true <: forallb (fun b => b) t_metar_test_weather_test_try_to_get_item_4 = true).

(* tests/metar/test_weather_trend_cloud.py:10 test_two_trend_cloud_layers *)
Definition t_metar_test_weather_trend_cloud_test_two_trend_cloud_layers : list bool :=
  let x0 := (metar_parse E (py "METAR BIAR 190800Z 20015KT 9999 FEW049 BKN056 10/03 Q1016 BECMG 5000 RA SCT010 BKN015") (Some 2019%Z) (Some 7%Z) false) in
  [iseq (rmap (fun l => VList (map vopt l)) (rmap (fun g => map cp_code (gl_list g)) (rmap me_trends x0))) (VList [VStr (py "BECMG 5000 RA SCT010 BKN015")]);
   iseq (rmap VStr (rmap (fun g => join ([10%N]) (map change_period_str (gl_list g))) (rmap me_trends x0))) (VStr ((py "becoming from 2019-07-19 08:00:00 until 2019-07-19 10:00:00" ++ [10%N] ++ py "5.0 km" ++ [10%N] ++ py "rain" ++ [10%N] ++ py "scattered at 1000.0 feet" ++ [10%N] ++ py "broken at 1500.0 feet")));
   iseq (rmap vopt (rmap cp_code (bind (rmap me_trends x0) (fun g => gl_get g 0%Z)))) (VStr (py "BECMG 5000 RA SCT010 BKN015"));
   iseq (rmap (fun l => VList (map vopt l)) (rmap (fun g => map cl_code (gl_list g)) (rmap (fun x => c_clouds (cp_common x)) (bind (rmap me_trends x0) (fun g => gl_get g 0%Z))))) (VList [VStr (py "SCT010"); VStr (py "BKN015")]);
   iseq (rmap VStr (rmap (fun g => join (py " | ") (map cloud_str (gl_list g))) (rmap (fun x => c_clouds (cp_common x)) (bind (rmap me_trends x0) (fun g => gl_get g 0%Z))))) (VStr (py "scattered at 1000.0 feet | broken at 1500.0 feet"));
   iseq (rmap VBool (bind (rmap (fun x => c_clouds (cp_common x)) (bind (rmap me_trends x0) (fun g => gl_get g 0%Z))) (fun g => ceiling_of (gl_list g)))) (VBool true);
   iseq (rmap (fun v => v) (rmap VDict (bind (rmap (fun x => c_clouds (cp_common x)) (bind (rmap me_trends x0) (fun g => gl_get g 0%Z))) (list_dict cloud_dict)))) (VDict [(py "first", VDict [(py "code", VStr (py "SCT010")); (py "cover", VStr (py "scattered")); (py "height", VFloat (flit "304.8")); (py "height_units", VStr (py "meters")); (py "oktas", VStr (py "3-4")); (py "type", VNone)]); (py "second", VDict [(py "code", VStr (py "BKN015")); (py "cover", VStr (py "broken")); (py "height", VFloat (flit "457.2")); (py "height_units", VStr (py "meters")); (py "oktas", VStr (py "5-7")); (py "type", VNone)])]);
   iseq (rmap vopt (rmap cl_code (bind (rmap (fun x => c_clouds (cp_common x)) (bind (rmap me_trends x0) (fun g => gl_get g 0%Z))) (fun g => gl_get g 0%Z)))) (VStr (py "SCT010"));
   iseq (rmap vopt (rmap cl_cover (bind (rmap (fun x => c_clouds (cp_common x)) (bind (rmap me_trends x0) (fun g => gl_get g 0%Z))) (fun g => gl_get g 0%Z)))) (VStr (py "scattered"));
   iseq (rmap vopt (rmap cl_oktas (bind (rmap (fun x => c_clouds (cp_common x)) (bind (rmap me_trends x0) (fun g => gl_get g 0%Z))) (fun g => gl_get g 0%Z)))) (VStr (py "3-4"));
   iseq (rmap vflo (rmap cl_feet (bind (rmap (fun x => c_clouds (cp_common x)) (bind (rmap me_trends x0) (fun g => gl_get g 0%Z))) (fun g => gl_get g 0%Z)))) (VFloat (flit "999.9999999999999"));
   iseq (rmap vflo (rmap cl_height (bind (rmap (fun x => c_clouds (cp_common x)) (bind (rmap me_trends x0) (fun g => gl_get g 0%Z))) (fun g => gl_get g 0%Z)))) (VFloat (flit "304.8"));
   iseq (rmap vflo (rmap (fun c => in_kilometers (cl_height c)) (bind (rmap (fun x => c_clouds (cp_common x)) (bind (rmap me_trends x0) (fun g => gl_get g 0%Z))) (fun g => gl_get g 0%Z)))) (VFloat (flit "0.3048"));
   iseq (rmap vflo (rmap (fun c => in_sea_miles (cl_height c)) (bind (rmap (fun x => c_clouds (cp_common x)) (bind (rmap me_trends x0) (fun g => gl_get g 0%Z))) (fun g => gl_get g 0%Z)))) (VFloat (flit "0.16457883369330453"));
   iseq (rmap vopt (rmap cl_type (bind (rmap (fun x => c_clouds (cp_common x)) (bind (rmap me_trends x0) (fun g => gl_get g 0%Z))) (fun g => gl_get g 0%Z)))) (VNone);
   iseq (rmap vopt (rmap cl_code (bind (rmap (fun x => c_clouds (cp_common x)) (bind (rmap me_trends x0) (fun g => gl_get g 0%Z))) (fun g => gl_get g 1%Z)))) (VStr (py "BKN015"));
   iseq (rmap vopt (rmap cl_cover (bind (rmap (fun x => c_clouds (cp_common x)) (bind (rmap me_trends x0) (fun g => gl_get g 0%Z))) (fun g => gl_get g 1%Z)))) (VStr (py "broken"));
   iseq (rmap vopt (rmap cl_oktas (bind (rmap (fun x => c_clouds (cp_common x)) (bind (rmap me_trends x0) (fun g => gl_get g 0%Z))) (fun g => gl_get g 1%Z)))) (VStr (py "5-7"));
   iseq (rmap vflo (rmap cl_feet (bind (rmap (fun x => c_clouds (cp_common x)) (bind (rmap me_trends x0) (fun g => gl_get g 0%Z))) (fun g => gl_get g 1%Z)))) (VFloat (flit "1499.9999999999998"));
   iseq (rmap vflo (rmap cl_height (bind (rmap (fun x => c_clouds (cp_common x)) (bind (rmap me_trends x0) (fun g => gl_get g 0%Z))) (fun g => gl_get g 1%Z)))) (VFloat (flit "457.2"));
   iseq (rmap vflo (rmap (fun c => in_kilometers (cl_height c)) (bind (rmap (fun x => c_clouds (cp_common x)) (bind (rmap me_trends x0) (fun g => gl_get g 0%Z))) (fun g => gl_get g 1%Z)))) (VFloat (flit "0.4572"));
   iseq (rmap vflo (rmap (fun c => in_sea_miles (cl_height c)) (bind (rmap (fun x => c_clouds (cp_common x)) (bind (rmap me_trends x0) (fun g => gl_get g 0%Z))) (fun g => gl_get g 1%Z)))) (VFloat (flit "0.24686825053995676"));
   iseq (rmap vopt (rmap cl_type (bind (rmap (fun x => c_clouds (cp_common x)) (bind (rmap me_trends x0) (fun g => gl_get g 0%Z))) (fun g => gl_get g 1%Z)))) (VNone);
   israise (rmap cl_code (bind (rmap (fun x => c_clouds (cp_common x)) (bind (rmap me_trends x0) (fun g => gl_get g 0%Z))) (fun g => gl_get g 2%Z))) IndexError].

Check (eq_refl true <: forallb (fun b => b) t_metar_test_weather_trend_cloud_test_two_trend_cloud_layers = true).

(* tests/metar/test_weather_trend_cloud.py:75 test_three_layers *)
Definition t_metar_test_weather_trend_cloud_test_three_layers : list bool :=
  let x0 := (metar_parse E (py "SPECI KMIA 191458Z 33006KT CAVOK 23/21 A3003 BECMG 5SM -TSRA BR FEW013 BKN021CB OVC040 RMK AO2 OCNL LTGICCG OHD TS OHD MOV SE P0007 T02280211") (Some 2019%Z) (Some 7%Z) false) in
  [iseq (rmap (fun l => VList (map vopt l)) (rmap (fun g => map cp_code (gl_list g)) (rmap me_trends x0))) (VList [VStr (py "BECMG 5SM -TSRA BR FEW013 BKN021CB OVC040")]);
   iseq (rmap VStr (rmap (fun g => join ([10%N]) (map change_period_str (gl_list g))) (rmap me_trends x0))) (VStr ((py "becoming from 2019-07-19 14:58:00 until 2019-07-19 16:58:00" ++ [10%N] ++ py "9.3 km" ++ [10%N] ++ py "light thunderstorm rain" ++ [10%N] ++ py "mist" ++ [10%N] ++ py "a few at 1300.0 feet" ++ [10%N] ++ py "broken at 2100.0 feet of cumulonimbus" ++ [10%N] ++ py "overcast at 4000.0 feet")));
   iseq (rmap vopt (rmap cp_code (bind (rmap me_trends x0) (fun g => gl_get g 0%Z)))) (VStr (py "BECMG 5SM -TSRA BR FEW013 BKN021CB OVC040"));
   iseq (rmap (fun l => VList (map vopt l)) (rmap (fun g => map cl_code (gl_list g)) (rmap (fun x => c_clouds (cp_common x)) (bind (rmap me_trends x0) (fun g => gl_get g 0%Z))))) (VList [VStr (py "FEW013"); VStr (py "BKN021CB"); VStr (py "OVC040")]);
   iseq (rmap VStr (rmap (fun g => join (py " | ") (map cloud_str (gl_list g))) (rmap (fun x => c_clouds (cp_common x)) (bind (rmap me_trends x0) (fun g => gl_get g 0%Z))))) (VStr (py "a few at 1300.0 feet | broken at 2100.0 feet of cumulonimbus | overcast at 4000.0 feet"));
   iseq (rmap VBool (bind (rmap (fun x => c_clouds (cp_common x)) (bind (rmap me_trends x0) (fun g => gl_get g 0%Z))) (fun g => ceiling_of (gl_list g)))) (VBool false);
   iseq (rmap (fun v => v) (rmap VDict (bind (rmap (fun x => c_clouds (cp_common x)) (bind (rmap me_trends x0) (fun g => gl_get g 0%Z))) (list_dict cloud_dict)))) (VDict [(py "first", VDict [(py "code", VStr (py "FEW013")); (py "cover", VStr (py "a few")); (py "height", VFloat (flit "396.24")); (py "height_units", VStr (py "meters")); (py "oktas", VStr (py "1-2")); (py "type", VNone)]); (py "second", VDict [(py "code", VStr (py "BKN021CB")); (py "cover", VStr (py "broken")); (py "height", VFloat (flit "640.08")); (py "height_units", VStr (py "meters")); (py "oktas", VStr (py "5-7")); (py "type", VStr (py "cumulonimbus"))]); (py "third", VDict [(py "code", VStr (py "OVC040")); (py "cover", VStr (py "overcast")); (py "height", VFloat (flit "1219.2")); (py "height_units", VStr (py "meters")); (py "oktas", VStr (py "8")); (py "type", VNone)])]);
   iseq (rmap vopt (rmap cl_code (bind (rmap (fun x => c_clouds (cp_common x)) (bind (rmap me_trends x0) (fun g => gl_get g 0%Z))) (fun g => gl_get g 0%Z)))) (VStr (py "FEW013"));
   iseq (rmap vopt (rmap cl_cover (bind (rmap (fun x => c_clouds (cp_common x)) (bind (rmap me_trends x0) (fun g => gl_get g 0%Z))) (fun g => gl_get g 0%Z)))) (VStr (py "a few"));
   iseq (rmap vopt (rmap cl_oktas (bind (rmap (fun x => c_clouds (cp_common x)) (bind (rmap me_trends x0) (fun g => gl_get g 0%Z))) (fun g => gl_get g 0%Z)))) (VStr (py "1-2"));
   iseq (rmap vflo (rmap cl_feet (bind (rmap (fun x => c_clouds (cp_common x)) (bind (rmap me_trends x0) (fun g => gl_get g 0%Z))) (fun g => gl_get g 0%Z)))) (VFloat (flit "1300.0"));
   iseq (rmap vflo (rmap cl_height (bind (rmap (fun x => c_clouds (cp_common x)) (bind (rmap me_trends x0) (fun g => gl_get g 0%Z))) (fun g => gl_get g 0%Z)))) (VFloat (flit "396.24"));
   iseq (rmap vflo (rmap (fun c => in_kilometers (cl_height c)) (bind (rmap (fun x => c_clouds (cp_common x)) (bind (rmap me_trends x0) (fun g => gl_get g 0%Z))) (fun g => gl_get g 0%Z)))) (VFloat (flit "0.39624000000000004"));
   iseq (rmap vflo (rmap (fun c => in_sea_miles (cl_height c)) (bind (rmap (fun x => c_clouds (cp_common x)) (bind (rmap me_trends x0) (fun g => gl_get g 0%Z))) (fun g => gl_get g 0%Z)))) (VFloat (flit "0.21395248380129586"));
   iseq (rmap vopt (rmap cl_type (bind (rmap (fun x => c_clouds (cp_common x)) (bind (rmap me_trends x0) (fun g => gl_get g 0%Z))) (fun g => gl_get g 0%Z)))) (VNone);
   iseq (rmap vopt (rmap cl_code (bind (rmap (fun x => c_clouds (cp_common x)) (bind (rmap me_trends x0) (fun g => gl_get g 0%Z))) (fun g => gl_get g 1%Z)))) (VStr (py "BKN021CB"));
   iseq (rmap vopt (rmap cl_cover (bind (rmap (fun x => c_clouds (cp_common x)) (bind (rmap me_trends x0) (fun g => gl_get g 0%Z))) (fun g => gl_get g 1%Z)))) (VStr (py "broken"));
   iseq (rmap vopt (rmap cl_oktas (bind (rmap (fun x => c_clouds (cp_common x)) (bind (rmap me_trends x0) (fun g => gl_get g 0%Z))) (fun g => gl_get g 1%Z)))) (VStr (py "5-7"));
   iseq (rmap vflo (rmap cl_feet (bind (rmap (fun x => c_clouds (cp_common x)) (bind (rmap me_trends x0) (fun g => gl_get g 0%Z))) (fun g => gl_get g 1%Z)))) (VFloat (flit "2100.0"));
   iseq (rmap vflo (rmap cl_height (bind (rmap (fun x => c_clouds (cp_common x)) (bind (rmap me_trends x0) (fun g => gl_get g 0%Z))) (fun g => gl_get g 1%Z)))) (VFloat (flit "640.08"));
   iseq (rmap vflo (rmap (fun c => in_kilometers (cl_height c)) (bind (rmap (fun x => c_clouds (cp_common x)) (bind (rmap me_trends x0) (fun g => gl_get g 0%Z))) (fun g => gl_get g 1%Z)))) (VFloat (flit "0.6400800000000001"));
   iseq (rmap vflo (rmap (fun c => in_sea_miles (cl_height c)) (bind (rmap (fun x => c_clouds (cp_common x)) (bind (rmap me_trends x0) (fun g => gl_get g 0%Z))) (fun g => gl_get g 1%Z)))) (VFloat (flit "0.34561555075593947"));
   iseq (rmap vopt (rmap cl_type (bind (rmap (fun x => c_clouds (cp_common x)) (bind (rmap me_trends x0) (fun g => gl_get g 0%Z))) (fun g => gl_get g 1%Z)))) (VStr (py "cumulonimbus"));
   iseq (rmap vopt (rmap cl_code (bind (rmap (fun x => c_clouds (cp_common x)) (bind (rmap me_trends x0) (fun g => gl_get g 0%Z))) (fun g => gl_get g 2%Z)))) (VStr (py "OVC040"));
   iseq (rmap vopt (rmap cl_cover (bind (rmap (fun x => c_clouds (cp_common x)) (bind (rmap me_trends x0) (fun g => gl_get g 0%Z))) (fun g => gl_get g 2%Z)))) (VStr (py "overcast"));
   iseq (rmap vopt (rmap cl_oktas (bind (rmap (fun x => c_clouds (cp_common x)) (bind (rmap me_trends x0) (fun g => gl_get g 0%Z))) (fun g => gl_get g 2%Z)))) (VStr (py "8"));
   iseq (rmap vflo (rmap cl_feet (bind (rmap (fun x => c_clouds (cp_common x)) (bind (rmap me_trends x0) (fun g => gl_get g 0%Z))) (fun g => gl_get g 2%Z)))) (VFloat (flit "3999.9999999999995"));
   iseq (rmap vflo (rmap cl_height (bind (rmap (fun x => c_clouds (cp_common x)) (bind (rmap me_trends x0) (fun g => gl_get g 0%Z))) (fun g => gl_get g 2%Z)))) (VFloat (flit "1219.2"));
   iseq (rmap vflo (rmap (fun c => in_kilometers (cl_height c)) (bind (rmap (fun x => c_clouds (cp_common x)) (bind (rmap me_trends x0) (fun g => gl_get g 0%Z))) (fun g => gl_get g 2%Z)))) (VFloat (flit "1.2192"));
   iseq (rmap vflo (rmap (fun c => in_sea_miles (cl_height c)) (bind (rmap (fun x => c_clouds (cp_common x)) (bind (rmap me_trends x0) (fun g => gl_get g 0%Z))) (fun g => gl_get g 2%Z)))) (VFloat (flit "0.6583153347732181"));
   iseq (rmap vopt (rmap cl_type (bind (rmap (fun x => c_clouds (cp_common x)) (bind (rmap me_trends x0) (fun g => gl_get g 0%Z))) (fun g => gl_get g 2%Z)))) (VNone);
   israise (rmap cl_code (bind (rmap (fun x => c_clouds (cp_common x)) (bind (rmap me_trends x0) (fun g => gl_get g 0%Z))) (fun g => gl_get g 4%Z))) RangeError].

Check (eq_refl true <: forallb (fun b => b) t_metar_test_weather_trend_cloud_test_three_layers = true).

(* tests/metar/test_weather_trend_cloud.py:162 test_no_trend_clouds *)
Definition t_metar_test_weather_trend_cloud_test_no_trend_clouds : list bool :=
  let x0 := (metar_parse E (py "METAR MROC 190700Z 11009KT CAVOK 22/19 A2997 TEMPO 9999 RA") (Some 2019%Z) (Some 7%Z) false) in
  [iseq (rmap (fun l => VList (map vopt l)) (rmap (fun g => map cp_code (gl_list g)) (rmap me_trends x0))) (VList [VStr (py "TEMPO 9999 RA")]);
   iseq (rmap VStr (rmap (fun g => join ([10%N]) (map change_period_str (gl_list g))) (rmap me_trends x0))) (VStr ((py "temporary from 2019-07-19 07:00:00 until 2019-07-19 09:00:00" ++ [10%N] ++ py "10.0 km" ++ [10%N] ++ py "rain")));
   iseq (rmap vopt (rmap cp_code (bind (rmap me_trends x0) (fun g => gl_get g 0%Z)))) (VStr (py "TEMPO 9999 RA"));
   iseq (rmap (fun l => VList (map vopt l)) (rmap (fun g => map cl_code (gl_list g)) (rmap (fun x => c_clouds (cp_common x)) (bind (rmap me_trends x0) (fun g => gl_get g 0%Z))))) (VList []);
   iseq (rmap VStr (rmap (fun g => join (py " | ") (map cloud_str (gl_list g))) (rmap (fun x => c_clouds (cp_common x)) (bind (rmap me_trends x0) (fun g => gl_get g 0%Z))))) (VStr []);
   iseq (rmap (fun v => v) (rmap VDict (bind (rmap (fun x => c_clouds (cp_common x)) (bind (rmap me_trends x0) (fun g => gl_get g 0%Z))) (list_dict cloud_dict)))) (VDict []);
   israise (rmap cl_code (bind (rmap (fun x => c_clouds (cp_common x)) (bind (rmap me_trends x0) (fun g => gl_get g 0%Z))) (fun g => gl_get g 0%Z))) IndexError;
   israise (rmap cl_code (bind (rmap (fun x => c_clouds (cp_common x)) (bind (rmap me_trends x0) (fun g => gl_get g 0%Z))) (fun g => gl_get g 1%Z))) IndexError;
   israise (rmap cl_code (bind (rmap (fun x => c_clouds (cp_common x)) (bind (rmap me_trends x0) (fun g => gl_get g 0%Z))) (fun g => gl_get g 2%Z))) IndexError;
   israise (rmap cl_code (bind (rmap (fun x => c_clouds (cp_common x)) (bind (rmap me_trends x0) (fun g => gl_get g 0%Z))) (fun g => gl_get g 3%Z))) IndexError].

Check (eq_refl true <: forallb (fun b => b) t_metar_test_weather_trend_cloud_test_no_trend_clouds = true).

(* tests/metar/test_weather_trend_indicator.py:10 test_weather_trend_code_nosig *)
Definition t_metar_test_weather_trend_indicator_test_weather_trend_code_nosig : list bool :=
  let x0 := (metar_parse E (py "METAR SEQM 050400Z 04010KT 9999 BKN006 OVC030 14/12 Q1028 NOSIG RMK A3037") (Some 2022%Z) (Some 2%Z) false) in
  [iseq (rmap (fun l => VList (map vopt l)) (rmap (fun g => map cp_code (gl_list g)) (rmap me_trends x0))) (VList [VStr (py "NOSIG")]);
   iseq (rmap VStr (rmap (fun g => join ([10%N]) (map change_period_str (gl_list g))) (rmap me_trends x0))) (VStr (py "no significant changes from 2022-02-05 04:00:00 until 2022-02-05 06:00:00"));
   iseq (rmap vopt (rmap cp_code (bind (rmap me_trends x0) (fun g => gl_get g 0%Z)))) (VStr (py "NOSIG"));
   iseq (rmap vopt (rmap ti_code (rmap cp_ind (bind (rmap me_trends x0) (fun g => gl_get g 0%Z))))) (VStr (py "NOSIG"));
   iseq (rmap vopt (rmap ti_trans (rmap cp_ind (bind (rmap me_trends x0) (fun g => gl_get g 0%Z))))) (VStr (py "no significant changes"));
   iseq (rmap (fun z => VFloat (float_of_Z z)) (rmap (fun t => dt_year (t_dt t)) (rmap ti_from (rmap cp_ind (bind (rmap me_trends x0) (fun g => gl_get g 0%Z)))))) (VFloat (flit "2022.0"));
   iseq (rmap (fun z => VFloat (float_of_Z z)) (rmap (fun t => dt_month (t_dt t)) (rmap ti_from (rmap cp_ind (bind (rmap me_trends x0) (fun g => gl_get g 0%Z)))))) (VFloat (flit "2.0"));
   iseq (rmap (fun z => VFloat (float_of_Z z)) (rmap (fun t => dt_day (t_dt t)) (rmap ti_from (rmap cp_ind (bind (rmap me_trends x0) (fun g => gl_get g 0%Z)))))) (VFloat (flit "5.0"));
   iseq (rmap (fun z => VFloat (float_of_Z z)) (rmap (fun t => dt_hour (t_dt t)) (rmap ti_from (rmap cp_ind (bind (rmap me_trends x0) (fun g => gl_get g 0%Z)))))) (VFloat (flit "4.0"));
   iseq (rmap (fun z => VFloat (float_of_Z z)) (rmap (fun t => dt_minute (t_dt t)) (rmap ti_from (rmap cp_ind (bind (rmap me_trends x0) (fun g => gl_get g 0%Z)))))) (VFloat (flit "0.0"));
   iseq (rmap (fun z => VFloat (float_of_Z z)) (rmap (fun t => dt_year (t_dt t)) (rmap ti_until (rmap cp_ind (bind (rmap me_trends x0) (fun g => gl_get g 0%Z)))))) (VFloat (flit "2022.0"));
   iseq (rmap (fun z => VFloat (float_of_Z z)) (rmap (fun t => dt_month (t_dt t)) (rmap ti_until (rmap cp_ind (bind (rmap me_trends x0) (fun g => gl_get g 0%Z)))))) (VFloat (flit "2.0"));
   iseq (rmap (fun z => VFloat (float_of_Z z)) (rmap (fun t => dt_day (t_dt t)) (rmap ti_until (rmap cp_ind (bind (rmap me_trends x0) (fun g => gl_get g 0%Z)))))) (VFloat (flit "5.0"));
   iseq (rmap (fun z => VFloat (float_of_Z z)) (rmap (fun t => dt_hour (t_dt t)) (rmap ti_until (rmap cp_ind (bind (rmap me_trends x0) (fun g => gl_get g 0%Z)))))) (VFloat (flit "6.0"));
   iseq (rmap (fun z => VFloat (float_of_Z z)) (rmap (fun t => dt_minute (t_dt t)) (rmap ti_until (rmap cp_ind (bind (rmap me_trends x0) (fun g => gl_get g 0%Z)))))) (VFloat (flit "0.0"));
   iseq (rmap (fun o => match o with Some _ => VStr [1%N] | None => VNone end) (rmap ti_at (rmap cp_ind (bind (rmap me_trends x0) (fun g => gl_get g 0%Z))))) (VNone);
   iseq (rmap (fun v => v) (rmap (fun x => VDict (trend_ind_dict x)) (rmap cp_ind (bind (rmap me_trends x0) (fun g => gl_get g 0%Z))))) (VDict [(py "at", VNone); (py "code", VStr (py "NOSIG")); (py "forecast_period", VDict [(py "end", VDict [(py "code", VNone); (py "datetime", VStr (py "2022-02-05 06:00:00"))]); (py "init", VDict [(py "code", VNone); (py "datetime", VStr (py "2022-02-05 04:00:00"))])]); (py "from_", VDict [(py "code", VNone); (py "datetime", VStr (py "2022-02-05 04:00:00"))]); (py "translation", VStr (py "no significant changes")); (py "until", VDict [(py "code", VNone); (py "datetime", VStr (py "2022-02-05 06:00:00"))])]);
   israise (rmap cp_code (bind (rmap me_trends x0) (fun g => gl_get g 1%Z))) IndexError].

Check (eq_refl true <: forallb (fun b => b) t_metar_test_weather_trend_indicator_test_weather_trend_code_nosig = true).

(* tests/metar/test_weather_trend_indicator.py:55 test_weather_trend_code_tempo *)
Definition t_metar_test_weather_trend_indicator_test_weather_trend_code_tempo : list bool :=
  let x0 := (metar_parse E (py "SPECI MMMX 051347Z 07006KT 5SM SKC 05/02 A3044 TEMPO 3SM HZ RMK HZY ISOL SC LWR VSBY N") (Some 2022%Z) (Some 2%Z) false) in
  [iseq (rmap (fun l => VList (map vopt l)) (rmap (fun g => map cp_code (gl_list g)) (rmap me_trends x0))) (VList [VStr (py "TEMPO 3SM HZ")]);
   iseq (rmap VStr (rmap (fun g => join ([10%N]) (map change_period_str (gl_list g))) (rmap me_trends x0))) (VStr ((py "temporary from 2022-02-05 13:47:00 until 2022-02-05 15:47:00" ++ [10%N] ++ py "5.6 km" ++ [10%N] ++ py "haze")));
   iseq (rmap vopt (rmap cp_code (bind (rmap me_trends x0) (fun g => gl_get g 0%Z)))) (VStr (py "TEMPO 3SM HZ"));
   iseq (rmap vopt (rmap ti_code (rmap cp_ind (bind (rmap me_trends x0) (fun g => gl_get g 0%Z))))) (VStr (py "TEMPO"));
   iseq (rmap vopt (rmap ti_trans (rmap cp_ind (bind (rmap me_trends x0) (fun g => gl_get g 0%Z))))) (VStr (py "temporary"));
   iseq (rmap (fun z => VFloat (float_of_Z z)) (rmap (fun t => dt_year (t_dt t)) (rmap ti_from (rmap cp_ind (bind (rmap me_trends x0) (fun g => gl_get g 0%Z)))))) (VFloat (flit "2022.0"));
   iseq (rmap (fun z => VFloat (float_of_Z z)) (rmap (fun t => dt_month (t_dt t)) (rmap ti_from (rmap cp_ind (bind (rmap me_trends x0) (fun g => gl_get g 0%Z)))))) (VFloat (flit "2.0"));
   iseq (rmap (fun z => VFloat (float_of_Z z)) (rmap (fun t => dt_day (t_dt t)) (rmap ti_from (rmap cp_ind (bind (rmap me_trends x0) (fun g => gl_get g 0%Z)))))) (VFloat (flit "5.0"));
   iseq (rmap (fun z => VFloat (float_of_Z z)) (rmap (fun t => dt_hour (t_dt t)) (rmap ti_from (rmap cp_ind (bind (rmap me_trends x0) (fun g => gl_get g 0%Z)))))) (VFloat (flit "13.0"));
   iseq (rmap (fun z => VFloat (float_of_Z z)) (rmap (fun t => dt_minute (t_dt t)) (rmap ti_from (rmap cp_ind (bind (rmap me_trends x0) (fun g => gl_get g 0%Z)))))) (VFloat (flit "47.0"));
   iseq (rmap (fun z => VFloat (float_of_Z z)) (rmap (fun t => dt_year (t_dt t)) (rmap ti_until (rmap cp_ind (bind (rmap me_trends x0) (fun g => gl_get g 0%Z)))))) (VFloat (flit "2022.0"));
   iseq (rmap (fun z => VFloat (float_of_Z z)) (rmap (fun t => dt_month (t_dt t)) (rmap ti_until (rmap cp_ind (bind (rmap me_trends x0) (fun g => gl_get g 0%Z)))))) (VFloat (flit "2.0"));
   iseq (rmap (fun z => VFloat (float_of_Z z)) (rmap (fun t => dt_day (t_dt t)) (rmap ti_until (rmap cp_ind (bind (rmap me_trends x0) (fun g => gl_get g 0%Z)))))) (VFloat (flit "5.0"));
   iseq (rmap (fun z => VFloat (float_of_Z z)) (rmap (fun t => dt_hour (t_dt t)) (rmap ti_until (rmap cp_ind (bind (rmap me_trends x0) (fun g => gl_get g 0%Z)))))) (VFloat (flit "15.0"));
   iseq (rmap (fun z => VFloat (float_of_Z z)) (rmap (fun t => dt_minute (t_dt t)) (rmap ti_until (rmap cp_ind (bind (rmap me_trends x0) (fun g => gl_get g 0%Z)))))) (VFloat (flit "47.0"));
   iseq (rmap (fun o => match o with Some _ => VStr [1%N] | None => VNone end) (rmap ti_at (rmap cp_ind (bind (rmap me_trends x0) (fun g => gl_get g 0%Z))))) (VNone);
   iseq (rmap (fun v => v) (rmap (fun x => VDict (trend_ind_dict x)) (rmap cp_ind (bind (rmap me_trends x0) (fun g => gl_get g 0%Z))))) (VDict [(py "at", VNone); (py "code", VStr (py "TEMPO")); (py "forecast_period", VDict [(py "end", VDict [(py "code", VNone); (py "datetime", VStr (py "2022-02-05 15:47:00"))]); (py "init", VDict [(py "code", VNone); (py "datetime", VStr (py "2022-02-05 13:47:00"))])]); (py "from_", VDict [(py "code", VNone); (py "datetime", VStr (py "2022-02-05 13:47:00"))]); (py "translation", VStr (py "temporary")); (py "until", VDict [(py "code", VNone); (py "datetime", VStr (py "2022-02-05 15:47:00"))])]);
   israise (rmap cp_code (bind (rmap me_trends x0) (fun g => gl_get g 1%Z))) IndexError].

Check (eq_refl true <: forallb (fun b => b) t_metar_test_weather_trend_indicator_test_weather_trend_code_tempo = true).

(* tests/metar/test_weather_trend_indicator.py:101 test_weather_trend_code_becmg *)
Definition t_metar_test_weather_trend_indicator_test_weather_trend_code_becmg : list bool :=
  let x0 := (metar_parse E (py "SPECI LYTV 040930Z VRB02KT CAVOK 12/M01 Q1023 BECMG 14005KT") (Some 2022%Z) (Some 2%Z) false) in
  [iseq (rmap (fun l => VList (map vopt l)) (rmap (fun g => map cp_code (gl_list g)) (rmap me_trends x0))) (VList [VStr (py "BECMG 14005KT")]);
   iseq (rmap VStr (rmap (fun g => join ([10%N]) (map change_period_str (gl_list g))) (rmap me_trends x0))) (VStr ((py "becoming from 2022-02-04 09:30:00 until 2022-02-04 11:30:00" ++ [10%N] ++ py "SE (140.0" ++ [176%N] ++ py ") 5.0 kt")));
   iseq (rmap vopt (rmap cp_code (bind (rmap me_trends x0) (fun g => gl_get g 0%Z)))) (VStr (py "BECMG 14005KT"));
   iseq (rmap vopt (rmap ti_code (rmap cp_ind (bind (rmap me_trends x0) (fun g => gl_get g 0%Z))))) (VStr (py "BECMG"));
   iseq (rmap vopt (rmap ti_trans (rmap cp_ind (bind (rmap me_trends x0) (fun g => gl_get g 0%Z))))) (VStr (py "becoming"));
   iseq (rmap (fun z => VFloat (float_of_Z z)) (rmap (fun t => dt_year (t_dt t)) (rmap ti_from (rmap cp_ind (bind (rmap me_trends x0) (fun g => gl_get g 0%Z)))))) (VFloat (flit "2022.0"));
   iseq (rmap (fun z => VFloat (float_of_Z z)) (rmap (fun t => dt_month (t_dt t)) (rmap ti_from (rmap cp_ind (bind (rmap me_trends x0) (fun g => gl_get g 0%Z)))))) (VFloat (flit "2.0"));
   iseq (rmap (fun z => VFloat (float_of_Z z)) (rmap (fun t => dt_day (t_dt t)) (rmap ti_from (rmap cp_ind (bind (rmap me_trends x0) (fun g => gl_get g 0%Z)))))) (VFloat (flit "4.0"));
   iseq (rmap (fun z => VFloat (float_of_Z z)) (rmap (fun t => dt_hour (t_dt t)) (rmap ti_from (rmap cp_ind (bind (rmap me_trends x0) (fun g => gl_get g 0%Z)))))) (VFloat (flit "9.0"));
   iseq (rmap (fun z => VFloat (float_of_Z z)) (rmap (fun t => dt_minute (t_dt t)) (rmap ti_from (rmap cp_ind (bind (rmap me_trends x0) (fun g => gl_get g 0%Z)))))) (VFloat (flit "30.0"));
   iseq (rmap (fun z => VFloat (float_of_Z z)) (rmap (fun t => dt_year (t_dt t)) (rmap ti_until (rmap cp_ind (bind (rmap me_trends x0) (fun g => gl_get g 0%Z)))))) (VFloat (flit "2022.0"));
   iseq (rmap (fun z => VFloat (float_of_Z z)) (rmap (fun t => dt_month (t_dt t)) (rmap ti_until (rmap cp_ind (bind (rmap me_trends x0) (fun g => gl_get g 0%Z)))))) (VFloat (flit "2.0"));
   iseq (rmap (fun z => VFloat (float_of_Z z)) (rmap (fun t => dt_day (t_dt t)) (rmap ti_until (rmap cp_ind (bind (rmap me_trends x0) (fun g => gl_get g 0%Z)))))) (VFloat (flit "4.0"));
   iseq (rmap (fun z => VFloat (float_of_Z z)) (rmap (fun t => dt_hour (t_dt t)) (rmap ti_until (rmap cp_ind (bind (rmap me_trends x0) (fun g => gl_get g 0%Z)))))) (VFloat (flit "11.0"));
   iseq (rmap (fun z => VFloat (float_of_Z z)) (rmap (fun t => dt_minute (t_dt t)) (rmap ti_until (rmap cp_ind (bind (rmap me_trends x0) (fun g => gl_get g 0%Z)))))) (VFloat (flit "30.0"));
   iseq (rmap (fun o => match o with Some _ => VStr [1%N] | None => VNone end) (rmap ti_at (rmap cp_ind (bind (rmap me_trends x0) (fun g => gl_get g 0%Z))))) (VNone);
   iseq (rmap (fun v => v) (rmap (fun x => VDict (trend_ind_dict x)) (rmap cp_ind (bind (rmap me_trends x0) (fun g => gl_get g 0%Z))))) (VDict [(py "at", VNone); (py "code", VStr (py "BECMG")); (py "forecast_period", VDict [(py "end", VDict [(py "code", VNone); (py "datetime", VStr (py "2022-02-04 11:30:00"))]); (py "init", VDict [(py "code", VNone); (py "datetime", VStr (py "2022-02-04 09:30:00"))])]); (py "from_", VDict [(py "code", VNone); (py "datetime", VStr (py "2022-02-04 09:30:00"))]); (py "translation", VStr (py "becoming")); (py "until", VDict [(py "code", VNone); (py "datetime", VStr (py "2022-02-04 11:30:00"))])]);
   israise (rmap cp_code (bind (rmap me_trends x0) (fun g => gl_get g 1%Z))) IndexError].

Check (eq_refl true <: forallb (fun b => b) t_metar_test_weather_trend_indicator_test_weather_trend_code_becmg = true).

(* tests/metar/test_weather_trend_indicator.py:146 test_weather_trend_code_becmg_with_from_period *)
Definition t_metar_test_weather_trend_indicator_test_weather_trend_code_becmg_with_from_period : list bool :=
  let x0 := (metar_parse E (py "SPECI LTFG 061350Z 17004KT 120V240 9999 SCT030 16/09 Q1020 BECMG FM1410 22005KT") (Some 2022%Z) (Some 2%Z) false) in
  [iseq (rmap (fun l => VList (map vopt l)) (rmap (fun g => map cp_code (gl_list g)) (rmap me_trends x0))) (VList [VStr (py "BECMG FM1410 22005KT")]);
   iseq (rmap VStr (rmap (fun g => join ([10%N]) (map change_period_str (gl_list g))) (rmap me_trends x0))) (VStr ((py "becoming from 2022-02-06 14:10:00 until 2022-02-06 15:50:00" ++ [10%N] ++ py "SW (220.0" ++ [176%N] ++ py ") 5.0 kt")));
   iseq (rmap vopt (rmap cp_code (bind (rmap me_trends x0) (fun g => gl_get g 0%Z)))) (VStr (py "BECMG FM1410 22005KT"));
   iseq (rmap vopt (rmap ti_code (rmap cp_ind (bind (rmap me_trends x0) (fun g => gl_get g 0%Z))))) (VStr (py "BECMG FM1410"));
   iseq (rmap vopt (rmap ti_trans (rmap cp_ind (bind (rmap me_trends x0) (fun g => gl_get g 0%Z))))) (VStr (py "becoming"));
   iseq (rmap (fun z => VFloat (float_of_Z z)) (rmap (fun t => dt_year (t_dt t)) (rmap ti_from (rmap cp_ind (bind (rmap me_trends x0) (fun g => gl_get g 0%Z)))))) (VFloat (flit "2022.0"));
   iseq (rmap (fun z => VFloat (float_of_Z z)) (rmap (fun t => dt_month (t_dt t)) (rmap ti_from (rmap cp_ind (bind (rmap me_trends x0) (fun g => gl_get g 0%Z)))))) (VFloat (flit "2.0"));
   iseq (rmap (fun z => VFloat (float_of_Z z)) (rmap (fun t => dt_day (t_dt t)) (rmap ti_from (rmap cp_ind (bind (rmap me_trends x0) (fun g => gl_get g 0%Z)))))) (VFloat (flit "6.0"));
   iseq (rmap (fun z => VFloat (float_of_Z z)) (rmap (fun t => dt_hour (t_dt t)) (rmap ti_from (rmap cp_ind (bind (rmap me_trends x0) (fun g => gl_get g 0%Z)))))) (VFloat (flit "14.0"));
   iseq (rmap (fun z => VFloat (float_of_Z z)) (rmap (fun t => dt_minute (t_dt t)) (rmap ti_from (rmap cp_ind (bind (rmap me_trends x0) (fun g => gl_get g 0%Z)))))) (VFloat (flit "10.0"));
   iseq (rmap (fun z => VFloat (float_of_Z z)) (rmap (fun t => dt_year (t_dt t)) (rmap ti_until (rmap cp_ind (bind (rmap me_trends x0) (fun g => gl_get g 0%Z)))))) (VFloat (flit "2022.0"));
   iseq (rmap (fun z => VFloat (float_of_Z z)) (rmap (fun t => dt_month (t_dt t)) (rmap ti_until (rmap cp_ind (bind (rmap me_trends x0) (fun g => gl_get g 0%Z)))))) (VFloat (flit "2.0"));
   iseq (rmap (fun z => VFloat (float_of_Z z)) (rmap (fun t => dt_day (t_dt t)) (rmap ti_until (rmap cp_ind (bind (rmap me_trends x0) (fun g => gl_get g 0%Z)))))) (VFloat (flit "6.0"));
   iseq (rmap (fun z => VFloat (float_of_Z z)) (rmap (fun t => dt_hour (t_dt t)) (rmap ti_until (rmap cp_ind (bind (rmap me_trends x0) (fun g => gl_get g 0%Z)))))) (VFloat (flit "15.0"));
   iseq (rmap (fun z => VFloat (float_of_Z z)) (rmap (fun t => dt_minute (t_dt t)) (rmap ti_until (rmap cp_ind (bind (rmap me_trends x0) (fun g => gl_get g 0%Z)))))) (VFloat (flit "50.0"));
   iseq (rmap (fun o => match o with Some _ => VStr [1%N] | None => VNone end) (rmap ti_at (rmap cp_ind (bind (rmap me_trends x0) (fun g => gl_get g 0%Z))))) (VNone);
   iseq (rmap (fun v => v) (rmap (fun x => VDict (trend_ind_dict x)) (rmap cp_ind (bind (rmap me_trends x0) (fun g => gl_get g 0%Z))))) (VDict [(py "at", VNone); (py "code", VStr (py "BECMG FM1410")); (py "forecast_period", VDict [(py "end", VDict [(py "code", VNone); (py "datetime", VStr (py "2022-02-06 15:50:00"))]); (py "init", VDict [(py "code", VNone); (py "datetime", VStr (py "2022-02-06 13:50:00"))])]); (py "from_", VDict [(py "code", VStr (py "FM1410")); (py "datetime", VStr (py "2022-02-06 14:10:00"))]); (py "translation", VStr (py "becoming")); (py "until", VDict [(py "code", VNone); (py "datetime", VStr (py "2022-02-06 15:50:00"))])]);
   israise (rmap cp_code (bind (rmap me_trends x0) (fun g => gl_get g 1%Z))) IndexError].

Check (eq_refl true <: forallb (fun b => b) t_metar_test_weather_trend_indicator_test_weather_trend_code_becmg_with_from_period = true).

(* tests/metar/test_weather_trend_indicator.py:191 test_weather_trend_code_tempo_with_from_and_until_periods *)
Definition t_metar_test_weather_trend_indicator_test_weather_trend_code_tempo_with_from_and_until_periods : list bool :=
  let x0 := (metar_parse E (py "METAR KRWV 062335Z 00000KT 10SM SCT015 14/02 A3018 TEMPO FM0000 TL0100 BKN015 RMK AO2 T01380018") (Some 2022%Z) (Some 2%Z) false) in
  [iseq (rmap (fun l => VList (map vopt l)) (rmap (fun g => map cp_code (gl_list g)) (rmap me_trends x0))) (VList [VStr (py "TEMPO FM0000 TL0100 BKN015")]);
   iseq (rmap VStr (rmap (fun g => join ([10%N]) (map change_period_str (gl_list g))) (rmap me_trends x0))) (VStr ((py "temporary from 2022-02-07 00:00:00 until 2022-02-07 01:00:00" ++ [10%N] ++ py "broken at 1500.0 feet")));
   iseq (rmap vopt (rmap cp_code (bind (rmap me_trends x0) (fun g => gl_get g 0%Z)))) (VStr (py "TEMPO FM0000 TL0100 BKN015"));
   iseq (rmap vopt (rmap ti_code (rmap cp_ind (bind (rmap me_trends x0) (fun g => gl_get g 0%Z))))) (VStr (py "TEMPO FM0000 TL0100"));
   iseq (rmap vopt (rmap ti_trans (rmap cp_ind (bind (rmap me_trends x0) (fun g => gl_get g 0%Z))))) (VStr (py "temporary"));
   iseq (rmap (fun z => VFloat (float_of_Z z)) (rmap (fun t => dt_year (t_dt t)) (rmap ti_from (rmap cp_ind (bind (rmap me_trends x0) (fun g => gl_get g 0%Z)))))) (VFloat (flit "2022.0"));
   iseq (rmap (fun z => VFloat (float_of_Z z)) (rmap (fun t => dt_month (t_dt t)) (rmap ti_from (rmap cp_ind (bind (rmap me_trends x0) (fun g => gl_get g 0%Z)))))) (VFloat (flit "2.0"));
   iseq (rmap (fun z => VFloat (float_of_Z z)) (rmap (fun t => dt_day (t_dt t)) (rmap ti_from (rmap cp_ind (bind (rmap me_trends x0) (fun g => gl_get g 0%Z)))))) (VFloat (flit "7.0"));
   iseq (rmap (fun z => VFloat (float_of_Z z)) (rmap (fun t => dt_hour (t_dt t)) (rmap ti_from (rmap cp_ind (bind (rmap me_trends x0) (fun g => gl_get g 0%Z)))))) (VFloat (flit "0.0"));
   iseq (rmap (fun z => VFloat (float_of_Z z)) (rmap (fun t => dt_minute (t_dt t)) (rmap ti_from (rmap cp_ind (bind (rmap me_trends x0) (fun g => gl_get g 0%Z)))))) (VFloat (flit "0.0"));
   iseq (rmap (fun z => VFloat (float_of_Z z)) (rmap (fun t => dt_year (t_dt t)) (rmap ti_until (rmap cp_ind (bind (rmap me_trends x0) (fun g => gl_get g 0%Z)))))) (VFloat (flit "2022.0"));
   iseq (rmap (fun z => VFloat (float_of_Z z)) (rmap (fun t => dt_month (t_dt t)) (rmap ti_until (rmap cp_ind (bind (rmap me_trends x0) (fun g => gl_get g 0%Z)))))) (VFloat (flit "2.0"));
   iseq (rmap (fun z => VFloat (float_of_Z z)) (rmap (fun t => dt_day (t_dt t)) (rmap ti_until (rmap cp_ind (bind (rmap me_trends x0) (fun g => gl_get g 0%Z)))))) (VFloat (flit "7.0"));
   iseq (rmap (fun z => VFloat (float_of_Z z)) (rmap (fun t => dt_hour (t_dt t)) (rmap ti_until (rmap cp_ind (bind (rmap me_trends x0) (fun g => gl_get g 0%Z)))))) (VFloat (flit "1.0"));
   iseq (rmap (fun z => VFloat (float_of_Z z)) (rmap (fun t => dt_minute (t_dt t)) (rmap ti_until (rmap cp_ind (bind (rmap me_trends x0) (fun g => gl_get g 0%Z)))))) (VFloat (flit "0.0"));
   iseq (rmap (fun o => match o with Some _ => VStr [1%N] | None => VNone end) (rmap ti_at (rmap cp_ind (bind (rmap me_trends x0) (fun g => gl_get g 0%Z))))) (VNone);
   iseq (rmap (fun v => v) (rmap (fun x => VDict (trend_ind_dict x)) (rmap cp_ind (bind (rmap me_trends x0) (fun g => gl_get g 0%Z))))) (VDict [(py "at", VNone); (py "code", VStr (py "TEMPO FM0000 TL0100")); (py "forecast_period", VDict [(py "end", VDict [(py "code", VNone); (py "datetime", VStr (py "2022-02-07 01:35:00"))]); (py "init", VDict [(py "code", VNone); (py "datetime", VStr (py "2022-02-06 23:35:00"))])]); (py "from_", VDict [(py "code", VStr (py "FM0000")); (py "datetime", VStr (py "2022-02-07 00:00:00"))]); (py "translation", VStr (py "temporary")); (py "until", VDict [(py "code", VStr (py "TL0100")); (py "datetime", VStr (py "2022-02-07 01:00:00"))])]);
   israise (rmap cp_code (bind (rmap me_trends x0) (fun g => gl_get g 1%Z))) IndexError].

Check (eq_refl true <: forallb (fun b => b) t_metar_test_weather_trend_indicator_test_weather_trend_code_tempo_with_from_and_until_periods = true).

(* tests/metar/test_weather_trend_indicator.py:236 test_weather_trend_code_becmg_with_at_period *)
Definition t_metar_test_weather_trend_indicator_test_weather_trend_code_becmg_with_at_period : list bool :=
  let x0 := (metar_parse E (py "METAR LFPB 070000Z 28008KT 260V320 9999 SCT030 SCT039 BKN047 09/05 Q1017 BECMG AT0030 25020G30KT") (Some 2022%Z) (Some 2%Z) false) in
  [iseq (rmap (fun l => VList (map vopt l)) (rmap (fun g => map cp_code (gl_list g)) (rmap me_trends x0))) (VList [VStr (py "BECMG AT0030 25020G30KT")]);
   iseq (rmap VStr (rmap (fun g => join ([10%N]) (map change_period_str (gl_list g))) (rmap me_trends x0))) (VStr ((py "becoming at 2022-02-07 00:30:00" ++ [10%N] ++ py "WSW (250.0" ++ [176%N] ++ py ") 20.0 kt gust of 30.0 kt")));
   iseq (rmap vopt (rmap cp_code (bind (rmap me_trends x0) (fun g => gl_get g 0%Z)))) (VStr (py "BECMG AT0030 25020G30KT"));
   iseq (rmap vopt (rmap ti_code (rmap cp_ind (bind (rmap me_trends x0) (fun g => gl_get g 0%Z))))) (VStr (py "BECMG AT0030"));
   iseq (rmap vopt (rmap ti_trans (rmap cp_ind (bind (rmap me_trends x0) (fun g => gl_get g 0%Z))))) (VStr (py "becoming"));
   iseq (rmap (fun z => VFloat (float_of_Z z)) (rmap (fun t => dt_year (t_dt t)) (rmap ti_from (rmap cp_ind (bind (rmap me_trends x0) (fun g => gl_get g 0%Z)))))) (VFloat (flit "2022.0"));
   iseq (rmap (fun z => VFloat (float_of_Z z)) (rmap (fun t => dt_month (t_dt t)) (rmap ti_from (rmap cp_ind (bind (rmap me_trends x0) (fun g => gl_get g 0%Z)))))) (VFloat (flit "2.0"));
   iseq (rmap (fun z => VFloat (float_of_Z z)) (rmap (fun t => dt_day (t_dt t)) (rmap ti_from (rmap cp_ind (bind (rmap me_trends x0) (fun g => gl_get g 0%Z)))))) (VFloat (flit "7.0"));
   iseq (rmap (fun z => VFloat (float_of_Z z)) (rmap (fun t => dt_hour (t_dt t)) (rmap ti_from (rmap cp_ind (bind (rmap me_trends x0) (fun g => gl_get g 0%Z)))))) (VFloat (flit "0.0"));
   iseq (rmap (fun z => VFloat (float_of_Z z)) (rmap (fun t => dt_minute (t_dt t)) (rmap ti_from (rmap cp_ind (bind (rmap me_trends x0) (fun g => gl_get g 0%Z)))))) (VFloat (flit "0.0"));
   iseq (rmap (fun z => VFloat (float_of_Z z)) (rmap (fun t => dt_year (t_dt t)) (rmap ti_until (rmap cp_ind (bind (rmap me_trends x0) (fun g => gl_get g 0%Z)))))) (VFloat (flit "2022.0"));
   iseq (rmap (fun z => VFloat (float_of_Z z)) (rmap (fun t => dt_month (t_dt t)) (rmap ti_until (rmap cp_ind (bind (rmap me_trends x0) (fun g => gl_get g 0%Z)))))) (VFloat (flit "2.0"));
   iseq (rmap (fun z => VFloat (float_of_Z z)) (rmap (fun t => dt_day (t_dt t)) (rmap ti_until (rmap cp_ind (bind (rmap me_trends x0) (fun g => gl_get g 0%Z)))))) (VFloat (flit "7.0"));
   iseq (rmap (fun z => VFloat (float_of_Z z)) (rmap (fun t => dt_hour (t_dt t)) (rmap ti_until (rmap cp_ind (bind (rmap me_trends x0) (fun g => gl_get g 0%Z)))))) (VFloat (flit "2.0"));
   iseq (rmap (fun z => VFloat (float_of_Z z)) (rmap (fun t => dt_minute (t_dt t)) (rmap ti_until (rmap cp_ind (bind (rmap me_trends x0) (fun g => gl_get g 0%Z)))))) (VFloat (flit "0.0"));
   iseq (rmap (fun z => VFloat (float_of_Z z)) (bind (rmap ti_at (rmap cp_ind (bind (rmap me_trends x0) (fun g => gl_get g 0%Z)))) (fun o => match o with Some t => Ok ((fun t => dt_year (t_dt t)) t) | None => Raise AttributeError end))) (VFloat (flit "2022.0"));
   iseq (rmap (fun z => VFloat (float_of_Z z)) (bind (rmap ti_at (rmap cp_ind (bind (rmap me_trends x0) (fun g => gl_get g 0%Z)))) (fun o => match o with Some t => Ok ((fun t => dt_month (t_dt t)) t) | None => Raise AttributeError end))) (VFloat (flit "2.0"));
   iseq (rmap (fun z => VFloat (float_of_Z z)) (bind (rmap ti_at (rmap cp_ind (bind (rmap me_trends x0) (fun g => gl_get g 0%Z)))) (fun o => match o with Some t => Ok ((fun t => dt_day (t_dt t)) t) | None => Raise AttributeError end))) (VFloat (flit "7.0"));
   iseq (rmap (fun z => VFloat (float_of_Z z)) (bind (rmap ti_at (rmap cp_ind (bind (rmap me_trends x0) (fun g => gl_get g 0%Z)))) (fun o => match o with Some t => Ok ((fun t => dt_hour (t_dt t)) t) | None => Raise AttributeError end))) (VFloat (flit "0.0"));
   iseq (rmap (fun z => VFloat (float_of_Z z)) (bind (rmap ti_at (rmap cp_ind (bind (rmap me_trends x0) (fun g => gl_get g 0%Z)))) (fun o => match o with Some t => Ok ((fun t => dt_minute (t_dt t)) t) | None => Raise AttributeError end))) (VFloat (flit "30.0"));
   iseq (rmap (fun v => v) (rmap (fun x => VDict (trend_ind_dict x)) (rmap cp_ind (bind (rmap me_trends x0) (fun g => gl_get g 0%Z))))) (VDict [(py "at", VDict [(py "code", VStr (py "AT0030")); (py "datetime", VStr (py "2022-02-07 00:30:00"))]); (py "code", VStr (py "BECMG AT0030")); (py "forecast_period", VDict [(py "end", VDict [(py "code", VNone); (py "datetime", VStr (py "2022-02-07 02:00:00"))]); (py "init", VDict [(py "code", VNone); (py "datetime", VStr (py "2022-02-07 00:00:00"))])]); (py "from_", VDict [(py "code", VNone); (py "datetime", VStr (py "2022-02-07 00:00:00"))]); (py "translation", VStr (py "becoming")); (py "until", VDict [(py "code", VNone); (py "datetime", VStr (py "2022-02-07 02:00:00"))])]);
   israise (rmap cp_code (bind (rmap me_trends x0) (fun g => gl_get g 1%Z))) IndexError].

Check (eq_refl true <: forallb (fun b => b) t_metar_test_weather_trend_indicator_test_weather_trend_code_becmg_with_at_period = true).

(* tests/metar/test_weather_trend_indicator.py:285 test_weather_trend_with_two_changes *)
Definition t_metar_test_weather_trend_indicator_test_weather_trend_with_two_changes : list bool :=
  let x0 := (metar_parse E (py "METAR UNOO 150100Z 36007MPS 2100 R07/2000N -SN BLSN BKN005 BKN020 M15/M18 Q1010 R07/492045 BECMG FM0130 5000 TEMPO FM0215 TL0245 BKN010 RMK OBST OBSC QFE749") (Some 2022%Z) (Some 2%Z) false) in
  [iseq (rmap (fun l => VList (map vopt l)) (rmap (fun g => map cp_code (gl_list g)) (rmap me_trends x0))) (VList [VStr (py "BECMG FM0130 5000"); VStr (py "TEMPO FM0215 TL0245 BKN010")]);
   iseq (rmap VStr (rmap (fun g => join ([10%N]) (map change_period_str (gl_list g))) (rmap me_trends x0))) (VStr ((py "becoming from 2022-02-15 01:30:00 until 2022-02-15 03:00:00" ++ [10%N] ++ py "5.0 km" ++ [10%N] ++ py "temporary from 2022-02-15 02:15:00 until 2022-02-15 02:45:00" ++ [10%N] ++ py "broken at 1000.0 feet")));
   iseq (rmap vopt (rmap cp_code (bind (rmap me_trends x0) (fun g => gl_get g 0%Z)))) (VStr (py "BECMG FM0130 5000"));
   iseq (rmap vopt (rmap ti_code (rmap cp_ind (bind (rmap me_trends x0) (fun g => gl_get g 0%Z))))) (VStr (py "BECMG FM0130"));
   iseq (rmap vopt (rmap ti_trans (rmap cp_ind (bind (rmap me_trends x0) (fun g => gl_get g 0%Z))))) (VStr (py "becoming"));
   iseq (rmap (fun z => VFloat (float_of_Z z)) (rmap (fun t => dt_year (t_dt t)) (rmap ti_from (rmap cp_ind (bind (rmap me_trends x0) (fun g => gl_get g 0%Z)))))) (VFloat (flit "2022.0"));
   iseq (rmap (fun z => VFloat (float_of_Z z)) (rmap (fun t => dt_month (t_dt t)) (rmap ti_from (rmap cp_ind (bind (rmap me_trends x0) (fun g => gl_get g 0%Z)))))) (VFloat (flit "2.0"));
   iseq (rmap (fun z => VFloat (float_of_Z z)) (rmap (fun t => dt_day (t_dt t)) (rmap ti_from (rmap cp_ind (bind (rmap me_trends x0) (fun g => gl_get g 0%Z)))))) (VFloat (flit "15.0"));
   iseq (rmap (fun z => VFloat (float_of_Z z)) (rmap (fun t => dt_hour (t_dt t)) (rmap ti_from (rmap cp_ind (bind (rmap me_trends x0) (fun g => gl_get g 0%Z)))))) (VFloat (flit "1.0"));
   iseq (rmap (fun z => VFloat (float_of_Z z)) (rmap (fun t => dt_minute (t_dt t)) (rmap ti_from (rmap cp_ind (bind (rmap me_trends x0) (fun g => gl_get g 0%Z)))))) (VFloat (flit "30.0"));
   iseq (rmap (fun z => VFloat (float_of_Z z)) (rmap (fun t => dt_year (t_dt t)) (rmap ti_until (rmap cp_ind (bind (rmap me_trends x0) (fun g => gl_get g 0%Z)))))) (VFloat (flit "2022.0"));
   iseq (rmap (fun z => VFloat (float_of_Z z)) (rmap (fun t => dt_month (t_dt t)) (rmap ti_until (rmap cp_ind (bind (rmap me_trends x0) (fun g => gl_get g 0%Z)))))) (VFloat (flit "2.0"));
   iseq (rmap (fun z => VFloat (float_of_Z z)) (rmap (fun t => dt_day (t_dt t)) (rmap ti_until (rmap cp_ind (bind (rmap me_trends x0) (fun g => gl_get g 0%Z)))))) (VFloat (flit "15.0"));
   iseq (rmap (fun z => VFloat (float_of_Z z)) (rmap (fun t => dt_hour (t_dt t)) (rmap ti_until (rmap cp_ind (bind (rmap me_trends x0) (fun g => gl_get g 0%Z)))))) (VFloat (flit "3.0"));
   iseq (rmap (fun z => VFloat (float_of_Z z)) (rmap (fun t => dt_minute (t_dt t)) (rmap ti_until (rmap cp_ind (bind (rmap me_trends x0) (fun g => gl_get g 0%Z)))))) (VFloat (flit "0.0"));
   iseq (rmap (fun o => match o with Some _ => VStr [1%N] | None => VNone end) (rmap ti_at (rmap cp_ind (bind (rmap me_trends x0) (fun g => gl_get g 0%Z))))) (VNone);
   iseq (rmap (fun v => v) (rmap (fun x => VDict (trend_ind_dict x)) (rmap cp_ind (bind (rmap me_trends x0) (fun g => gl_get g 0%Z))))) (VDict [(py "at", VNone); (py "code", VStr (py "BECMG FM0130")); (py "forecast_period", VDict [(py "end", VDict [(py "code", VNone); (py "datetime", VStr (py "2022-02-15 03:00:00"))]); (py "init", VDict [(py "code", VNone); (py "datetime", VStr (py "2022-02-15 01:00:00"))])]); (py "from_", VDict [(py "code", VStr (py "FM0130")); (py "datetime", VStr (py "2022-02-15 01:30:00"))]); (py "translation", VStr (py "becoming")); (py "until", VDict [(py "code", VNone); (py "datetime", VStr (py "2022-02-15 03:00:00"))])]);
   iseq (rmap vopt (rmap cp_code (bind (rmap me_trends x0) (fun g => gl_get g 1%Z)))) (VStr (py "TEMPO FM0215 TL0245 BKN010"));
   iseq (rmap vopt (rmap ti_code (rmap cp_ind (bind (rmap me_trends x0) (fun g => gl_get g 1%Z))))) (VStr (py "TEMPO FM0215 TL0245"));
   iseq (rmap vopt (rmap ti_trans (rmap cp_ind (bind (rmap me_trends x0) (fun g => gl_get g 1%Z))))) (VStr (py "temporary"));
   iseq (rmap (fun z => VFloat (float_of_Z z)) (rmap (fun t => dt_year (t_dt t)) (rmap ti_from (rmap cp_ind (bind (rmap me_trends x0) (fun g => gl_get g 1%Z)))))) (VFloat (flit "2022.0"));
   iseq (rmap (fun z => VFloat (float_of_Z z)) (rmap (fun t => dt_month (t_dt t)) (rmap ti_from (rmap cp_ind (bind (rmap me_trends x0) (fun g => gl_get g 1%Z)))))) (VFloat (flit "2.0"));
   iseq (rmap (fun z => VFloat (float_of_Z z)) (rmap (fun t => dt_day (t_dt t)) (rmap ti_from (rmap cp_ind (bind (rmap me_trends x0) (fun g => gl_get g 1%Z)))))) (VFloat (flit "15.0"));
   iseq (rmap (fun z => VFloat (float_of_Z z)) (rmap (fun t => dt_hour (t_dt t)) (rmap ti_from (rmap cp_ind (bind (rmap me_trends x0) (fun g => gl_get g 1%Z)))))) (VFloat (flit "2.0"));
   iseq (rmap (fun z => VFloat (float_of_Z z)) (rmap (fun t => dt_minute (t_dt t)) (rmap ti_from (rmap cp_ind (bind (rmap me_trends x0) (fun g => gl_get g 1%Z)))))) (VFloat (flit "15.0"));
   iseq (rmap (fun z => VFloat (float_of_Z z)) (rmap (fun t => dt_year (t_dt t)) (rmap ti_until (rmap cp_ind (bind (rmap me_trends x0) (fun g => gl_get g 1%Z)))))) (VFloat (flit "2022.0"));
   iseq (rmap (fun z => VFloat (float_of_Z z)) (rmap (fun t => dt_month (t_dt t)) (rmap ti_until (rmap cp_ind (bind (rmap me_trends x0) (fun g => gl_get g 1%Z)))))) (VFloat (flit "2.0"));
   iseq (rmap (fun z => VFloat (float_of_Z z)) (rmap (fun t => dt_day (t_dt t)) (rmap ti_until (rmap cp_ind (bind (rmap me_trends x0) (fun g => gl_get g 1%Z)))))) (VFloat (flit "15.0"));
   iseq (rmap (fun z => VFloat (float_of_Z z)) (rmap (fun t => dt_hour (t_dt t)) (rmap ti_until (rmap cp_ind (bind (rmap me_trends x0) (fun g => gl_get g 1%Z)))))) (VFloat (flit "2.0"));
   iseq (rmap (fun z => VFloat (float_of_Z z)) (rmap (fun t => dt_minute (t_dt t)) (rmap ti_until (rmap cp_ind (bind (rmap me_trends x0) (fun g => gl_get g 1%Z)))))) (VFloat (flit "45.0"));
   iseq (rmap (fun o => match o with Some _ => VStr [1%N] | None => VNone end) (rmap ti_at (rmap cp_ind (bind (rmap me_trends x0) (fun g => gl_get g 1%Z))))) (VNone);
   iseq (rmap (fun v => v) (rmap (fun x => VDict (trend_ind_dict x)) (rmap cp_ind (bind (rmap me_trends x0) (fun g => gl_get g 1%Z))))) (VDict [(py "at", VNone); (py "code", VStr (py "TEMPO FM0215 TL0245")); (py "forecast_period", VDict [(py "end", VDict [(py "code", VNone); (py "datetime", VStr (py "2022-02-15 03:00:00"))]); (py "init", VDict [(py "code", VNone); (py "datetime", VStr (py "2022-02-15 01:00:00"))])]); (py "from_", VDict [(py "code", VStr (py "FM0215")); (py "datetime", VStr (py "2022-02-15 02:15:00"))]); (py "translation", VStr (py "temporary")); (py "until", VDict [(py "code", VStr (py "TL0245")); (py "datetime", VStr (py "2022-02-15 02:45:00"))])]);
   israise (rmap cp_code (bind (rmap me_trends x0) (fun g => gl_get g 2%Z))) RangeError].

Check (eq_refl true <: forallb (fun b => b) t_metar_test_weather_trend_indicator_test_weather_trend_with_two_changes = true).

(* tests/metar/test_weather_trend_indicator.py:359 test_no_weather_trend *)
Definition t_metar_test_weather_trend_indicator_test_no_weather_trend : list bool :=
  let x0 := (metar_parse E (py "MRLM 072200Z 02006KT CAVOK 28/21 A2986") (Some 2022%Z) (Some 2%Z) false) in
  [iseq (rmap (fun l => VList (map vopt l)) (rmap (fun g => map cp_code (gl_list g)) (rmap me_trends x0))) (VList []);
   iseq (rmap VStr (rmap (fun g => join ([10%N]) (map change_period_str (gl_list g))) (rmap me_trends x0))) (VStr []);
   iseq (rmap (fun v => v) (rmap VDict (bind (rmap me_trends x0) (list_dict change_period_dict)))) (VDict []);
   israise (rmap cp_code (bind (rmap me_trends x0) (fun g => gl_get g 0%Z))) IndexError].

Check (eq_refl true <: forallb (fun b => b) t_metar_test_weather_trend_indicator_test_no_weather_trend = true).

(* tests/metar/test_weather_trend_visibility.py:9 test_weather_trend_visibility_from_meters *)
Definition t_metar_test_weather_trend_visibility_test_weather_trend_visibility_from_meters : list bool :=
  let x0 := (metar_parse E (py "METAR SBBV 170400Z 08004KT 9999 SCT030 FEW035TCU BKN070 26/23 Q1012 BECMG 5000 +RA") (Some 2020%Z) (Some 8%Z) false) in
  [iseq (rmap vopt (rmap cp_code (bind (rmap me_trends x0) (fun g => gl_get g 0%Z)))) (VStr (py "BECMG 5000 +RA"));
   iseq (rmap vopt (rmap v_code (rmap (fun x => c_vis (cp_common x)) (bind (rmap me_trends x0) (fun g => gl_get g 0%Z))))) (VStr (py "5000"));
   iseq (rmap vflo (rmap v_vis (rmap (fun x => c_vis (cp_common x)) (bind (rmap me_trends x0) (fun g => gl_get g 0%Z))))) (VFloat (flit "5000.0"));
   iseq (rmap vflo (rmap (fun v => in_kilometers (v_vis v)) (rmap (fun x => c_vis (cp_common x)) (bind (rmap me_trends x0) (fun g => gl_get g 0%Z))))) (VFloat (flit "5.0"));
   iseq (rmap vflo (rmap (fun v => in_sea_miles (v_vis v)) (rmap (fun x => c_vis (cp_common x)) (bind (rmap me_trends x0) (fun g => gl_get g 0%Z))))) (VFloat (flit "2.6997840172786174"));
   iseq (rmap vflo (rmap (fun v => in_feet (v_vis v)) (rmap (fun x => c_vis (cp_common x)) (bind (rmap me_trends x0) (fun g => gl_get g 0%Z))))) (VFloat (flit "16404.199475065616"));
   iseq (rmap VBool (rmap v_cavok (rmap (fun x => c_vis (cp_common x)) (bind (rmap me_trends x0) (fun g => gl_get g 0%Z))))) (VBool false);
   iseq (rmap vopt (rmap (fun v => cardinal (v_dir v)) (rmap (fun x => c_vis (cp_common x)) (bind (rmap me_trends x0) (fun g => gl_get g 0%Z))))) (VNone);
   iseq (rmap vflo (rmap (fun v => dir_value (v_dir v)) (rmap (fun x => c_vis (cp_common x)) (bind (rmap me_trends x0) (fun g => gl_get g 0%Z))))) (VNone);
   iseq (rmap vflo (rmap (fun v => in_radians (v_dir v)) (rmap (fun x => c_vis (cp_common x)) (bind (rmap me_trends x0) (fun g => gl_get g 0%Z))))) (VNone);
   iseq (rmap VStr (rmap prevailing_str (rmap (fun x => c_vis (cp_common x)) (bind (rmap me_trends x0) (fun g => gl_get g 0%Z))))) (VStr (py "5.0 km"));
   iseq (rmap (fun v => v) (rmap (fun x => VDict (prevailing_dict x)) (rmap (fun x => c_vis (cp_common x)) (bind (rmap me_trends x0) (fun g => gl_get g 0%Z))))) (VDict [(py "cavok", VBool false); (py "code", VStr (py "5000")); (py "direction", VDict [(py "cardinal", VNone); (py "direction", VNone); (py "units", VStr (py "degrees")); (py "variable", VBool false)]); (py "visibility", VDict [(py "distance", VFloat (flit "5000.0")); (py "units", VStr (py "meters"))])]);
   israise (rmap cp_code (bind (rmap me_trends x0) (fun g => gl_get g 1%Z))) IndexError].

Check (eq_refl true <: forallb (fun b => b) t_metar_test_weather_trend_visibility_test_weather_trend_visibility_from_meters = true).

(* tests/metar/test_weather_trend_visibility.py:45 test_weather_trend_visibility_from_seamiles *)
Definition t_metar_test_weather_trend_visibility_test_weather_trend_visibility_from_seamiles : list bool :=
  let x0 := (metar_parse E (py "SPECI PALH 170933Z 00000KT 10SM FEW020 M14/M16 A2980 TEMPO FM1000 TL1100 1 1/4SM BR BKN002 RMK AO2 T11441156") None None false) in
  [iseq (rmap vopt (rmap cp_code (bind (rmap me_trends x0) (fun g => gl_get g 0%Z)))) (VStr (py "TEMPO FM1000 TL1100 1 1/4SM BR BKN002"));
   iseq (rmap vopt (rmap v_code (rmap (fun x => c_vis (cp_common x)) (bind (rmap me_trends x0) (fun g => gl_get g 0%Z))))) (VStr (py "1 1/4SM"));
   iseq (rmap vflo (rmap v_vis (rmap (fun x => c_vis (cp_common x)) (bind (rmap me_trends x0) (fun g => gl_get g 0%Z))))) (VFloat (flit "2315.0"));
   iseq (rmap vflo (rmap (fun v => in_kilometers (v_vis v)) (rmap (fun x => c_vis (cp_common x)) (bind (rmap me_trends x0) (fun g => gl_get g 0%Z))))) (VFloat (flit "2.315"));
   iseq (rmap vflo (rmap (fun v => in_sea_miles (v_vis v)) (rmap (fun x => c_vis (cp_common x)) (bind (rmap me_trends x0) (fun g => gl_get g 0%Z))))) (VFloat (flit "1.2499999999999998"));
   iseq (rmap vflo (rmap (fun v => in_feet (v_vis v)) (rmap (fun x => c_vis (cp_common x)) (bind (rmap me_trends x0) (fun g => gl_get g 0%Z))))) (VFloat (flit "7595.144356955379"));
   iseq (rmap VBool (rmap v_cavok (rmap (fun x => c_vis (cp_common x)) (bind (rmap me_trends x0) (fun g => gl_get g 0%Z))))) (VBool false);
   iseq (rmap vopt (rmap (fun v => cardinal (v_dir v)) (rmap (fun x => c_vis (cp_common x)) (bind (rmap me_trends x0) (fun g => gl_get g 0%Z))))) (VNone);
   iseq (rmap vflo (rmap (fun v => dir_value (v_dir v)) (rmap (fun x => c_vis (cp_common x)) (bind (rmap me_trends x0) (fun g => gl_get g 0%Z))))) (VNone);
   iseq (rmap vflo (rmap (fun v => in_radians (v_dir v)) (rmap (fun x => c_vis (cp_common x)) (bind (rmap me_trends x0) (fun g => gl_get g 0%Z))))) (VNone);
   iseq (rmap VStr (rmap prevailing_str (rmap (fun x => c_vis (cp_common x)) (bind (rmap me_trends x0) (fun g => gl_get g 0%Z))))) (VStr (py "2.3 km"));
   iseq (rmap (fun v => v) (rmap (fun x => VDict (prevailing_dict x)) (rmap (fun x => c_vis (cp_common x)) (bind (rmap me_trends x0) (fun g => gl_get g 0%Z))))) (VDict [(py "cavok", VBool false); (py "code", VStr (py "1 1/4SM")); (py "direction", VDict [(py "cardinal", VNone); (py "direction", VNone); (py "units", VStr (py "degrees")); (py "variable", VBool false)]); (py "visibility", VDict [(py "distance", VFloat (flit "2315.0")); (py "units", VStr (py "meters"))])]);
   israise (rmap cp_code (bind (rmap me_trends x0) (fun g => gl_get g 1%Z))) IndexError].

Check (eq_refl true <: forallb (fun b => b) t_metar_test_weather_trend_visibility_test_weather_trend_visibility_from_seamiles = true).

(* tests/metar/test_weather_trend_visibility.py:79 test_weather_trend_visibility_from_seamiles_only_fraction *)
Definition t_metar_test_weather_trend_visibility_test_weather_trend_visibility_from_seamiles_only_fraction : list bool :=
  let x0 := (metar_parse E (py "METAR PALH 170933Z 00000KT 2SM BR FEW002 M14/M16 A2980 BECMG AT1000 1/2SM RMK AO2 T11441156") None None false) in
  [iseq (rmap vopt (rmap cp_code (bind (rmap me_trends x0) (fun g => gl_get g 0%Z)))) (VStr (py "BECMG AT1000 1/2SM"));
   iseq (rmap vopt (rmap v_code (rmap (fun x => c_vis (cp_common x)) (bind (rmap me_trends x0) (fun g => gl_get g 0%Z))))) (VStr (py "1/2SM"));
   iseq (rmap vflo (rmap v_vis (rmap (fun x => c_vis (cp_common x)) (bind (rmap me_trends x0) (fun g => gl_get g 0%Z))))) (VFloat (flit "926.0"));
   iseq (rmap vflo (rmap (fun v => in_kilometers (v_vis v)) (rmap (fun x => c_vis (cp_common x)) (bind (rmap me_trends x0) (fun g => gl_get g 0%Z))))) (VFloat (flit "0.926"));
   iseq (rmap vflo (rmap (fun v => in_sea_miles (v_vis v)) (rmap (fun x => c_vis (cp_common x)) (bind (rmap me_trends x0) (fun g => gl_get g 0%Z))))) (VFloat (flit "0.49999999999999994"));
   iseq (rmap vflo (rmap (fun v => in_feet (v_vis v)) (rmap (fun x => c_vis (cp_common x)) (bind (rmap me_trends x0) (fun g => gl_get g 0%Z))))) (VFloat (flit "3038.0577427821518"));
   iseq (rmap VBool (rmap v_cavok (rmap (fun x => c_vis (cp_common x)) (bind (rmap me_trends x0) (fun g => gl_get g 0%Z))))) (VBool false);
   iseq (rmap vopt (rmap (fun v => cardinal (v_dir v)) (rmap (fun x => c_vis (cp_common x)) (bind (rmap me_trends x0) (fun g => gl_get g 0%Z))))) (VNone);
   iseq (rmap vflo (rmap (fun v => dir_value (v_dir v)) (rmap (fun x => c_vis (cp_common x)) (bind (rmap me_trends x0) (fun g => gl_get g 0%Z))))) (VNone);
   iseq (rmap vflo (rmap (fun v => in_radians (v_dir v)) (rmap (fun x => c_vis (cp_common x)) (bind (rmap me_trends x0) (fun g => gl_get g 0%Z))))) (VNone);
   iseq (rmap VStr (rmap prevailing_str (rmap (fun x => c_vis (cp_common x)) (bind (rmap me_trends x0) (fun g => gl_get g 0%Z))))) (VStr (py "0.9 km"));
   iseq (rmap (fun v => v) (rmap (fun x => VDict (prevailing_dict x)) (rmap (fun x => c_vis (cp_common x)) (bind (rmap me_trends x0) (fun g => gl_get g 0%Z))))) (VDict [(py "cavok", VBool false); (py "code", VStr (py "1/2SM")); (py "direction", VDict [(py "cardinal", VNone); (py "direction", VNone); (py "units", VStr (py "degrees")); (py "variable", VBool false)]); (py "visibility", VDict [(py "distance", VFloat (flit "926.0")); (py "units", VStr (py "meters"))])]);
   israise (rmap cp_code (bind (rmap me_trends x0) (fun g => gl_get g 1%Z))) IndexError].

Check (eq_refl true <: forallb (fun b => b) t_metar_test_weather_trend_visibility_test_weather_trend_visibility_from_seamiles_only_fraction = true).

(* tests/metar/test_weather_trend_visibility.py:113 test_weather_trend_visibility_from_kilometers *)
Definition t_metar_test_weather_trend_visibility_test_weather_trend_visibility_from_kilometers : list bool :=
  let x0 := (metar_parse E (py "METAR SCAT 210900Z 18005KT 10KM OVC027/// 16/12 Q1013 BECMG 5KM") None None false) in
  [iseq (rmap vopt (rmap cp_code (bind (rmap me_trends x0) (fun g => gl_get g 0%Z)))) (VStr (py "BECMG 5KM"));
   iseq (rmap vopt (rmap v_code (rmap (fun x => c_vis (cp_common x)) (bind (rmap me_trends x0) (fun g => gl_get g 0%Z))))) (VStr (py "5KM"));
   iseq (rmap vflo (rmap v_vis (rmap (fun x => c_vis (cp_common x)) (bind (rmap me_trends x0) (fun g => gl_get g 0%Z))))) (VFloat (flit "5000.0"));
   iseq (rmap vflo (rmap (fun v => in_kilometers (v_vis v)) (rmap (fun x => c_vis (cp_common x)) (bind (rmap me_trends x0) (fun g => gl_get g 0%Z))))) (VFloat (flit "5.0"));
   iseq (rmap vflo (rmap (fun v => in_sea_miles (v_vis v)) (rmap (fun x => c_vis (cp_common x)) (bind (rmap me_trends x0) (fun g => gl_get g 0%Z))))) (VFloat (flit "2.6997840172786174"));
   iseq (rmap vflo (rmap (fun v => in_feet (v_vis v)) (rmap (fun x => c_vis (cp_common x)) (bind (rmap me_trends x0) (fun g => gl_get g 0%Z))))) (VFloat (flit "16404.199475065616"));
   iseq (rmap VBool (rmap v_cavok (rmap (fun x => c_vis (cp_common x)) (bind (rmap me_trends x0) (fun g => gl_get g 0%Z))))) (VBool false);
   iseq (rmap vopt (rmap (fun v => cardinal (v_dir v)) (rmap (fun x => c_vis (cp_common x)) (bind (rmap me_trends x0) (fun g => gl_get g 0%Z))))) (VNone);
   iseq (rmap vflo (rmap (fun v => dir_value (v_dir v)) (rmap (fun x => c_vis (cp_common x)) (bind (rmap me_trends x0) (fun g => gl_get g 0%Z))))) (VNone);
   iseq (rmap vflo (rmap (fun v => in_radians (v_dir v)) (rmap (fun x => c_vis (cp_common x)) (bind (rmap me_trends x0) (fun g => gl_get g 0%Z))))) (VNone);
   iseq (rmap VStr (rmap prevailing_str (rmap (fun x => c_vis (cp_common x)) (bind (rmap me_trends x0) (fun g => gl_get g 0%Z))))) (VStr (py "5.0 km"));
   iseq (rmap (fun v => v) (rmap (fun x => VDict (prevailing_dict x)) (rmap (fun x => c_vis (cp_common x)) (bind (rmap me_trends x0) (fun g => gl_get g 0%Z))))) (VDict [(py "cavok", VBool false); (py "code", VStr (py "5KM")); (py "direction", VDict [(py "cardinal", VNone); (py "direction", VNone); (py "units", VStr (py "degrees")); (py "variable", VBool false)]); (py "visibility", VDict [(py "distance", VFloat (flit "5000.0")); (py "units", VStr (py "meters"))])]);
   israise (rmap cp_code (bind (rmap me_trends x0) (fun g => gl_get g 1%Z))) IndexError].

Check (eq_refl true <: forallb (fun b => b) t_metar_test_weather_trend_visibility_test_weather_trend_visibility_from_kilometers = true).

(* tests/metar/test_weather_trend_visibility.py:145 test_weather_trend_visibility_from_cavok *)
Definition t_metar_test_weather_trend_visibility_test_weather_trend_visibility_from_cavok : list bool :=
  let x0 := (metar_parse E (py "METAR SAAR 222000Z 13011KT 100V160 9999 FEW030 32/15 Q1012 BECMG AT2100 CAVOK RMK PP000") None None false) in
  [iseq (rmap vopt (rmap cp_code (bind (rmap me_trends x0) (fun g => gl_get g 0%Z)))) (VStr (py "BECMG AT2100 CAVOK"));
   iseq (rmap vopt (rmap v_code (rmap (fun x => c_vis (cp_common x)) (bind (rmap me_trends x0) (fun g => gl_get g 0%Z))))) (VStr (py "CAVOK"));
   iseq (rmap vflo (rmap v_vis (rmap (fun x => c_vis (cp_common x)) (bind (rmap me_trends x0) (fun g => gl_get g 0%Z))))) (VFloat (flit "10000.0"));
   iseq (rmap vflo (rmap (fun v => in_kilometers (v_vis v)) (rmap (fun x => c_vis (cp_common x)) (bind (rmap me_trends x0) (fun g => gl_get g 0%Z))))) (VFloat (flit "10.0"));
   iseq (rmap vflo (rmap (fun v => in_sea_miles (v_vis v)) (rmap (fun x => c_vis (cp_common x)) (bind (rmap me_trends x0) (fun g => gl_get g 0%Z))))) (VFloat (flit "5.399568034557235"));
   iseq (rmap vflo (rmap (fun v => in_feet (v_vis v)) (rmap (fun x => c_vis (cp_common x)) (bind (rmap me_trends x0) (fun g => gl_get g 0%Z))))) (VFloat (flit "32808.39895013123"));
   iseq (rmap VBool (rmap v_cavok (rmap (fun x => c_vis (cp_common x)) (bind (rmap me_trends x0) (fun g => gl_get g 0%Z))))) (VBool true);
   iseq (rmap vopt (rmap (fun v => cardinal (v_dir v)) (rmap (fun x => c_vis (cp_common x)) (bind (rmap me_trends x0) (fun g => gl_get g 0%Z))))) (VNone);
   iseq (rmap vflo (rmap (fun v => dir_value (v_dir v)) (rmap (fun x => c_vis (cp_common x)) (bind (rmap me_trends x0) (fun g => gl_get g 0%Z))))) (VNone);
   iseq (rmap vflo (rmap (fun v => in_radians (v_dir v)) (rmap (fun x => c_vis (cp_common x)) (bind (rmap me_trends x0) (fun g => gl_get g 0%Z))))) (VNone);
   iseq (rmap VStr (rmap prevailing_str (rmap (fun x => c_vis (cp_common x)) (bind (rmap me_trends x0) (fun g => gl_get g 0%Z))))) (VStr (py "Ceiling and Visibility OK"));
   iseq (rmap (fun v => v) (rmap (fun x => VDict (prevailing_dict x)) (rmap (fun x => c_vis (cp_common x)) (bind (rmap me_trends x0) (fun g => gl_get g 0%Z))))) (VDict [(py "cavok", VBool true); (py "code", VStr (py "CAVOK")); (py "direction", VDict [(py "cardinal", VNone); (py "direction", VNone); (py "units", VStr (py "degrees")); (py "variable", VBool false)]); (py "visibility", VDict [(py "distance", VFloat (flit "10000.0")); (py "units", VStr (py "meters"))])]);
   israise (rmap cp_code (bind (rmap me_trends x0) (fun g => gl_get g 1%Z))) IndexError].

Check (eq_refl true <: forallb (fun b => b) t_metar_test_weather_trend_visibility_test_weather_trend_visibility_from_cavok = true).

(* tests/metar/test_weather_trend_visibility.py:179 test_no_weather_trend_visibility *)
Definition t_metar_test_weather_trend_visibility_test_no_weather_trend_visibility : list bool :=
  let x0 := (metar_parse E (py "METAR PALH 170933Z 00000KT BR FEW002 M14/M16 A2980 NOSIG RMK AO2 T11441156") None None false) in
  [iseq (rmap vopt (rmap cp_code (bind (rmap me_trends x0) (fun g => gl_get g 0%Z)))) (VStr (py "NOSIG"));
   iseq (rmap vopt (rmap v_code (rmap (fun x => c_vis (cp_common x)) (bind (rmap me_trends x0) (fun g => gl_get g 0%Z))))) (VNone);
   iseq (rmap vflo (rmap v_vis (rmap (fun x => c_vis (cp_common x)) (bind (rmap me_trends x0) (fun g => gl_get g 0%Z))))) (VNone);
   iseq (rmap vflo (rmap (fun v => in_kilometers (v_vis v)) (rmap (fun x => c_vis (cp_common x)) (bind (rmap me_trends x0) (fun g => gl_get g 0%Z))))) (VNone);
   iseq (rmap vflo (rmap (fun v => in_sea_miles (v_vis v)) (rmap (fun x => c_vis (cp_common x)) (bind (rmap me_trends x0) (fun g => gl_get g 0%Z))))) (VNone);
   iseq (rmap vflo (rmap (fun v => in_feet (v_vis v)) (rmap (fun x => c_vis (cp_common x)) (bind (rmap me_trends x0) (fun g => gl_get g 0%Z))))) (VNone);
   iseq (rmap VBool (rmap v_cavok (rmap (fun x => c_vis (cp_common x)) (bind (rmap me_trends x0) (fun g => gl_get g 0%Z))))) (VBool false);
   iseq (rmap vopt (rmap (fun v => cardinal (v_dir v)) (rmap (fun x => c_vis (cp_common x)) (bind (rmap me_trends x0) (fun g => gl_get g 0%Z))))) (VNone);
   iseq (rmap vflo (rmap (fun v => dir_value (v_dir v)) (rmap (fun x => c_vis (cp_common x)) (bind (rmap me_trends x0) (fun g => gl_get g 0%Z))))) (VNone);
   iseq (rmap vflo (rmap (fun v => in_radians (v_dir v)) (rmap (fun x => c_vis (cp_common x)) (bind (rmap me_trends x0) (fun g => gl_get g 0%Z))))) (VNone);
   iseq (rmap VStr (rmap prevailing_str (rmap (fun x => c_vis (cp_common x)) (bind (rmap me_trends x0) (fun g => gl_get g 0%Z))))) (VStr []);
   iseq (rmap (fun v => v) (rmap (fun x => VDict (prevailing_dict x)) (rmap (fun x => c_vis (cp_common x)) (bind (rmap me_trends x0) (fun g => gl_get g 0%Z))))) (VDict [(py "cavok", VBool false); (py "code", VNone); (py "direction", VDict [(py "cardinal", VNone); (py "direction", VNone); (py "units", VStr (py "degrees")); (py "variable", VBool false)]); (py "visibility", VDict [(py "distance", VNone); (py "units", VStr (py "meters"))])]);
   israise (rmap cp_code (bind (rmap me_trends x0) (fun g => gl_get g 1%Z))) IndexError].

Check (eq_refl true <: forallb (fun b => b) t_metar_test_weather_trend_visibility_test_no_weather_trend_visibility = true).

(* tests/metar/test_weather_trend_weather.py:10 test_one_weather_trend_weather *)
Definition t_metar_test_weather_trend_weather_test_one_weather_trend_weather : list bool :=
  let x0 := (metar_parse E (py "SPECI UUDD 190430Z 35004MPS 9999 FEW020 M01/M03 Q1009 R32L/590240 TEMPO TL0600 5000 +SN SCT012") (Some 2020%Z) (Some 10%Z) false) in
  [iseq (rmap (fun l => VList (map vopt l)) (rmap (fun g => map cp_code (gl_list g)) (rmap me_trends x0))) (VList [VStr (py "TEMPO TL0600 5000 +SN SCT012")]);
   iseq (rmap VStr (rmap (fun g => join ([10%N]) (map change_period_str (gl_list g))) (rmap me_trends x0))) (VStr ((py "temporary from 2020-10-19 04:30:00 until 2020-10-19 06:00:00" ++ [10%N] ++ py "5.0 km" ++ [10%N] ++ py "heavy snow" ++ [10%N] ++ py "scattered at 1200.0 feet")));
   iseq (rmap vopt (rmap cp_code (bind (rmap me_trends x0) (fun g => gl_get g 0%Z)))) (VStr (py "TEMPO TL0600 5000 +SN SCT012"));
   iseq (rmap (fun l => VList (map vopt l)) (rmap (fun g => map we_code (gl_list g)) (rmap (fun x => c_weathers (cp_common x)) (bind (rmap me_trends x0) (fun g => gl_get g 0%Z))))) (VList [VStr (py "+SN")]);
   iseq (rmap VStr (rmap (fun g => join (py " | ") (map weather_str (gl_list g))) (rmap (fun x => c_weathers (cp_common x)) (bind (rmap me_trends x0) (fun g => gl_get g 0%Z))))) (VStr (py "heavy snow"));
   iseq (rmap (fun v => v) (rmap VDict (bind (rmap (fun x => c_weathers (cp_common x)) (bind (rmap me_trends x0) (fun g => gl_get g 0%Z))) (list_dict weather_dict)))) (VDict [(py "first", VDict [(py "code", VStr (py "+SN")); (py "description", VNone); (py "intensity", VStr (py "heavy")); (py "obscuration", VNone); (py "other", VNone); (py "precipitation", VStr (py "snow"))])]);
   iseq (rmap vopt (rmap we_int (bind (rmap (fun x => c_weathers (cp_common x)) (bind (rmap me_trends x0) (fun g => gl_get g 0%Z))) (fun g => gl_get g 0%Z)))) (VStr (py "heavy"));
   iseq (rmap vopt (rmap we_desc (bind (rmap (fun x => c_weathers (cp_common x)) (bind (rmap me_trends x0) (fun g => gl_get g 0%Z))) (fun g => gl_get g 0%Z)))) (VNone);
   iseq (rmap vopt (rmap we_prec (bind (rmap (fun x => c_weathers (cp_common x)) (bind (rmap me_trends x0) (fun g => gl_get g 0%Z))) (fun g => gl_get g 0%Z)))) (VStr (py "snow"));
   iseq (rmap vopt (rmap we_obsc (bind (rmap (fun x => c_weathers (cp_common x)) (bind (rmap me_trends x0) (fun g => gl_get g 0%Z))) (fun g => gl_get g 0%Z)))) (VNone);
   iseq (rmap vopt (rmap we_other (bind (rmap (fun x => c_weathers (cp_common x)) (bind (rmap me_trends x0) (fun g => gl_get g 0%Z))) (fun g => gl_get g 0%Z)))) (VNone);
   iseq (rmap VStr (rmap (fun g => join (py " | ") (map weather_str (gl_list g))) (rmap (fun x => c_weathers (cp_common x)) (bind (rmap me_trends x0) (fun g => gl_get g 0%Z))))) (VStr (py "heavy snow"));
   israise (rmap we_code (bind (rmap (fun x => c_weathers (cp_common x)) (bind (rmap me_trends x0) (fun g => gl_get g 0%Z))) (fun g => gl_get g 1%Z))) IndexError].

Check (eq_refl true <: forallb (fun b => b) t_metar_test_weather_trend_weather_test_one_weather_trend_weather = true).

(* tests/metar/test_weather_trend_weather.py:55 test_two_weather_trend_weathers *)
Definition t_metar_test_weather_trend_weather_test_two_weather_trend_weathers : list bool :=
  let x0 := (metar_parse E (py "METAR MRLM 191300Z 22005KT 6000 +DZ VCSH FEW010TCU OVC070 24/23 A2991 RERA BECMG 3000 TSRA BR SCT010CB") (Some 2020%Z) (Some 10%Z) false) in
  [iseq (rmap (fun l => VList (map vopt l)) (rmap (fun g => map cp_code (gl_list g)) (rmap me_trends x0))) (VList [VStr (py "BECMG 3000 TSRA BR SCT010CB")]);
   iseq (rmap VStr (rmap (fun g => join ([10%N]) (map change_period_str (gl_list g))) (rmap me_trends x0))) (VStr ((py "becoming from 2020-10-19 13:00:00 until 2020-10-19 15:00:00" ++ [10%N] ++ py "3.0 km" ++ [10%N] ++ py "thunderstorm rain" ++ [10%N] ++ py "mist" ++ [10%N] ++ py "scattered at 1000.0 feet of cumulonimbus")));
   iseq (rmap vopt (rmap cp_code (bind (rmap me_trends x0) (fun g => gl_get g 0%Z)))) (VStr (py "BECMG 3000 TSRA BR SCT010CB"));
   iseq (rmap (fun l => VList (map vopt l)) (rmap (fun g => map we_code (gl_list g)) (rmap (fun x => c_weathers (cp_common x)) (bind (rmap me_trends x0) (fun g => gl_get g 0%Z))))) (VList [VStr (py "TSRA"); VStr (py "BR")]);
   iseq (rmap VStr (rmap (fun g => join (py " | ") (map weather_str (gl_list g))) (rmap (fun x => c_weathers (cp_common x)) (bind (rmap me_trends x0) (fun g => gl_get g 0%Z))))) (VStr (py "thunderstorm rain | mist"));
   iseq (rmap (fun v => v) (rmap VDict (bind (rmap (fun x => c_weathers (cp_common x)) (bind (rmap me_trends x0) (fun g => gl_get g 0%Z))) (list_dict weather_dict)))) (VDict [(py "first", VDict [(py "code", VStr (py "TSRA")); (py "description", VStr (py "thunderstorm")); (py "intensity", VNone); (py "obscuration", VNone); (py "other", VNone); (py "precipitation", VStr (py "rain"))]); (py "second", VDict [(py "code", VStr (py "BR")); (py "description", VNone); (py "intensity", VNone); (py "obscuration", VStr (py "mist")); (py "other", VNone); (py "precipitation", VNone)])]);
   iseq (rmap vopt (rmap we_int (bind (rmap (fun x => c_weathers (cp_common x)) (bind (rmap me_trends x0) (fun g => gl_get g 0%Z))) (fun g => gl_get g 0%Z)))) (VNone);
   iseq (rmap vopt (rmap we_desc (bind (rmap (fun x => c_weathers (cp_common x)) (bind (rmap me_trends x0) (fun g => gl_get g 0%Z))) (fun g => gl_get g 0%Z)))) (VStr (py "thunderstorm"));
   iseq (rmap vopt (rmap we_prec (bind (rmap (fun x => c_weathers (cp_common x)) (bind (rmap me_trends x0) (fun g => gl_get g 0%Z))) (fun g => gl_get g 0%Z)))) (VStr (py "rain"));
   iseq (rmap vopt (rmap we_obsc (bind (rmap (fun x => c_weathers (cp_common x)) (bind (rmap me_trends x0) (fun g => gl_get g 0%Z))) (fun g => gl_get g 0%Z)))) (VNone);
   iseq (rmap vopt (rmap we_other (bind (rmap (fun x => c_weathers (cp_common x)) (bind (rmap me_trends x0) (fun g => gl_get g 0%Z))) (fun g => gl_get g 0%Z)))) (VNone);
   iseq (rmap vopt (rmap we_int (bind (rmap (fun x => c_weathers (cp_common x)) (bind (rmap me_trends x0) (fun g => gl_get g 0%Z))) (fun g => gl_get g 1%Z)))) (VNone);
   iseq (rmap vopt (rmap we_desc (bind (rmap (fun x => c_weathers (cp_common x)) (bind (rmap me_trends x0) (fun g => gl_get g 0%Z))) (fun g => gl_get g 1%Z)))) (VNone);
   iseq (rmap vopt (rmap we_prec (bind (rmap (fun x => c_weathers (cp_common x)) (bind (rmap me_trends x0) (fun g => gl_get g 0%Z))) (fun g => gl_get g 1%Z)))) (VNone);
   iseq (rmap vopt (rmap we_obsc (bind (rmap (fun x => c_weathers (cp_common x)) (bind (rmap me_trends x0) (fun g => gl_get g 0%Z))) (fun g => gl_get g 1%Z)))) (VStr (py "mist"));
   iseq (rmap vopt (rmap we_other (bind (rmap (fun x => c_weathers (cp_common x)) (bind (rmap me_trends x0) (fun g => gl_get g 0%Z))) (fun g => gl_get g 1%Z)))) (VNone);
   israise (rmap we_code (bind (rmap (fun x => c_weathers (cp_common x)) (bind (rmap me_trends x0) (fun g => gl_get g 0%Z))) (fun g => gl_get g 2%Z))) IndexError].

Check (eq_refl true <: forallb (fun b => b) t_metar_test_weather_trend_weather_test_two_weather_trend_weathers = true).

(* tests/metar/test_weather_trend_weather.py:114 test_three_weather_trend_weathers *)
Definition t_metar_test_weather_trend_weather_test_three_weather_trend_weathers : list bool :=
  let x0 := (metar_parse E (py "METAR BIBD 191100Z 03002KT 9999 SCT008CB OVC020 04/03 Q1013 TEMPO 5000 -RA BR VCTS") (Some 2020%Z) (Some 10%Z) false) in
  [iseq (rmap (fun l => VList (map vopt l)) (rmap (fun g => map cp_code (gl_list g)) (rmap me_trends x0))) (VList [VStr (py "TEMPO 5000 -RA BR VCTS")]);
   iseq (rmap VStr (rmap (fun g => join ([10%N]) (map change_period_str (gl_list g))) (rmap me_trends x0))) (VStr ((py "temporary from 2020-10-19 11:00:00 until 2020-10-19 13:00:00" ++ [10%N] ++ py "5.0 km" ++ [10%N] ++ py "light rain" ++ [10%N] ++ py "mist" ++ [10%N] ++ py "nearby thunderstorm")));
   iseq (rmap vopt (rmap cp_code (bind (rmap me_trends x0) (fun g => gl_get g 0%Z)))) (VStr (py "TEMPO 5000 -RA BR VCTS"));
   iseq (rmap (fun l => VList (map vopt l)) (rmap (fun g => map we_code (gl_list g)) (rmap (fun x => c_weathers (cp_common x)) (bind (rmap me_trends x0) (fun g => gl_get g 0%Z))))) (VList [VStr (py "-RA"); VStr (py "BR"); VStr (py "VCTS")]);
   iseq (rmap VStr (rmap (fun g => join (py " | ") (map weather_str (gl_list g))) (rmap (fun x => c_weathers (cp_common x)) (bind (rmap me_trends x0) (fun g => gl_get g 0%Z))))) (VStr (py "light rain | mist | nearby thunderstorm"));
   iseq (rmap (fun v => v) (rmap VDict (bind (rmap (fun x => c_weathers (cp_common x)) (bind (rmap me_trends x0) (fun g => gl_get g 0%Z))) (list_dict weather_dict)))) (VDict [(py "first", VDict [(py "code", VStr (py "-RA")); (py "description", VNone); (py "intensity", VStr (py "light")); (py "obscuration", VNone); (py "other", VNone); (py "precipitation", VStr (py "rain"))]); (py "second", VDict [(py "code", VStr (py "BR")); (py "description", VNone); (py "intensity", VNone); (py "obscuration", VStr (py "mist")); (py "other", VNone); (py "precipitation", VNone)]); (py "third", VDict [(py "code", VStr (py "VCTS")); (py "description", VStr (py "thunderstorm")); (py "intensity", VStr (py "nearby")); (py "obscuration", VNone); (py "other", VNone); (py "precipitation", VNone)])]);
   iseq (rmap vopt (rmap we_int (bind (rmap (fun x => c_weathers (cp_common x)) (bind (rmap me_trends x0) (fun g => gl_get g 0%Z))) (fun g => gl_get g 0%Z)))) (VStr (py "light"));
   iseq (rmap vopt (rmap we_desc (bind (rmap (fun x => c_weathers (cp_common x)) (bind (rmap me_trends x0) (fun g => gl_get g 0%Z))) (fun g => gl_get g 0%Z)))) (VNone);
   iseq (rmap vopt (rmap we_prec (bind (rmap (fun x => c_weathers (cp_common x)) (bind (rmap me_trends x0) (fun g => gl_get g 0%Z))) (fun g => gl_get g 0%Z)))) (VStr (py "rain"));
   iseq (rmap vopt (rmap we_obsc (bind (rmap (fun x => c_weathers (cp_common x)) (bind (rmap me_trends x0) (fun g => gl_get g 0%Z))) (fun g => gl_get g 0%Z)))) (VNone);
   iseq (rmap vopt (rmap we_other (bind (rmap (fun x => c_weathers (cp_common x)) (bind (rmap me_trends x0) (fun g => gl_get g 0%Z))) (fun g => gl_get g 0%Z)))) (VNone);
   iseq (rmap vopt (rmap we_int (bind (rmap (fun x => c_weathers (cp_common x)) (bind (rmap me_trends x0) (fun g => gl_get g 0%Z))) (fun g => gl_get g 1%Z)))) (VNone);
   iseq (rmap vopt (rmap we_desc (bind (rmap (fun x => c_weathers (cp_common x)) (bind (rmap me_trends x0) (fun g => gl_get g 0%Z))) (fun g => gl_get g 1%Z)))) (VNone);
   iseq (rmap vopt (rmap we_prec (bind (rmap (fun x => c_weathers (cp_common x)) (bind (rmap me_trends x0) (fun g => gl_get g 0%Z))) (fun g => gl_get g 1%Z)))) (VNone);
   iseq (rmap vopt (rmap we_obsc (bind (rmap (fun x => c_weathers (cp_common x)) (bind (rmap me_trends x0) (fun g => gl_get g 0%Z))) (fun g => gl_get g 1%Z)))) (VStr (py "mist"));
   iseq (rmap vopt (rmap we_other (bind (rmap (fun x => c_weathers (cp_common x)) (bind (rmap me_trends x0) (fun g => gl_get g 0%Z))) (fun g => gl_get g 1%Z)))) (VNone);
   iseq (rmap vopt (rmap we_int (bind (rmap (fun x => c_weathers (cp_common x)) (bind (rmap me_trends x0) (fun g => gl_get g 0%Z))) (fun g => gl_get g 2%Z)))) (VStr (py "nearby"));
   iseq (rmap vopt (rmap we_desc (bind (rmap (fun x => c_weathers (cp_common x)) (bind (rmap me_trends x0) (fun g => gl_get g 0%Z))) (fun g => gl_get g 2%Z)))) (VStr (py "thunderstorm"));
   iseq (rmap vopt (rmap we_prec (bind (rmap (fun x => c_weathers (cp_common x)) (bind (rmap me_trends x0) (fun g => gl_get g 0%Z))) (fun g => gl_get g 2%Z)))) (VNone);
   iseq (rmap vopt (rmap we_obsc (bind (rmap (fun x => c_weathers (cp_common x)) (bind (rmap me_trends x0) (fun g => gl_get g 0%Z))) (fun g => gl_get g 2%Z)))) (VNone);
   iseq (rmap vopt (rmap we_other (bind (rmap (fun x => c_weathers (cp_common x)) (bind (rmap me_trends x0) (fun g => gl_get g 0%Z))) (fun g => gl_get g 2%Z)))) (VNone)].

Check (eq_refl true <: forallb (fun b => b) t_metar_test_weather_trend_weather_test_three_weather_trend_weathers = true).

(* tests/metar/test_weather_trend_weather.py:184 test_no_weather_trend_weathers *)
Definition t_metar_test_weather_trend_weather_test_no_weather_trend_weathers : list bool :=
  let x0 := (metar_parse E (py "METAR LIRG 211755Z 27003KT CAVOK 24/14 Q1020 NOSIG RMK FEW FEW200 MON NE LIB NC VIS MIN 9999 BLU") (Some 2020%Z) (Some 10%Z) false) in
  [iseq (rmap (fun l => VList (map vopt l)) (rmap (fun g => map cp_code (gl_list g)) (rmap me_trends x0))) (VList [VStr (py "NOSIG")]);
   iseq (rmap VStr (rmap (fun g => join ([10%N]) (map change_period_str (gl_list g))) (rmap me_trends x0))) (VStr (py "no significant changes from 2020-10-21 17:55:00 until 2020-10-21 19:55:00"));
   iseq (rmap vopt (rmap cp_code (bind (rmap me_trends x0) (fun g => gl_get g 0%Z)))) (VStr (py "NOSIG"));
   iseq (rmap (fun l => VList (map vopt l)) (rmap (fun g => map we_code (gl_list g)) (rmap (fun x => c_weathers (cp_common x)) (bind (rmap me_trends x0) (fun g => gl_get g 0%Z))))) (VList []);
   iseq (rmap VStr (rmap (fun g => join (py " | ") (map weather_str (gl_list g))) (rmap (fun x => c_weathers (cp_common x)) (bind (rmap me_trends x0) (fun g => gl_get g 0%Z))))) (VStr []);
   iseq (rmap (fun v => v) (rmap VDict (bind (rmap (fun x => c_weathers (cp_common x)) (bind (rmap me_trends x0) (fun g => gl_get g 0%Z))) (list_dict weather_dict)))) (VDict []);
   israise (rmap we_code (bind (rmap (fun x => c_weathers (cp_common x)) (bind (rmap me_trends x0) (fun g => gl_get g 0%Z))) (fun g => gl_get g 0%Z))) IndexError;
   israise (rmap we_code (bind (rmap (fun x => c_weathers (cp_common x)) (bind (rmap me_trends x0) (fun g => gl_get g 0%Z))) (fun g => gl_get g 1%Z))) IndexError;
   israise (rmap we_code (bind (rmap (fun x => c_weathers (cp_common x)) (bind (rmap me_trends x0) (fun g => gl_get g 0%Z))) (fun g => gl_get g 2%Z))) IndexError].

Check (eq_refl true <: forallb (fun b => b) t_metar_test_weather_trend_weather_test_no_weather_trend_weathers = true).

(* tests/metar/test_weather_trend_weather.py:211 test_try_to_get_item_4_in_weather_trend_weathers *)
Definition t_metar_test_weather_trend_weather_test_try_to_get_item_4_in_weather_trend_weathers : list bool :=
  let x0 := (metar_parse E (py "METAR SCVM 060000Z 28007KT 250V310 9999 SCT016CB 16/13 Q1014 BECMG 5000 TSRA BR VCFG") (Some 2020%Z) (Some 10%Z) false) in
  [iseq (rmap (fun l => VList (map vopt l)) (rmap (fun g => map we_code (gl_list g)) (rmap (fun x => c_weathers (cp_common x)) (bind (rmap me_trends x0) (fun g => gl_get g 0%Z))))) (VList [VStr (py "TSRA"); VStr (py "BR"); VStr (py "VCFG")]);
   iseq (rmap VStr (rmap (fun g => join (py " | ") (map weather_str (gl_list g))) (rmap (fun x => c_weathers (cp_common x)) (bind (rmap me_trends x0) (fun g => gl_get g 0%Z))))) (VStr (py "thunderstorm rain | mist | nearby fog"));
   iseq (rmap (fun v => v) (rmap VDict (bind (rmap (fun x => c_weathers (cp_common x)) (bind (rmap me_trends x0) (fun g => gl_get g 0%Z))) (list_dict weather_dict)))) (VDict [(py "first", VDict [(py "code", VStr (py "TSRA")); (py "description", VStr (py "thunderstorm")); (py "intensity", VNone); (py "obscuration", VNone); (py "other", VNone); (py "precipitation", VStr (py "rain"))]); (py "second", VDict [(py "code", VStr (py "BR")); (py "description", VNone); (py "intensity", VNone); (py "obscuration", VStr (py "mist")); (py "other", VNone); (py "precipitation", VNone)]); (py "third", VDict [(py "code", VStr (py "VCFG")); (py "description", VNone); (py "intensity", VStr (py "nearby")); (py "obscuration", VStr (py "fog")); (py "other", VNone); (py "precipitation", VNone)])]);
   israise (rmap we_code (bind (rmap (fun x => c_weathers (cp_common x)) (bind (rmap me_trends x0) (fun g => gl_get g 0%Z))) (fun g => gl_get g 3%Z))) RangeError].

Check (eq_refl true <: forallb (fun b => b) t_metar_test_weather_trend_weather_test_try_to_get_item_4_in_weather_trend_weathers = true).

(* tests/metar/test_weather_trend_wind.py:9 test_weather_trend_wind_with_gust *)
Definition t_metar_test_weather_trend_wind_test_weather_trend_wind_with_gust : list bool :=
  let x0 := (metar_parse E (py "METAR SEQM 050400Z 04010KT 9999 BKN006 OVC030 14/12 Q1028 TEMPO 09012G22KT RMK A3037") (Some 2021%Z) (Some 5%Z) false) in
  [iseq (rmap (fun l => VList (map vopt l)) (rmap (fun g => map cp_code (gl_list g)) (rmap me_trends x0))) (VList [VStr (py "TEMPO 09012G22KT")]);
   iseq (rmap VStr (rmap (fun g => join ([10%N]) (map change_period_str (gl_list g))) (rmap me_trends x0))) (VStr ((py "temporary from 2021-05-05 04:00:00 until 2021-05-05 06:00:00" ++ [10%N] ++ py "E (90.0" ++ [176%N] ++ py ") 12.0 kt gust of 22.0 kt")));
   iseq (rmap vopt (rmap cp_code (bind (rmap me_trends x0) (fun g => gl_get g 0%Z)))) (VStr (py "TEMPO 09012G22KT"));
   iseq (rmap vopt (rmap w_code (rmap (fun x => c_wind (cp_common x)) (bind (rmap me_trends x0) (fun g => gl_get g 0%Z))))) (VStr (py "09012G22KT"));
   iseq (rmap vopt (rmap (fun w => cardinal (w_dir w)) (rmap (fun x => c_wind (cp_common x)) (bind (rmap me_trends x0) (fun g => gl_get g 0%Z))))) (VStr (py "E"));
   iseq (rmap vflo (rmap (fun w => dir_value (w_dir w)) (rmap (fun x => c_wind (cp_common x)) (bind (rmap me_trends x0) (fun g => gl_get g 0%Z))))) (VFloat (flit "90.0"));
   iseq (rmap vflo (rmap (fun w => in_radians (w_dir w)) (rmap (fun x => c_wind (cp_common x)) (bind (rmap me_trends x0) (fun g => gl_get g 0%Z))))) (VFloat (flit "1.5707963267948966"));
   iseq (rmap VBool (rmap (fun w => dir_variable (w_dir w)) (rmap (fun x => c_wind (cp_common x)) (bind (rmap me_trends x0) (fun g => gl_get g 0%Z))))) (VBool false);
   iseq (rmap vflo (rmap w_speed (rmap (fun x => c_wind (cp_common x)) (bind (rmap me_trends x0) (fun g => gl_get g 0%Z))))) (VFloat (flit "12.0"));
   iseq (rmap vflo (rmap (fun w => in_mps (w_speed w)) (rmap (fun x => c_wind (cp_common x)) (bind (rmap me_trends x0) (fun g => gl_get g 0%Z))))) (VFloat (flit "6.17333328"));
   iseq (rmap vflo (rmap (fun w => in_kph (w_speed w)) (rmap (fun x => c_wind (cp_common x)) (bind (rmap me_trends x0) (fun g => gl_get g 0%Z))))) (VFloat (flit "22.224"));
   iseq (rmap vflo (rmap w_gust (rmap (fun x => c_wind (cp_common x)) (bind (rmap me_trends x0) (fun g => gl_get g 0%Z))))) (VFloat (flit "22.0"));
   iseq (rmap vflo (rmap (fun w => in_mps (w_gust w)) (rmap (fun x => c_wind (cp_common x)) (bind (rmap me_trends x0) (fun g => gl_get g 0%Z))))) (VFloat (flit "11.31777768"));
   iseq (rmap vflo (rmap (fun w => in_miph (w_gust w)) (rmap (fun x => c_wind (cp_common x)) (bind (rmap me_trends x0) (fun g => gl_get g 0%Z))))) (VFloat (flit "25.317159999999998"));
   iseq (rmap (fun v => v) (rmap (fun x => VDict (wind_dict x)) (rmap (fun x => c_wind (cp_common x)) (bind (rmap me_trends x0) (fun g => gl_get g 0%Z))))) (VDict [(py "code", VStr (py "09012G22KT")); (py "direction", VDict [(py "cardinal", VStr (py "E")); (py "direction", VFloat (flit "90.0")); (py "units", VStr (py "degrees")); (py "variable", VBool false)]); (py "gust", VDict [(py "speed", VFloat (flit "22.0")); (py "units", VStr (py "knot"))]); (py "speed", VDict [(py "speed", VFloat (flit "12.0")); (py "units", VStr (py "knot"))])]);
   israise (rmap cp_code (bind (rmap me_trends x0) (fun g => gl_get g 1%Z))) IndexError].

Check (eq_refl true <: forallb (fun b => b) t_metar_test_weather_trend_wind_test_weather_trend_wind_with_gust = true).

(* tests/metar/test_weather_trend_wind.py:52 test_weather_trend_wind_without_gust *)
Definition t_metar_test_weather_trend_wind_test_weather_trend_wind_without_gust : list bool :=
  let x0 := (metar_parse E (py "METAR LPPT 082000Z 29003KT CAVOK 14/07 Q1026 BECMG 34012KT") (Some 2021%Z) (Some 5%Z) false) in
  [iseq (rmap (fun l => VList (map vopt l)) (rmap (fun g => map cp_code (gl_list g)) (rmap me_trends x0))) (VList [VStr (py "BECMG 34012KT")]);
   iseq (rmap VStr (rmap (fun g => join ([10%N]) (map change_period_str (gl_list g))) (rmap me_trends x0))) (VStr ((py "becoming from 2021-05-08 20:00:00 until 2021-05-08 22:00:00" ++ [10%N] ++ py "NNW (340.0" ++ [176%N] ++ py ") 12.0 kt")));
   iseq (rmap vopt (rmap cp_code (bind (rmap me_trends x0) (fun g => gl_get g 0%Z)))) (VStr (py "BECMG 34012KT"));
   iseq (rmap vopt (rmap w_code (rmap (fun x => c_wind (cp_common x)) (bind (rmap me_trends x0) (fun g => gl_get g 0%Z))))) (VStr (py "34012KT"));
   iseq (rmap vopt (rmap (fun w => cardinal (w_dir w)) (rmap (fun x => c_wind (cp_common x)) (bind (rmap me_trends x0) (fun g => gl_get g 0%Z))))) (VStr (py "NNW"));
   iseq (rmap vflo (rmap (fun w => dir_value (w_dir w)) (rmap (fun x => c_wind (cp_common x)) (bind (rmap me_trends x0) (fun g => gl_get g 0%Z))))) (VFloat (flit "340.0"));
   iseq (rmap vflo (rmap (fun w => in_radians (w_dir w)) (rmap (fun x => c_wind (cp_common x)) (bind (rmap me_trends x0) (fun g => gl_get g 0%Z))))) (VFloat (flit "5.934119456780721"));
   iseq (rmap VBool (rmap (fun w => dir_variable (w_dir w)) (rmap (fun x => c_wind (cp_common x)) (bind (rmap me_trends x0) (fun g => gl_get g 0%Z))))) (VBool false);
   iseq (rmap vflo (rmap w_speed (rmap (fun x => c_wind (cp_common x)) (bind (rmap me_trends x0) (fun g => gl_get g 0%Z))))) (VFloat (flit "12.0"));
   iseq (rmap vflo (rmap (fun w => in_mps (w_speed w)) (rmap (fun x => c_wind (cp_common x)) (bind (rmap me_trends x0) (fun g => gl_get g 0%Z))))) (VFloat (flit "6.17333328"));
   iseq (rmap vflo (rmap (fun w => in_kph (w_speed w)) (rmap (fun x => c_wind (cp_common x)) (bind (rmap me_trends x0) (fun g => gl_get g 0%Z))))) (VFloat (flit "22.224"));
   iseq (rmap vflo (rmap w_gust (rmap (fun x => c_wind (cp_common x)) (bind (rmap me_trends x0) (fun g => gl_get g 0%Z))))) (VNone);
   iseq (rmap vflo (rmap (fun w => in_mps (w_gust w)) (rmap (fun x => c_wind (cp_common x)) (bind (rmap me_trends x0) (fun g => gl_get g 0%Z))))) (VNone);
   iseq (rmap vflo (rmap (fun w => in_miph (w_gust w)) (rmap (fun x => c_wind (cp_common x)) (bind (rmap me_trends x0) (fun g => gl_get g 0%Z))))) (VNone);
   iseq (rmap (fun v => v) (rmap (fun x => VDict (wind_dict x)) (rmap (fun x => c_wind (cp_common x)) (bind (rmap me_trends x0) (fun g => gl_get g 0%Z))))) (VDict [(py "code", VStr (py "34012KT")); (py "direction", VDict [(py "cardinal", VStr (py "NNW")); (py "direction", VFloat (flit "340.0")); (py "units", VStr (py "degrees")); (py "variable", VBool false)]); (py "gust", VDict [(py "speed", VNone); (py "units", VStr (py "knot"))]); (py "speed", VDict [(py "speed", VFloat (flit "12.0")); (py "units", VStr (py "knot"))])]);
   israise (rmap cp_code (bind (rmap me_trends x0) (fun g => gl_get g 1%Z))) IndexError].

Check (eq_refl true <: forallb (fun b => b) t_metar_test_weather_trend_wind_test_weather_trend_wind_without_gust = true).

(* tests/metar/test_weather_trend_wind.py:95 test_weather_trend_no_wind *)
Definition t_metar_test_weather_trend_wind_test_weather_trend_no_wind : list bool :=
  let x0 := (metar_parse E (py "METAR SEQM 162000Z 08005KT 9999 VCSH SCT030 BKN200 21/12 Q1022 TEMPO RA RMK A3018") (Some 2021%Z) (Some 5%Z) false) in
  [iseq (rmap (fun l => VList (map vopt l)) (rmap (fun g => map cp_code (gl_list g)) (rmap me_trends x0))) (VList [VStr (py "TEMPO RA")]);
   iseq (rmap VStr (rmap (fun g => join ([10%N]) (map change_period_str (gl_list g))) (rmap me_trends x0))) (VStr ((py "temporary from 2021-05-16 20:00:00 until 2021-05-16 22:00:00" ++ [10%N] ++ py "rain")));
   iseq (rmap vopt (rmap cp_code (bind (rmap me_trends x0) (fun g => gl_get g 0%Z)))) (VStr (py "TEMPO RA"));
   iseq (rmap vopt (rmap w_code (rmap (fun x => c_wind (cp_common x)) (bind (rmap me_trends x0) (fun g => gl_get g 0%Z))))) (VNone);
   iseq (rmap vflo (rmap (fun w => dir_value (w_dir w)) (rmap (fun x => c_wind (cp_common x)) (bind (rmap me_trends x0) (fun g => gl_get g 0%Z))))) (VNone);
   iseq (rmap vopt (rmap (fun w => cardinal (w_dir w)) (rmap (fun x => c_wind (cp_common x)) (bind (rmap me_trends x0) (fun g => gl_get g 0%Z))))) (VNone);
   iseq (rmap vflo (rmap (fun w => in_radians (w_dir w)) (rmap (fun x => c_wind (cp_common x)) (bind (rmap me_trends x0) (fun g => gl_get g 0%Z))))) (VNone);
   iseq (rmap VBool (rmap (fun w => dir_variable (w_dir w)) (rmap (fun x => c_wind (cp_common x)) (bind (rmap me_trends x0) (fun g => gl_get g 0%Z))))) (VBool false);
   iseq (rmap vflo (rmap w_speed (rmap (fun x => c_wind (cp_common x)) (bind (rmap me_trends x0) (fun g => gl_get g 0%Z))))) (VNone);
   iseq (rmap vflo (rmap (fun w => in_mps (w_speed w)) (rmap (fun x => c_wind (cp_common x)) (bind (rmap me_trends x0) (fun g => gl_get g 0%Z))))) (VNone);
   iseq (rmap vflo (rmap (fun w => in_kph (w_speed w)) (rmap (fun x => c_wind (cp_common x)) (bind (rmap me_trends x0) (fun g => gl_get g 0%Z))))) (VNone);
   iseq (rmap vflo (rmap w_gust (rmap (fun x => c_wind (cp_common x)) (bind (rmap me_trends x0) (fun g => gl_get g 0%Z))))) (VNone);
   iseq (rmap vflo (rmap (fun w => in_mps (w_gust w)) (rmap (fun x => c_wind (cp_common x)) (bind (rmap me_trends x0) (fun g => gl_get g 0%Z))))) (VNone);
   iseq (rmap vflo (rmap (fun w => in_miph (w_gust w)) (rmap (fun x => c_wind (cp_common x)) (bind (rmap me_trends x0) (fun g => gl_get g 0%Z))))) (VNone);
   iseq (rmap (fun v => v) (rmap (fun x => VDict (wind_dict x)) (rmap (fun x => c_wind (cp_common x)) (bind (rmap me_trends x0) (fun g => gl_get g 0%Z))))) (VDict [(py "code", VNone); (py "direction", VDict [(py "cardinal", VNone); (py "direction", VNone); (py "units", VStr (py "degrees")); (py "variable", VBool false)]); (py "gust", VDict [(py "speed", VNone); (py "units", VStr (py "knot"))]); (py "speed", VDict [(py "speed", VNone); (py "units", VStr (py "knot"))])]);
   israise (rmap cp_code (bind (rmap me_trends x0) (fun g => gl_get g 1%Z))) IndexError].

Check (eq_refl true <: forallb (fun b => b) t_metar_test_weather_trend_wind_test_weather_trend_no_wind = true).

(* tests/metar/test_wind.py:6 test_wind_with_gust *)
Definition t_metar_test_wind_test_wind_with_gust : list bool :=
  let x0 := (metar_parse E (py "METAR SEQM 162000Z 09012G22KT 310V020 9999 VCSH SCT030 BKN200 21/12 Q1022 NOSIG RMK A3018") None None false) in
  [iseq (rmap vopt (rmap w_code (rmap (fun x => c_wind (me_common x)) x0))) (VStr (py "09012G22KT"));
   iseq (rmap vopt (rmap (fun w => cardinal (w_dir w)) (rmap (fun x => c_wind (me_common x)) x0))) (VStr (py "E"));
   iseq (rmap vflo (rmap (fun w => dir_value (w_dir w)) (rmap (fun x => c_wind (me_common x)) x0))) (VFloat (flit "90.0"));
   iseq (rmap vflo (rmap (fun w => in_radians (w_dir w)) (rmap (fun x => c_wind (me_common x)) x0))) (VFloat (flit "1.5707963267948966"));
   iseq (rmap VBool (rmap (fun w => dir_variable (w_dir w)) (rmap (fun x => c_wind (me_common x)) x0))) (VBool false);
   iseq (rmap vflo (rmap w_speed (rmap (fun x => c_wind (me_common x)) x0))) (VFloat (flit "12.0"));
   iseq (rmap vflo (rmap (fun w => in_mps (w_speed w)) (rmap (fun x => c_wind (me_common x)) x0))) (VFloat (flit "6.17333328"));
   iseq (rmap vflo (rmap (fun w => in_kph (w_speed w)) (rmap (fun x => c_wind (me_common x)) x0))) (VFloat (flit "22.224"));
   iseq (rmap vflo (rmap w_gust (rmap (fun x => c_wind (me_common x)) x0))) (VFloat (flit "22.0"));
   iseq (rmap vflo (rmap (fun w => in_mps (w_gust w)) (rmap (fun x => c_wind (me_common x)) x0))) (VFloat (flit "11.31777768"));
   iseq (rmap vflo (rmap (fun w => in_miph (w_gust w)) (rmap (fun x => c_wind (me_common x)) x0))) (VFloat (flit "25.317159999999998"));
   iseq (rmap VStr (rmap metar_wind_str (rmap (fun x => c_wind (me_common x)) x0))) (VStr ((py "E (90.0" ++ [176%N] ++ py ") 12.0 kt gust of 22.0 kt")));
   iseq (rmap (fun v => v) (rmap (fun x => VDict (wind_dict x)) (rmap (fun x => c_wind (me_common x)) x0))) (VDict [(py "code", VStr (py "09012G22KT")); (py "direction", VDict [(py "cardinal", VStr (py "E")); (py "direction", VFloat (flit "90.0")); (py "units", VStr (py "degrees")); (py "variable", VBool false)]); (py "gust", VDict [(py "speed", VFloat (flit "22.0")); (py "units", VStr (py "knot"))]); (py "speed", VDict [(py "speed", VFloat (flit "12.0")); (py "units", VStr (py "knot"))])])].

Check (eq_refl true <: forallb (fun b => b) t_metar_test_wind_test_wind_with_gust = true).

(* tests/metar/test_wind.py:37 test_wind_without_gust *)
Definition t_metar_test_wind_test_wind_without_gust : list bool :=
  let x0 := (metar_parse E (py "METAR SEQM 162000Z 34012KT 310V020 9999 VCSH SCT030 BKN200 21/12 Q1022 NOSIG RMK A3018") None None false) in
  [iseq (rmap vopt (rmap w_code (rmap (fun x => c_wind (me_common x)) x0))) (VStr (py "34012KT"));
   iseq (rmap vopt (rmap (fun w => cardinal (w_dir w)) (rmap (fun x => c_wind (me_common x)) x0))) (VStr (py "NNW"));
   iseq (rmap vflo (rmap (fun w => dir_value (w_dir w)) (rmap (fun x => c_wind (me_common x)) x0))) (VFloat (flit "340.0"));
   iseq (rmap vflo (rmap (fun w => in_radians (w_dir w)) (rmap (fun x => c_wind (me_common x)) x0))) (VFloat (flit "5.934119456780721"));
   iseq (rmap VBool (rmap (fun w => dir_variable (w_dir w)) (rmap (fun x => c_wind (me_common x)) x0))) (VBool false);
   iseq (rmap vflo (rmap w_speed (rmap (fun x => c_wind (me_common x)) x0))) (VFloat (flit "12.0"));
   iseq (rmap vflo (rmap (fun w => in_mps (w_speed w)) (rmap (fun x => c_wind (me_common x)) x0))) (VFloat (flit "6.17333328"));
   iseq (rmap vflo (rmap (fun w => in_kph (w_speed w)) (rmap (fun x => c_wind (me_common x)) x0))) (VFloat (flit "22.224"));
   iseq (rmap vflo (rmap w_gust (rmap (fun x => c_wind (me_common x)) x0))) (VNone);
   iseq (rmap vflo (rmap (fun w => in_mps (w_gust w)) (rmap (fun x => c_wind (me_common x)) x0))) (VNone);
   iseq (rmap vflo (rmap (fun w => in_miph (w_gust w)) (rmap (fun x => c_wind (me_common x)) x0))) (VNone);
   iseq (rmap VStr (rmap metar_wind_str (rmap (fun x => c_wind (me_common x)) x0))) (VStr ((py "NNW (340.0" ++ [176%N] ++ py ") 12.0 kt")));
   iseq (rmap (fun v => v) (rmap (fun x => VDict (wind_dict x)) (rmap (fun x => c_wind (me_common x)) x0))) (VDict [(py "code", VStr (py "34012KT")); (py "direction", VDict [(py "cardinal", VStr (py "NNW")); (py "direction", VFloat (flit "340.0")); (py "units", VStr (py "degrees")); (py "variable", VBool false)]); (py "gust", VDict [(py "speed", VNone); (py "units", VStr (py "knot"))]); (py "speed", VDict [(py "speed", VFloat (flit "12.0")); (py "units", VStr (py "knot"))])])].

Check (eq_refl true <: forallb (fun b => b) t_metar_test_wind_test_wind_without_gust = true).

(* tests/metar/test_wind.py:68 test_variable_wind *)
Definition t_metar_test_wind_test_variable_wind : list bool :=
  let x0 := (metar_parse E (py "METAR SEQM 162000Z VRB02KT 9999 VCSH SCT030 BKN200 21/12 Q1022 NOSIG RMK A3018") None None false) in
  [iseq (rmap vopt (rmap w_code (rmap (fun x => c_wind (me_common x)) x0))) (VStr (py "VRB02KT"));
   iseq (rmap vopt (rmap (fun w => cardinal (w_dir w)) (rmap (fun x => c_wind (me_common x)) x0))) (VNone);
   iseq (rmap vflo (rmap (fun w => dir_value (w_dir w)) (rmap (fun x => c_wind (me_common x)) x0))) (VNone);
   iseq (rmap vflo (rmap (fun w => in_radians (w_dir w)) (rmap (fun x => c_wind (me_common x)) x0))) (VNone);
   iseq (rmap VBool (rmap (fun w => dir_variable (w_dir w)) (rmap (fun x => c_wind (me_common x)) x0))) (VBool true);
   iseq (rmap vflo (rmap w_speed (rmap (fun x => c_wind (me_common x)) x0))) (VFloat (flit "2.0"));
   iseq (rmap vflo (rmap (fun w => in_mps (w_speed w)) (rmap (fun x => c_wind (me_common x)) x0))) (VFloat (flit "1.02888888"));
   iseq (rmap vflo (rmap (fun w => in_kph (w_speed w)) (rmap (fun x => c_wind (me_common x)) x0))) (VFloat (flit "3.704"));
   iseq (rmap vflo (rmap w_gust (rmap (fun x => c_wind (me_common x)) x0))) (VNone);
   iseq (rmap vflo (rmap (fun w => in_mps (w_gust w)) (rmap (fun x => c_wind (me_common x)) x0))) (VNone);
   iseq (rmap vflo (rmap (fun w => in_miph (w_gust w)) (rmap (fun x => c_wind (me_common x)) x0))) (VNone);
   iseq (rmap VStr (rmap metar_wind_str (rmap (fun x => c_wind (me_common x)) x0))) (VStr (py "variable wind 2.0 kt"));
   iseq (rmap (fun v => v) (rmap (fun x => VDict (wind_dict x)) (rmap (fun x => c_wind (me_common x)) x0))) (VDict [(py "code", VStr (py "VRB02KT")); (py "direction", VDict [(py "cardinal", VNone); (py "direction", VNone); (py "units", VStr (py "degrees")); (py "variable", VBool true)]); (py "gust", VDict [(py "speed", VNone); (py "units", VStr (py "knot"))]); (py "speed", VDict [(py "speed", VFloat (flit "2.0")); (py "units", VStr (py "knot"))])])].

Check (eq_refl true <: forallb (fun b => b) t_metar_test_wind_test_variable_wind = true).

(* tests/metar/test_wind.py:99 test_more_than_100mps_wind_speed *)
Definition t_metar_test_wind_test_more_than_100mps_wind_speed : list bool :=
  let x0 := (metar_parse E (py "SPECI KMIA 281410Z 170P149GP159MPS 10SM BKN022 BKN039 BKN055 OVC250 29/25 A2970 RMK AO2 PK WND 17031/1409 T02940250") None None false) in
  [iseq (rmap vopt (rmap w_code (rmap (fun x => c_wind (me_common x)) x0))) (VStr (py "170P149GP159MPS"));
   iseq (rmap vopt (rmap (fun w => cardinal (w_dir w)) (rmap (fun x => c_wind (me_common x)) x0))) (VStr (py "S"));
   iseq (rmap vflo (rmap (fun w => dir_value (w_dir w)) (rmap (fun x => c_wind (me_common x)) x0))) (VFloat (flit "170.0"));
   approx (rmap vflo (rmap (fun w => in_radians (w_dir w)) (rmap (fun x => c_wind (me_common x)) x0))) (flit "2.96706") (flit "1e-06");
   iseq (rmap VBool (rmap (fun w => dir_variable (w_dir w)) (rmap (fun x => c_wind (me_common x)) x0))) (VBool false);
   approx (rmap vflo (rmap w_speed (rmap (fun x => c_wind (me_common x)) x0))) (flit "289.63283") (flit "1e-06");
   approx (rmap vflo (rmap (fun w => in_mps (w_speed w)) (rmap (fun x => c_wind (me_common x)) x0))) (flit "149.0") (flit "1e-06");
   approx (rmap vflo (rmap (fun w => in_kph (w_speed w)) (rmap (fun x => c_wind (me_common x)) x0))) (flit "536.4") (flit "1e-06");
   approx (rmap vflo (rmap w_gust (rmap (fun x => c_wind (me_common x)) x0))) (flit "309.07128") (flit "1e-06");
   iseq (rmap vflo (rmap (fun w => in_mps (w_gust w)) (rmap (fun x => c_wind (me_common x)) x0))) (VFloat (flit "159.0"));
   approx (rmap vflo (rmap (fun w => in_miph (w_gust w)) (rmap (fun x => c_wind (me_common x)) x0))) (flit "355.67304") (flit "1e-06");
   iseq (rmap VStr (rmap metar_wind_str (rmap (fun x => c_wind (me_common x)) x0))) (VStr ((py "S (170.0" ++ [176%N] ++ py ") 289.6 kt gust of 309.1 kt")));
   iseq (rmap (fun v => v) (rmap (fun x => VDict (wind_dict x)) (rmap (fun x => c_wind (me_common x)) x0))) (VDict [(py "code", VStr (py "170P149GP159MPS")); (py "direction", VDict [(py "cardinal", VStr (py "S")); (py "direction", VFloat (flit "170.0")); (py "units", VStr (py "degrees")); (py "variable", VBool false)]); (py "gust", VDict [(py "speed", VFloat (flit "309.0712769682184")); (py "units", VStr (py "knot"))]); (py "speed", VDict [(py "speed", VFloat (flit "289.6328318758776")); (py "units", VStr (py "knot"))])])].

Check (eq_refl true <: forallb (fun b => b) t_metar_test_wind_test_more_than_100mps_wind_speed = true).

(* tests/metar/test_wind.py:130 test_no_wind *)
Definition t_metar_test_wind_test_no_wind : list bool :=
  let x0 := (metar_parse E (py "METAR SEQM 162000Z /////KT 9999 VCSH SCT030 BKN200 21/12 Q1022 NOSIG RMK A3018") None None false) in
  [iseq (rmap vopt (rmap w_code (rmap (fun x => c_wind (me_common x)) x0))) (VStr (py "/////KT"));
   iseq (rmap vflo (rmap (fun w => dir_value (w_dir w)) (rmap (fun x => c_wind (me_common x)) x0))) (VNone);
   iseq (rmap vopt (rmap (fun w => cardinal (w_dir w)) (rmap (fun x => c_wind (me_common x)) x0))) (VNone);
   iseq (rmap vflo (rmap (fun w => in_radians (w_dir w)) (rmap (fun x => c_wind (me_common x)) x0))) (VNone);
   iseq (rmap VBool (rmap (fun w => dir_variable (w_dir w)) (rmap (fun x => c_wind (me_common x)) x0))) (VBool false);
   iseq (rmap vflo (rmap w_speed (rmap (fun x => c_wind (me_common x)) x0))) (VNone);
   iseq (rmap vflo (rmap (fun w => in_mps (w_speed w)) (rmap (fun x => c_wind (me_common x)) x0))) (VNone);
   iseq (rmap vflo (rmap (fun w => in_kph (w_speed w)) (rmap (fun x => c_wind (me_common x)) x0))) (VNone);
   iseq (rmap vflo (rmap w_gust (rmap (fun x => c_wind (me_common x)) x0))) (VNone);
   iseq (rmap vflo (rmap (fun w => in_mps (w_gust w)) (rmap (fun x => c_wind (me_common x)) x0))) (VNone);
   iseq (rmap vflo (rmap (fun w => in_miph (w_gust w)) (rmap (fun x => c_wind (me_common x)) x0))) (VNone);
   iseq (rmap VStr (rmap metar_wind_str (rmap (fun x => c_wind (me_common x)) x0))) (VStr []);
   iseq (rmap (fun v => v) (rmap (fun x => VDict (wind_dict x)) (rmap (fun x => c_wind (me_common x)) x0))) (VDict [(py "code", VStr (py "/////KT")); (py "direction", VDict [(py "cardinal", VNone); (py "direction", VNone); (py "units", VStr (py "degrees")); (py "variable", VBool false)]); (py "gust", VDict [(py "speed", VNone); (py "units", VStr (py "knot"))]); (py "speed", VDict [(py "speed", VNone); (py "units", VStr (py "knot"))])])].

Check (eq_refl true <: forallb (fun b => b) t_metar_test_wind_test_no_wind = true).

(* tests/metar/test_wind.py:161 test_wind_variation *)
Definition t_metar_test_wind_test_wind_variation : list bool :=
  let x0 := (metar_parse E (py "METAR BIBD 191100Z 03002KT 310V020 8000 RA BR VCTS SCT008CB OVC020 04/03 Q1013") None None false) in
  [iseq (rmap vopt (rmap (fun w => cardinal (wv_from w)) (rmap me_wvar x0))) (VStr (py "NW"));
   iseq (rmap vflo (rmap (fun w => dir_value (wv_from w)) (rmap me_wvar x0))) (VFloat (flit "310.0"));
   iseq (rmap vflo (rmap (fun w => in_radians (wv_from w)) (rmap me_wvar x0))) (VFloat (flit "5.410520681182422"));
   iseq (rmap vopt (rmap (fun w => cardinal (wv_to w)) (rmap me_wvar x0))) (VStr (py "NNE"));
   iseq (rmap vflo (rmap (fun w => dir_value (wv_to w)) (rmap me_wvar x0))) (VFloat (flit "20.0"));
   iseq (rmap vflo (rmap (fun w => in_radians (wv_to w)) (rmap me_wvar x0))) (VFloat (flit "0.3490658503988659"));
   iseq (rmap VStr (rmap wind_variation_str (rmap me_wvar x0))) (VStr ((py "from NW (310.0" ++ [176%N] ++ py ") to NNE (20.0" ++ [176%N] ++ py ")")));
   iseq (rmap (fun v => v) (rmap (fun x => VDict (wvar_dict x)) (rmap me_wvar x0))) (VDict [(py "code", VStr (py "310V020")); (py "from_", VDict [(py "cardinal", VStr (py "NW")); (py "direction", VFloat (flit "310.0")); (py "units", VStr (py "degrees")); (py "variable", VBool false)]); (py "to", VDict [(py "cardinal", VStr (py "NNE")); (py "direction", VFloat (flit "20.0")); (py "units", VStr (py "degrees")); (py "variable", VBool false)])])].

Check (eq_refl true <: forallb (fun b => b) t_metar_test_wind_test_wind_variation = true).

(* tests/metar/test_wind.py:191 test_no_wind_variation *)
Definition t_metar_test_wind_test_no_wind_variation : list bool :=
  let x0 := (metar_parse E (py "METAR BIBD 191100Z 03002KT 8000 RA BR VCTS SCT008CB OVC020 04/03 Q1013") None None false) in
  [iseq (rmap vopt (rmap (fun w => cardinal (wv_from w)) (rmap me_wvar x0))) (VNone);
   iseq (rmap vflo (rmap (fun w => dir_value (wv_from w)) (rmap me_wvar x0))) (VNone);
   iseq (rmap vflo (rmap (fun w => in_radians (wv_from w)) (rmap me_wvar x0))) (VNone);
   iseq (rmap vopt (rmap (fun w => cardinal (wv_to w)) (rmap me_wvar x0))) (VNone);
   iseq (rmap vflo (rmap (fun w => dir_value (wv_to w)) (rmap me_wvar x0))) (VNone);
   iseq (rmap vflo (rmap (fun w => in_radians (wv_to w)) (rmap me_wvar x0))) (VNone);
   iseq (rmap VStr (rmap wind_variation_str (rmap me_wvar x0))) (VStr []);
   iseq (rmap (fun v => v) (rmap (fun x => VDict (wvar_dict x)) (rmap me_wvar x0))) (VDict [(py "code", VNone); (py "from_", VDict [(py "cardinal", VNone); (py "direction", VNone); (py "units", VStr (py "degrees")); (py "variable", VBool false)]); (py "to", VDict [(py "cardinal", VNone); (py "direction", VNone); (py "units", VStr (py "degrees")); (py "variable", VBool false)])])].

Check (eq_refl true <: forallb (fun b => b) t_metar_test_wind_test_no_wind_variation = true).

(* tests/metar/test_windshear.py:6 test_one_windshear *)
Definition t_metar_test_windshear_test_one_windshear : list bool :=
  let x0 := (metar_parse E (py "METAR MROC 202000Z 12013G23KT 9999 FEW040 SCT100 27/16 A2997 WS R07 NOSIG") None None false) in
  [iseq (rmap (fun l => VList (map vopt l)) (rmap (fun g => map ws_code (gl_list g)) (rmap me_ws x0))) (VList [VStr (py "WS R07")]);
   iseq (rmap VStr (rmap windshear_list_str (rmap me_ws x0))) (VStr (py "07"));
   iseq (rmap VBool (rmap (fun g => all_runways (gl_list g)) (rmap me_ws x0))) (VBool false);
   iseq (rmap vopt (rmap ws_code (bind (rmap me_ws x0) (fun g => gl_get g 0%Z)))) (VStr (py "WS R07"));
   iseq (rmap vopt (rmap ws_name (bind (rmap me_ws x0) (fun g => gl_get g 0%Z)))) (VStr (py "07"));
   iseq (rmap VBool (rmap ws_all_ (bind (rmap me_ws x0) (fun g => gl_get g 0%Z)))) (VBool false);
   iseq (rmap (fun v => v) (rmap (fun x => VDict (ws_dict x)) (bind (rmap me_ws x0) (fun g => gl_get g 0%Z)))) (VDict [(py "all", VBool false); (py "code", VStr (py "WS R07")); (py "name", VStr (py "07"))]);
   israise (rmap ws_code (bind (rmap me_ws x0) (fun g => gl_get g 1%Z))) IndexError].

Check (eq_refl true <: forallb (fun b => b) t_metar_test_windshear_test_one_windshear = true).

(* tests/metar/test_windshear.py:28 test_two_windshears *)
Definition t_metar_test_windshear_test_two_windshears : list bool :=
  let x0 := (metar_parse E (py "METAR MROC 202000Z 12013G23KT 9999 FEW040 SCT100 27/16 A2997 WS R07L WS R25C NOSIG") None None false) in
  [iseq (rmap (fun l => VList (map vopt l)) (rmap (fun g => map ws_code (gl_list g)) (rmap me_ws x0))) (VList [VStr (py "WS R07L"); VStr (py "WS R25C")]);
   iseq (rmap VStr (rmap windshear_list_str (rmap me_ws x0))) (VStr (py "07 left | 25 center"));
   iseq (rmap VBool (rmap (fun g => all_runways (gl_list g)) (rmap me_ws x0))) (VBool false);
   iseq (rmap vopt (rmap ws_code (bind (rmap me_ws x0) (fun g => gl_get g 0%Z)))) (VStr (py "WS R07L"));
   iseq (rmap vopt (rmap ws_name (bind (rmap me_ws x0) (fun g => gl_get g 0%Z)))) (VStr (py "07 left"));
   iseq (rmap VBool (rmap ws_all_ (bind (rmap me_ws x0) (fun g => gl_get g 0%Z)))) (VBool false);
   iseq (rmap (fun v => v) (rmap (fun x => VDict (ws_dict x)) (bind (rmap me_ws x0) (fun g => gl_get g 0%Z)))) (VDict [(py "all", VBool false); (py "code", VStr (py "WS R07L")); (py "name", VStr (py "07 left"))]);
   iseq (rmap vopt (rmap ws_code (bind (rmap me_ws x0) (fun g => gl_get g 1%Z)))) (VStr (py "WS R25C"));
   iseq (rmap vopt (rmap ws_name (bind (rmap me_ws x0) (fun g => gl_get g 1%Z)))) (VStr (py "25 center"));
   iseq (rmap VBool (rmap ws_all_ (bind (rmap me_ws x0) (fun g => gl_get g 1%Z)))) (VBool false);
   iseq (rmap (fun v => v) (rmap (fun x => VDict (ws_dict x)) (bind (rmap me_ws x0) (fun g => gl_get g 1%Z)))) (VDict [(py "all", VBool false); (py "code", VStr (py "WS R25C")); (py "name", VStr (py "25 center"))]);
   israise (rmap ws_code (bind (rmap me_ws x0) (fun g => gl_get g 2%Z))) IndexError].

Check (eq_refl true <: forallb (fun b => b) t_metar_test_windshear_test_two_windshears = true).

(* tests/metar/test_windshear.py:59 test_all_windshears *)
Definition t_metar_test_windshear_test_all_windshears : list bool :=
  let x0 := (metar_parse E (py "METAR MROC 202000Z 12013G23KT 9999 FEW040 SCT100 27/16 A2997 WS ALL RWY NOSIG") None None false) in
  [iseq (rmap (fun l => VList (map vopt l)) (rmap (fun g => map ws_code (gl_list g)) (rmap me_ws x0))) (VList [VStr (py "WS ALL RWY")]);
   iseq (rmap VStr (rmap windshear_list_str (rmap me_ws x0))) (VStr (py "all runways"));
   iseq (rmap VBool (rmap (fun g => all_runways (gl_list g)) (rmap me_ws x0))) (VBool true);
   iseq (rmap vopt (rmap ws_code (bind (rmap me_ws x0) (fun g => gl_get g 0%Z)))) (VStr (py "WS ALL RWY"));
   iseq (rmap vopt (rmap ws_name (bind (rmap me_ws x0) (fun g => gl_get g 0%Z)))) (VNone);
   iseq (rmap VBool (rmap ws_all_ (bind (rmap me_ws x0) (fun g => gl_get g 0%Z)))) (VBool true);
   iseq (rmap (fun v => v) (rmap (fun x => VDict (ws_dict x)) (bind (rmap me_ws x0) (fun g => gl_get g 0%Z)))) (VDict [(py "all", VBool true); (py "code", VStr (py "WS ALL RWY")); (py "name", VNone)]);
   israise (rmap ws_code (bind (rmap me_ws x0) (fun g => gl_get g 1%Z))) IndexError].

Check (eq_refl true <: forallb (fun b => b) t_metar_test_windshear_test_all_windshears = true).

(* tests/metar/test_windshear.py:77 test_no_windshears *)
Definition t_metar_test_windshear_test_no_windshears : list bool :=
  let x0 := (metar_parse E (py "LTAD 212106Z 25004KT 9999 SCT040 BKN100 16/14 Q1019 RESHRA NOSIG RMK RWY29 VRB02KT") None None false) in
  [iseq (rmap (fun l => VList (map vopt l)) (rmap (fun g => map ws_code (gl_list g)) (rmap me_ws x0))) (VList []);
   iseq (rmap VStr (rmap windshear_list_str (rmap me_ws x0))) (VStr []);
   iseq (rmap VBool (rmap (fun g => all_runways (gl_list g)) (rmap me_ws x0))) (VBool false);
   iseq (rmap (fun v => v) (rmap VDict (bind (rmap me_ws x0) (list_dict ws_dict)))) (VDict []);
   israise (rmap ws_code (bind (rmap me_ws x0) (fun g => gl_get g 0%Z))) IndexError;
   israise (rmap ws_code (bind (rmap me_ws x0) (fun g => gl_get g 1%Z))) IndexError;
   israise (rmap ws_code (bind (rmap me_ws x0) (fun g => gl_get g 2%Z))) IndexError].

Check (eq_refl true <: forallb (fun b => b) t_metar_test_windshear_test_no_windshears = true).

(* tests/taf/test_cancelled.py:4 test_cancelled_taf *)
Definition t_taf_test_cancelled_test_cancelled_taf : list bool :=
  let x0 := (taf_parse E (py "TAF FKKD 271700Z 2718/2824 CNL") None None false) in
  [iseq (rmap vopt (rmap ca_code (rmap ta_cancelled x0))) (VStr (py "CNL"));
   iseq (rmap VBool (rmap ca_cancelled (rmap ta_cancelled x0))) (VBool true);
   iseq (rmap VStr (rmap cancelled_str (rmap ta_cancelled x0))) (VStr (py "cancelled"));
   iseq (rmap (fun v => v) (rmap (fun x => VDict (cancelled_dict x)) (rmap ta_cancelled x0))) (VDict [(py "code", VStr (py "CNL")); (py "is_cancelled", VBool true)])].

Check (eq_refl true <: forallb (fun b => b) t_taf_test_cancelled_test_cancelled_taf = true).

(* tests/taf/test_cancelled.py:14 test_no_cancelled_taf *)
Definition t_taf_test_cancelled_test_no_cancelled_taf : list bool :=
  let x0 := (taf_parse E ([10%N] ++ py "    TAF FKKD 271700Z 2718/2824 VRB03KT 9999 SCT016 FEW020CB" ++ [10%N] ++ py "        PROB30 2718/2720 TS" ++ [10%N] ++ py "        TEMPO 2722/2807 BKN013 FEW016CB" ++ [10%N] ++ py "        TEMPO 2805/2807 2000 BR" ++ [10%N] ++ py "    ") None None false) in
  [iseq (rmap vopt (rmap ca_code (rmap ta_cancelled x0))) (VNone);
   iseq (rmap VBool (rmap ca_cancelled (rmap ta_cancelled x0))) (VBool false);
   iseq (rmap VStr (rmap cancelled_str (rmap ta_cancelled x0))) (VStr []);
   iseq (rmap (fun v => v) (rmap (fun x => VDict (cancelled_dict x)) (rmap ta_cancelled x0))) (VDict [(py "code", VNone); (py "is_cancelled", VBool false)])].

Check (eq_refl true <: forallb (fun b => b) t_taf_test_cancelled_test_no_cancelled_taf = true).

(* tests/taf/test_changes_change_indicators.py:7 test_three_changes *)
Definition t_taf_test_changes_change_indicators_test_three_changes : list bool :=
  let x0 := (taf_parse E ([10%N] ++ py "    TAF UNOO 061700Z 0618/0718 22007G13MPS 6000 -SHSN BKN010 BKN025CB" ++ [10%N] ++ py "        TEMPO 0618/0706 1000 SHSN BLSN VV004" ++ [10%N] ++ py "        BECMG 0700/0702 26006G12MPS" ++ [10%N] ++ py "        BECMG 0708/0710 27007G13MPS" ++ [10%N] ++ py "    ") (Some 2022%Z) (Some 3%Z) false) in
  [iseq (rmap (fun z => VFloat (float_of_Z z)) (rmap (fun g => Z.of_nat (gl_len g)) (rmap ta_changes x0))) (VFloat (flit "3.0"));
   iseq (rmap (fun l => VList (map vopt l)) (rmap (fun g => map cf_code (gl_list g)) (rmap ta_changes x0))) (VList [VStr (py "TEMPO 0618/0706 1000 SHSN BLSN VV004"); VStr (py "BECMG 0700/0702 26006G12MPS"); VStr (py "BECMG 0708/0710 27007G13MPS")]);
   iseq (rmap vopt (rmap cf_code (bind (rmap ta_changes x0) (fun g => gl_get g 0%Z)))) (VStr (py "TEMPO 0618/0706 1000 SHSN BLSN VV004"));
   iseq (rmap vopt (rmap tc_code (rmap cf_ind (bind (rmap ta_changes x0) (fun g => gl_get g 0%Z))))) (VStr (py "TEMPO 0618/0706"));
   iseq (rmap vopt (rmap tc_trans (rmap cf_ind (bind (rmap ta_changes x0) (fun g => gl_get g 0%Z))))) (VStr (py "temporary from 2022-03-06 18:00:00 until 2022-03-07 06:00:00"));
   iseq (rmap vopt (rmap cf_code (bind (rmap ta_changes x0) (fun g => gl_get g 1%Z)))) (VStr (py "BECMG 0700/0702 26006G12MPS"));
   iseq (rmap vopt (rmap tc_code (rmap cf_ind (bind (rmap ta_changes x0) (fun g => gl_get g 1%Z))))) (VStr (py "BECMG 0700/0702"));
   iseq (rmap vopt (rmap tc_trans (rmap cf_ind (bind (rmap ta_changes x0) (fun g => gl_get g 1%Z))))) (VStr (py "becoming from 2022-03-07 00:00:00 until 2022-03-07 02:00:00"));
   iseq (rmap vopt (rmap cf_code (bind (rmap ta_changes x0) (fun g => gl_get g 2%Z)))) (VStr (py "BECMG 0708/0710 27007G13MPS"));
   iseq (rmap vopt (rmap tc_code (rmap cf_ind (bind (rmap ta_changes x0) (fun g => gl_get g 2%Z))))) (VStr (py "BECMG 0708/0710"));
   iseq (rmap vopt (rmap tc_trans (rmap cf_ind (bind (rmap ta_changes x0) (fun g => gl_get g 2%Z))))) (VStr (py "becoming from 2022-03-07 08:00:00 until 2022-03-07 10:00:00"));
   israise (rmap cf_code (bind (rmap ta_changes x0) (fun g => gl_get g 3%Z))) IndexError;
   israise (rmap cf_code (bind (rmap ta_changes x0) (fun g => gl_get g 8%Z))) RangeError].

Check (eq_refl true <: forallb (fun b => b) t_taf_test_changes_change_indicators_test_three_changes = true).

(* tests/taf/test_changes_change_indicators.py:55 test_six_changes *)
Definition t_taf_test_changes_change_indicators_test_six_changes : list bool :=
  let x0 := (taf_parse E ([10%N] ++ py "    TAF KATL 062027Z 0620/0724 21010G20KT P6SM BKN050" ++ [10%N] ++ py "        FM070000 17005KT P6SM FEW250" ++ [10%N] ++ py "        FM070500 20010KT P6SM SCT050" ++ [10%N] ++ py "        FM071700 22015G25KT P6SM BKN030" ++ [10%N] ++ py "        PROB30 0717/0721 4SM -SHRA BR OVC015" ++ [10%N] ++ py "        FM072200 24015G25KT 6SM -SHRA BR BKN035" ++ [10%N] ++ py "        PROB30 TEMPO 0722/0724 4SM TSRA BR OVC025CB" ++ [10%N] ++ py "    ") (Some 2018%Z) (Some 10%Z) false) in
  [iseq (rmap (fun z => VFloat (float_of_Z z)) (rmap (fun g => Z.of_nat (gl_len g)) (rmap ta_changes x0))) (VFloat (flit "6.0"));
   iseq (rmap (fun l => VList (map vopt l)) (rmap (fun g => map cf_code (gl_list g)) (rmap ta_changes x0))) (VList [VStr (py "FM070000 17005KT P6SM FEW250"); VStr (py "FM070500 20010KT P6SM SCT050"); VStr (py "FM071700 22015G25KT P6SM BKN030"); VStr (py "PROB30 0717/0721 4SM -SHRA BR OVC015"); VStr (py "FM072200 24015G25KT 6SM -SHRA BR BKN035"); VStr (py "PROB30 TEMPO 0722/0724 4SM TSRA BR OVC025CB")]);
   iseq (rmap vopt (rmap cf_code (bind (rmap ta_changes x0) (fun g => gl_get g 0%Z)))) (VStr (py "FM070000 17005KT P6SM FEW250"));
   iseq (rmap vopt (rmap tc_code (rmap cf_ind (bind (rmap ta_changes x0) (fun g => gl_get g 0%Z))))) (VStr (py "FM070000"));
   iseq (rmap vopt (rmap tc_trans (rmap cf_ind (bind (rmap ta_changes x0) (fun g => gl_get g 0%Z))))) (VStr (py "from 2018-10-07 00:00:00 until 2018-10-07 04:00:00"));
   iseq (rmap vopt (rmap cf_code (bind (rmap ta_changes x0) (fun g => gl_get g 1%Z)))) (VStr (py "FM070500 20010KT P6SM SCT050"));
   iseq (rmap vopt (rmap tc_code (rmap cf_ind (bind (rmap ta_changes x0) (fun g => gl_get g 1%Z))))) (VStr (py "FM070500"));
   iseq (rmap vopt (rmap tc_trans (rmap cf_ind (bind (rmap ta_changes x0) (fun g => gl_get g 1%Z))))) (VStr (py "from 2018-10-07 05:00:00 until 2018-10-07 16:00:00"));
   iseq (rmap vopt (rmap cf_code (bind (rmap ta_changes x0) (fun g => gl_get g 2%Z)))) (VStr (py "FM071700 22015G25KT P6SM BKN030"));
   iseq (rmap vopt (rmap tc_code (rmap cf_ind (bind (rmap ta_changes x0) (fun g => gl_get g 2%Z))))) (VStr (py "FM071700"));
   iseq (rmap vopt (rmap tc_trans (rmap cf_ind (bind (rmap ta_changes x0) (fun g => gl_get g 2%Z))))) (VStr (py "from 2018-10-07 17:00:00 until 2018-10-07 21:00:00"));
   iseq (rmap vopt (rmap cf_code (bind (rmap ta_changes x0) (fun g => gl_get g 3%Z)))) (VStr (py "PROB30 0717/0721 4SM -SHRA BR OVC015"));
   iseq (rmap vopt (rmap tc_code (rmap cf_ind (bind (rmap ta_changes x0) (fun g => gl_get g 3%Z))))) (VStr (py "PROB30 0717/0721"));
   iseq (rmap vopt (rmap tc_trans (rmap cf_ind (bind (rmap ta_changes x0) (fun g => gl_get g 3%Z))))) (VStr (py "probability 30% from 2018-10-07 17:00:00 until 2018-10-07 21:00:00"));
   iseq (rmap vopt (rmap cf_code (bind (rmap ta_changes x0) (fun g => gl_get g 4%Z)))) (VStr (py "FM072200 24015G25KT 6SM -SHRA BR BKN035"));
   iseq (rmap vopt (rmap tc_code (rmap cf_ind (bind (rmap ta_changes x0) (fun g => gl_get g 4%Z))))) (VStr (py "FM072200"));
   iseq (rmap vopt (rmap tc_trans (rmap cf_ind (bind (rmap ta_changes x0) (fun g => gl_get g 4%Z))))) (VStr (py "from 2018-10-07 22:00:00 until 2018-10-08 00:00:00"));
   iseq (rmap vopt (rmap cf_code (bind (rmap ta_changes x0) (fun g => gl_get g 5%Z)))) (VStr (py "PROB30 TEMPO 0722/0724 4SM TSRA BR OVC025CB"));
   iseq (rmap vopt (rmap tc_code (rmap cf_ind (bind (rmap ta_changes x0) (fun g => gl_get g 5%Z))))) (VStr (py "PROB30 TEMPO 0722/0724"));
   iseq (rmap vopt (rmap tc_trans (rmap cf_ind (bind (rmap ta_changes x0) (fun g => gl_get g 5%Z))))) (VStr (py "probability 30% temporary from 2018-10-07 22:00:00 until 2018-10-08 00:00:00"));
   israise (rmap cf_code (bind (rmap ta_changes x0) (fun g => gl_get g 6%Z))) IndexError;
   israise (rmap cf_code (bind (rmap ta_changes x0) (fun g => gl_get g 8%Z))) RangeError].

Check (eq_refl true <: forallb (fun b => b) t_taf_test_changes_change_indicators_test_six_changes = true).

(* tests/taf/test_changes_change_indicators.py:133 test_no_changes *)
Definition t_taf_test_changes_change_indicators_test_no_changes : list bool :=
  let x0 := (taf_parse E (py "TAF KPHX 062100Z 0621/0724 27007KT P6SM FEW070") None None false) in
  [iseq (rmap (fun z => VFloat (float_of_Z z)) (rmap (fun g => Z.of_nat (gl_len g)) (rmap ta_changes x0))) (VFloat (flit "0.0"));
   iseq (rmap (fun l => VList (map vopt l)) (rmap (fun g => map cf_code (gl_list g)) (rmap ta_changes x0))) (VList []);
   israise (rmap cf_code (bind (rmap ta_changes x0) (fun g => gl_get g 0%Z))) IndexError;
   israise (rmap cf_code (bind (rmap ta_changes x0) (fun g => gl_get g 8%Z))) RangeError].

Check (eq_refl true <: forallb (fun b => b) t_taf_test_changes_change_indicators_test_no_changes = true).

(* tests/taf/test_changes_cloud.py:6 test_changes_clouds *)
Definition t_taf_test_changes_cloud_test_changes_clouds : list bool :=
  let x0 := (taf_parse E ([10%N] ++ py "    TAF FMEE 281700Z 2818/2924 14006KT 9999 FEW030 BKN060" ++ [10%N] ++ py "        PROB40" ++ [10%N] ++ py "        TEMPO 2818/2921 4000 SHRA SCT020TCU BKN030" ++ [10%N] ++ py "        BECMG 2922/2924 RA BKN010" ++ [10%N] ++ py "    ") None None false) in
  [iseq (rmap (fun l => VList (map vopt l)) (rmap (fun g => map cl_code (gl_list g)) (rmap (fun x => c_clouds (cf_common x)) (bind (rmap ta_changes x0) (fun g => gl_get g 0%Z))))) (VList [VStr (py "SCT020TCU"); VStr (py "BKN030")]);
   iseq (rmap VStr (rmap (fun g => join (py " | ") (map cloud_str (gl_list g))) (rmap (fun x => c_clouds (cf_common x)) (bind (rmap ta_changes x0) (fun g => gl_get g 0%Z))))) (VStr (py "scattered at 2000.0 feet of towering cumulus | broken at 3000.0 feet"));
   iseq (rmap VBool (bind (rmap (fun x => c_clouds (cf_common x)) (bind (rmap ta_changes x0) (fun g => gl_get g 0%Z))) (fun g => ceiling_of (gl_list g)))) (VBool false);
   iseq (rmap (fun v => v) (rmap VDict (bind (rmap (fun x => c_clouds (cf_common x)) (bind (rmap ta_changes x0) (fun g => gl_get g 0%Z))) (list_dict cloud_dict)))) (VDict [(py "first", VDict [(py "code", VStr (py "SCT020TCU")); (py "cover", VStr (py "scattered")); (py "height", VFloat (flit "609.6")); (py "height_units", VStr (py "meters")); (py "oktas", VStr (py "3-4")); (py "type", VStr (py "towering cumulus"))]); (py "second", VDict [(py "code", VStr (py "BKN030")); (py "cover", VStr (py "broken")); (py "height", VFloat (flit "914.4")); (py "height_units", VStr (py "meters")); (py "oktas", VStr (py "5-7")); (py "type", VNone)])]);
   iseq (rmap vopt (rmap cl_code (bind (rmap (fun x => c_clouds (cf_common x)) (bind (rmap ta_changes x0) (fun g => gl_get g 0%Z))) (fun g => gl_get g 0%Z)))) (VStr (py "SCT020TCU"));
   iseq (rmap vopt (rmap cl_cover (bind (rmap (fun x => c_clouds (cf_common x)) (bind (rmap ta_changes x0) (fun g => gl_get g 0%Z))) (fun g => gl_get g 0%Z)))) (VStr (py "scattered"));
   iseq (rmap vopt (rmap cl_oktas (bind (rmap (fun x => c_clouds (cf_common x)) (bind (rmap ta_changes x0) (fun g => gl_get g 0%Z))) (fun g => gl_get g 0%Z)))) (VStr (py "3-4"));
   approx (rmap vflo (rmap cl_feet (bind (rmap (fun x => c_clouds (cf_common x)) (bind (rmap ta_changes x0) (fun g => gl_get g 0%Z))) (fun g => gl_get g 0%Z)))) (flit "2000.0") (flit "1e-06");
   iseq (rmap vflo (rmap cl_height (bind (rmap (fun x => c_clouds (cf_common x)) (bind (rmap ta_changes x0) (fun g => gl_get g 0%Z))) (fun g => gl_get g 0%Z)))) (VFloat (flit "609.6"));
   iseq (rmap vflo (rmap (fun c => in_kilometers (cl_height c)) (bind (rmap (fun x => c_clouds (cf_common x)) (bind (rmap ta_changes x0) (fun g => gl_get g 0%Z))) (fun g => gl_get g 0%Z)))) (VFloat (flit "0.6096"));
   iseq (rmap vflo (rmap (fun c => in_sea_miles (cl_height c)) (bind (rmap (fun x => c_clouds (cf_common x)) (bind (rmap ta_changes x0) (fun g => gl_get g 0%Z))) (fun g => gl_get g 0%Z)))) (VFloat (flit "0.32915766738660907"));
   iseq (rmap vopt (rmap cl_type (bind (rmap (fun x => c_clouds (cf_common x)) (bind (rmap ta_changes x0) (fun g => gl_get g 0%Z))) (fun g => gl_get g 0%Z)))) (VStr (py "towering cumulus"));
   iseq (rmap vopt (rmap cl_code (bind (rmap (fun x => c_clouds (cf_common x)) (bind (rmap ta_changes x0) (fun g => gl_get g 0%Z))) (fun g => gl_get g 1%Z)))) (VStr (py "BKN030"));
   iseq (rmap vopt (rmap cl_cover (bind (rmap (fun x => c_clouds (cf_common x)) (bind (rmap ta_changes x0) (fun g => gl_get g 0%Z))) (fun g => gl_get g 1%Z)))) (VStr (py "broken"));
   iseq (rmap vopt (rmap cl_oktas (bind (rmap (fun x => c_clouds (cf_common x)) (bind (rmap ta_changes x0) (fun g => gl_get g 0%Z))) (fun g => gl_get g 1%Z)))) (VStr (py "5-7"));
   approx (rmap vflo (rmap cl_feet (bind (rmap (fun x => c_clouds (cf_common x)) (bind (rmap ta_changes x0) (fun g => gl_get g 0%Z))) (fun g => gl_get g 1%Z)))) (flit "3000.0") (flit "1e-06");
   iseq (rmap vflo (rmap cl_height (bind (rmap (fun x => c_clouds (cf_common x)) (bind (rmap ta_changes x0) (fun g => gl_get g 0%Z))) (fun g => gl_get g 1%Z)))) (VFloat (flit "914.4"));
   iseq (rmap vflo (rmap (fun c => in_kilometers (cl_height c)) (bind (rmap (fun x => c_clouds (cf_common x)) (bind (rmap ta_changes x0) (fun g => gl_get g 0%Z))) (fun g => gl_get g 1%Z)))) (VFloat (flit "0.9144"));
   iseq (rmap vflo (rmap (fun c => in_sea_miles (cl_height c)) (bind (rmap (fun x => c_clouds (cf_common x)) (bind (rmap ta_changes x0) (fun g => gl_get g 0%Z))) (fun g => gl_get g 1%Z)))) (VFloat (flit "0.4937365010799135"));
   iseq (rmap vopt (rmap cl_type (bind (rmap (fun x => c_clouds (cf_common x)) (bind (rmap ta_changes x0) (fun g => gl_get g 0%Z))) (fun g => gl_get g 1%Z)))) (VNone);
   israise (rmap cl_code (bind (rmap (fun x => c_clouds (cf_common x)) (bind (rmap ta_changes x0) (fun g => gl_get g 0%Z))) (fun g => gl_get g 2%Z))) IndexError;
   iseq (rmap (fun l => VList (map vopt l)) (rmap (fun g => map cl_code (gl_list g)) (rmap (fun x => c_clouds (cf_common x)) (bind (rmap ta_changes x0) (fun g => gl_get g 1%Z))))) (VList [VStr (py "BKN010")]);
   iseq (rmap VStr (rmap (fun g => join (py " | ") (map cloud_str (gl_list g))) (rmap (fun x => c_clouds (cf_common x)) (bind (rmap ta_changes x0) (fun g => gl_get g 1%Z))))) (VStr (py "broken at 1000.0 feet"));
   iseq (rmap VBool (bind (rmap (fun x => c_clouds (cf_common x)) (bind (rmap ta_changes x0) (fun g => gl_get g 1%Z))) (fun g => ceiling_of (gl_list g)))) (VBool true);
   iseq (rmap (fun v => v) (rmap VDict (bind (rmap (fun x => c_clouds (cf_common x)) (bind (rmap ta_changes x0) (fun g => gl_get g 1%Z))) (list_dict cloud_dict)))) (VDict [(py "first", VDict [(py "code", VStr (py "BKN010")); (py "cover", VStr (py "broken")); (py "height", VFloat (flit "304.8")); (py "height_units", VStr (py "meters")); (py "oktas", VStr (py "5-7")); (py "type", VNone)])]);
   iseq (rmap vopt (rmap cl_code (bind (rmap (fun x => c_clouds (cf_common x)) (bind (rmap ta_changes x0) (fun g => gl_get g 1%Z))) (fun g => gl_get g 0%Z)))) (VStr (py "BKN010"));
   iseq (rmap vopt (rmap cl_cover (bind (rmap (fun x => c_clouds (cf_common x)) (bind (rmap ta_changes x0) (fun g => gl_get g 1%Z))) (fun g => gl_get g 0%Z)))) (VStr (py "broken"));
   iseq (rmap vopt (rmap cl_oktas (bind (rmap (fun x => c_clouds (cf_common x)) (bind (rmap ta_changes x0) (fun g => gl_get g 1%Z))) (fun g => gl_get g 0%Z)))) (VStr (py "5-7"));
   approx (rmap vflo (rmap cl_feet (bind (rmap (fun x => c_clouds (cf_common x)) (bind (rmap ta_changes x0) (fun g => gl_get g 1%Z))) (fun g => gl_get g 0%Z)))) (flit "1000.0") (flit "1e-06");
   iseq (rmap vflo (rmap cl_height (bind (rmap (fun x => c_clouds (cf_common x)) (bind (rmap ta_changes x0) (fun g => gl_get g 1%Z))) (fun g => gl_get g 0%Z)))) (VFloat (flit "304.8"));
   iseq (rmap vflo (rmap (fun c => in_kilometers (cl_height c)) (bind (rmap (fun x => c_clouds (cf_common x)) (bind (rmap ta_changes x0) (fun g => gl_get g 1%Z))) (fun g => gl_get g 0%Z)))) (VFloat (flit "0.3048"));
   iseq (rmap vflo (rmap (fun c => in_sea_miles (cl_height c)) (bind (rmap (fun x => c_clouds (cf_common x)) (bind (rmap ta_changes x0) (fun g => gl_get g 1%Z))) (fun g => gl_get g 0%Z)))) (VFloat (flit "0.16457883369330453"));
   iseq (rmap vopt (rmap cl_type (bind (rmap (fun x => c_clouds (cf_common x)) (bind (rmap ta_changes x0) (fun g => gl_get g 1%Z))) (fun g => gl_get g 0%Z)))) (VNone);
   israise (rmap cl_code (bind (rmap (fun x => c_clouds (cf_common x)) (bind (rmap ta_changes x0) (fun g => gl_get g 1%Z))) (fun g => gl_get g 1%Z))) IndexError].

Check (eq_refl true <: forallb (fun b => b) t_taf_test_changes_cloud_test_changes_clouds = true).

(* tests/taf/test_changes_visibility.py:6 test_changes_visibility_from_sea_miles *)
Definition t_taf_test_changes_visibility_test_changes_visibility_from_sea_miles : list bool :=
  let x0 := (taf_parse E ([10%N] ++ py "    TAF KATL 282202Z 2822/0124 04006KT P6SM SKC" ++ [10%N] ++ py "        FM010100 00000KT P6SM SKC" ++ [10%N] ++ py "        TEMPO 0106/0112 33003KT 1 1/4SM BKN020" ++ [10%N] ++ py "        BECMG 0117/0119 29005KT 1/2SM SN BKN010" ++ [10%N] ++ py "    ") None None false) in
  [iseq (rmap vopt (rmap v_code (rmap (fun x => c_vis (cf_common x)) (bind (rmap ta_changes x0) (fun g => gl_get g 0%Z))))) (VStr (py "P6SM"));
   iseq (rmap vflo (rmap v_vis (rmap (fun x => c_vis (cf_common x)) (bind (rmap ta_changes x0) (fun g => gl_get g 0%Z))))) (VFloat (flit "11112.0"));
   iseq (rmap vflo (rmap (fun v => in_kilometers (v_vis v)) (rmap (fun x => c_vis (cf_common x)) (bind (rmap ta_changes x0) (fun g => gl_get g 0%Z))))) (VFloat (flit "11.112"));
   approx (rmap vflo (rmap (fun v => in_sea_miles (v_vis v)) (rmap (fun x => c_vis (cf_common x)) (bind (rmap ta_changes x0) (fun g => gl_get g 0%Z))))) (flit "6.0") (flit "1e-06");
   approx (rmap vflo (rmap (fun v => in_feet (v_vis v)) (rmap (fun x => c_vis (cf_common x)) (bind (rmap ta_changes x0) (fun g => gl_get g 0%Z))))) (flit "36456.7") (flit "1e-06");
   iseq (rmap VBool (rmap v_cavok (rmap (fun x => c_vis (cf_common x)) (bind (rmap ta_changes x0) (fun g => gl_get g 0%Z))))) (VBool false);
   iseq (rmap vopt (rmap (fun v => cardinal (v_dir v)) (rmap (fun x => c_vis (cf_common x)) (bind (rmap ta_changes x0) (fun g => gl_get g 0%Z))))) (VNone);
   iseq (rmap vflo (rmap (fun v => dir_value (v_dir v)) (rmap (fun x => c_vis (cf_common x)) (bind (rmap ta_changes x0) (fun g => gl_get g 0%Z))))) (VNone);
   iseq (rmap vflo (rmap (fun v => in_radians (v_dir v)) (rmap (fun x => c_vis (cf_common x)) (bind (rmap ta_changes x0) (fun g => gl_get g 0%Z))))) (VNone);
   iseq (rmap VStr (rmap prevailing_str (rmap (fun x => c_vis (cf_common x)) (bind (rmap ta_changes x0) (fun g => gl_get g 0%Z))))) (VStr (py "11.1 km"));
   iseq (rmap (fun v => v) (rmap (fun x => VDict (prevailing_dict x)) (rmap (fun x => c_vis (cf_common x)) (bind (rmap ta_changes x0) (fun g => gl_get g 0%Z))))) (VDict [(py "cavok", VBool false); (py "code", VStr (py "P6SM")); (py "direction", VDict [(py "cardinal", VNone); (py "direction", VNone); (py "units", VStr (py "degrees")); (py "variable", VBool false)]); (py "visibility", VDict [(py "distance", VFloat (flit "11112.0")); (py "units", VStr (py "meters"))])]);
   iseq (rmap vopt (rmap v_code (rmap (fun x => c_vis (cf_common x)) (bind (rmap ta_changes x0) (fun g => gl_get g 1%Z))))) (VStr (py "1 1/4SM"));
   iseq (rmap vflo (rmap v_vis (rmap (fun x => c_vis (cf_common x)) (bind (rmap ta_changes x0) (fun g => gl_get g 1%Z))))) (VFloat (flit "2315.0"));
   iseq (rmap vflo (rmap (fun v => in_kilometers (v_vis v)) (rmap (fun x => c_vis (cf_common x)) (bind (rmap ta_changes x0) (fun g => gl_get g 1%Z))))) (VFloat (flit "2.315"));
   approx (rmap vflo (rmap (fun v => in_sea_miles (v_vis v)) (rmap (fun x => c_vis (cf_common x)) (bind (rmap ta_changes x0) (fun g => gl_get g 1%Z))))) (flit "1.25") (flit "1e-06");
   iseq (rmap vflo (rmap (fun v => in_feet (v_vis v)) (rmap (fun x => c_vis (cf_common x)) (bind (rmap ta_changes x0) (fun g => gl_get g 1%Z))))) (VFloat (flit "7595.144356955379"));
   iseq (rmap VBool (rmap v_cavok (rmap (fun x => c_vis (cf_common x)) (bind (rmap ta_changes x0) (fun g => gl_get g 1%Z))))) (VBool false);
   iseq (rmap vopt (rmap (fun v => cardinal (v_dir v)) (rmap (fun x => c_vis (cf_common x)) (bind (rmap ta_changes x0) (fun g => gl_get g 1%Z))))) (VNone);
   iseq (rmap vflo (rmap (fun v => dir_value (v_dir v)) (rmap (fun x => c_vis (cf_common x)) (bind (rmap ta_changes x0) (fun g => gl_get g 1%Z))))) (VNone);
   iseq (rmap vflo (rmap (fun v => in_radians (v_dir v)) (rmap (fun x => c_vis (cf_common x)) (bind (rmap ta_changes x0) (fun g => gl_get g 1%Z))))) (VNone);
   iseq (rmap VStr (rmap prevailing_str (rmap (fun x => c_vis (cf_common x)) (bind (rmap ta_changes x0) (fun g => gl_get g 1%Z))))) (VStr (py "2.3 km"));
   iseq (rmap (fun v => v) (rmap (fun x => VDict (prevailing_dict x)) (rmap (fun x => c_vis (cf_common x)) (bind (rmap ta_changes x0) (fun g => gl_get g 1%Z))))) (VDict [(py "cavok", VBool false); (py "code", VStr (py "1 1/4SM")); (py "direction", VDict [(py "cardinal", VNone); (py "direction", VNone); (py "units", VStr (py "degrees")); (py "variable", VBool false)]); (py "visibility", VDict [(py "distance", VFloat (flit "2315.0")); (py "units", VStr (py "meters"))])]);
   iseq (rmap vopt (rmap v_code (rmap (fun x => c_vis (cf_common x)) (bind (rmap ta_changes x0) (fun g => gl_get g 2%Z))))) (VStr (py "1/2SM"));
   iseq (rmap vflo (rmap v_vis (rmap (fun x => c_vis (cf_common x)) (bind (rmap ta_changes x0) (fun g => gl_get g 2%Z))))) (VFloat (flit "926.0"));
   iseq (rmap vflo (rmap (fun v => in_kilometers (v_vis v)) (rmap (fun x => c_vis (cf_common x)) (bind (rmap ta_changes x0) (fun g => gl_get g 2%Z))))) (VFloat (flit "0.926"));
   approx (rmap vflo (rmap (fun v => in_sea_miles (v_vis v)) (rmap (fun x => c_vis (cf_common x)) (bind (rmap ta_changes x0) (fun g => gl_get g 2%Z))))) (flit "0.5") (flit "1e-06");
   iseq (rmap vflo (rmap (fun v => in_feet (v_vis v)) (rmap (fun x => c_vis (cf_common x)) (bind (rmap ta_changes x0) (fun g => gl_get g 2%Z))))) (VFloat (flit "3038.0577427821518"));
   iseq (rmap VBool (rmap v_cavok (rmap (fun x => c_vis (cf_common x)) (bind (rmap ta_changes x0) (fun g => gl_get g 2%Z))))) (VBool false);
   iseq (rmap vopt (rmap (fun v => cardinal (v_dir v)) (rmap (fun x => c_vis (cf_common x)) (bind (rmap ta_changes x0) (fun g => gl_get g 2%Z))))) (VNone);
   iseq (rmap vflo (rmap (fun v => dir_value (v_dir v)) (rmap (fun x => c_vis (cf_common x)) (bind (rmap ta_changes x0) (fun g => gl_get g 2%Z))))) (VNone);
   iseq (rmap vflo (rmap (fun v => in_radians (v_dir v)) (rmap (fun x => c_vis (cf_common x)) (bind (rmap ta_changes x0) (fun g => gl_get g 2%Z))))) (VNone);
   iseq (rmap VStr (rmap prevailing_str (rmap (fun x => c_vis (cf_common x)) (bind (rmap ta_changes x0) (fun g => gl_get g 2%Z))))) (VStr (py "0.9 km"));
   iseq (rmap (fun v => v) (rmap (fun x => VDict (prevailing_dict x)) (rmap (fun x => c_vis (cf_common x)) (bind (rmap ta_changes x0) (fun g => gl_get g 2%Z))))) (VDict [(py "cavok", VBool false); (py "code", VStr (py "1/2SM")); (py "direction", VDict [(py "cardinal", VNone); (py "direction", VNone); (py "units", VStr (py "degrees")); (py "variable", VBool false)]); (py "visibility", VDict [(py "distance", VFloat (flit "926.0")); (py "units", VStr (py "meters"))])])].

Check (eq_refl true <: forallb (fun b => b) t_taf_test_changes_visibility_test_changes_visibility_from_sea_miles = true).

(* tests/taf/test_changes_weather.py:6 test_changes_weather *)
Definition t_taf_test_changes_weather_test_changes_weather : list bool :=
  let x0 := (taf_parse E ([10%N] ++ py "    TAF OMDB 281700Z 2818/3000 26010KT CAVOK" ++ [10%N] ++ py "        BECMG 2818/2820 20005KT 5000 DS" ++ [10%N] ++ py "        BECMG 2904/2906 29012KT" ++ [10%N] ++ py "        BECMG 2916/2918 18005KT" ++ [10%N] ++ py "    ") None None false) in
  [iseq (rmap (fun l => VList (map vopt l)) (rmap (fun g => map we_code (gl_list g)) (rmap (fun x => c_weathers (cf_common x)) (bind (rmap ta_changes x0) (fun g => gl_get g 0%Z))))) (VList [VStr (py "DS")]);
   iseq (rmap VStr (rmap (fun g => join (py " | ") (map weather_str (gl_list g))) (rmap (fun x => c_weathers (cf_common x)) (bind (rmap ta_changes x0) (fun g => gl_get g 0%Z))))) (VStr (py "dust storm"));
   iseq (rmap (fun v => v) (rmap VDict (bind (rmap (fun x => c_weathers (cf_common x)) (bind (rmap ta_changes x0) (fun g => gl_get g 0%Z))) (list_dict weather_dict)))) (VDict [(py "first", VDict [(py "code", VStr (py "DS")); (py "description", VNone); (py "intensity", VNone); (py "obscuration", VNone); (py "other", VStr (py "dust storm")); (py "precipitation", VNone)])]);
   iseq (rmap vopt (rmap we_int (bind (rmap (fun x => c_weathers (cf_common x)) (bind (rmap ta_changes x0) (fun g => gl_get g 0%Z))) (fun g => gl_get g 0%Z)))) (VNone);
   iseq (rmap vopt (rmap we_desc (bind (rmap (fun x => c_weathers (cf_common x)) (bind (rmap ta_changes x0) (fun g => gl_get g 0%Z))) (fun g => gl_get g 0%Z)))) (VNone);
   iseq (rmap vopt (rmap we_prec (bind (rmap (fun x => c_weathers (cf_common x)) (bind (rmap ta_changes x0) (fun g => gl_get g 0%Z))) (fun g => gl_get g 0%Z)))) (VNone);
   iseq (rmap vopt (rmap we_obsc (bind (rmap (fun x => c_weathers (cf_common x)) (bind (rmap ta_changes x0) (fun g => gl_get g 0%Z))) (fun g => gl_get g 0%Z)))) (VNone);
   iseq (rmap vopt (rmap we_other (bind (rmap (fun x => c_weathers (cf_common x)) (bind (rmap ta_changes x0) (fun g => gl_get g 0%Z))) (fun g => gl_get g 0%Z)))) (VStr (py "dust storm"));
   israise (rmap we_code (bind (rmap (fun x => c_weathers (cf_common x)) (bind (rmap ta_changes x0) (fun g => gl_get g 0%Z))) (fun g => gl_get g 1%Z))) IndexError;
   iseq (rmap (fun l => VList (map vopt l)) (rmap (fun g => map we_code (gl_list g)) (rmap (fun x => c_weathers (cf_common x)) (bind (rmap ta_changes x0) (fun g => gl_get g 1%Z))))) (VList []);
   iseq (rmap VStr (rmap (fun g => join (py " | ") (map weather_str (gl_list g))) (rmap (fun x => c_weathers (cf_common x)) (bind (rmap ta_changes x0) (fun g => gl_get g 1%Z))))) (VStr []);
   iseq (rmap (fun v => v) (rmap VDict (bind (rmap (fun x => c_weathers (cf_common x)) (bind (rmap ta_changes x0) (fun g => gl_get g 1%Z))) (list_dict weather_dict)))) (VDict []);
   israise (rmap we_code (bind (rmap (fun x => c_weathers (cf_common x)) (bind (rmap ta_changes x0) (fun g => gl_get g 1%Z))) (fun g => gl_get g 0%Z))) IndexError].

Check (eq_refl true <: forallb (fun b => b) t_taf_test_changes_weather_test_changes_weather = true).

(* tests/taf/test_changes_wind.py:6 test_three_wind_changes *)
Definition t_taf_test_changes_wind_test_three_wind_changes : list bool :=
  let x0 := (taf_parse E ([10%N] ++ py "    TAF OPRK 262145Z 2700/2718 23005KT 3000 FU NSC TN18/2701Z TX40/2710Z" ++ [10%N] ++ py "        FM270700 23010KT 5000 HZ NSC" ++ [10%N] ++ py "        FM271200 11005KT 9999 SCT020" ++ [10%N] ++ py "        PROB30 RA" ++ [10%N] ++ py "    ") None None false) in
  [iseq (rmap vopt (rmap w_code (rmap (fun x => c_wind (cf_common x)) (bind (rmap ta_changes x0) (fun g => gl_get g 0%Z))))) (VStr (py "23010KT"));
   iseq (rmap vopt (rmap (fun w => cardinal (w_dir w)) (rmap (fun x => c_wind (cf_common x)) (bind (rmap ta_changes x0) (fun g => gl_get g 0%Z))))) (VStr (py "SW"));
   iseq (rmap vflo (rmap (fun w => dir_value (w_dir w)) (rmap (fun x => c_wind (cf_common x)) (bind (rmap ta_changes x0) (fun g => gl_get g 0%Z))))) (VFloat (flit "230.0"));
   iseq (rmap vflo (rmap (fun w => in_radians (w_dir w)) (rmap (fun x => c_wind (cf_common x)) (bind (rmap ta_changes x0) (fun g => gl_get g 0%Z))))) (VFloat (flit "4.014257279586958"));
   iseq (rmap VBool (rmap (fun w => dir_variable (w_dir w)) (rmap (fun x => c_wind (cf_common x)) (bind (rmap ta_changes x0) (fun g => gl_get g 0%Z))))) (VBool false);
   iseq (rmap vflo (rmap w_speed (rmap (fun x => c_wind (cf_common x)) (bind (rmap ta_changes x0) (fun g => gl_get g 0%Z))))) (VFloat (flit "10.0"));
   iseq (rmap vflo (rmap (fun w => in_mps (w_speed w)) (rmap (fun x => c_wind (cf_common x)) (bind (rmap ta_changes x0) (fun g => gl_get g 0%Z))))) (VFloat (flit "5.1444444"));
   iseq (rmap vflo (rmap (fun w => in_kph (w_speed w)) (rmap (fun x => c_wind (cf_common x)) (bind (rmap ta_changes x0) (fun g => gl_get g 0%Z))))) (VFloat (flit "18.52"));
   iseq (rmap vflo (rmap w_gust (rmap (fun x => c_wind (cf_common x)) (bind (rmap ta_changes x0) (fun g => gl_get g 0%Z))))) (VNone);
   iseq (rmap vflo (rmap (fun w => in_mps (w_gust w)) (rmap (fun x => c_wind (cf_common x)) (bind (rmap ta_changes x0) (fun g => gl_get g 0%Z))))) (VNone);
   iseq (rmap vflo (rmap (fun w => in_miph (w_gust w)) (rmap (fun x => c_wind (cf_common x)) (bind (rmap ta_changes x0) (fun g => gl_get g 0%Z))))) (VNone);
   iseq (rmap VStr (rmap metar_wind_str (rmap (fun x => c_wind (cf_common x)) (bind (rmap ta_changes x0) (fun g => gl_get g 0%Z))))) (VStr ((py "SW (230.0" ++ [176%N] ++ py ") 10.0 kt")));
   iseq (rmap (fun v => v) (rmap (fun x => VDict (wind_dict x)) (rmap (fun x => c_wind (cf_common x)) (bind (rmap ta_changes x0) (fun g => gl_get g 0%Z))))) (VDict [(py "code", VStr (py "23010KT")); (py "direction", VDict [(py "cardinal", VStr (py "SW")); (py "direction", VFloat (flit "230.0")); (py "units", VStr (py "degrees")); (py "variable", VBool false)]); (py "gust", VDict [(py "speed", VNone); (py "units", VStr (py "knot"))]); (py "speed", VDict [(py "speed", VFloat (flit "10.0")); (py "units", VStr (py "knot"))])]);
   iseq (rmap vopt (rmap w_code (rmap (fun x => c_wind (cf_common x)) (bind (rmap ta_changes x0) (fun g => gl_get g 1%Z))))) (VStr (py "11005KT"));
   iseq (rmap vopt (rmap (fun w => cardinal (w_dir w)) (rmap (fun x => c_wind (cf_common x)) (bind (rmap ta_changes x0) (fun g => gl_get g 1%Z))))) (VStr (py "ESE"));
   iseq (rmap vflo (rmap (fun w => dir_value (w_dir w)) (rmap (fun x => c_wind (cf_common x)) (bind (rmap ta_changes x0) (fun g => gl_get g 1%Z))))) (VFloat (flit "110.0"));
   iseq (rmap vflo (rmap (fun w => in_radians (w_dir w)) (rmap (fun x => c_wind (cf_common x)) (bind (rmap ta_changes x0) (fun g => gl_get g 1%Z))))) (VFloat (flit "1.9198621771937625"));
   iseq (rmap VBool (rmap (fun w => dir_variable (w_dir w)) (rmap (fun x => c_wind (cf_common x)) (bind (rmap ta_changes x0) (fun g => gl_get g 1%Z))))) (VBool false);
   iseq (rmap vflo (rmap w_speed (rmap (fun x => c_wind (cf_common x)) (bind (rmap ta_changes x0) (fun g => gl_get g 1%Z))))) (VFloat (flit "5.0"));
   iseq (rmap vflo (rmap (fun w => in_mps (w_speed w)) (rmap (fun x => c_wind (cf_common x)) (bind (rmap ta_changes x0) (fun g => gl_get g 1%Z))))) (VFloat (flit "2.5722222"));
   iseq (rmap vflo (rmap (fun w => in_kph (w_speed w)) (rmap (fun x => c_wind (cf_common x)) (bind (rmap ta_changes x0) (fun g => gl_get g 1%Z))))) (VFloat (flit "9.26"));
   iseq (rmap vflo (rmap w_gust (rmap (fun x => c_wind (cf_common x)) (bind (rmap ta_changes x0) (fun g => gl_get g 1%Z))))) (VNone);
   iseq (rmap vflo (rmap (fun w => in_mps (w_gust w)) (rmap (fun x => c_wind (cf_common x)) (bind (rmap ta_changes x0) (fun g => gl_get g 1%Z))))) (VNone);
   iseq (rmap vflo (rmap (fun w => in_miph (w_gust w)) (rmap (fun x => c_wind (cf_common x)) (bind (rmap ta_changes x0) (fun g => gl_get g 1%Z))))) (VNone);
   iseq (rmap VStr (rmap metar_wind_str (rmap (fun x => c_wind (cf_common x)) (bind (rmap ta_changes x0) (fun g => gl_get g 1%Z))))) (VStr ((py "ESE (110.0" ++ [176%N] ++ py ") 5.0 kt")));
   iseq (rmap (fun v => v) (rmap (fun x => VDict (wind_dict x)) (rmap (fun x => c_wind (cf_common x)) (bind (rmap ta_changes x0) (fun g => gl_get g 1%Z))))) (VDict [(py "code", VStr (py "11005KT")); (py "direction", VDict [(py "cardinal", VStr (py "ESE")); (py "direction", VFloat (flit "110.0")); (py "units", VStr (py "degrees")); (py "variable", VBool false)]); (py "gust", VDict [(py "speed", VNone); (py "units", VStr (py "knot"))]); (py "speed", VDict [(py "speed", VFloat (flit "5.0")); (py "units", VStr (py "knot"))])]);
   iseq (rmap vopt (rmap w_code (rmap (fun x => c_wind (cf_common x)) (bind (rmap ta_changes x0) (fun g => gl_get g 2%Z))))) (VNone);
   iseq (rmap vopt (rmap (fun w => cardinal (w_dir w)) (rmap (fun x => c_wind (cf_common x)) (bind (rmap ta_changes x0) (fun g => gl_get g 2%Z))))) (VNone);
   iseq (rmap vflo (rmap (fun w => dir_value (w_dir w)) (rmap (fun x => c_wind (cf_common x)) (bind (rmap ta_changes x0) (fun g => gl_get g 2%Z))))) (VNone);
   iseq (rmap vflo (rmap (fun w => in_radians (w_dir w)) (rmap (fun x => c_wind (cf_common x)) (bind (rmap ta_changes x0) (fun g => gl_get g 2%Z))))) (VNone);
   iseq (rmap VBool (rmap (fun w => dir_variable (w_dir w)) (rmap (fun x => c_wind (cf_common x)) (bind (rmap ta_changes x0) (fun g => gl_get g 2%Z))))) (VBool false);
   iseq (rmap vflo (rmap w_speed (rmap (fun x => c_wind (cf_common x)) (bind (rmap ta_changes x0) (fun g => gl_get g 2%Z))))) (VNone);
   iseq (rmap vflo (rmap (fun w => in_mps (w_speed w)) (rmap (fun x => c_wind (cf_common x)) (bind (rmap ta_changes x0) (fun g => gl_get g 2%Z))))) (VNone);
   iseq (rmap vflo (rmap (fun w => in_kph (w_speed w)) (rmap (fun x => c_wind (cf_common x)) (bind (rmap ta_changes x0) (fun g => gl_get g 2%Z))))) (VNone);
   iseq (rmap vflo (rmap w_gust (rmap (fun x => c_wind (cf_common x)) (bind (rmap ta_changes x0) (fun g => gl_get g 2%Z))))) (VNone);
   iseq (rmap vflo (rmap (fun w => in_mps (w_gust w)) (rmap (fun x => c_wind (cf_common x)) (bind (rmap ta_changes x0) (fun g => gl_get g 2%Z))))) (VNone);
   iseq (rmap vflo (rmap (fun w => in_miph (w_gust w)) (rmap (fun x => c_wind (cf_common x)) (bind (rmap ta_changes x0) (fun g => gl_get g 2%Z))))) (VNone);
   iseq (rmap VStr (rmap metar_wind_str (rmap (fun x => c_wind (cf_common x)) (bind (rmap ta_changes x0) (fun g => gl_get g 2%Z))))) (VStr []);
   iseq (rmap (fun v => v) (rmap (fun x => VDict (wind_dict x)) (rmap (fun x => c_wind (cf_common x)) (bind (rmap ta_changes x0) (fun g => gl_get g 2%Z))))) (VDict [(py "code", VNone); (py "direction", VDict [(py "cardinal", VNone); (py "direction", VNone); (py "units", VStr (py "degrees")); (py "variable", VBool false)]); (py "gust", VDict [(py "speed", VNone); (py "units", VStr (py "knot"))]); (py "speed", VDict [(py "speed", VNone); (py "units", VStr (py "knot"))])])].

Check (eq_refl true <: forallb (fun b => b) t_taf_test_changes_wind_test_three_wind_changes = true).

(* tests/taf/test_cloud.py:7 test_cloud_layers *)
Definition t_taf_test_cloud_test_cloud_layers : list bool :=
  let x0 := (taf_parse E ([10%N] ++ py "    TAF RPMD 021100Z 0212/0312 36008KT 9999 FEW016TCU SCT090 BKN260" ++ [10%N] ++ py "        TEMPO 0212/0218 03011KT 9000 -RA SCT015CB BKN090" ++ [10%N] ++ py "    ") None None false) in
  [iseq (rmap (fun l => VList (map vopt l)) (rmap (fun g => map cl_code (gl_list g)) (rmap (fun x => c_clouds (ta_common x)) x0))) (VList [VStr (py "FEW016TCU"); VStr (py "SCT090"); VStr (py "BKN260")]);
   iseq (rmap VStr (rmap (fun g => join (py " | ") (map cloud_str (gl_list g))) (rmap (fun x => c_clouds (ta_common x)) x0))) (VStr (py "a few at 1600.0 feet of towering cumulus | scattered at 9000.0 feet | broken at 26000.0 feet"));
   iseq (rmap VBool (bind (rmap (fun x => c_clouds (ta_common x)) x0) (fun g => ceiling_of (gl_list g)))) (VBool false);
   iseq (rmap (fun v => v) (rmap VDict (bind (rmap (fun x => c_clouds (ta_common x)) x0) (list_dict cloud_dict)))) (VDict [(py "first", VDict [(py "code", VStr (py "FEW016TCU")); (py "cover", VStr (py "a few")); (py "height", VFloat (flit "487.68")); (py "height_units", VStr (py "meters")); (py "oktas", VStr (py "1-2")); (py "type", VStr (py "towering cumulus"))]); (py "second", VDict [(py "code", VStr (py "SCT090")); (py "cover", VStr (py "scattered")); (py "height", VFloat (flit "2743.2")); (py "height_units", VStr (py "meters")); (py "oktas", VStr (py "3-4")); (py "type", VNone)]); (py "third", VDict [(py "code", VStr (py "BKN260")); (py "cover", VStr (py "broken")); (py "height", VFloat (flit "7924.8")); (py "height_units", VStr (py "meters")); (py "oktas", VStr (py "5-7")); (py "type", VNone)])]);
   iseq (rmap vopt (rmap cl_code (bind (rmap (fun x => c_clouds (ta_common x)) x0) (fun g => gl_get g 0%Z)))) (VStr (py "FEW016TCU"));
   iseq (rmap vopt (rmap cl_cover (bind (rmap (fun x => c_clouds (ta_common x)) x0) (fun g => gl_get g 0%Z)))) (VStr (py "a few"));
   iseq (rmap vopt (rmap cl_oktas (bind (rmap (fun x => c_clouds (ta_common x)) x0) (fun g => gl_get g 0%Z)))) (VStr (py "1-2"));
   approx (rmap vflo (rmap cl_feet (bind (rmap (fun x => c_clouds (ta_common x)) x0) (fun g => gl_get g 0%Z)))) (flit "1600.0") (flit "1e-06");
   iseq (rmap vflo (rmap cl_height (bind (rmap (fun x => c_clouds (ta_common x)) x0) (fun g => gl_get g 0%Z)))) (VFloat (flit "487.68"));
   iseq (rmap vflo (rmap (fun c => in_kilometers (cl_height c)) (bind (rmap (fun x => c_clouds (ta_common x)) x0) (fun g => gl_get g 0%Z)))) (VFloat (flit "0.48768"));
   iseq (rmap vflo (rmap (fun c => in_sea_miles (cl_height c)) (bind (rmap (fun x => c_clouds (ta_common x)) x0) (fun g => gl_get g 0%Z)))) (VFloat (flit "0.2633261339092872"));
   iseq (rmap vopt (rmap cl_type (bind (rmap (fun x => c_clouds (ta_common x)) x0) (fun g => gl_get g 0%Z)))) (VStr (py "towering cumulus"));
   iseq (rmap vopt (rmap cl_code (bind (rmap (fun x => c_clouds (ta_common x)) x0) (fun g => gl_get g 1%Z)))) (VStr (py "SCT090"));
   iseq (rmap vopt (rmap cl_cover (bind (rmap (fun x => c_clouds (ta_common x)) x0) (fun g => gl_get g 1%Z)))) (VStr (py "scattered"));
   iseq (rmap vopt (rmap cl_oktas (bind (rmap (fun x => c_clouds (ta_common x)) x0) (fun g => gl_get g 1%Z)))) (VStr (py "3-4"));
   approx (rmap vflo (rmap cl_feet (bind (rmap (fun x => c_clouds (ta_common x)) x0) (fun g => gl_get g 1%Z)))) (flit "9000.0") (flit "1e-06");
   iseq (rmap vflo (rmap cl_height (bind (rmap (fun x => c_clouds (ta_common x)) x0) (fun g => gl_get g 1%Z)))) (VFloat (flit "2743.2"));
   iseq (rmap vflo (rmap (fun c => in_kilometers (cl_height c)) (bind (rmap (fun x => c_clouds (ta_common x)) x0) (fun g => gl_get g 1%Z)))) (VFloat (flit "2.7432"));
   iseq (rmap vflo (rmap (fun c => in_sea_miles (cl_height c)) (bind (rmap (fun x => c_clouds (ta_common x)) x0) (fun g => gl_get g 1%Z)))) (VFloat (flit "1.4812095032397405"));
   iseq (rmap vopt (rmap cl_type (bind (rmap (fun x => c_clouds (ta_common x)) x0) (fun g => gl_get g 1%Z)))) (VNone);
   iseq (rmap vopt (rmap cl_code (bind (rmap (fun x => c_clouds (ta_common x)) x0) (fun g => gl_get g 2%Z)))) (VStr (py "BKN260"));
   iseq (rmap vopt (rmap cl_cover (bind (rmap (fun x => c_clouds (ta_common x)) x0) (fun g => gl_get g 2%Z)))) (VStr (py "broken"));
   iseq (rmap vopt (rmap cl_oktas (bind (rmap (fun x => c_clouds (ta_common x)) x0) (fun g => gl_get g 2%Z)))) (VStr (py "5-7"));
   approx (rmap vflo (rmap cl_feet (bind (rmap (fun x => c_clouds (ta_common x)) x0) (fun g => gl_get g 2%Z)))) (flit "26000.0") (flit "1e-06");
   iseq (rmap vflo (rmap cl_height (bind (rmap (fun x => c_clouds (ta_common x)) x0) (fun g => gl_get g 2%Z)))) (VFloat (flit "7924.8"));
   iseq (rmap vflo (rmap (fun c => in_kilometers (cl_height c)) (bind (rmap (fun x => c_clouds (ta_common x)) x0) (fun g => gl_get g 2%Z)))) (VFloat (flit "7.9248"));
   iseq (rmap vflo (rmap (fun c => in_sea_miles (cl_height c)) (bind (rmap (fun x => c_clouds (ta_common x)) x0) (fun g => gl_get g 2%Z)))) (VFloat (flit "4.279049676025918"));
   iseq (rmap vopt (rmap cl_type (bind (rmap (fun x => c_clouds (ta_common x)) x0) (fun g => gl_get g 2%Z)))) (VNone);
   israise (rmap cl_code (bind (rmap (fun x => c_clouds (ta_common x)) x0) (fun g => gl_get g 3%Z))) IndexError].

Check (eq_refl true <: forallb (fun b => b) t_taf_test_cloud_test_cloud_layers = true).

(* tests/taf/test_flight_rules.py:4 test_taf_flight_rules *)
Definition t_taf_test_flight_rules_test_taf_flight_rules : list bool :=
  let x0 := (taf_parse E ([10%N] ++ py "    TAF UUDD 061958Z 0621/0803 22003MPS 9999 SCT016 TX09/0712Z TNM03/0621Z" ++ [10%N] ++ py "        BECMG 0703/0704 18008G14MPS 5000 -SNRA" ++ [10%N] ++ py "        TEMPO 0704/0709 0700 +SHSN FEW007 BKN016CB" ++ [10%N] ++ py "        PROB40" ++ [10%N] ++ py "        TEMPO 0704/0709 -FZRA OVC007" ++ [10%N] ++ py "    ") None None false) in
  [iseq (rmap vopt (rmap (fun x => flight_rules (ta_common x)) x0)) (VStr (py "VFR"));
   iseq (rmap vopt (rmap (fun x => flight_rules (cf_common x)) (bind (rmap ta_changes x0) (fun g => gl_get g 0%Z)))) (VStr (py "MVFR"));
   iseq (rmap vopt (rmap (fun x => flight_rules (cf_common x)) (bind (rmap ta_changes x0) (fun g => gl_get g 1%Z)))) (VStr (py "VLIFR"));
   iseq (rmap vopt (rmap (fun x => flight_rules (cf_common x)) (bind (rmap ta_changes x0) (fun g => gl_get g 2%Z)))) (VStr (py "IFR"))].

Check (eq_refl true <: forallb (fun b => b) t_taf_test_flight_rules_test_taf_flight_rules = true).

(* tests/taf/test_main_valid_period.py:7 test_0606_valid_period *)
Definition t_taf_test_main_valid_period_test_0606_valid_period : list bool :=
  let x0 := (taf_parse E ([10%N] ++ py "    TAF KATL 250357Z 2506/2606 21006KT P6SM FEW045" ++ [10%N] ++ py "        FM251000 23008KT P6SM BKN020" ++ [10%N] ++ py "        FM251300 27009KT P6SM VCSH SCT010 BKN015" ++ [10%N] ++ py "        FM251800 31011G18KT P6SM BKN025" ++ [10%N] ++ py "        FM252100 31012G18KT P6SM FEW035 FEW150" ++ [10%N] ++ py "        FM260000 32009KT P6SM FEW060" ++ [10%N] ++ py "    ") (Some 2019%Z) (Some 3%Z) false) in
  [iseq (rmap vopt (rmap va_code (rmap ta_valid x0))) (VStr (py "2506/2606"));
   iseq (rmap (fun z => VFloat (float_of_Z z)) (rmap (fun x => (x / 60)%Z) (rmap (fun x => (x / 60)%Z) (rmap (fun x => (x*60)%Z) (rmap va_duration (rmap ta_valid x0)))))) (VFloat (flit "24.0"));
   iseq (rmap VStr (rmap valid_str (rmap ta_valid x0))) (VStr (py "from 2019-03-25 06:00:00 until 2019-03-26 06:00:00"));
   iseq (rmap (fun z => VFloat (float_of_Z z)) (rmap (fun t => dt_year (t_dt t)) (rmap va_from (rmap ta_valid x0)))) (VFloat (flit "2019.0"));
   iseq (rmap (fun z => VFloat (float_of_Z z)) (rmap (fun t => dt_month (t_dt t)) (rmap va_from (rmap ta_valid x0)))) (VFloat (flit "3.0"));
   iseq (rmap (fun z => VFloat (float_of_Z z)) (rmap (fun t => dt_day (t_dt t)) (rmap va_from (rmap ta_valid x0)))) (VFloat (flit "25.0"));
   iseq (rmap (fun z => VFloat (float_of_Z z)) (rmap (fun t => dt_hour (t_dt t)) (rmap va_from (rmap ta_valid x0)))) (VFloat (flit "6.0"));
   iseq (rmap (fun z => VFloat (float_of_Z z)) (rmap (fun t => dt_minute (t_dt t)) (rmap va_from (rmap ta_valid x0)))) (VFloat (flit "0.0"));
   iseq (rmap (fun z => VFloat (float_of_Z z)) (rmap (fun t => dt_year (t_dt t)) (rmap va_until (rmap ta_valid x0)))) (VFloat (flit "2019.0"));
   iseq (rmap (fun z => VFloat (float_of_Z z)) (rmap (fun t => dt_month (t_dt t)) (rmap va_until (rmap ta_valid x0)))) (VFloat (flit "3.0"));
   iseq (rmap (fun z => VFloat (float_of_Z z)) (rmap (fun t => dt_day (t_dt t)) (rmap va_until (rmap ta_valid x0)))) (VFloat (flit "26.0"));
   iseq (rmap (fun z => VFloat (float_of_Z z)) (rmap (fun t => dt_hour (t_dt t)) (rmap va_until (rmap ta_valid x0)))) (VFloat (flit "6.0"));
   iseq (rmap (fun z => VFloat (float_of_Z z)) (rmap (fun t => dt_minute (t_dt t)) (rmap va_until (rmap ta_valid x0)))) (VFloat (flit "0.0"));
   iseq (rmap (fun v => v) (rmap (fun x => VDict (valid_dict x)) (rmap ta_valid x0))) (VDict [(py "code", VStr (py "2506/2606")); (py "from_", VDict [(py "code", VNone); (py "datetime", VStr (py "2019-03-25 06:00:00"))]); (py "until", VDict [(py "code", VNone); (py "datetime", VStr (py "2019-03-26 06:00:00"))])])].

Check (eq_refl true <: forallb (fun b => b) t_taf_test_main_valid_period_test_0606_valid_period = true).

(* tests/taf/test_main_valid_period.py:39 test_0024_valid_period *)
Definition t_taf_test_main_valid_period_test_0024_valid_period : list bool :=
  let x0 := (taf_parse E ([10%N] ++ py "    TAF MROC 302300Z 3100/3124 09015KT CAVOK TX29/2519Z TN19/2511Z" ++ [10%N] ++ py "        TEMPO 3112/3120 08015G28KT" ++ [10%N] ++ py "    ") (Some 2019%Z) (Some 3%Z) false) in
  [iseq (rmap vopt (rmap va_code (rmap ta_valid x0))) (VStr (py "3100/3124"));
   iseq (rmap (fun z => VFloat (float_of_Z z)) (rmap (fun x => (x / 60)%Z) (rmap (fun x => (x / 60)%Z) (rmap (fun x => (x*60)%Z) (rmap va_duration (rmap ta_valid x0)))))) (VFloat (flit "24.0"));
   iseq (rmap VStr (rmap valid_str (rmap ta_valid x0))) (VStr (py "from 2019-03-31 00:00:00 until 2019-04-01 00:00:00"));
   iseq (rmap (fun z => VFloat (float_of_Z z)) (rmap (fun t => dt_year (t_dt t)) (rmap va_from (rmap ta_valid x0)))) (VFloat (flit "2019.0"));
   iseq (rmap (fun z => VFloat (float_of_Z z)) (rmap (fun t => dt_month (t_dt t)) (rmap va_from (rmap ta_valid x0)))) (VFloat (flit "3.0"));
   iseq (rmap (fun z => VFloat (float_of_Z z)) (rmap (fun t => dt_day (t_dt t)) (rmap va_from (rmap ta_valid x0)))) (VFloat (flit "31.0"));
   iseq (rmap (fun z => VFloat (float_of_Z z)) (rmap (fun t => dt_hour (t_dt t)) (rmap va_from (rmap ta_valid x0)))) (VFloat (flit "0.0"));
   iseq (rmap (fun z => VFloat (float_of_Z z)) (rmap (fun t => dt_minute (t_dt t)) (rmap va_from (rmap ta_valid x0)))) (VFloat (flit "0.0"));
   iseq (rmap (fun z => VFloat (float_of_Z z)) (rmap (fun t => dt_year (t_dt t)) (rmap va_until (rmap ta_valid x0)))) (VFloat (flit "2019.0"));
   iseq (rmap (fun z => VFloat (float_of_Z z)) (rmap (fun t => dt_month (t_dt t)) (rmap va_until (rmap ta_valid x0)))) (VFloat (flit "4.0"));
   iseq (rmap (fun z => VFloat (float_of_Z z)) (rmap (fun t => dt_day (t_dt t)) (rmap va_until (rmap ta_valid x0)))) (VFloat (flit "1.0"));
   iseq (rmap (fun z => VFloat (float_of_Z z)) (rmap (fun t => dt_hour (t_dt t)) (rmap va_until (rmap ta_valid x0)))) (VFloat (flit "0.0"));
   iseq (rmap (fun z => VFloat (float_of_Z z)) (rmap (fun t => dt_minute (t_dt t)) (rmap va_until (rmap ta_valid x0)))) (VFloat (flit "0.0"));
   iseq (rmap (fun v => v) (rmap (fun x => VDict (valid_dict x)) (rmap ta_valid x0))) (VDict [(py "code", VStr (py "3100/3124")); (py "from_", VDict [(py "code", VNone); (py "datetime", VStr (py "2019-03-31 00:00:00"))]); (py "until", VDict [(py "code", VNone); (py "datetime", VStr (py "2019-04-01 00:00:00"))])])].

Check (eq_refl true <: forallb (fun b => b) t_taf_test_main_valid_period_test_0024_valid_period = true).

(* tests/taf/test_main_valid_period.py:67 test_0306_valid_period *)
Definition t_taf_test_main_valid_period_test_0306_valid_period : list bool :=
  let x0 := (taf_parse E ([10%N] ++ py "    KBWI 250258Z 2503/2606 08006KT 2SM -RA BR OVC008" ++ [10%N] ++ py "        TEMPO 2503/2507 2SM -FZRA BKN005" ++ [10%N] ++ py "        FM250700 10005KT 2SM RA BR OVC008" ++ [10%N] ++ py "        FM250900 00000KT 1SM -RA BR OVC005" ++ [10%N] ++ py "        FM251300 00000KT 3SM -RA BR OVC015" ++ [10%N] ++ py "        FM251600 27013G25KT 6SM BR FEW015 SCT250" ++ [10%N] ++ py "        FM252200 31016G25KT P6SM FEW250" ++ [10%N] ++ py "    ") (Some 2019%Z) (Some 3%Z) false) in
  [iseq (rmap vopt (rmap va_code (rmap ta_valid x0))) (VStr (py "2503/2606"));
   iseq (rmap (fun z => VFloat (float_of_Z z)) (rmap (fun x => (x / 60)%Z) (rmap (fun x => (x / 60)%Z) (rmap (fun x => (x*60)%Z) (rmap va_duration (rmap ta_valid x0)))))) (VFloat (flit "27.0"));
   iseq (rmap VStr (rmap valid_str (rmap ta_valid x0))) (VStr (py "from 2019-03-25 03:00:00 until 2019-03-26 06:00:00"));
   iseq (rmap (fun z => VFloat (float_of_Z z)) (rmap (fun t => dt_year (t_dt t)) (rmap va_from (rmap ta_valid x0)))) (VFloat (flit "2019.0"));
   iseq (rmap (fun z => VFloat (float_of_Z z)) (rmap (fun t => dt_month (t_dt t)) (rmap va_from (rmap ta_valid x0)))) (VFloat (flit "3.0"));
   iseq (rmap (fun z => VFloat (float_of_Z z)) (rmap (fun t => dt_day (t_dt t)) (rmap va_from (rmap ta_valid x0)))) (VFloat (flit "25.0"));
   iseq (rmap (fun z => VFloat (float_of_Z z)) (rmap (fun t => dt_hour (t_dt t)) (rmap va_from (rmap ta_valid x0)))) (VFloat (flit "3.0"));
   iseq (rmap (fun z => VFloat (float_of_Z z)) (rmap (fun t => dt_minute (t_dt t)) (rmap va_from (rmap ta_valid x0)))) (VFloat (flit "0.0"));
   iseq (rmap (fun z => VFloat (float_of_Z z)) (rmap (fun t => dt_year (t_dt t)) (rmap va_until (rmap ta_valid x0)))) (VFloat (flit "2019.0"));
   iseq (rmap (fun z => VFloat (float_of_Z z)) (rmap (fun t => dt_month (t_dt t)) (rmap va_until (rmap ta_valid x0)))) (VFloat (flit "3.0"));
   iseq (rmap (fun z => VFloat (float_of_Z z)) (rmap (fun t => dt_day (t_dt t)) (rmap va_until (rmap ta_valid x0)))) (VFloat (flit "26.0"));
   iseq (rmap (fun z => VFloat (float_of_Z z)) (rmap (fun t => dt_hour (t_dt t)) (rmap va_until (rmap ta_valid x0)))) (VFloat (flit "6.0"));
   iseq (rmap (fun z => VFloat (float_of_Z z)) (rmap (fun t => dt_minute (t_dt t)) (rmap va_until (rmap ta_valid x0)))) (VFloat (flit "0.0"));
   iseq (rmap (fun v => v) (rmap (fun x => VDict (valid_dict x)) (rmap ta_valid x0))) (VDict [(py "code", VStr (py "2503/2606")); (py "from_", VDict [(py "code", VNone); (py "datetime", VStr (py "2019-03-25 03:00:00"))]); (py "until", VDict [(py "code", VNone); (py "datetime", VStr (py "2019-03-26 06:00:00"))])])].

Check (eq_refl true <: forallb (fun b => b) t_taf_test_main_valid_period_test_0306_valid_period = true).

(* tests/taf/test_main_valid_period.py:100 test_1806_valid_period *)
Definition t_taf_test_main_valid_period_test_1806_valid_period : list bool :=
  let x0 := (taf_parse E ([10%N] ++ py "    KSEA 021730Z 0218/0306 VRB03KT P6SM SKC" ++ [10%N] ++ py "        FM022000 35006KT P6SM SKC" ++ [10%N] ++ py "    ") (Some 2019%Z) (Some 3%Z) false) in
  [iseq (rmap vopt (rmap va_code (rmap ta_valid x0))) (VStr (py "0218/0306"));
   iseq (rmap (fun z => VFloat (float_of_Z z)) (rmap (fun x => (x / 60)%Z) (rmap (fun x => (x / 60)%Z) (rmap (fun x => (x*60)%Z) (rmap va_duration (rmap ta_valid x0)))))) (VFloat (flit "12.0"));
   iseq (rmap VStr (rmap valid_str (rmap ta_valid x0))) (VStr (py "from 2019-03-02 18:00:00 until 2019-03-03 06:00:00"));
   iseq (rmap (fun z => VFloat (float_of_Z z)) (rmap (fun t => dt_year (t_dt t)) (rmap va_from (rmap ta_valid x0)))) (VFloat (flit "2019.0"));
   iseq (rmap (fun z => VFloat (float_of_Z z)) (rmap (fun t => dt_month (t_dt t)) (rmap va_from (rmap ta_valid x0)))) (VFloat (flit "3.0"));
   iseq (rmap (fun z => VFloat (float_of_Z z)) (rmap (fun t => dt_day (t_dt t)) (rmap va_from (rmap ta_valid x0)))) (VFloat (flit "2.0"));
   iseq (rmap (fun z => VFloat (float_of_Z z)) (rmap (fun t => dt_hour (t_dt t)) (rmap va_from (rmap ta_valid x0)))) (VFloat (flit "18.0"));
   iseq (rmap (fun z => VFloat (float_of_Z z)) (rmap (fun t => dt_minute (t_dt t)) (rmap va_from (rmap ta_valid x0)))) (VFloat (flit "0.0"));
   iseq (rmap (fun z => VFloat (float_of_Z z)) (rmap (fun t => dt_year (t_dt t)) (rmap va_until (rmap ta_valid x0)))) (VFloat (flit "2019.0"));
   iseq (rmap (fun z => VFloat (float_of_Z z)) (rmap (fun t => dt_month (t_dt t)) (rmap va_until (rmap ta_valid x0)))) (VFloat (flit "3.0"));
   iseq (rmap (fun z => VFloat (float_of_Z z)) (rmap (fun t => dt_day (t_dt t)) (rmap va_until (rmap ta_valid x0)))) (VFloat (flit "3.0"));
   iseq (rmap (fun z => VFloat (float_of_Z z)) (rmap (fun t => dt_hour (t_dt t)) (rmap va_until (rmap ta_valid x0)))) (VFloat (flit "6.0"));
   iseq (rmap (fun z => VFloat (float_of_Z z)) (rmap (fun t => dt_minute (t_dt t)) (rmap va_until (rmap ta_valid x0)))) (VFloat (flit "0.0"));
   iseq (rmap (fun v => v) (rmap (fun x => VDict (valid_dict x)) (rmap ta_valid x0))) (VDict [(py "code", VStr (py "0218/0306")); (py "from_", VDict [(py "code", VNone); (py "datetime", VStr (py "2019-03-02 18:00:00"))]); (py "until", VDict [(py "code", VNone); (py "datetime", VStr (py "2019-03-03 06:00:00"))])])].

Check (eq_refl true <: forallb (fun b => b) t_taf_test_main_valid_period_test_1806_valid_period = true).

(* tests/taf/test_main_valid_period.py:128 test_0012_valid_period *)
Definition t_taf_test_main_valid_period_test_0012_valid_period : list bool :=
  let x0 := (taf_parse E ([10%N] ++ py "    KFLL 052312Z 0600/0612 10009KT P6SM FEW025" ++ [10%N] ++ py "        FM060800 10011KT P6SM FEW025 SCT050" ++ [10%N] ++ py "    ") (Some 2019%Z) (Some 3%Z) false) in
  [iseq (rmap vopt (rmap va_code (rmap ta_valid x0))) (VStr (py "0600/0612"));
   iseq (rmap (fun z => VFloat (float_of_Z z)) (rmap (fun x => (x / 60)%Z) (rmap (fun x => (x / 60)%Z) (rmap (fun x => (x*60)%Z) (rmap va_duration (rmap ta_valid x0)))))) (VFloat (flit "12.0"));
   iseq (rmap VStr (rmap valid_str (rmap ta_valid x0))) (VStr (py "from 2019-03-06 00:00:00 until 2019-03-06 12:00:00"));
   iseq (rmap (fun z => VFloat (float_of_Z z)) (rmap (fun t => dt_year (t_dt t)) (rmap va_from (rmap ta_valid x0)))) (VFloat (flit "2019.0"));
   iseq (rmap (fun z => VFloat (float_of_Z z)) (rmap (fun t => dt_month (t_dt t)) (rmap va_from (rmap ta_valid x0)))) (VFloat (flit "3.0"));
   iseq (rmap (fun z => VFloat (float_of_Z z)) (rmap (fun t => dt_day (t_dt t)) (rmap va_from (rmap ta_valid x0)))) (VFloat (flit "6.0"));
   iseq (rmap (fun z => VFloat (float_of_Z z)) (rmap (fun t => dt_hour (t_dt t)) (rmap va_from (rmap ta_valid x0)))) (VFloat (flit "0.0"));
   iseq (rmap (fun z => VFloat (float_of_Z z)) (rmap (fun t => dt_minute (t_dt t)) (rmap va_from (rmap ta_valid x0)))) (VFloat (flit "0.0"));
   iseq (rmap (fun z => VFloat (float_of_Z z)) (rmap (fun t => dt_year (t_dt t)) (rmap va_until (rmap ta_valid x0)))) (VFloat (flit "2019.0"));
   iseq (rmap (fun z => VFloat (float_of_Z z)) (rmap (fun t => dt_month (t_dt t)) (rmap va_until (rmap ta_valid x0)))) (VFloat (flit "3.0"));
   iseq (rmap (fun z => VFloat (float_of_Z z)) (rmap (fun t => dt_day (t_dt t)) (rmap va_until (rmap ta_valid x0)))) (VFloat (flit "6.0"));
   iseq (rmap (fun z => VFloat (float_of_Z z)) (rmap (fun t => dt_hour (t_dt t)) (rmap va_until (rmap ta_valid x0)))) (VFloat (flit "12.0"));
   iseq (rmap (fun z => VFloat (float_of_Z z)) (rmap (fun t => dt_minute (t_dt t)) (rmap va_until (rmap ta_valid x0)))) (VFloat (flit "0.0"));
   iseq (rmap (fun v => v) (rmap (fun x => VDict (valid_dict x)) (rmap ta_valid x0))) (VDict [(py "code", VStr (py "0600/0612")); (py "from_", VDict [(py "code", VNone); (py "datetime", VStr (py "2019-03-06 00:00:00"))]); (py "until", VDict [(py "code", VNone); (py "datetime", VStr (py "2019-03-06 12:00:00"))])])].

Check (eq_refl true <: forallb (fun b => b) t_taf_test_main_valid_period_test_0012_valid_period = true).

(* tests/taf/test_main_valid_period.py:156 test_0024_with_year_change_valid_period *)
Definition t_taf_test_main_valid_period_test_0024_with_year_change_valid_period : list bool :=
  let x0 := (taf_parse E ([10%N] ++ py "    TAF FKKD 302300Z 3100/3124 VRB05KT 8000 BKN013 FEW016CB" ++ [10%N] ++ py "        TEMPO 3105/3107 2000 BR" ++ [10%N] ++ py "        BECMG 3106/3108 BKN016 FEW020CB" ++ [10%N] ++ py "    ") (Some 2019%Z) (Some 12%Z) false) in
  [iseq (rmap vopt (rmap va_code (rmap ta_valid x0))) (VStr (py "3100/3124"));
   iseq (rmap (fun z => VFloat (float_of_Z z)) (rmap (fun x => (x / 60)%Z) (rmap (fun x => (x / 60)%Z) (rmap (fun x => (x*60)%Z) (rmap va_duration (rmap ta_valid x0)))))) (VFloat (flit "24.0"));
   iseq (rmap VStr (rmap valid_str (rmap ta_valid x0))) (VStr (py "from 2019-12-31 00:00:00 until 2020-01-01 00:00:00"));
   iseq (rmap (fun z => VFloat (float_of_Z z)) (rmap (fun t => dt_year (t_dt t)) (rmap va_from (rmap ta_valid x0)))) (VFloat (flit "2019.0"));
   iseq (rmap (fun z => VFloat (float_of_Z z)) (rmap (fun t => dt_month (t_dt t)) (rmap va_from (rmap ta_valid x0)))) (VFloat (flit "12.0"));
   iseq (rmap (fun z => VFloat (float_of_Z z)) (rmap (fun t => dt_day (t_dt t)) (rmap va_from (rmap ta_valid x0)))) (VFloat (flit "31.0"));
   iseq (rmap (fun z => VFloat (float_of_Z z)) (rmap (fun t => dt_hour (t_dt t)) (rmap va_from (rmap ta_valid x0)))) (VFloat (flit "0.0"));
   iseq (rmap (fun z => VFloat (float_of_Z z)) (rmap (fun t => dt_minute (t_dt t)) (rmap va_from (rmap ta_valid x0)))) (VFloat (flit "0.0"));
   iseq (rmap (fun z => VFloat (float_of_Z z)) (rmap (fun t => dt_year (t_dt t)) (rmap va_until (rmap ta_valid x0)))) (VFloat (flit "2020.0"));
   iseq (rmap (fun z => VFloat (float_of_Z z)) (rmap (fun t => dt_month (t_dt t)) (rmap va_until (rmap ta_valid x0)))) (VFloat (flit "1.0"));
   iseq (rmap (fun z => VFloat (float_of_Z z)) (rmap (fun t => dt_day (t_dt t)) (rmap va_until (rmap ta_valid x0)))) (VFloat (flit "1.0"));
   iseq (rmap (fun z => VFloat (float_of_Z z)) (rmap (fun t => dt_hour (t_dt t)) (rmap va_until (rmap ta_valid x0)))) (VFloat (flit "0.0"));
   iseq (rmap (fun z => VFloat (float_of_Z z)) (rmap (fun t => dt_minute (t_dt t)) (rmap va_until (rmap ta_valid x0)))) (VFloat (flit "0.0"));
   iseq (rmap (fun v => v) (rmap (fun x => VDict (valid_dict x)) (rmap ta_valid x0))) (VDict [(py "code", VStr (py "3100/3124")); (py "from_", VDict [(py "code", VNone); (py "datetime", VStr (py "2019-12-31 00:00:00"))]); (py "until", VDict [(py "code", VNone); (py "datetime", VStr (py "2020-01-01 00:00:00"))])])].

Check (eq_refl true <: forallb (fun b => b) t_taf_test_main_valid_period_test_0024_with_year_change_valid_period = true).

(* tests/taf/test_modifier.py:4 test_AMD_modifier *)
Definition t_taf_test_modifier_test_AMD_modifier : list bool :=
  let x0 := (taf_parse E ([10%N] ++ py "    TAF AMD MGPB 231700Z 2318/2418 07008KT 9999 SCT018 TX30/2320Z TN21/2412Z" ++ [10%N] ++ py "        PROB40" ++ [10%N] ++ py "        TEMPO 2322/2412 8000 VCSH BKN016" ++ [10%N] ++ py "        BECMG 2400/2402 00000KT SCT016" ++ [10%N] ++ py "        BECMG 2416/2418 06008KT SCT018" ++ [10%N] ++ py "    ") None None false) in
  [iseq (rmap vopt (rmap mo_code (rmap ta_modifier x0))) (VStr (py "AMD"));
   iseq (rmap vopt (rmap mo_desc (rmap ta_modifier x0))) (VStr (py "Amendment"));
   iseq (rmap VStr (rmap modifier_str (rmap ta_modifier x0))) (VStr (py "amendment"));
   iseq (rmap (fun v => v) (rmap (fun x => VDict (modifier_dict x)) (rmap ta_modifier x0))) (VDict [(py "code", VStr (py "AMD")); (py "modifier", VStr (py "Amendment"))])].

Check (eq_refl true <: forallb (fun b => b) t_taf_test_modifier_test_AMD_modifier = true).

(* tests/taf/test_modifier.py:20 test_COR_modifier *)
Definition t_taf_test_modifier_test_COR_modifier : list bool :=
  let x0 := (taf_parse E ([10%N] ++ py "    TAF COR SKBO 231630Z 2318/2418 28010KT 9999 SCT023" ++ [10%N] ++ py "        TEMPO 2319/2323 5000 TSRA SCT018CB" ++ [10%N] ++ py "        BECMG 2400/2402 VRB02KT" ++ [10%N] ++ py "        PROB40" ++ [10%N] ++ py "        TEMPO 2410/2412 5000 BCFG SCT010 TX21/2318Z TN09/2410Z" ++ [10%N] ++ py "    ") None None false) in
  [iseq (rmap vopt (rmap mo_code (rmap ta_modifier x0))) (VStr (py "COR"));
   iseq (rmap vopt (rmap mo_desc (rmap ta_modifier x0))) (VStr (py "Correction"));
   iseq (rmap VStr (rmap modifier_str (rmap ta_modifier x0))) (VStr (py "correction"));
   iseq (rmap (fun v => v) (rmap (fun x => VDict (modifier_dict x)) (rmap ta_modifier x0))) (VDict [(py "code", VStr (py "COR")); (py "modifier", VStr (py "Correction"))])].

Check (eq_refl true <: forallb (fun b => b) t_taf_test_modifier_test_COR_modifier = true).

(* tests/taf/test_modifier.py:36 test_no_modifier *)
Definition t_taf_test_modifier_test_no_modifier : list bool :=
  let x0 := (taf_parse E ([10%N] ++ py "    TAF SKCG 231630Z 2318/2418 35015KT 9999 FEW020" ++ [10%N] ++ py "        TX33/2319Z TN23/2410Z" ++ [10%N] ++ py "        BECMG 2402/2404 VRB02KT" ++ [10%N] ++ py "    ") None None false) in
  [iseq (rmap vopt (rmap mo_code (rmap ta_modifier x0))) (VNone);
   iseq (rmap vopt (rmap mo_desc (rmap ta_modifier x0))) (VNone);
   iseq (rmap VStr (rmap modifier_str (rmap ta_modifier x0))) (VStr []);
   iseq (rmap (fun v => v) (rmap (fun x => VDict (modifier_dict x)) (rmap ta_modifier x0))) (VDict [(py "code", VNone); (py "modifier", VNone)])].

Check (eq_refl true <: forallb (fun b => b) t_taf_test_modifier_test_no_modifier = true).

(* tests/taf/test_nil.py:4 test_nil_taf *)
Definition t_taf_test_nil_test_nil_taf : list bool :=
  let x0 := (taf_parse E (py "TAF LFBE 231700Z NIL") None None false) in
  [iseq (rmap vopt (rmap (fun m => mo_code (mi_mod m)) (rmap ta_missing x0))) (VStr (py "NIL"));
   iseq (rmap VBool (rmap mi_missing (rmap ta_missing x0))) (VBool true);
   iseq (rmap vopt (rmap (fun m => mo_desc (mi_mod m)) (rmap ta_missing x0))) (VStr (py "Missing report"));
   iseq (rmap VStr (rmap (fun m => modifier_str (mi_mod m)) (rmap ta_missing x0))) (VStr (py "missing report"));
   iseq (rmap (fun v => v) (rmap (fun x => VDict (missing_dict x)) (rmap ta_missing x0))) (VDict [(py "code", VStr (py "NIL")); (py "is_missing", VBool true); (py "modifier", VStr (py "Missing report"))])].

Check (eq_refl true <: forallb (fun b => b) t_taf_test_nil_test_nil_taf = true).

(* tests/taf/test_nil.py:20 test_no_nil_taf *)
Definition t_taf_test_nil_test_no_nil_taf : list bool :=
  let x0 := (taf_parse E ([10%N] ++ py "    TAF LFBE 231700Z 2318/2418 VRB03KT CAVOK" ++ [10%N] ++ py "        PROB40" ++ [10%N] ++ py "        TEMPO 2402/2407 3000 BR NSC" ++ [10%N] ++ py "        BECMG 2412/2414 BKN020" ++ [10%N] ++ py "        PROB30" ++ [10%N] ++ py "        TEMPO 2414/2416 4000 -SHRA BKN020TCU" ++ [10%N] ++ py "    ") None None false) in
  [iseq (rmap vopt (rmap (fun m => mo_code (mi_mod m)) (rmap ta_missing x0))) (VNone);
   iseq (rmap VBool (rmap mi_missing (rmap ta_missing x0))) (VBool false);
   iseq (rmap vopt (rmap (fun m => mo_desc (mi_mod m)) (rmap ta_missing x0))) (VNone);
   iseq (rmap VStr (rmap (fun m => modifier_str (mi_mod m)) (rmap ta_missing x0))) (VStr []);
   iseq (rmap (fun v => v) (rmap (fun x => VDict (missing_dict x)) (rmap ta_missing x0))) (VDict [(py "code", VNone); (py "is_missing", VBool false); (py "modifier", VNone)])].

Check (eq_refl true <: forallb (fun b => b) t_taf_test_nil_test_no_nil_taf = true).

(* tests/taf/test_sections.py:4 test_sections_variated *)
Definition t_taf_test_sections_test_sections_variated : list bool :=
  let x0 := (taf_parse E ([10%N] ++ py "    TAF OEDF 182100Z 1900/2006 16007KT 5000 BR NSC" ++ [10%N] ++ py "        PROB30" ++ [10%N] ++ py "        TEMPO 1902/1904 2000" ++ [10%N] ++ py "        BECMG 1907/1909 13018KT 8000" ++ [10%N] ++ py "        TEMPO 1918/2006 5000 BLDU SCT040 BKN080" ++ [10%N] ++ py "        PROB30" ++ [10%N] ++ py "        TEMPO 2000/2005 VRB25KT 3000 TSRA FEW030CB" ++ [10%N] ++ py "    ") None None false) in
  [iseq (rmap (fun l => VList (map VStr l)) (rmap ta_sections x0)) (VList [VStr (py "TAF OEDF 182100Z 1900/2006 16007KT 5000 BR NSC"); VStr (py "PROB30 TEMPO 1902/1904 2000 BECMG 1907/1909 13018KT 8000 TEMPO 1918/2006 5000 BLDU SCT040 BKN080 PROB30 TEMPO 2000/2005 VRB25KT 3000 TSRA FEW030CB")]);
   iseq (rmap VStr (rmap ta_body x0)) (VStr (py "TAF OEDF 182100Z 1900/2006 16007KT 5000 BR NSC"));
   iseq (rmap VStr (rmap (fun x => section 1 (ta_sections x)) x0)) (VStr (py "PROB30 TEMPO 1902/1904 2000 BECMG 1907/1909 13018KT 8000 TEMPO 1918/2006 5000 BLDU SCT040 BKN080 PROB30 TEMPO 2000/2005 VRB25KT 3000 TSRA FEW030CB"))].

Check (eq_refl true <: forallb (fun b => b) t_taf_test_sections_test_sections_variated = true).

(* tests/taf/test_sections.py:30 test_sections_with_from *)
Definition t_taf_test_sections_test_sections_with_from : list bool :=
  let x0 := (taf_parse E ([10%N] ++ py "    TAF OKBK 190445Z 1906/2012 15015G25KT 6000 SCT040 BKN080" ++ [10%N] ++ py "        PROB30" ++ [10%N] ++ py "        TEMPO 1906/1915 2000 BLDU" ++ [10%N] ++ py "        FM190900 0800 DS" ++ [10%N] ++ py "    ") None None false) in
  [iseq (rmap (fun l => VList (map VStr l)) (rmap ta_sections x0)) (VList [VStr (py "TAF OKBK 190445Z 1906/2012 15015G25KT 6000 SCT040 BKN080"); VStr (py "PROB30 TEMPO 1906/1915 2000 BLDU FM190900 0800 DS")]);
   iseq (rmap VStr (rmap ta_body x0)) (VStr (py "TAF OKBK 190445Z 1906/2012 15015G25KT 6000 SCT040 BKN080"));
   iseq (rmap VStr (rmap (fun x => section 1 (ta_sections x)) x0)) (VStr (py "PROB30 TEMPO 1906/1915 2000 BLDU FM190900 0800 DS"))].

Check (eq_refl true <: forallb (fun b => b) t_taf_test_sections_test_sections_with_from = true).

(* tests/taf/test_sections.py:48 test_sections_no_weather_changes *)
Definition t_taf_test_sections_test_sections_no_weather_changes : list bool :=
  let x0 := (taf_parse E (py "TAF MRPV 190500Z 1906/2006 10017G28KT CAVOK TX27/1919Z TN18/1911Z") None None false) in
  [iseq (rmap (fun l => VList (map VStr l)) (rmap ta_sections x0)) (VList [VStr (py "TAF MRPV 190500Z 1906/2006 10017G28KT CAVOK TX27/1919Z TN18/1911Z"); VStr []]);
   iseq (rmap VStr (rmap ta_body x0)) (VStr (py "TAF MRPV 190500Z 1906/2006 10017G28KT CAVOK TX27/1919Z TN18/1911Z"));
   iseq (rmap VStr (rmap (fun x => section 1 (ta_sections x)) x0)) (VStr [])].

Check (eq_refl true <: forallb (fun b => b) t_taf_test_sections_test_sections_no_weather_changes = true).

(* tests/taf/test_station.py:4 test_taf_station *)
Definition t_taf_test_station_test_taf_station : list bool :=
  let x0 := (taf_parse E ([10%N] ++ py "    TAF SEQM 231655Z 2318/2418 35012KT 9999 SCT030 BKN100" ++ [10%N] ++ py "        TEMPO 2320/2323 TS FEW023CB BKN026 BKN080" ++ [10%N] ++ py "        BECMG 2400/2401 02005KT FEW008 BKN026 BKN080" ++ [10%N] ++ py "        BECMG 2404/2406 VRB03KT 4000 BCFG BKN003 BKN020" ++ [10%N] ++ py "        BECMG 2412/2414 9999 SCT023 SCT100 TX20/2319Z TN11/2411Z" ++ [10%N] ++ py "    ") None None false) in
  [iseq (rmap vopt (rmap st_code (rmap ta_station x0))) (VStr (py "SEQM"));
   iseq (rmap vopt (rmap st_name (rmap ta_station x0))) (VStr (py "QUITO/NEW INTL"));
   iseq (rmap vopt (rmap st_icao (rmap ta_station x0))) (VStr (py "SEQM"));
   iseq (rmap vopt (rmap st_iata (rmap ta_station x0))) (VStr (py "None"));
   iseq (rmap vopt (rmap st_synop (rmap ta_station x0))) (VStr (py "None"));
   iseq (rmap vopt (rmap st_latitude (rmap ta_station x0))) (VStr (py "00.07S"));
   iseq (rmap vopt (rmap st_longitude (rmap ta_station x0))) (VStr (py "078.21W"));
   iseq (rmap vopt (rmap st_elevation (rmap ta_station x0))) (VStr (py "2400"));
   iseq (rmap vopt (rmap (st_country E) (rmap ta_station x0))) (VStr (py "Ecuador"));
   iseq (rmap VStr (rmap (station_str E) (rmap ta_station x0))) (VStr (py "Name: QUITO/NEW INTL | Coordinates: 00.07S 078.21W | Elevation: 2400 m MSL | Country: Ecuador"));
   iseq (rmap (fun v => v) (rmap (fun x => VDict ((station_dict E) x)) (rmap ta_station x0))) (VDict [(py "code", VStr (py "SEQM")); (py "country", VStr (py "Ecuador")); (py "elevation", VStr (py "2400")); (py "iata", VStr (py "None")); (py "icao", VStr (py "SEQM")); (py "latitude", VStr (py "00.07S")); (py "longitude", VStr (py "078.21W")); (py "name", VStr (py "QUITO/NEW INTL")); (py "synop", VStr (py "None"))])].

Check (eq_refl true <: forallb (fun b => b) t_taf_test_station_test_taf_station = true).

(* tests/taf/test_temperatures.py:9 test_one_max_one_min_temperature_in_taf *)
Definition t_taf_test_temperatures_test_one_max_one_min_temperature_in_taf : list bool :=
  let x0 := (taf_parse E ([10%N] ++ py "    TAF AMD RKNY 021725Z 0218/0324 26017G35KT CAVOK TX07/0305Z TNM03/0321Z" ++ [10%N] ++ py "        BECMG 0223/0224 27010KT" ++ [10%N] ++ py "        BECMG 0302/0303 03006KT" ++ [10%N] ++ py "        BECMG 0308/0309 23006KT" ++ [10%N] ++ py "    ") (Some 2020%Z) (Some 5%Z) false) in
  [iseq (rmap (fun l => VList (map vopt l)) (rmap (fun g => map tt_code (gl_list g)) (rmap ta_max x0))) (VList [VStr (py "TX07/0305Z")]);
   iseq (rmap VStr (rmap (fun g => join (py " | ") (map taf_temp_str (gl_list g))) (rmap ta_max x0))) (VStr ((py "7.0" ++ [176%N] ++ py "C at 2020-05-03 05:00:00")));
   iseq (rmap (fun v => v) (rmap VDict (bind (rmap ta_max x0) (list_dict taf_temp_dict)))) (VDict [(py "first", VDict [(py "code", VNone); (py "datetime", VStr (py "2020-05-03 05:00:00")); (py "temperature", VFloat (flit "7.0")); (py "units", VStr (py "celsius"))])]);
   iseq (rmap vopt (rmap tt_code (bind (rmap ta_max x0) (fun g => gl_get g 0%Z)))) (VStr (py "TX07/0305Z"));
   iseq (rmap VStr (rmap taf_temp_str (bind (rmap ta_max x0) (fun g => gl_get g 0%Z)))) (VStr ((py "7.0" ++ [176%N] ++ py "C at 2020-05-03 05:00:00")));
   iseq (rmap vflo (rmap tt_value (bind (rmap ta_max x0) (fun g => gl_get g 0%Z)))) (VFloat (flit "7.0"));
   iseq (rmap vflo (rmap (fun t => in_kelvin (tt_value t)) (bind (rmap ta_max x0) (fun g => gl_get g 0%Z)))) (VFloat (flit "280.15"));
   iseq (rmap vflo (rmap (fun t => in_fahrenheit (tt_value t)) (bind (rmap ta_max x0) (fun g => gl_get g 0%Z)))) (VFloat (flit "44.6"));
   approx (rmap vflo (rmap (fun t => in_rankine (tt_value t)) (bind (rmap ta_max x0) (fun g => gl_get g 0%Z)))) (flit "504.27") (flit "1e-06");
   iseq (rmap (fun z => VFloat (float_of_Z z)) (rmap (fun t => dt_year (t_dt t)) (rmap tt_time (bind (rmap ta_max x0) (fun g => gl_get g 0%Z))))) (VFloat (flit "2020.0"));
   israise (rmap tt_code (bind (rmap ta_max x0) (fun g => gl_get g 1%Z))) IndexError;
   iseq (rmap (fun l => VList (map vopt l)) (rmap (fun g => map tt_code (gl_list g)) (rmap ta_min x0))) (VList [VStr (py "TNM03/0321Z")]);
   iseq (rmap VStr (rmap (fun g => join (py " | ") (map taf_temp_str (gl_list g))) (rmap ta_min x0))) (VStr ((py "-3.0" ++ [176%N] ++ py "C at 2020-05-03 21:00:00")));
   iseq (rmap (fun v => v) (rmap VDict (bind (rmap ta_min x0) (list_dict taf_temp_dict)))) (VDict [(py "first", VDict [(py "code", VNone); (py "datetime", VStr (py "2020-05-03 21:00:00")); (py "temperature", VFloat (flit "-3.0")); (py "units", VStr (py "celsius"))])]);
   iseq (rmap vopt (rmap tt_code (bind (rmap ta_min x0) (fun g => gl_get g 0%Z)))) (VStr (py "TNM03/0321Z"));
   iseq (rmap VStr (rmap taf_temp_str (bind (rmap ta_min x0) (fun g => gl_get g 0%Z)))) (VStr ((py "-3.0" ++ [176%N] ++ py "C at 2020-05-03 21:00:00")));
   iseq (rmap vflo (rmap tt_value (bind (rmap ta_min x0) (fun g => gl_get g 0%Z)))) (VFloat (flit "-3.0"));
   iseq (rmap vflo (rmap (fun t => in_kelvin (tt_value t)) (bind (rmap ta_min x0) (fun g => gl_get g 0%Z)))) (VFloat (flit "270.15"));
   iseq (rmap vflo (rmap (fun t => in_fahrenheit (tt_value t)) (bind (rmap ta_min x0) (fun g => gl_get g 0%Z)))) (VFloat (flit "26.6"));
   approx (rmap vflo (rmap (fun t => in_rankine (tt_value t)) (bind (rmap ta_min x0) (fun g => gl_get g 0%Z)))) (flit "486.27") (flit "1e-06");
   iseq (rmap (fun z => VFloat (float_of_Z z)) (rmap (fun t => dt_year (t_dt t)) (rmap tt_time (bind (rmap ta_min x0) (fun g => gl_get g 0%Z))))) (VFloat (flit "2020.0"));
   israise (rmap tt_code (bind (rmap ta_min x0) (fun g => gl_get g 1%Z))) IndexError].

Check (eq_refl true <: forallb (fun b => b) t_taf_test_temperatures_test_one_max_one_min_temperature_in_taf = true).

(* tests/taf/test_temperatures.py:70 test_two_max_temperatures_in_taf *)
Definition t_taf_test_temperatures_test_two_max_temperatures_in_taf : list bool :=
  let x0 := (taf_parse E (py "TAF DXNG 301700Z 3018/3118 VRB03KT 9999 FEW010 TX30/3019Z TN20/3110Z TX28/3117Z") (Some 2020%Z) (Some 5%Z) false) in
  [iseq (rmap (fun l => VList (map vopt l)) (rmap (fun g => map tt_code (gl_list g)) (rmap ta_max x0))) (VList [VStr (py "TX30/3019Z"); VStr (py "TX28/3117Z")]);
   iseq (rmap VStr (rmap (fun g => join (py " | ") (map taf_temp_str (gl_list g))) (rmap ta_max x0))) (VStr ((py "30.0" ++ [176%N] ++ py "C at 2020-05-30 19:00:00 | 28.0" ++ [176%N] ++ py "C at 2020-05-31 17:00:00")));
   iseq (rmap (fun v => v) (rmap VDict (bind (rmap ta_max x0) (list_dict taf_temp_dict)))) (VDict [(py "first", VDict [(py "code", VNone); (py "datetime", VStr (py "2020-05-30 19:00:00")); (py "temperature", VFloat (flit "30.0")); (py "units", VStr (py "celsius"))]); (py "second", VDict [(py "code", VNone); (py "datetime", VStr (py "2020-05-31 17:00:00")); (py "temperature", VFloat (flit "28.0")); (py "units", VStr (py "celsius"))])]);
   iseq (rmap vopt (rmap tt_code (bind (rmap ta_max x0) (fun g => gl_get g 0%Z)))) (VStr (py "TX30/3019Z"));
   iseq (rmap VStr (rmap taf_temp_str (bind (rmap ta_max x0) (fun g => gl_get g 0%Z)))) (VStr ((py "30.0" ++ [176%N] ++ py "C at 2020-05-30 19:00:00")));
   iseq (rmap vflo (rmap tt_value (bind (rmap ta_max x0) (fun g => gl_get g 0%Z)))) (VFloat (flit "30.0"));
   iseq (rmap vflo (rmap (fun t => in_kelvin (tt_value t)) (bind (rmap ta_max x0) (fun g => gl_get g 0%Z)))) (VFloat (flit "303.15"));
   iseq (rmap vflo (rmap (fun t => in_fahrenheit (tt_value t)) (bind (rmap ta_max x0) (fun g => gl_get g 0%Z)))) (VFloat (flit "86.0"));
   approx (rmap vflo (rmap (fun t => in_rankine (tt_value t)) (bind (rmap ta_max x0) (fun g => gl_get g 0%Z)))) (flit "545.67") (flit "1e-06");
   iseq (rmap vopt (rmap tt_code (bind (rmap ta_max x0) (fun g => gl_get g 1%Z)))) (VStr (py "TX28/3117Z"));
   iseq (rmap VStr (rmap taf_temp_str (bind (rmap ta_max x0) (fun g => gl_get g 1%Z)))) (VStr ((py "28.0" ++ [176%N] ++ py "C at 2020-05-31 17:00:00")));
   iseq (rmap vflo (rmap tt_value (bind (rmap ta_max x0) (fun g => gl_get g 1%Z)))) (VFloat (flit "28.0"));
   iseq (rmap vflo (rmap (fun t => in_kelvin (tt_value t)) (bind (rmap ta_max x0) (fun g => gl_get g 1%Z)))) (VFloat (flit "301.15"));
   iseq (rmap vflo (rmap (fun t => in_fahrenheit (tt_value t)) (bind (rmap ta_max x0) (fun g => gl_get g 1%Z)))) (VFloat (flit "82.4"));
   iseq (rmap vflo (rmap (fun t => in_rankine (tt_value t)) (bind (rmap ta_max x0) (fun g => gl_get g 1%Z)))) (VFloat (flit "542.07"))].

Check (eq_refl true <: forallb (fun b => b) t_taf_test_temperatures_test_two_max_temperatures_in_taf = true).

(* tests/taf/test_temperatures.py:112 test_no_temperatures_in_taf *)
Definition t_taf_test_temperatures_test_no_temperatures_in_taf : list bool :=
  let x0 := (taf_parse E ([10%N] ++ py "    TAF RPMD 021700Z 0218/0318 36006KT 9999 FEW016 SCT090" ++ [10%N] ++ py "        TEMPO 0306/0312 13008KT -SHRA FEW014CB SCT015 BKN090" ++ [10%N] ++ py "    ") (Some 2020%Z) (Some 5%Z) false) in
  [iseq (rmap (fun v => v) (rmap VDict (bind (rmap ta_max x0) (list_dict taf_temp_dict)))) (VDict []);
   iseq (rmap (fun v => v) (rmap VDict (bind (rmap ta_min x0) (list_dict taf_temp_dict)))) (VDict []);
   israise (rmap (fun t => dt_year (t_dt t)) (rmap tt_time (bind (rmap ta_max x0) (fun g => gl_get g 0%Z)))) IndexError;
   israise (rmap (fun t => dt_year (t_dt t)) (rmap tt_time (bind (rmap ta_min x0) (fun g => gl_get g 0%Z)))) IndexError].

Check (eq_refl true <: forallb (fun b => b) t_taf_test_temperatures_test_no_temperatures_in_taf = true).

(* tests/taf/test_time.py:4 test_code *)
Definition t_taf_test_time_test_code : list bool :=
  let x0 := (taf_parse E ([10%N] ++ py "    TAF GCTS 232000Z 2321/2421 33005KT 9999 FEW030 TX22/2414Z TN14/2406Z" ++ [10%N] ++ py "        TEMPO 2321/2324 03010KT" ++ [10%N] ++ py "        BECMG 2411/2413 20010KT" ++ [10%N] ++ py "        BECMG 2416/2417 10007KT" ++ [10%N] ++ py "    ") (Some 2022%Z) (Some 1%Z) false) in
  [iseq (rmap vopt (rmap t_code (rmap ta_time x0))) (VStr (py "232000Z"));
   iseq (rmap (fun z => VFloat (float_of_Z z)) (rmap (fun t => dt_year (t_dt t)) (rmap ta_time x0))) (VFloat (flit "2022.0"));
   iseq (rmap (fun z => VFloat (float_of_Z z)) (rmap (fun t => dt_month (t_dt t)) (rmap ta_time x0))) (VFloat (flit "1.0"));
   iseq (rmap (fun z => VFloat (float_of_Z z)) (rmap (fun t => dt_day (t_dt t)) (rmap ta_time x0))) (VFloat (flit "23.0"));
   iseq (rmap (fun z => VFloat (float_of_Z z)) (rmap (fun t => dt_hour (t_dt t)) (rmap ta_time x0))) (VFloat (flit "20.0"));
   iseq (rmap (fun z => VFloat (float_of_Z z)) (rmap (fun t => dt_minute (t_dt t)) (rmap ta_time x0))) (VFloat (flit "0.0"));
   iseq (rmap VStr (rmap time_str (rmap ta_time x0))) (VStr (py "2022-01-23 20:00:00"));
   iseq (rmap (fun v => v) (rmap (fun x => VDict (time_dict x)) (rmap ta_time x0))) (VDict [(py "code", VStr (py "232000Z")); (py "datetime", VStr (py "2022-01-23 20:00:00"))])].

Check (eq_refl true <: forallb (fun b => b) t_taf_test_time_test_code = true).

(* tests/taf/test_type.py:4 test_taf_type_first_sample *)
Definition t_taf_test_type_test_taf_type_first_sample : list bool :=
  let x0 := (taf_parse E ([10%N] ++ py "    TAF UUDD 221352Z 2215/2321 22007MPS 9999 BKN016 TX04/2215Z TNM03/2321Z" ++ [10%N] ++ py "        TEMPO 2215/2221 22012G17MPS 2000 SHSNRA FEW007 BKN016CB" ++ [10%N] ++ py "        BECMG 2306/2308 28007MPS" ++ [10%N] ++ py "        BECMG 2315/2317 28002MPS" ++ [10%N] ++ py "    ") None None false) in
  [iseq (rmap vopt (rmap ty_code (rmap ta_type x0))) (VStr (py "TAF"));
   iseq (rmap vopt (rmap ty_type (rmap ta_type x0))) (VStr (py "Terminal Aerodrome Forecast"));
   iseq (rmap VStr (rmap type_str (rmap ta_type x0))) (VStr (py "Terminal Aerodrome Forecast (TAF)"));
   iseq (rmap (fun v => v) (rmap (fun x => VDict (type_dict x)) (rmap ta_type x0))) (VDict [(py "code", VStr (py "TAF")); (py "type", VStr (py "Terminal Aerodrome Forecast"))])].

Check (eq_refl true <: forallb (fun b => b) t_taf_test_type_test_taf_type_first_sample = true).

(* tests/taf/test_type.py:18 test_taf_type_second_sample *)
Definition t_taf_test_type_test_taf_type_second_sample : list bool :=
  let x0 := (taf_parse E ([10%N] ++ py "    TAF MMPQ 221654Z 2218/2318 10015KT P6SM SCT020" ++ [10%N] ++ py "        FM230300 13010KT P6SM BKN010" ++ [10%N] ++ py "        TEMPO 2308/2312 3SM -RA BKN005" ++ [10%N] ++ py "        FM231500 12010KT 4SM HZ SCT010" ++ [10%N] ++ py "    ") None None false) in
  [iseq (rmap vopt (rmap ty_code (rmap ta_type x0))) (VStr (py "TAF"));
   iseq (rmap vopt (rmap ty_type (rmap ta_type x0))) (VStr (py "Terminal Aerodrome Forecast"));
   iseq (rmap VStr (rmap type_str (rmap ta_type x0))) (VStr (py "Terminal Aerodrome Forecast (TAF)"));
   iseq (rmap (fun v => v) (rmap (fun x => VDict (type_dict x)) (rmap ta_type x0))) (VDict [(py "code", VStr (py "TAF")); (py "type", VStr (py "Terminal Aerodrome Forecast"))])].

Check (eq_refl true <: forallb (fun b => b) t_taf_test_type_test_taf_type_second_sample = true).

(* tests/taf/test_type.py:32 test_no_taf_type *)
Definition t_taf_test_type_test_no_taf_type : list bool :=
  let x0 := (taf_parse E ([10%N] ++ py "    MRLM 221100Z 2212/2312 24005KT 9999 FEW025 TX30/2221Z TN19/2311Z" ++ [10%N] ++ py "        BECMG 2215/2217 07006KT" ++ [10%N] ++ py "        BECMG 2300/2303 25004KT" ++ [10%N] ++ py "    ") None None false) in
  [iseq (rmap vopt (rmap ty_code (rmap ta_type x0))) (VStr (py "TAF"));
   iseq (rmap vopt (rmap ty_type (rmap ta_type x0))) (VStr (py "Terminal Aerodrome Forecast"));
   iseq (rmap VStr (rmap type_str (rmap ta_type x0))) (VStr (py "Terminal Aerodrome Forecast (TAF)"));
   iseq (rmap (fun v => v) (rmap (fun x => VDict (type_dict x)) (rmap ta_type x0))) (VDict [(py "code", VStr (py "TAF")); (py "type", VStr (py "Terminal Aerodrome Forecast"))])].

Check (eq_refl true <: forallb (fun b => b) t_taf_test_type_test_no_taf_type = true).

(* tests/taf/test_visibility.py:6 test_visibility_from_sea_miles *)
Definition t_taf_test_visibility_test_visibility_from_sea_miles : list bool :=
  let x0 := (taf_parse E ([10%N] ++ py "    KATL 282202Z 2822/0124 04006KT P6SM SKC" ++ [10%N] ++ py "        FM010100 00000KT P6SM SKC" ++ [10%N] ++ py "        FM010800 33003KT P6SM BKN250" ++ [10%N] ++ py "        FM011700 29005KT P6SM SKC" ++ [10%N] ++ py "    ") None None false) in
  [iseq (rmap vopt (rmap v_code (rmap (fun x => c_vis (ta_common x)) x0))) (VStr (py "P6SM"));
   iseq (rmap vflo (rmap v_vis (rmap (fun x => c_vis (ta_common x)) x0))) (VFloat (flit "11112.0"));
   iseq (rmap vflo (rmap (fun v => in_kilometers (v_vis v)) (rmap (fun x => c_vis (ta_common x)) x0))) (VFloat (flit "11.112"));
   approx (rmap vflo (rmap (fun v => in_sea_miles (v_vis v)) (rmap (fun x => c_vis (ta_common x)) x0))) (flit "6.0") (flit "1e-06");
   approx (rmap vflo (rmap (fun v => in_feet (v_vis v)) (rmap (fun x => c_vis (ta_common x)) x0))) (flit "36456.7") (flit "1e-06");
   iseq (rmap VBool (rmap v_cavok (rmap (fun x => c_vis (ta_common x)) x0))) (VBool false);
   iseq (rmap vopt (rmap (fun v => cardinal (v_dir v)) (rmap (fun x => c_vis (ta_common x)) x0))) (VNone);
   iseq (rmap vflo (rmap (fun v => dir_value (v_dir v)) (rmap (fun x => c_vis (ta_common x)) x0))) (VNone);
   iseq (rmap vflo (rmap (fun v => in_radians (v_dir v)) (rmap (fun x => c_vis (ta_common x)) x0))) (VNone);
   iseq (rmap VStr (rmap prevailing_str (rmap (fun x => c_vis (ta_common x)) x0))) (VStr (py "11.1 km"));
   iseq (rmap (fun v => v) (rmap (fun x => VDict (prevailing_dict x)) (rmap (fun x => c_vis (ta_common x)) x0))) (VDict [(py "cavok", VBool false); (py "code", VStr (py "P6SM")); (py "direction", VDict [(py "cardinal", VNone); (py "direction", VNone); (py "units", VStr (py "degrees")); (py "variable", VBool false)]); (py "visibility", VDict [(py "distance", VFloat (flit "11112.0")); (py "units", VStr (py "meters"))])])].

Check (eq_refl true <: forallb (fun b => b) t_taf_test_visibility_test_visibility_from_sea_miles = true).

(* tests/taf/test_weather.py:7 test_two_taf_weathers *)
Definition t_taf_test_weather_test_two_taf_weathers : list bool :=
  let x0 := (taf_parse E ([10%N] ++ py "    TAF RKNY 282300Z 0100/0206 27010KT 5000 +RA BR BKN015 TX11/0105Z TN01/0121Z" ++ [10%N] ++ py "        BECMG 0101/0102 28015G30KT SCT030" ++ [10%N] ++ py "        BECMG 0105/0106 34010KT" ++ [10%N] ++ py "        BECMG 0111/0112 27012KT" ++ [10%N] ++ py "        BECMG 0123/0124 27015G25KT" ++ [10%N] ++ py "        BECMG 0202/0203 27017G35KT" ++ [10%N] ++ py "    ") None None false) in
  [iseq (rmap (fun l => VList (map vopt l)) (rmap (fun g => map we_code (gl_list g)) (rmap (fun x => c_weathers (ta_common x)) x0))) (VList [VStr (py "+RA"); VStr (py "BR")]);
   iseq (rmap VStr (rmap (fun g => join (py " | ") (map weather_str (gl_list g))) (rmap (fun x => c_weathers (ta_common x)) x0))) (VStr (py "heavy rain | mist"));
   iseq (rmap (fun v => v) (rmap VDict (bind (rmap (fun x => c_weathers (ta_common x)) x0) (list_dict weather_dict)))) (VDict [(py "first", VDict [(py "code", VStr (py "+RA")); (py "description", VNone); (py "intensity", VStr (py "heavy")); (py "obscuration", VNone); (py "other", VNone); (py "precipitation", VStr (py "rain"))]); (py "second", VDict [(py "code", VStr (py "BR")); (py "description", VNone); (py "intensity", VNone); (py "obscuration", VStr (py "mist")); (py "other", VNone); (py "precipitation", VNone)])]);
   iseq (rmap vopt (rmap we_int (bind (rmap (fun x => c_weathers (ta_common x)) x0) (fun g => gl_get g 0%Z)))) (VStr (py "heavy"));
   iseq (rmap vopt (rmap we_desc (bind (rmap (fun x => c_weathers (ta_common x)) x0) (fun g => gl_get g 0%Z)))) (VNone);
   iseq (rmap vopt (rmap we_prec (bind (rmap (fun x => c_weathers (ta_common x)) x0) (fun g => gl_get g 0%Z)))) (VStr (py "rain"));
   iseq (rmap vopt (rmap we_obsc (bind (rmap (fun x => c_weathers (ta_common x)) x0) (fun g => gl_get g 0%Z)))) (VNone);
   iseq (rmap vopt (rmap we_other (bind (rmap (fun x => c_weathers (ta_common x)) x0) (fun g => gl_get g 0%Z)))) (VNone);
   iseq (rmap vopt (rmap we_int (bind (rmap (fun x => c_weathers (ta_common x)) x0) (fun g => gl_get g 1%Z)))) (VNone);
   iseq (rmap vopt (rmap we_desc (bind (rmap (fun x => c_weathers (ta_common x)) x0) (fun g => gl_get g 1%Z)))) (VNone);
   iseq (rmap vopt (rmap we_prec (bind (rmap (fun x => c_weathers (ta_common x)) x0) (fun g => gl_get g 1%Z)))) (VNone);
   iseq (rmap vopt (rmap we_obsc (bind (rmap (fun x => c_weathers (ta_common x)) x0) (fun g => gl_get g 1%Z)))) (VStr (py "mist"));
   iseq (rmap vopt (rmap we_other (bind (rmap (fun x => c_weathers (ta_common x)) x0) (fun g => gl_get g 1%Z)))) (VNone);
   israise (rmap we_code (bind (rmap (fun x => c_weathers (ta_common x)) x0) (fun g => gl_get g 2%Z))) IndexError].

Check (eq_refl true <: forallb (fun b => b) t_taf_test_weather_test_two_taf_weathers = true).

(* tests/taf/test_wind.py:6 test_wind_in_mps *)
Definition t_taf_test_wind_test_wind_in_mps : list bool :=
  let x0 := (taf_parse E ([10%N] ++ py "    TAF ULAA 281700Z 2818/0118 24004G09MPS 9999 SCT016" ++ [10%N] ++ py "        TEMPO 2818/2823 23005G13MPS 6000 -SHSN FEW007 BKN016CB" ++ [10%N] ++ py "        FM282300 22003G10MPS 6000 FEW005 BKN016" ++ [10%N] ++ py "        TEMPO 0102/0115 18003MPS" ++ [10%N] ++ py "    ") None None false) in
  [iseq (rmap vopt (rmap w_code (rmap (fun x => c_wind (ta_common x)) x0))) (VStr (py "24004G09MPS"));
   iseq (rmap vopt (rmap (fun w => cardinal (w_dir w)) (rmap (fun x => c_wind (ta_common x)) x0))) (VStr (py "WSW"));
   iseq (rmap vflo (rmap (fun w => dir_value (w_dir w)) (rmap (fun x => c_wind (ta_common x)) x0))) (VFloat (flit "240.0"));
   iseq (rmap vflo (rmap (fun w => in_radians (w_dir w)) (rmap (fun x => c_wind (ta_common x)) x0))) (VFloat (flit "4.1887902047863905"));
   iseq (rmap VBool (rmap (fun w => dir_variable (w_dir w)) (rmap (fun x => c_wind (ta_common x)) x0))) (VBool false);
   iseq (rmap vflo (rmap w_speed (rmap (fun x => c_wind (ta_common x)) x0))) (VFloat (flit "7.775378036936312"));
   iseq (rmap vflo (rmap (fun w => in_mps (w_speed w)) (rmap (fun x => c_wind (ta_common x)) x0))) (VFloat (flit "4.0"));
   iseq (rmap vflo (rmap (fun w => in_kph (w_speed w)) (rmap (fun x => c_wind (ta_common x)) x0))) (VFloat (flit "14.40000012440605"));
   iseq (rmap vflo (rmap w_gust (rmap (fun x => c_wind (ta_common x)) x0))) (VFloat (flit "17.494600583106703"));
   approx (rmap vflo (rmap (fun w => in_mps (w_gust w)) (rmap (fun x => c_wind (ta_common x)) x0))) (flit "9.0") (flit "1e-06");
   iseq (rmap vflo (rmap (fun w => in_miph (w_gust w)) (rmap (fun x => c_wind (ta_common x)) x0))) (VFloat (flit "20.13243645902753"));
   iseq (rmap VStr (rmap metar_wind_str (rmap (fun x => c_wind (ta_common x)) x0))) (VStr ((py "WSW (240.0" ++ [176%N] ++ py ") 7.8 kt gust of 17.5 kt")));
   iseq (rmap (fun v => v) (rmap (fun x => VDict (wind_dict x)) (rmap (fun x => c_wind (ta_common x)) x0))) (VDict [(py "code", VStr (py "24004G09MPS")); (py "direction", VDict [(py "cardinal", VStr (py "WSW")); (py "direction", VFloat (flit "240.0")); (py "units", VStr (py "degrees")); (py "variable", VBool false)]); (py "gust", VDict [(py "speed", VFloat (flit "17.494600583106703")); (py "units", VStr (py "knot"))]); (py "speed", VDict [(py "speed", VFloat (flit "7.775378036936312")); (py "units", VStr (py "knot"))])])].

Check (eq_refl true <: forallb (fun b => b) t_taf_test_wind_test_wind_in_mps = true).
