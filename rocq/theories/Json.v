(** * The to_json methods

    Every to_json of the package is [json.dumps(self.as_dict())]: base/report.py:99-101,
    base/wind.py:277-278, base/numeric.py:56-58, base/group.py:43-45 and 124-126.
    [json.dumps] is modelled with its default arguments, the only ones used:
    [ensure_ascii], separators [", "] and [": "], floats by [float.__repr__]. *)
From Coq Require Import String Ascii.
From Coq Require Import List NArith ZArith Bool Lia.
From Verif Require Import PyBase PyFloat PyTime Base MetarGroups Trend Metar Taf AsDict.
Import ListNotations.
Open Scope list_scope.

(** One lower-case hexadecimal digit, and four of them. *)
Definition hex_digit (n : N) : N := if (n <? 10)%N then (48 + n)%N else (87 + n)%N.
Definition hex4 (n : N) : str :=
  [hex_digit (n / 4096 mod 16); hex_digit (n / 256 mod 16); hex_digit (n / 16 mod 16); hex_digit (n mod 16)].

(** One character of a string, as the standard encoder writes it: printable
    ASCII as it is, short escapes, a surrogate pair above U+FFFF. *)
Definition json_char (c : N) : str :=
  if (c =? 34)%N then [92; 34]%N
  else if (c =? 92)%N then [92; 92]%N
  else if (c =? 8)%N then [92; 98]%N
  else if (c =? 12)%N then [92; 102]%N
  else if (c =? 10)%N then [92; 110]%N
  else if (c =? 13)%N then [92; 114]%N
  else if (c =? 9)%N then [92; 116]%N
  else if ((32 <=? c) && (c <=? 126))%N then [c]
  else if (c <? 65536)%N then [92; 117]%N ++ hex4 c
  else let v := (c - 65536)%N in
       [92; 117]%N ++ hex4 (55296 + v / 1024 mod 1024) ++ [92; 117]%N ++ hex4 (56320 + v mod 1024).

Definition json_string (s : str) : str := [34%N] ++ flat_map json_char s ++ [34%N].

(** [float.__repr__], with the names json gives to what is no number. *)
Definition json_float (x : float) : str :=
  match x with
  | SpecFloat.S754_nan => py "NaN"
  | SpecFloat.S754_infinity false => py "Infinity"
  | SpecFloat.S754_infinity true => py "-Infinity"
  | _ => repr x
  end.

Fixpoint dumps (v : pyval) : str :=
  match v with
  | VNone => py "null"
  | VBool true => py "true"
  | VBool false => py "false"
  | VStr s => json_string s
  | VFloat x => json_float x
  | VList l => py "[" ++ join (py ", ") (map dumps l) ++ py "]"
  | VDict d => py "{" ++ join (py ", ") (map (fun kv => json_string (fst kv) ++ py ": " ++ dumps (snd kv)) d) ++ py "}"
  end.

(** Report.to_json, base/report.py:99-101 *)
Definition metar_json (e : env) (x : metar) : result str := d <- metar_dict e x ;; Ok (dumps (VDict d)).
Definition taf_json (e : env) (x : taf) : result str := d <- taf_dict e x ;; Ok (dumps (VDict d)).
