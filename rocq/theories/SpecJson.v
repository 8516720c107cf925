(** * JSON: specification (C59)

    A reader of JSON texts after RFC 8259.  Strings are read as sequences of
    UTF-16 units, which is what the escapes of JSON denote; numbers are read
    as the text that spells them. *)
From Coq Require Import String Ascii.
From Coq Require Import List NArith ZArith Bool Lia.
From Verif Require Import PyBase PyFloat AsDict.
Import ListNotations.
Local Open Scope string_scope.
Local Open Scope nat_scope.
Local Open Scope list_scope.

Inductive jval :=
| JNull
| JBool (b : bool)
| JNum (t : str)
| JStr (u : list N)
| JArr (l : list jval)
| JObj (m : list (list N * jval)).

(** The UTF-16 units of a code point and of a string. *)
Definition units (c : N) : list N :=
  if (c <? 65536)%N then [c]
  else [(55296 + (c - 65536) / 1024 mod 1024)%N; (56320 + (c - 65536) mod 1024)%N].
Definition utf16 (s : str) : list N := flat_map units s.

(** RFC 8259, section 2: insignificant white space. *)
Definition is_ws (c : N) : bool := existsb (N.eqb c) [32; 9; 10; 13]%N.
Fixpoint skip_ws (s : str) : str :=
  match s with c :: r => if is_ws c then skip_ws r else s | [] => [] end.

(** The rest after white space and the character [c]. *)
Definition expect (c : N) (s : str) : option str :=
  match skip_ws s with x :: r => if (x =? c)%N then Some r else None | [] => None end.

Fixpoint strip_word (w s : str) : option str :=
  match w, s with
  | [], _ => Some s
  | a :: w, b :: s => if (a =? b)%N then strip_word w s else None
  | _, [] => None
  end.

(** Section 7: strings. *)
Definition hex_value (c : N) : option N :=
  if ((48 <=? c) && (c <=? 57))%N then Some (c - 48)%N
  else if ((97 <=? c) && (c <=? 102))%N then Some (c - 87)%N
  else if ((65 <=? c) && (c <=? 70))%N then Some (c - 55)%N
  else None.
Definition escape (c : N) : option N :=
  match find (fun p => N.eqb (fst p) c) [(34, 34); (92, 92); (47, 47); (98, 8); (102, 12); (110, 10); (114, 13); (116, 9)]%N with
  | Some p => Some (snd p)
  | None => None
  end.
Fixpoint chars (s : str) : option (list N * str) :=
  let cons u k := match k with Some (us, r) => Some (u ++ us, r) | None => None end in
  match s with
  | [] => None
  | c :: r =>
      if (c =? 34)%N then Some ([], r)
      else if (c =? 92)%N then
        match r with
        | [] => None
        | d :: r' =>
            if (d =? 117)%N then
              match r' with
              | a :: b :: c :: d :: r'' =>
                  match hex_value a, hex_value b, hex_value c, hex_value d with
                  | Some a, Some b, Some c, Some d => cons [(a * 4096 + b * 256 + c * 16 + d)%N] (chars r'')
                  | _, _, _, _ => None
                  end
              | _ => None
              end
            else match escape d with Some x => cons [x] (chars r') | None => None end
        end
      else if (c <? 32)%N then None
      else cons (units c) (chars r)
  end.

(** Section 6: numbers. *)
Definition is_decimal (c : N) : bool := ((48 <=? c) && (c <=? 57))%N.
Fixpoint run (s : str) : str * str :=
  match s with
  | c :: r => if is_decimal c then let (a, b) := run r in (c :: a, b) else ([], s)
  | [] => ([], [])
  end.
Definition opt_char (cs : list N) (s : str) : str * str :=
  match s with c :: r => if existsb (N.eqb c) cs then ([c], r) else ([], s) | [] => ([], []) end.
(** An optional part that must have digits if it is there. *)
Definition part (mark signs : list N) (s : str) : option (str * str) :=
  let (m, s1) := opt_char mark s in
  match m with
  | [] => Some ([], s)
  | _ => let (g, s2) := opt_char signs s1 in
         let (d, s3) := run s2 in
         match d with [] => None | _ => Some (m ++ g ++ d, s3) end
  end.
Definition number (s : str) : option (str * str) :=
  let (sg, s1) := opt_char [45%N] s in
  let (d, s2) := run s1 in
  let fits := match d with [] => false | [_] => true | c :: _ => negb (N.eqb c 48) end in
  if fits then
    match part [46%N] [] s2 with
    | Some (fr, s3) => match part [101; 69]%N [43; 45]%N s3 with
                       | Some (ex, s4) => Some (sg ++ d ++ fr ++ ex, s4)
                       | None => None
                       end
    | None => None
    end
  else None.

(** Sections 3 to 5: values, arrays, objects.  The first argument bounds the
    recursion; the length of the text is always enough. *)
Fixpoint value (f : nat) (s : str) : option (jval * str) :=
  match f with
  | O => None
  | S f =>
      match expect 123 s with
      | Some r => match expect 125 r with
                  | Some r' => Some (JObj [], r')
                  | None => match members f r with Some (m, r') => Some (JObj m, r') | None => None end
                  end
      | None =>
      match expect 91 s with
      | Some r => match expect 93 r with
                  | Some r' => Some (JArr [], r')
                  | None => match elements f r with Some (l, r') => Some (JArr l, r') | None => None end
                  end
      | None =>
      match expect 34 s with
      | Some r => match chars r with Some (u, r') => Some (JStr u, r') | None => None end
      | None =>
      match strip_word (py "null") (skip_ws s) with
      | Some r => Some (JNull, r)
      | None =>
      match strip_word (py "true") (skip_ws s) with
      | Some r => Some (JBool true, r)
      | None =>
      match strip_word (py "false") (skip_ws s) with
      | Some r => Some (JBool false, r)
      | None =>
      match number (skip_ws s) with
      | Some (t, r) => Some (JNum t, r)
      | None => None
      end end end end end end end
  end
with elements (f : nat) (s : str) : option (list jval * str) :=
  match f with
  | O => None
  | S f =>
      match value f s with
      | Some (v, r) => match expect 44 r with
                       | Some r' => match elements f r' with Some (l, r'') => Some (v :: l, r'') | None => None end
                       | None => match expect 93 r with Some r' => Some ([v], r') | None => None end
                       end
      | None => None
      end
  end
with members (f : nat) (s : str) : option (list (list N * jval) * str) :=
  match f with
  | O => None
  | S f =>
      match expect 34 s with
      | Some s1 =>
          match chars s1 with
          | Some (k, s2) =>
              match expect 58 s2 with
              | Some s3 =>
                  match value f s3 with
                  | Some (v, r) => match expect 44 r with
                                   | Some r' => match members f r' with Some (l, r'') => Some ((k, v) :: l, r'') | None => None end
                                   | None => match expect 125 r with Some r' => Some ([(k, v)], r') | None => None end
                                   end
                  | None => None
                  end
              | None => None
              end
          | None => None
          end
      | None => None
      end
  end.

Definition json_text (t : str) : option jval :=
  match value (S (length t)) t with
  | Some (v, r) => match skip_ws r with [] => Some v | _ => None end
  | None => None
  end.

(** ** What a JSON value says about a Python value

    A number has to read back, by [float], as the number it stands for. *)
Inductive denotes : pyval -> jval -> Prop :=
| den_none : denotes VNone JNull
| den_bool : forall b, denotes (VBool b) (JBool b)
| den_str : forall s, denotes (VStr s) (JStr (utf16 s))
| den_num : forall x t, parse_float t = Some x -> denotes (VFloat x) (JNum t)
| den_list : forall l m, Forall2 denotes l m -> denotes (VList l) (JArr m)
| den_dict : forall d m, Forall2 (fun a b => fst b = utf16 (fst a) /\ denotes (snd a) (snd b)) d m -> denotes (VDict d) (JObj m).

(** No object of the value repeats a name. *)
Inductive once : jval -> Prop :=
| once_null : once JNull
| once_bool : forall b, once (JBool b)
| once_num : forall t, once (JNum t)
| once_str : forall u, once (JStr u)
| once_arr : forall l, Forall once l -> once (JArr l)
| once_obj : forall m, NoDup (map fst m) -> Forall (fun p => once (snd p)) m -> once (JObj m).

Definition printable (t : str) : Prop := Forall (fun c => 32 <= c <= 126)%N t.

(** The code points that are characters, all but the surrogates. *)
Definition scalar (c : N) : Prop := (c < 55296 \/ 57343 < c < 1114112)%N.

Definition faithful (d : dict) (t : str) : Prop :=
  printable t /\ exists j, json_text t = Some j /\ denotes (VDict d) j /\ once j.
