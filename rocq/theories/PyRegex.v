(** * The subset of Python's [re] used by aeromet_py

    Patterns are written verbatim and parsed by [compile]; matching follows the
    backtracking semantics of [re]: [run] returns all ways to match, in the
    order in which the backtracking engine would find them, and [re.match]
    takes the first one. *)
From Coq Require Import String Ascii.
From Coq Require Import List NArith ZArith Bool Lia.
From Verif Require Import PyBase.
Import ListNotations.
Open Scope list_scope.

(** ** Syntax *)

Inductive citem :=
| CRange (a b : N)   (* [a-b], or a single character when a = b *)
| CDigit             (* \d *)
| CSpace.            (* \s *)

Definition cls := list citem.

Definition in_citem (c : N) (i : citem) : bool :=
  match i with
  | CRange a b => ((a <=? c) && (c <=? b))%N
  | CDigit => is_digit c
  | CSpace => is_space c
  end.

Definition in_cls (c : N) (k : cls) : bool := existsb (in_citem c) k.

Inductive regex :=
| Eps
| Chr (k : cls)
| Seq (a b : regex)
| Alt (a b : regex)
| Star (k : cls)              (* greedy repetition of one character class *)
| Grp (name : string) (r : regex)
| Bos                         (* ^ *)
| Eos.                        (* $ *)

(** ** Matching *)

(** Spans of the named groups, most recent first: name, start, end. *)
Definition spans := list (string * (nat * nat)).

(** [$] without MULTILINE: at the end, or just before a final newline. *)
Definition at_end (s : str) : bool :=
  match s with
  | [] => true
  | [c] => N.eqb c 10
  | _ => false
  end.

Fixpoint run_star (k : cls) (pos : nat) (s : str) : list (nat * str * spans) :=
  match s with
  | c :: s' => if in_cls c k then run_star k (S pos) s' ++ [(pos, s, [])]
               else [(pos, s, [])]
  | [] => [(pos, s, [])]
  end.

(** [run r pos s]: all matches of [r] on [s], the text that remains at
    absolute position [pos]: end position, remaining text, captured spans. *)
Fixpoint run (r : regex) (pos : nat) (s : str) : list (nat * str * spans) :=
  match r with
  | Eps => [(pos, s, [])]
  | Chr k => match s with
             | c :: s' => if in_cls c k then [(S pos, s', [])] else []
             | [] => []
             end
  | Seq a b =>
      flat_map (fun '(p1, s1, k1) =>
        map (fun '(p2, s2, k2) => (p2, s2, k2 ++ k1)) (run b p1 s1)) (run a pos s)
  | Alt a b => run a pos s ++ run b pos s
  | Star k => run_star k pos s
  | Grp n r => map (fun '(p1, s1, k1) => (p1, s1, (n, (pos, p1)) :: k1)) (run r pos s)
  | Bos => if Nat.eqb pos 0 then [(pos, s, [])] else []
  | Eos => if at_end s then [(pos, s, [])] else []
  end.

(** A [re.Match] object: the searched string, the span of the whole match and
    the spans of the groups. *)
Record rmatch := mk_match {
  m_string : str;
  m_start : nat;
  m_end : nat;
  m_spans : spans
}.

Fixpoint span_of (n : string) (l : spans) : option (nat * nat) :=
  match l with
  | [] => None
  | (n', sp) :: l' => if String.eqb n n' then Some sp else span_of n l'
  end.

Definition substr (s : str) (b e : nat) : str := firstn (e - b) (skipn b s).

(** [match.group(name)] *)
Definition group (m : rmatch) (n : string) : option str :=
  match span_of n (m_spans m) with
  | Some (b, e) => Some (substr (m_string m) b e)
  | None => None
  end.

(** [re.match(r, s)] *)
Definition re_match (r : regex) (s : str) : option rmatch :=
  match run r 0 s with
  | (e, _, sp) :: _ => Some (mk_match s 0 e sp)
  | [] => None
  end.

Fixpoint search_from (r : regex) (whole : str) (pos : nat) (s : str) : option rmatch :=
  match run r pos s with
  | (e, _, sp) :: _ => Some (mk_match whole pos e sp)
  | [] => match s with
          | [] => None
          | _ :: s' => search_from r whole (S pos) s'
          end
  end.

(** [re.search(r, s)] *)
Definition re_search (r : regex) (s : str) : option rmatch := search_from r s 0 s.

(** [re.sub(r, repl, s, count)]; [cnt = None] is [count=0] (no limit).  The
    replacement is literal: no replacement used by the code contains a
    backslash.  [skip] counts the characters of the current match. *)
Fixpoint sub_go (r : regex) (repl : str) (cnt : option nat) (pos skip : nat) (s : str)
  : str :=
  match s with
  | [] => match skip, cnt with
          | O, Some O => []
          | O, _ => match run r pos [] with _ :: _ => repl | [] => [] end
          | S _, _ => []
          end
  | c :: s' =>
      match skip with
      | S k => sub_go r repl cnt (S pos) k s'
      | O =>
          match cnt with
          | Some O => s
          | _ =>
              let cnt' := match cnt with Some (S n) => Some n | _ => cnt end in
              match run r pos s with
              | [] => c :: sub_go r repl cnt (S pos) O s'
              | (e, _, _) :: _ =>
                  if Nat.eqb e pos
                  then repl ++ c :: sub_go r repl cnt' (S pos) O s'
                  else repl ++ sub_go r repl cnt' (S pos) (e - pos - 1) s'
              end
          end
      end
  end.

Definition re_sub (r : regex) (repl s : str) (cnt : option nat) : str :=
  sub_go r repl cnt 0 0 s.

(** ** The pattern parser *)

Definition c_of (a : ascii) : N := N_of_ascii a.
Definition chr1 (c : N) : regex := Chr [CRange c c].

Definition mkseq (a b : regex) : regex :=
  match a, b with
  | Eps, _ => b
  | _, Eps => a
  | _, _ => Seq a b
  end.

Fixpoint rep (n : nat) (r tail : regex) : regex :=
  match n with O => tail | S k => mkseq r (rep k r tail) end.

(** Up to [n] optional copies, greedy: [(r(r(...)?)?)?]. *)
Fixpoint opts (n : nat) (r : regex) : regex :=
  match n with O => Eps | S k => Alt (mkseq r (opts k r)) Eps end.

Definition is_ascii_digit (a : ascii) : option nat :=
  let n := N_of_ascii a in
  if ((48 <=? n) && (n <=? 57))%N then Some (N.to_nat (n - 48)) else None.

Fixpoint parse_num (acc : nat) (l : list ascii) : nat * list ascii :=
  match l with
  | a :: l' => match is_ascii_digit a with
               | Some d => parse_num (acc * 10 + d) l'
               | None => (acc, l)
               end
  | [] => (acc, [])
  end.

(** Body of a character class, after the opening bracket. *)
Fixpoint parse_class (fuel : nat) (l : list ascii) : option (cls * list ascii) :=
  match fuel with
  | O => None
  | S f =>
      match l with
      | "]"%char :: l' => Some ([], l')
      | "\"%char :: "d"%char :: l' =>
          match parse_class f l' with Some (k, r) => Some (CDigit :: k, r) | None => None end
      | a :: "-"%char :: b :: l' =>
          match parse_class f l' with
          | Some (k, r) => Some (CRange (c_of a) (c_of b) :: k, r) | None => None end
      | a :: l' =>
          match parse_class f l' with
          | Some (k, r) => Some (CRange (c_of a) (c_of a) :: k, r) | None => None end
      | [] => None
      end
  end.

Fixpoint parse_name (l : list ascii) : string * list ascii :=
  match l with
  | ">"%char :: l' => (EmptyString, l')
  | a :: l' => let (s, r) := parse_name l' in (String a s, r)
  | [] => (EmptyString, [])
  end.

(** Quantifiers after an atom. *)
Definition quantify (r : regex) (l : list ascii) : option (regex * list ascii) :=
  match l with
  | "?"%char :: l' => Some (Alt r Eps, l')
  | "+"%char :: l' => match r with Chr k => Some (Seq r (Star k), l') | _ => None end
  | "{"%char :: l' =>
      let (n, l1) := parse_num 0 l' in
      match l1 with
      | "}"%char :: l2 => Some (rep n r Eps, l2)
      | ","%char :: "}"%char :: l2 =>
          match r with Chr k => Some (rep n r (Star k), l2) | _ => None end
      | ","%char :: l2 =>
          let (m, l3) := parse_num 0 l2 in
          match l3 with
          | "}"%char :: l4 => Some (rep n r (opts (m - n) r), l4)
          | _ => None
          end
      | _ => None
      end
  | _ => Some (r, l)
  end.

Fixpoint parse_alt (fuel : nat) (l : list ascii) : option (regex * list ascii) :=
  match fuel with
  | O => None
  | S f =>
      match parse_seq f l with
      | Some (a, "|"%char :: l') =>
          match parse_alt f l' with
          | Some (b, r) => Some (Alt a b, r)
          | None => None
          end
      | x => x
      end
  end
with parse_seq (fuel : nat) (l : list ascii) : option (regex * list ascii) :=
  match fuel with
  | O => None
  | S f =>
      match l with
      | [] => Some (Eps, [])
      | "|"%char :: _ => Some (Eps, l)
      | ")"%char :: _ => Some (Eps, l)
      | _ =>
          match parse_atom f l with
          | Some (a, l') =>
              match quantify a l' with
              | Some (q, l2) =>
                  match parse_seq f l2 with
                  | Some (b, r) => Some (mkseq q b, r)
                  | None => None
                  end
              | None => None
              end
          | None => None
          end
      end
  end
with parse_atom (fuel : nat) (l : list ascii) : option (regex * list ascii) :=
  match fuel with
  | O => None
  | S f =>
      match l with
      | "^"%char :: l' => Some (Bos, l')
      | "$"%char :: l' => Some (Eos, l')
      | "["%char :: l' =>
          match parse_class f l' with Some (k, r) => Some (Chr k, r) | None => None end
      | "("%char :: "?"%char :: "P"%char :: "<"%char :: l' =>
          let (n, l1) := parse_name l' in
          match parse_alt f l1 with
          | Some (r, ")"%char :: l2) => Some (Grp n r, l2)
          | _ => None
          end
      | "("%char :: l' =>           (* unnamed group: its capture is never read *)
          match parse_alt f l' with
          | Some (r, ")"%char :: l2) => Some (r, l2)
          | _ => None
          end
      | "\"%char :: "d"%char :: l' => Some (Chr [CDigit], l')
      | "\"%char :: "s"%char :: l' => Some (Chr [CSpace], l')
      | "\"%char :: "n"%char :: l' => Some (chr1 10, l')
      | "\"%char :: "t"%char :: l' => Some (chr1 9, l')
      | "\"%char :: a :: l' => Some (chr1 (c_of a), l')
      | "?"%char :: _ | "*"%char :: _ | "+"%char :: _ | "{"%char :: _ | "."%char :: _
      | ")"%char :: _ | "|"%char :: _ | [] => None
      | a :: l' => Some (chr1 (c_of a), l')
      end
  end.

Definition parse_regex (s : string) : option regex :=
  let l := list_ascii_of_string s in
  match parse_alt (3 * length l + 3) l with
  | Some (r, []) => Some r
  | _ => None
  end.

(** [re.compile]; a pattern outside the subset would become a pattern that
    never matches, but all patterns of the program parse
    (see [AeroRegex.all_patterns_parse]). *)
Definition no_match : regex := Chr [].
Definition compile (s : string) : regex :=
  match parse_regex s with Some r => r | None => no_match end.
Arguments compile s%string.
