(** * Python floats: IEEE 754 binary64

    Values and arithmetic are those of the standard library's executable
    specification [SpecFloat] at precision 53 and maximal exponent 1024,
    rounding to nearest even.  Conversions from and to text follow CPython. *)
From Coq Require Import String Ascii.
From Coq Require Import List NArith ZArith Bool Lia.
From Coq Require Import Floats.SpecFloat.
From Verif Require Import PyBase.
Import ListNotations.
Open Scope list_scope.

Definition float := spec_float.

Definition fadd : float -> float -> float := SFadd 53 1024.
Definition fsub : float -> float -> float := SFsub 53 1024.
Definition fmul : float -> float -> float := SFmul 53 1024.
Definition fdiv : float -> float -> float := SFdiv 53 1024.
Definition fltb : float -> float -> bool := SFltb.
Definition fleb : float -> float -> bool := SFleb.
Definition feqb : float -> float -> bool := SFeqb.

Definition fnan : float := S754_nan.
Definition finf (s : bool) : float := S754_infinity s.

(** [float(n)] for an int (correctly rounded). *)
Definition float_of_Z (z : Z) : float := binary_normalize 53 1024 z 0 false.

(** The decimal number [m * 10^e] correctly rounded, with sign [s]. *)
Definition float_of_dec (s : bool) (m : N) (e : Z) : float :=
  match m with
  | N0 => S754_zero s
  | Npos p =>
      match e with
      | Z0 => binary_round 53 1024 s p 0
      | Zpos k => binary_round 53 1024 s (p * Pos.pow 10 k) 0
      | Zneg k =>
          let '(mz, ez, lz) := SFdiv_core_binary 53 1024 (Zpos p) 0 (Zpos (Pos.pow 10 k)) 0 in
          binary_round_aux 53 1024 s mz ez lz
      end
  end.

(** Truth value of a float: everything except zero. *)
Definition ftruthy (x : float) : bool :=
  match x with S754_zero _ => false | _ => true end.

(** ** [float(str)] *)

(** _PyUnicode_TransformDecimalAndSpaceToASCII: ASCII is kept, other digits
    and spaces become ASCII ones, anything else becomes '?'. *)
Definition to_ascii_char (c : N) : N :=
  if (c <? 128)%N then c
  else if is_space c then 32%N
  else match digit_val c with Some d => dig d | None => 63%N end.

Definition is_c_space (c : N) : bool := ((9 <=? c) && (c <=? 13))%N || (c =? 32)%N.

Fixpoint c_lstrip (s : str) : str :=
  match s with
  | c :: s' => if is_c_space c then c_lstrip s' else s
  | [] => []
  end.
Definition c_strip (s : str) : str := rev (c_lstrip (rev (c_lstrip s))).

Definition adigit (c : N) : option N :=
  if ((48 <=? c) && (c <=? 57))%N then Some (c - 48)%N else None.

(** A run of digits, single underscores allowed between digits.
    [acc] is the value so far, [cnt] the number of digits. *)
Fixpoint digit_run (acc : N) (cnt : nat) (s : str) : N * nat * str :=
  match s with
  | c :: s' =>
      match adigit c with
      | Some d => digit_run (acc * 10 + d) (S cnt) s'
      | None =>
          if (c =? 95)%N && negb (Nat.eqb cnt 0) then
            match s' with
            | c2 :: s2 => match adigit c2 with
                          | Some d => digit_run (acc * 10 + d) (S cnt) s2
                          | None => (acc, cnt, s)
                          end
            | [] => (acc, cnt, s)
            end
          else (acc, cnt, s)
      end
  | [] => (acc, cnt, [])
  end.

Definition lower_char (c : N) : N := if ((65 <=? c) && (c <=? 90))%N then (c + 32)%N else c.
Definition lower (s : str) : str := map lower_char s.

(** Exponents far outside the range of binary64 saturate. *)
Definition dec_to_float (s : bool) (m : N) (nd : nat) (e : Z) : float :=
  if N.eqb m 0 then S754_zero s
  else if (400 <? Z.of_nat nd + e)%Z then S754_infinity s
  else if (Z.of_nat nd + e <? -400)%Z then S754_zero s
  else float_of_dec s m e.

Definition parse_exponent (s : str) : option Z :=
  let (neg, s') := match s with
                   | 45%N :: t => (true, t)
                   | 43%N :: t => (false, t)
                   | _ => (false, s)
                   end in
  match digit_run 0 0 s' with
  | (_, O, _) => None
  | (v, _, []) => Some (if neg then (- Z.of_N v)%Z else Z.of_N v)
  | _ => None
  end.

Definition parse_unsigned (neg : bool) (s : str) : option float :=
  let l := lower s in
  if str_eqb l (py "inf") || str_eqb l (py "infinity") then Some (S754_infinity neg)
  else if str_eqb l (py "nan") then Some S754_nan
  else
    let '(ip, ni, s1) := digit_run 0 0 s in
    let '(m, nf, s2) :=
      match s1 with
      | 46%N :: t => match t with
                     | c :: _ => match adigit c with
                                 | Some _ =>
                                     let '(f, n, r) := digit_run 0 0 t in
                                     ((ip * 10 ^ N.of_nat n + f)%N, n, r)
                                 | None => (ip, O, t)
                                 end
                     | [] => (ip, O, t)
                     end
      | _ => (ip, O, s1)
      end in
    if Nat.eqb (ni + nf) 0 then None
    else match s2 with
         | [] => Some (dec_to_float neg m (ni + nf) (- Z.of_nat nf))
         | c :: t =>
             if (c =? 101)%N || (c =? 69)%N then
               match parse_exponent t with
               | Some e => Some (dec_to_float neg m (ni + nf) (e - Z.of_nat nf))
               | None => None
               end
             else None
         end.

Definition parse_float (s : str) : option float :=
  match c_strip (map to_ascii_char s) with
  | 45%N :: t => parse_unsigned true t
  | 43%N :: t => parse_unsigned false t
  | t => parse_unsigned false t
  end.

(** [float(s)] *)
Definition float_of_str (s : str) : result float :=
  match parse_float s with Some f => Ok f | None => Raise ValueError end.

(** A float literal of the source code. *)
Definition flit (s : string) : float :=
  match parse_float (py s) with Some f => f | None => S754_nan end.
Arguments flit s%string.

(** ** Formatting *)

(** Numerator and denominator of the absolute value of a finite float. *)
Definition frac_of (m : positive) (e : Z) : Z * Z :=
  match e with
  | Zneg k => (Zpos m, Zpos (Pos.pow 2 k))
  | Zpos k => (Zpos m * Zpos (Pos.pow 2 k), 1)%Z
  | Z0 => (Zpos m, 1)%Z
  end.

(** Nearest integer to [n/d], ties to even ([n >= 0], [d > 0]). *)
Definition round_half_even (n d : Z) : Z :=
  let q := (n / d)%Z in
  let r := (n mod d)%Z in
  match (2 * r ?= d)%Z with
  | Lt => q
  | Gt => (q + 1)%Z
  | Eq => if Z.even q then q else (q + 1)%Z
  end.

(** [q / 10^k] in fixed point notation with [k] decimals. *)
Definition fixed_point (k : nat) (q : Z) : str :=
  let p := (10 ^ Z.of_nat k)%Z in
  N_str (Z.to_N (q / p)) ++ py "." ++ zfill_N k (Z.to_N (q mod p)).

Definition sign_str (s : bool) : str := if s then py "-" else [].

(** ["{:.kf}".format(x)] for [k >= 1]. *)
Definition format_fixed (k : nat) (x : float) : str :=
  match x with
  | S754_nan => py "nan"
  | S754_infinity s => sign_str s ++ py "inf"
  | S754_zero s => sign_str s ++ fixed_point k 0
  | S754_finite s m e =>
      let (n, d) := frac_of m e in
      sign_str s ++ fixed_point k (round_half_even (n * 10 ^ Z.of_nat k) d)
  end.

(** Decimal exponent [t] with [10^(t-1) <= n/d < 10^t]. *)
Fixpoint dec_exp_small (fuel : nat) (n d : Z) (t : Z) : Z :=
  match fuel with
  | O => t
  | S f => if (n * 10 <? d)%Z then dec_exp_small f (n * 10) d (t - 1) else t
  end.
Definition dec_exp (n d : Z) : Z :=
  if (d <=? n)%Z then Z.of_nat (length (N_str (Z.to_N (n / d))))
  else dec_exp_small 400 n d 0.

(** The value [n/d] scaled to [k] significant digits when its decimal exponent
    is [t]: numerator and denominator of [n/d * 10^(k-t)]. *)
Definition scale (n d t : Z) (k : nat) : Z * Z :=
  let s := (Z.of_nat k - t)%Z in
  if (0 <=? s)%Z then (n * 10 ^ s, d)%Z else (n, d * 10 ^ (- s))%Z.

Definition feq_exact (a b : float) : bool :=
  match a, b with
  | S754_finite s m e, S754_finite s' m' e' => Bool.eqb s s' && Pos.eqb m m' && Z.eqb e e'
  | _, _ => false
  end.

(** Candidates with [k] digits that read back as [x]: digits and exponent of
    the last one.  The one closest to [x] is preferred. *)
Definition repr_try (x : float) (s : bool) (n d t : Z) (k : nat) : option (N * Z) :=
  let (a, b) := scale n d t k in
  let lo := (a / b)%Z in
  let r := (a mod b)%Z in
  let e := (t - Z.of_nat k)%Z in
  let ok z := feq_exact (float_of_dec s (Z.to_N z) e) x in
  let first := match (2 * r ?= b)%Z with
               | Lt => lo | Gt => (lo + 1)%Z
               | Eq => if Z.even lo then lo else (lo + 1)%Z end in
  let other := if Z.eqb first lo then (lo + 1)%Z else lo in
  if ok first then Some (Z.to_N first, e)
  else if ok other then Some (Z.to_N other, e) else None.

Fixpoint repr_search (x : float) (s : bool) (n d t : Z) (k : nat) (fuel : nat)
  : option (N * Z) :=
  match fuel with
  | O => None
  | S f => match repr_try x s n d t k with
           | Some r => Some r
           | None => repr_search x s n d t (S k) f
           end
  end.

(** Trailing zeros never occur in the shortest digits except through the
    carry [lo + 1 = 10^k]; they are removed. *)
Fixpoint strip_zeros (fuel : nat) (m : N) (e : Z) : N * Z :=
  match fuel with
  | O => (m, e)
  | S f => if (m =? 0)%N then (m, e)
           else if (m mod 10 =? 0)%N then strip_zeros f (m / 10) (e + 1) else (m, e)
  end.

(** Layout of [repr]: fixed notation when the decimal exponent is in
    (-4, 16], scientific otherwise (format code 'r'). *)
Definition repr_layout (m : N) (e : Z) : str :=
  let ds := N_str m in
  let nd := Z.of_nat (length ds) in
  let pt := (nd + e)%Z in          (* position of the decimal point *)
  if ((-4 <? pt) && (pt <=? 16))%Z then
    if (pt <=? 0)%Z then py "0." ++ repeat 48%N (Z.to_nat (- pt)) ++ ds
    else if (nd <=? pt)%Z then ds ++ repeat 48%N (Z.to_nat (pt - nd)) ++ py ".0"
    else firstn (Z.to_nat pt) ds ++ py "." ++ skipn (Z.to_nat pt) ds
  else
    let ex := (pt - 1)%Z in
    let mant := match ds with
                | [c] => [c]
                | c :: r => c :: py "." ++ r
                | [] => []
                end in
    mant ++ py "e" ++ (if (ex <? 0)%Z then py "-" else py "+")
         ++ zfill_N 2 (Z.to_N (Z.abs ex)).

(** [repr(x)], also ["{}".format(x)].  Seventeen digits always suffice for
    binary64; running out of candidates would show as "?". *)
Definition repr (x : float) : str :=
  match x with
  | S754_nan => py "nan"
  | S754_infinity s => sign_str s ++ py "inf"
  | S754_zero s => sign_str s ++ py "0.0"
  | S754_finite s m e =>
      let (n, d) := frac_of m e in
      let t := dec_exp n d in
      match repr_search x s n d t 1 17 with
      | Some (q, ex) => let (q', ex') := strip_zeros 20 q ex in
                        sign_str s ++ repr_layout q' ex'
      | None => py "?"
      end
  end.

(** ** Exact rational comparisons, used to state accuracy *)

(** The finite float as a fraction with positive denominator. *)
Definition to_frac (x : float) : option (Z * Z) :=
  match x with
  | S754_zero _ => Some (0, 1)%Z
  | S754_finite s m e => let (n, d) := frac_of m e in
                         Some (if s then (- n)%Z else n, d)
  | _ => None
  end.
