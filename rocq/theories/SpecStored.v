(** * What a JSON text keeps of a report (C86): specification *)
From Coq Require Import String Ascii.
From Coq Require Import List NArith ZArith Bool.
From Verif Require Import PyBase AsDict SpecJson.
Import ListNotations.
Local Open Scope string_scope.
Local Open Scope nat_scope.
Local Open Scope list_scope.

(** The characters that UTF-16 units stand for: a high and a low surrogate
    side by side are one character. *)
Definition high (a : N) : bool := ((55296 <=? a) && (a <=? 56319))%N.
Definition low (b : N) : bool := ((56320 <=? b) && (b <=? 57343))%N.
Fixpoint characters (u : list N) : str :=
  match u with
  | a :: t =>
      match t with
      | b :: r =>
          if high a && low b then (65536 + (a - 55296) * 1024 + (b - 56320))%N :: characters r else a :: characters t
      | [] => u
      end
  | [] => []
  end.

(** The string under the name [code] of the object a JSON text spells. *)
Definition stored (t : str) : option str :=
  match json_text t with
  | Some (JObj m) =>
      match find (fun p => str_eqb (fst p) (py "code")) m with
      | Some (_, JStr u) => Some (characters u)
      | _ => None
      end
  | _ => None
  end.

(** All strings of a value, names included, are made of characters. *)
Inductive spelled : pyval -> Prop :=
| spelled_none : spelled VNone
| spelled_bool : forall b, spelled (VBool b)
| spelled_str : forall s, Forall scalar s -> spelled (VStr s)
| spelled_float : forall x, spelled (VFloat x)
| spelled_list : forall l, Forall spelled l -> spelled (VList l)
| spelled_dict : forall d, Forall (fun kv => Forall scalar (fst kv) /\ spelled (snd kv)) d -> spelled (VDict d).
