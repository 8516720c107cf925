(** * Properties C03, C04, C05, C06 and C50 (lists): statements only *)
From Coq Require Import String Ascii.
From Coq Require Import List NArith ZArith Bool Lia Sorted.
From Verif Require Import PyBase PyRegex AeroRegex Base AsDict SpecLists ProofLists.
Import ListNotations.
Open Scope list_scope.

(** ** C03: group dispatch is ordered, greedy and loses nothing *)

(** Whatever the handlers and the section, there is one assignment of groups
    to handlers that follows the rule [dispatch]; parsing runs exactly the
    assigned handlers from left to right and reports exactly the unassigned
    groups. *)
Theorem C03_dispatch : forall S (hs : list (handler S)) section st,
  exists a, dispatch hs 0 (split_on 32%N section) a
    /\ parse_section hs section st
       = match effect hs (split_on 32%N section) a st with
         | Ok st' => Ok (st', left_over (split_on 32%N section) a)
         | Raise x => Raise x
         end.
Proof. intros S hs. exact (parse_section_spec hs). Qed.
Print Assumptions C03_dispatch.

(** The rule leaves no choice. *)
Theorem C03_deterministic : forall S (hs : list (handler S)) gs a a',
  dispatch hs 0 gs a -> dispatch hs 0 gs a' -> a = a'.
Proof. intros S hs gs a a' H. exact (dispatch_unique hs 0 gs a H a'). Qed.
Print Assumptions C03_deterministic.

(** Every group has its verdict and handlers fire in strictly increasing order. *)
Theorem C03_increasing : forall S (hs : list (handler S)) gs a,
  dispatch hs 0 gs a ->
  length a = length gs /\ StronglySorted lt (fired a)
  /\ Forall (fun i => 0 <= i < length hs) (fired a).
Proof. intros S hs. exact (dispatch_increasing hs 0). Qed.
Print Assumptions C03_increasing.

(** Three handlers that record what they saw; the second group goes to the
    third handler, which leaves the first kind no second chance. *)
Example C03_case :
  let h r := mk_handler r (fun m st => Ok (st ++ [m_string m])) in
  let hs := [h r_TYPE; h r_TIME; h r_CLOUD] in
  parse_section hs (py "FOO METAR BKN015 METAR 071200Z") []
  = Ok ([py "METAR"; py "BKN015"], [py "FOO"; py "METAR"; py "071200Z"]).
Proof. vm_compute. reflexivity. Qed.

(** ** C04: bounded group lists never exceed their capacity *)

Theorem C04_capacity : forall A n (ops : list (list_op A)),
  gl_list (history (gl_new n) ops) = firstn n (added ops)
  /\ length (gl_list (history (gl_new n) ops)) <= n.
Proof. intros A. exact history_new. Qed.
Print Assumptions C04_capacity.

Theorem C04_add : forall A n (ops : list (list_op A)) x,
  let g := history (gl_new n) ops in
  gl_add x g = if Nat.leb n (length (gl_list g)) then Raise RangeError
               else Ok (mk_gl (gl_n g) (gl_max g) (gl_list g ++ [x])).
Proof. intros A. exact add_full. Qed.
Print Assumptions C04_add.

Example C04_case :
  let g := history (gl_new 2) [OpAdd 7; OpNext; OpGet 5; OpAdd 8; OpLoop; OpAdd 9] in
  gl_list g = [7; 8] /\ gl_add 10 g = Raise RangeError.
Proof. vm_compute. auto. Qed.

(** ** C05: iterating a group list visits every item once *)

(** The full statement: after any history a loop visits exactly the items of
    the list.  It is false: the list is its own iterator, so a loop that was
    left early makes the next one start in the middle. *)
Theorem C05_iteration_refuted : exists n (ops : list (list_op nat)),
  fst (gl_collect (history (gl_new n) ops)) <> gl_list (history (gl_new n) ops).
Proof.
  exists 3, [OpAdd 1; OpAdd 2; OpAdd 3; OpLoopUntil (Nat.eqb 2)].
  vm_compute. discriminate.
Qed.
Print Assumptions C05_iteration_refuted.

(** True when every earlier loop ran to its end; missing: loops left early. *)
Theorem C05_iteration_partial : forall A n (ops : list (list_op A)),
  forallb complete_op ops = true ->
  gl_collect (history (gl_new n) ops) = (firstn n (added ops), history (gl_new n) ops).
Proof. intros A. exact complete_loops. Qed.
Print Assumptions C05_iteration_partial.

(** In general a loop visits the items from the cursor on, once and in order,
    and then resets the cursor: the loop after it is complete. *)
Theorem C05_from_cursor : forall A (g : grouplist A),
  gl_collect g = (skipn (gl_n g) (gl_list g), mk_gl 0 (gl_max g) (gl_list g)).
Proof. intros A. exact gl_collect_spec. Qed.
Print Assumptions C05_from_cursor.

Example C05_case :
  gl_collect (history (gl_new 3) [OpAdd 1; OpAdd 2; OpLoop; OpAdd 3; OpLoop])
  = ([1; 2; 3], mk_gl 0 3 [1; 2; 3]).
Proof. vm_compute. reflexivity. Qed.

(** ** C06: indexing a group list *)

(** [i mod n] is the position Python's list gives to index [i]. *)
Theorem C06_indexing : forall A (g : grouplist A) i,
  length (gl_list g) <= gl_max g ->
  let n := Z.of_nat (length (gl_list g)) in
  (forall x, gl_get g i = Ok x <->
     (-n <= i < n)%Z /\ nth_error (gl_list g) (Z.to_nat (i mod n)) = Some x)
  /\ (gl_get g i = Raise RangeError <-> (Z.of_nat (gl_max g) <= i)%Z)
  /\ (gl_get g i = Raise IndexError <-> (i < -n \/ n <= i < Z.of_nat (gl_max g))%Z)
  /\ (forall e, gl_get g i = Raise e -> e = RangeError \/ e = IndexError).
Proof. intros A. exact gl_get_spec. Qed.
Print Assumptions C06_indexing.

Example C06_case :
  let g := mk_gl 0 4 [10; 20; 30] in
  map (gl_get g) [0; 2; -1; -3; 3; 4; -4]%Z
  = [Ok 10; Ok 30; Ok 30; Ok 10; Raise IndexError; Raise RangeError; Raise IndexError].
Proof. vm_compute. reflexivity. Qed.

(** ** C50: dictionary form of lists *)

Theorem C50_labels : forall A (f : A -> dict) g,
  list_dict f g
  = if Nat.leb (length (gl_list g)) 10 then Ok (labelled f (gl_list g)) else Raise IndexError.
Proof. intros A. exact list_dict_spec. Qed.
Print Assumptions C50_labels.

Example C50_case :
  list_dict (fun n => [(py "n", VStr n)]) (mk_gl 0 3 [py "a"; py "b"])
  = Ok [(py "first", VDict [(py "n", VStr (py "a"))]); (py "second", VDict [(py "n", VStr (py "b"))])].
Proof. vm_compute. reflexivity. Qed.
