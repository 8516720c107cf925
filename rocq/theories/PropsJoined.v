(** * The groups of a section with mixed visibilities, exactly (C41) *)
From Coq Require Import String Ascii.
From Coq Require Import List NArith ZArith Bool Lia.
From Verif Require Import PyBase PyRegex Utils Base SpecText SpecWords SpecJoined ProofValues ProofJoined.
Import ListNotations.
Local Open Scope string_scope.
Local Open Scope nat_scope.
Local Open Scope list_scope.

(** Whatever the words: the text is rewritten by joining, at most three times,
    the first number and fraction of miles after the first word. *)
Theorem C41_exact_text : forall w ws, Forall solid (w :: ws) ->
  sanitize_visibility (sentence (w :: ws)) = sentence (w :: join_times 3 ws).
Proof. exact mixed_text. Qed.
Print Assumptions C41_exact_text.

(** And these are the groups the handlers see, for a section of any report. *)
Theorem C41_exact_groups : forall S (hs : list (handler S)) st w ws, Forall solid (w :: ws) ->
  parse_section hs (sanitize_visibility (sentence (w :: ws))) st = parse_groups hs (w :: join_times 3 ws) 0 [] st.
Proof. exact mixed_groups. Qed.
Print Assumptions C41_exact_groups.

Definition join_words (s : string) : list str := join_times 3 (split_on 32%N (py s)).

(** In the middle, at the end (an empty group more), with the fraction glued to
    the next group, a fourth pair left as it is, a pair of numbers, and no pair. *)
Example C41_exact_case :
  join_words "29005KT 2 1/2SM OVC010" = [py "29005KT"; py "2_1/2SM"; py "OVC010"]
  /\ join_words "29005KT 2 1/2SM" = [py "29005KT"; py "2_1/2SM"; []]
  /\ join_words "2 1/2SM 10 3/4SMRA" = [py "2_1/2SM"; py "10_3/4SM"; py "RA"]
  /\ join_words "1 1/2SM 2 1/2SM 3 1/2SM 4 1/2SM X"
     = [py "1_1/2SM"; py "2_1/2SM"; py "3_1/2SM"; py "4"; py "1/2SM"; py "X"]
  /\ join_words "1 2 3/4SM X" = [py "1"; py "2_3/4SM"; py "X"]
  /\ join_words "M1/4SM 2 M1/4SM" = [py "M1/4SM"; py "2"; py "M1/4SM"].
Proof. conjs; vm_compute; reflexivity. Qed.

Example C41_exact_text_case :
  Forall solid [py "KJFK"; py "2"; py "1/2SM"]
  /\ sanitize_visibility (py "KJFK 2 1/2SM") = py "KJFK 2_1/2SM "
  /\ sanitize_visibility (py "KJFK 2 1/2SM BR") = py "KJFK 2_1/2SM BR".
Proof.
  split; [repeat constructor; discriminate|]. conjs; vm_compute; reflexivity.
Qed.
