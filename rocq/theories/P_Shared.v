(** * Property C96: frames that two threads share bring them closer, and one frame makes little difference. *)
From Coq Require Import QArith.
From Verif Require Import Base Types DistMatrixModel DistModel DistSpec DistProofs4 CmpModel SharedSpec SharedProofs.
Open Scope nat_scope.

(** If the same frames are added on top of and below two threads, as many edits as before turn one into the other
    ([edit_type true] is Damerau-Levenshtein); they are divided by the new length, so the distance does not grow. *)
Theorem C96_edits : forall F (same : F -> F -> bool) tr ty P P' A B S S', (tr = true -> partial_equivalence (fun x y => same x y = true)) ->
  fits (P ++ A ++ S) (P' ++ B ++ S') -> Forall2 (fun x y => same x y = true) P P' -> Forall2 (fun x y => same x y = true) S S' -> A <> [] \/ B <> [] ->
  exists k, sr_distance same (edit_type tr) (ty, A) (ty, B) = Ok (quotient k (longer A B)) /\
    sr_distance same (edit_type tr) (ty, P ++ A ++ S) (ty, P' ++ B ++ S') = Ok (quotient k (length P + longer A B + length S)).
Proof. exact shared_edits. Qed.
Theorem C96_edits_closer : forall F (same : F -> F -> bool) tr ty P P' A B S S', (tr = true -> partial_equivalence (fun x y => same x y = true)) ->
  fits (P ++ A ++ S) (P' ++ B ++ S') -> Forall2 (fun x y => same x y = true) P P' -> Forall2 (fun x y => same x y = true) S S' -> A <> [] \/ B <> [] ->
  exists d d', sr_distance same (edit_type tr) (ty, A) (ty, B) = Ok d /\ sr_distance same (edit_type tr) (ty, P ++ A ++ S) (ty, P' ++ B ++ S') = Ok d' /\ (d' <= d)%Q.
Proof. exact shared_closer. Qed.
(** So for the Jaccard distance. *)
Theorem C96_jaccard : forall F (same : F -> F -> bool) ty P P' A B S S', equivalence (fun x y => same x y = true) ->
  Forall2 (fun x y => same x y = true) P P' -> Forall2 (fun x y => same x y = true) S S' ->
  exists d d', sr_distance same JACCARD (ty, A) (ty, B) = Ok d /\ sr_distance same JACCARD (ty, P ++ A ++ S) (ty, P' ++ B ++ S') = Ok d' /\ (d' <= d)%Q.
Proof. exact shared_jaccard. Qed.
(** One frame more or less, anywhere in a thread, changes the number of edits by one at most; with exchanges a frame
    more can take two edits more, because it can part two frames that are exchanged. *)
Theorem C96_one_frame : forall F (same : F -> F -> bool) tr ty A A' B, (tr = true -> partial_equivalence (fun x y => same x y = true)) -> fits A' B -> A <> [] \/ B <> [] -> one_more A A' ->
  exists k k', sr_distance same (edit_type tr) (ty, A) (ty, B) = Ok (quotient k (longer A B)) /\ sr_distance same (edit_type tr) (ty, A') (ty, B) = Ok (quotient k' (longer A' B)) /\
    k <= k' + 1 /\ k' <= k + (if tr then 2 else 1).
Proof. exact one_frame. Qed.
(** A frame that is changed changes it by one at most. *)
Theorem C96_changed_frame : forall F (same : F -> F -> bool) tr ty A A' B, (tr = true -> partial_equivalence (fun x y => same x y = true)) -> fits A B -> one_changed A A' ->
  exists k k', sr_distance same (edit_type tr) (ty, A) (ty, B) = Ok (quotient k (longer A B)) /\ sr_distance same (edit_type tr) (ty, A') (ty, B) = Ok (quotient k' (longer A B)) /\
    k <= k' + 1 /\ k' <= k + 1.
Proof. exact changed_frame. Qed.
(** It does not matter whether both threads are listed from the top or from the bottom. *)
Theorem C96_upside_down_edits : forall F (same : F -> F -> bool) tr ty A B, (tr = true -> partial_equivalence (fun x y => same x y = true)) -> fits A B ->
  sr_distance same (edit_type tr) (ty, rev A) (ty, rev B) = sr_distance same (edit_type tr) (ty, A) (ty, B).
Proof. exact edits_upside_down. Qed.
Theorem C96_upside_down_jaccard : forall F (same : F -> F -> bool) ty A B, equivalence (fun x y => same x y = true) ->
  sr_distance same JACCARD (ty, rev A) (ty, rev B) = sr_distance same JACCARD (ty, A) (ty, B).
Proof. exact jaccard_upside_down. Qed.

(** ** Where it does not hold *)
(** The Jaro-Winkler similarity gives more weight to the top. *)
Theorem C96_upside_down_refuted : ~ (distance_jaro_winkler Nat.eqb (rev [1; 1])%nat (rev [1; 2])%nat == distance_jaro_winkler Nat.eqb [1; 1]%nat [1; 2]%nat)%Q.
Proof. vm_compute. discriminate. Qed.
Theorem C96_damerau_two_refuted : one_more [1; 2] [1; 3; 2] /\
  sr_distance Nat.eqb DAMERAU_LEVENSHTEIN (1, [1; 2]) (1, [2; 1]) = Ok (quotient 1 2) /\ sr_distance Nat.eqb DAMERAU_LEVENSHTEIN (1, [1; 3; 2]) (1, [2; 1]) = Ok (quotient 3 3).
Proof. split; [exists [1], 3, [2]; now split|]. split; vm_compute; reflexivity. Qed.
(** The Jaro-Winkler similarity can go down when the same frame is added to both threads, on top or below. *)
Theorem C96_jaro_winkler_refuted :
  (distance_jaro_winkler Nat.eqb (1 :: [1; 1])%nat (1 :: [1; 1; 1])%nat < distance_jaro_winkler Nat.eqb [1; 1]%nat [1; 1; 1]%nat)%Q /\
  (distance_jaro_winkler Nat.eqb ([1] ++ [2])%nat ([1; 1] ++ [2])%nat < distance_jaro_winkler Nat.eqb [1]%nat [1; 1]%nat)%Q.
Proof. split; vm_compute; reflexivity. Qed.
(** Unknown functions of gdb stack traces are not taken for the same, so they drive threads apart that share them. *)
Definition gdb_named (name : str) : frame := FGdb (mk_gdb_frame (Some name) None 0 None 0 false 0 None).
Theorem C96_unknown_refuted : exists f A, 
  sr_distance frame_same LEVENSHTEIN (5, A) (5, A) = Ok (quotient 0 1) /\ sr_distance frame_same LEVENSHTEIN (5, f :: A) (5, f :: A) = Ok (quotient 1 2).
Proof. exists (gdb_named (L "??")), [gdb_named (L "main")]. split; vm_compute; reflexivity. Qed.

(** ** The hypotheses are met *)
Example C96_case : let same := Nat.eqb in equivalence (fun x y => same x y = true) /\ partial_equivalence (fun x y => same x y = true) /\
  fits ([1; 2] ++ [3; 4] ++ [5]) ([1; 2] ++ [6] ++ [5]) /\ Forall2 (fun x y => same x y = true) [1; 2] [1; 2] /\
  sr_distance same LEVENSHTEIN (1, [3; 4]) (1, [6]) = Ok (quotient 2 2) /\ sr_distance same LEVENSHTEIN (1, [1; 2; 3; 4; 5]) (1, [1; 2; 6; 5]) = Ok (quotient 2 5) /\
  (sr_distance same JACCARD (1, [1; 2; 3; 4; 5]) (1, [1; 2; 6; 5]) = Ok (1 - 3 / 6)%Q).
Proof.
  split; [split; [|split]; intros *; rewrite !Nat.eqb_eq; congruence|]. split; [split; intros *; rewrite !Nat.eqb_eq; congruence|]. split; [unfold fits, int_max; cbn; lia|].
  split; [repeat constructor|]. split; [vm_compute; reflexivity|]. split; vm_compute; reflexivity.
Qed.
Example C96_one_case : one_more [1; 2; 3] [1; 2; 7; 3] /\ one_changed [1; 2; 3] [1; 7; 3] /\ fits [1; 2; 7; 3] [1; 2] /\
  sr_distance Nat.eqb LEVENSHTEIN (1, [1; 2; 3]) (1, [1; 2]) = Ok (quotient 1 3) /\ sr_distance Nat.eqb LEVENSHTEIN (1, [1; 2; 7; 3]) (1, [1; 2]) = Ok (quotient 2 4).
Proof.
  split; [exists [1; 2], 7, [3]; now split|]. split; [exists [1], 2, 7, [3]; now split|]. split; [unfold fits, int_max; cbn; lia|]. split; vm_compute; reflexivity.
Qed.
Print Assumptions C96_edits.
Print Assumptions C96_edits_closer.
Print Assumptions C96_jaccard.
Print Assumptions C96_one_frame.
Print Assumptions C96_changed_frame.
Print Assumptions C96_upside_down_edits.
Print Assumptions C96_upside_down_jaccard.
Print Assumptions C96_upside_down_refuted.
Print Assumptions C96_damerau_two_refuted.
Print Assumptions C96_jaro_winkler_refuted.
Print Assumptions C96_unknown_refuted.
