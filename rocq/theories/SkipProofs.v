(** * Proofs about the functions that skip numbers and blanks. *)
From Verif Require Import Base UtilsModel UtilsSpec UtilsProofs KoopsProofs2.

Lemma skip_uint_run s n r : sr_skip_uint s = (n, r) ->
  exists run, max_run (is_numeral_char decimal_digit) s run r /\ n = length run.
Proof.
  unfold sr_skip_uint. intros H. apply (span_inv _ _ _ _ _ digits_in) in H as (run & -> & -> & F & N).
  exists run. split; [|reflexivity]. split; [reflexivity|]. split; [exact F|exact N].
Qed.
Lemma skip_hex_run s n r : sr_skip_hexadecimal_uint s = (n, r) ->
  exists run, max_run (is_numeral_char hexadecimal_digit) s run r /\ n = length run.
Proof.
  unfold sr_skip_hexadecimal_uint. intros H. apply (span_inv _ _ _ _ _ hex_in) in H as (run & -> & -> & F & N).
  exists run. split; [|reflexivity]. split; [reflexivity|]. split; [exact F|exact N].
Qed.
Lemma skip_0xhex_run s n r : sr_skip_hexadecimal_0xuint s = (n, r) ->
  (exists run, s = L "0x" ++ run ++ r /\ run <> [] /\ max_run (is_numeral_char hexadecimal_digit) (run ++ r) run r /\ n = (2 + length run)%nat) \/
  (n = O /\ r = s /\ forall c t, s = L "0x" ++ c :: t -> hexadecimal_digit c = None).
Proof.
  unfold sr_skip_hexadecimal_0xuint.
  destruct (sr_skip_char "0" s) as [b0 s1] eqn:E0. apply skip_char_contract in E0.
  destruct b0; cbn [negb]. 2:{ intros [= <- <-]. right. split; [reflexivity|]. split; [reflexivity|]. intros c t ->. destruct E0 as [_ [E|(x & u & E & N)]]; [discriminate|]. injection E as <- _. congruence. }
  subst s. destruct (sr_skip_char "x" s1) as [b1 s2] eqn:E1. apply skip_char_contract in E1.
  destruct b1; cbn [negb]. 2:{ intros [= <- <-]. right. split; [reflexivity|]. split; [reflexivity|]. intros c t E2. injection E2 as ->. destruct E1 as [_ [E|(x & u & E & N)]]; [discriminate|]. injection E as <- _. congruence. }
  subst s1. destruct (sr_skip_hexadecimal_uint s2) as [m s3] eqn:E2. apply skip_hex_run in E2 as (run & M & ->).
  pose proof M as (-> & F & N). destruct run as [|c run]; cbn [length Nat.add Nat.eqb]; intros [= <- <-].
  - right. split; [reflexivity|]. split; [reflexivity|]. intros c t E. injection E as E. cbn in E. subst s3. cbn in N.
    unfold is_numeral_char in N. destruct (hexadecimal_digit c); [exfalso; apply N; discriminate|reflexivity].
  - left. exists (c :: run). split; [reflexivity|]. split; [discriminate|]. split; [exact M|reflexivity].
Qed.

Definition white (c : ascii) : Prop := In c [" "; "009"; "010"; "011"; "012"; "013"]%char.
Lemma is_space_white c : is_space c = true <-> white c.
Proof. unfold white. destruct c as [[] [] [] [] [] [] [] []]; cbn; split; intros H; try discriminate H; try tauto; repeat (destruct H as [H|H]; [discriminate H|]); destruct H. Qed.
Lemma span_run (p : ascii -> bool) (P : ascii -> Prop) s : (forall c, p c = true <-> P c) ->
  exists run, max_run P s run (snd (span p s)).
Proof.
  intros E. induction s as [|c s [run (S & F & N)]]; cbn [span].
  - exists []. split; [reflexivity|]. split; [constructor|exact I].
  - destruct (p c) eqn:Pc.
    + destruct (span p s) as [a b] eqn:K. cbn [snd] in *. exists (c :: run). split; [cbn; now rewrite S at 1|]. split; [constructor; [now apply E|exact F]|exact N].
    + exists []. split; [reflexivity|]. split; [constructor|]. cbn. rewrite <- E. congruence.
Qed.
Lemma skip_white_run s : exists run, max_run white s run (sr_skip_whitespace s).
Proof. apply span_run. exact is_space_white. Qed.
Lemma skip_non_white_run s : exists run, max_run (fun c => ~ white c) s run (sr_skip_non_whitespace s).
Proof. apply span_run. intros c. rewrite <- is_space_white. destruct (is_space c); cbn; split; intros; congruence. Qed.

Lemma skip_limited_contract allowed c s : exists b : bool, sr_skip_char_limited allowed (c :: s) = Ok (b, if b then s else c :: s) /\
  (b = true <-> In c allowed).
Proof. exists (mem c allowed). split; [cbn; now destruct (mem c allowed)|apply mem_In]. Qed.
