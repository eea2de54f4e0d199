(** * Locations in gdb texts: titles of threads, threads and stack traces. *)
From Verif Require Import Base Types UtilsModel UtilsSpec UtilsProofs ParseModel ParseSpec ParseProofs JsParseProofs PyParseProofs KoopsSpec KoopsProofs KoopsProofs2
  GdbParseModel GdbParseSpec GdbParseProofs GdbParseProofs2 GdbParseProofs3 GdbParseProofs4 GdbParseProofs5 GdbParseProofs6 LocParseModel LocParseProofs GdbLocModel GdbLocSpec GdbLocProofs GdbLocProofs2 GdbLocProofs3.
Open Scope nat_scope.

Lemma adv_at s t n p : adv s t n -> s = p ++ t -> forall l, right l (Z.of_nat n) = moved l p.
Proof. intros (q & E & H) Ep l. rewrite H. f_equal. rewrite E in Ep. apply app_inv_tail in Ep. exact Ep. Qed.
(** A piece of the text: what precedes the rest has no newline. *)
Definition piece (s r : str) : Prop := exists p, s = p ++ r /\ ~ In nl p.
Lemma piece_moved s r p l : piece s r -> s = p ++ r -> right l (chars s r) = moved l p.
Proof. intros (q & E & H) Ep. assert (q = p) as -> by (rewrite E in Ep; apply app_inv_tail in Ep; exact Ep). rewrite Ep, chars_app. apply moved_right. exact H. Qed.
Lemma decimal_line ds n : number32 ds n -> ~ In nl ds.
Proof.
  intros [Hn _] K. apply (numeral_horner decimal_digit 10 _ digit_val_dec) in Hn as (_ & _ & Hn). rewrite Forall_forall in Hn. apply Hn in K. apply mem_In in K. discriminate K.
Qed.
Lemma lwp_piece tid s tid' r : maybe_lwp tid s tid' r -> piece s r.
Proof.
  intros [(n & (t & -> & (ds & -> & Hn & _)) & _)|(_ & _ & ->)]; [|exists []; auto]. exists (L "(LWP " ++ ds ++ L ")"). split; [rewrite <- !app_assoc; reflexivity|].
  intros K. apply in_app_or in K as [K|K]; [cbn in K; intuition discriminate|]. apply in_app_or in K as [K|K]; [exact (decimal_line _ _ Hn K)|cbn in K; intuition discriminate].
Qed.
Lemma lwp_at tid s tid' r p l : maybe_lwp tid s tid' r -> s = p ++ r -> lwp_loc tid s l = (tid', r, moved l p).
Proof. intros H E. unfold lwp_loc. rewrite (proj2 (maybe_lwp_iff tid s tid' r) H). rewrite (piece_moved _ _ _ _ (lwp_piece _ _ _ _ H) E). reflexivity. Qed.
Lemma id_adv s n r : id_skip s = (S n, r) -> adv s r (S n).
Proof.
  intros H. destruct (identification_cases s) as [(m & q & Hq & E)|(_ & q & E)]; rewrite H in E; [|discriminate]. injection E as <- <-. unfold id_skip in H.
  destruct (hex_id_cases s) as [(k & q & (ds & -> & _ & Hd & _) & E)|[_ E]]; rewrite E in H.
  - cbn [Nat.eqb] in H. injection H as <- <-. assert (L' : S k = length (L "0x" ++ ds)).
    { unfold sr_skip_hexadecimal_0xuint in E. destruct (sr_skip_char "0" (L "0x" ++ ds ++ q)) as [b0 s1] eqn:K0. destruct b0; [|discriminate]. cbn [negb] in E. apply skip_char_contract in K0.
      injection K0 as <-. destruct (sr_skip_char "x" ("x"%char :: ds ++ q)) as [bx s2] eqn:Kx. destruct bx; [|discriminate]. cbn [negb] in E. apply skip_char_contract in Kx. injection Kx as <-.
      unfold sr_skip_hexadecimal_uint in E. destruct (sr_skip_char_span _ (ds ++ q)) as [m r] eqn:K. apply skip_span_contract in K as (run & (Er & _ & _) & ->).
      destruct (Nat.eqb (2 + length run) 2); [discriminate|]. injection E as <- <-. apply app_inv_tail in Er as <-. reflexivity. }
    rewrite L', app_assoc. apply adv_line. intros K. apply in_app_or in K as [K|K]; [cbn in K; intuition discriminate|]. rewrite Forall_forall in Hd. apply Hd in K. apply K. reflexivity.
  - cbn [Nat.eqb] in H. unfold sr_skip_uint in H. apply skip_span_contract in H as (run & (-> & Hr & _) & ->). apply adv_line. intros K. rewrite Forall_forall in Hr. apply Hr in K. apply mem_In in K. discriminate K.
Qed.
Lemma title_head s l : ~ begins (L "Thread") s -> thread_header_loc s l = Took (0%Z, no_tid, s) l.
Proof. intros H. unfold thread_header_loc. rewrite (skip_not _ _ H). cbn [Nat.eqb]. f_equal. unfold right. cbn [Z.of_nat]. rewrite Z.add_0_r. apply location_eta. Qed.
Definition colon_loc (number : N) (tid : Z) (s : str) (l : location) : outcome (Z * Z * str) :=
  let '(n, s) := sr_skip_string (L ":" ++ [nl]) s in
  if n =? 0 then Refused (says l (L "Expected a colon followed by a newline ':\n'.")) else Took (Z.of_N number, tid, s) (sr_location_add l 2 0).
Definition paren_loc (tid : Z) (s : str) (l : location) : outcome (Z * str) :=
  let '(n, r) := sr_skip_string (L "(Thread ") s in
  let l := right l (Z.of_nat n) in
  if n =? 0 then Took (tid, s) l else
  let '(n, s) := id_skip r in
  let l := right l (Z.of_nat n) in
  if n =? 0 then Refused (says l (L "The thread identification number expected.")) else
  let '(n, s) := sr_skip_char_sequence sp s in
  let l := right l (Z.of_nat n) in
  let '(tid, s, l) := lwp_loc tid s l in
  let '(b, s) := sr_skip_char ")" s in
  if b then Took (tid, s) l else Refused (says l (L "Closing parenthesis for Thread expected.")).
Lemma title_loc_steps t l : thread_header_loc (L "Thread" ++ t) l =
  let l := right l (Z.of_nat 6) in
  let '(n, s) := sr_skip_char_sequence sp t in
  let l := right l (Z.of_nat n) in
  if n =? 0 then Refused (says l (L "Space expected after the ""Thread"" keyword.")) else
  match sr_parse_uint32 s with
  | None => Refused (says l (L "Thread number expected."))
  | Some (number, digits, s) =>
    let l := right l (Z.of_nat digits) in
    let '(n, s) := sr_skip_char_sequence sp s in
    let l := right l (Z.of_nat n) in
    if n =? 0 then Refused (says l (L "Space expected after the thread number.")) else
    let '(tid, s, l) := lwp_loc no_tid s l in
    and_then (paren_loc tid s l) (fun '(tid, s) l => colon_loc number tid s l)
  end.
Proof.
  unfold thread_header_loc. destruct (skip_string_cases (L "Thread") (L "Thread" ++ t)) as [(r & E & ->)|[K _]]; [|exfalso; apply K; eexists; reflexivity]. apply app_inv_head in E as <-.
  change (length (L "Thread") =? 0) with false. cbv iota zeta. change (length (L "Thread")) with 6. destruct (sr_skip_char_sequence sp t) as [n1 s1]. destruct (n1 =? 0); [reflexivity|].
  destruct (sr_parse_uint32 s1) as [[[number k] s2]|]; [|reflexivity]. destruct (sr_skip_char_sequence sp s2) as [n3 s3]. destruct (n3 =? 0); [reflexivity|]. change (gt_tid gdb_thread_new) with no_tid.
  destruct (lwp_loc no_tid s3 _) as [[tid s4] l4]. unfold paren_loc, colon_loc, id_skip. destruct (sr_skip_string (L "(Thread ") s4) as [n5 s5]. destruct (n5 =? 0); [reflexivity|].
  destruct (sr_skip_hexadecimal_0xuint s5) as [n6 s6]. reflexivity.
Qed.
(** After the number and the first LWP *)
Lemma title_go n t1 t2 t3 t4 tid t p l : spaces_to t1 t2 -> decimal t2 n t3 -> spaces_to t3 t4 -> maybe_lwp no_tid t4 tid t -> L "Thread" ++ t1 = p ++ t ->
  thread_header_loc (L "Thread" ++ t1) l = and_then (paren_loc tid t (moved l p)) (fun '(tid, s) l => colon_loc n tid s l).
Proof.
  intros H1 H2 H3 H4 E. rewrite title_loc_steps. cbv zeta.
  destruct (spaces_eval _ _ H1) as [k1 E1]. destruct (proj2 (decimal_iff _ _ _) H2) as [k2 E2]. destruct (spaces_eval _ _ H3) as [k3 E3]. rewrite E1. cbn [Nat.eqb]. rewrite E2, E3. cbn [Nat.eqb].
  apply adv_seq in E1 as (p1 & -> & K1). apply adv_uint in E2 as (p2 & -> & K2). apply adv_seq in E3 as (p3 & -> & K3). rewrite K1, K2, K3. change 6 with (length (L "Thread")). rewrite moved_right by (apply nl_not_in; reflexivity). rewrite !moved_app.
  destruct (lwp_piece _ _ _ _ H4) as (p4 & E4 & _). rewrite (lwp_at _ _ _ _ _ _ H4 E4), moved_app. rewrite E4 in E. do 3 f_equal.
  apply (app_inv_tail t). rewrite <- E, <- !app_assoc. reflexivity.
Qed.
Lemma title_start_at s tid t p l : title_start s tid t -> s = p ++ t -> exists n, thread_header_loc s l = and_then (paren_loc tid t (moved l p)) (fun '(tid, s) l => colon_loc n tid s l).
Proof. intros (n & t1 & t2 & t3 & t4 & -> & H1 & H2 & H3 & H4) E. exists n. exact (title_go _ _ _ _ _ _ _ _ l H1 H2 H3 H4 E). Qed.
Lemma paren_none tid t l : ~ begins (L "(Thread ") t -> paren_loc tid t l = Took (tid, t) l.
Proof. intros H. unfold paren_loc. rewrite (skip_not _ _ H). cbn [Nat.eqb]. f_equal. unfold right. cbn [Z.of_nat]. rewrite Z.add_0_r. apply location_eta. Qed.
Lemma skip_lit p r : sr_skip_string p (p ++ r) = (length p, r).
Proof. destruct (skip_string_cases p (p ++ r)) as [(q & E & ->)|[K _]]; [apply app_inv_head in E as <-; reflexivity|exfalso; apply K; eexists; reflexivity]. Qed.
Lemma paren_skip tid t l : paren_loc tid (L "(Thread " ++ t) l =
  let '(n, s) := id_skip t in
  let l := right (moved l (L "(Thread ")) (Z.of_nat n) in
  if n =? 0 then Refused (says l (L "The thread identification number expected.")) else
  let '(n, s) := sr_skip_char_sequence sp s in
  let l := right l (Z.of_nat n) in
  let '(tid, s, l) := lwp_loc tid s l in
  let '(b, s) := sr_skip_char ")" s in
  if b then Took (tid, s) l else Refused (says l (L "Closing parenthesis for Thread expected.")).
Proof.
  unfold paren_loc. rewrite skip_lit. change (length (L "(Thread ") =? 0) with false. cbv iota zeta. rewrite moved_right by (apply nl_not_in; reflexivity). reflexivity.
Qed.
Lemma paren_at tid1 t6 t7 t8 tid t p l : identification t6 t7 -> (spaces_to t7 t8 \/ (~ begins [sp] t7 /\ t8 = t7)) -> maybe_lwp tid1 t8 tid t -> L "(Thread " ++ t6 = p ++ t ->
  paren_loc tid1 (L "(Thread " ++ t6) l = let '(b, s) := sr_skip_char ")" t in if b then Took (tid, s) (moved l p) else Refused (says (moved l p) (L "Closing parenthesis for Thread expected.")).
Proof.
  intros H1 H2 H3 E. rewrite paren_skip. destruct (identification_eval _ _ H1) as [k1 E1]. rewrite E1. cbn [Nat.eqb]. apply id_adv in E1 as (p1 & -> & K1). rewrite K1.
  assert (exists k2, sr_skip_char_sequence sp t7 = (k2, t8)) as [k2 E2]. { destruct H2 as [H2|[H2 ->]]; [destruct (spaces_eval _ _ H2); eauto|]. destruct (spaces_cases t7) as [(n & r & K & _)|[_ K]]; [exfalso; exact (spaces_not _ _ H2 K)|eauto]. }
  rewrite E2. apply adv_seq in E2 as (p2 & -> & K2). cbv zeta. rewrite K2. destruct (lwp_piece _ _ _ _ H3) as (p3 & E3 & _). rewrite (lwp_at _ _ _ _ _ _ H3 E3). rewrite !moved_app. rewrite E3 in E.
  assert (Ep : p = L "(Thread " ++ p1 ++ p2 ++ p3) by (apply (app_inv_tail t); rewrite <- E, <- !app_assoc; reflexivity). rewrite <- ?app_assoc, <- Ep. reflexivity.
Qed.
Lemma seq_none t : ~ begins [sp] t -> sr_skip_char_sequence sp t = (0, t).
Proof. intros H. destruct (spaces_cases t) as [(n & r & K & _)|[_ K]]; [exfalso; exact (spaces_not _ _ H K)|exact K]. Qed.
Lemma char_none c t : ~ begins [c] t -> sr_skip_char c t = (false, t).
Proof. intros H. destruct (skip_char_cases c t) as [(r & -> & _)|[_ K]]; [exfalso; apply H; eexists; reflexivity|exact K]. Qed.
Lemma char_here c t : sr_skip_char c (c :: t) = (true, t).
Proof. apply skip_char_here. Qed.
Lemma right_zero l : right l (Z.of_nat 0) = l.
Proof. unfold right. cbn [Z.of_nat]. rewrite Z.add_0_r. apply location_eta. Qed.
Lemma title_paren_at s t p l : title_paren s t -> s = p ++ t -> exists n tid, thread_header_loc s l =
  let '(b, r) := sr_skip_char ")" t in if b then colon_loc n tid r (moved l p) else Refused (says (moved l p) (L "Closing parenthesis for Thread expected.")).
Proof.
  intros (tid1 & tid & t6 & t7 & t8 & H0 & H1 & H2 & H3) E.
  assert (exists q, L "(Thread " ++ t6 = q ++ t) as [q Eq].
  { destruct (identification_eval _ _ H1) as [k1 E1]. apply id_adv in E1 as (p1 & -> & _). destruct (lwp_piece _ _ _ _ H3) as (p3 & -> & _).
    destruct H2 as [(k & -> & _)|[_ <-]]; [exists (L "(Thread " ++ p1 ++ repeat sp (S k) ++ p3)|exists (L "(Thread " ++ p1 ++ p3)]; rewrite <- !app_assoc; reflexivity. }
  assert (exists q', s = q' ++ L "(Thread " ++ t6) as [q' Eq'].
  { destruct H0 as (n & t1 & t2 & t3 & t4 & -> & (k1 & -> & _) & (ds & -> & _) & (k3 & -> & _) & H4). destruct (lwp_piece _ _ _ _ H4) as (p4 & -> & _).
    exists (L "Thread" ++ repeat sp (S k1) ++ ds ++ repeat sp (S k3) ++ p4). rewrite <- !app_assoc. reflexivity. }
  destruct (title_start_at _ _ _ _ l H0 Eq') as [n ->]. exists n, tid. rewrite (paren_at _ _ _ _ _ _ _ _ H1 H2 H3 Eq), moved_app.
  assert (q' ++ q = p) as -> by (apply (app_inv_tail t); rewrite <- E, Eq', Eq, app_assoc; reflexivity). destruct (sr_skip_char ")" t) as [b r]. destruct b; reflexivity.
Qed.
Lemma title_wrong_at why s u l : title_wrong why s u -> thread_header_loc s l = Refused (says (moved l u) why).
Proof.
  intros [t H|u' t1 t2 E H1 H2|u' n t1 t2 t3 E H1 H2 H3|u' s' tid t E H1 H2|u' s' t E H1 H2|u' s' tid t E H1 H2 H3|u' s' t E H1 H2].
  - rewrite title_loc_steps, (seq_none _ H). cbv zeta. rewrite right_zero. change 6 with (length (L "Thread")). rewrite moved_right by (apply nl_not_in; reflexivity). reflexivity.
  - rewrite title_loc_steps. cbv zeta. destruct (spaces_eval _ _ H1) as [k1 E1]. rewrite E1. cbn [Nat.eqb]. destruct (decimal_cases t2) as [(v & n & r & K & _)|[_ ->]]; [exfalso; exact (H2 _ _ K)|].
    apply adv_seq in E1 as (p1 & -> & K1). rewrite K1. change 6 with (length (L "Thread")). rewrite moved_right by (apply nl_not_in; reflexivity). rewrite moved_app. do 3 f_equal.
    apply (app_inv_tail t2). rewrite <- E, <- app_assoc. reflexivity.
  - rewrite title_loc_steps. cbv zeta. destruct (spaces_eval _ _ H1) as [k1 E1]. destruct (proj2 (decimal_iff _ _ _) H2) as [k2 E2]. rewrite E1. cbn [Nat.eqb]. rewrite E2, (seq_none _ H3). cbn [Nat.eqb]. rewrite right_zero.
    apply adv_seq in E1 as (p1 & -> & K1). apply adv_uint in E2 as (p2 & -> & K2). rewrite K1, K2. change 6 with (length (L "Thread")). rewrite moved_right by (apply nl_not_in; reflexivity). rewrite !moved_app. do 3 f_equal.
    apply (app_inv_tail t3). rewrite <- E, <- !app_assoc. reflexivity.
  - assert (exists q, s' = q ++ L "(Thread " ++ t /\ u' = q ++ L "(Thread ") as (q & Eq & ->).
    { destruct H1 as (n & t1 & t2 & t3 & t4 & E' & (k1 & -> & _) & (ds & -> & _) & (k3 & -> & _) & H4). destruct (lwp_piece _ _ _ _ H4) as (p4 & -> & _).
      exists (L "Thread" ++ repeat sp (S k1) ++ ds ++ repeat sp (S k3) ++ p4). assert (K : s' = (L "Thread" ++ repeat sp (S k1) ++ ds ++ repeat sp (S k3) ++ p4) ++ L "(Thread " ++ t) by (rewrite E', <- !app_assoc; reflexivity).
      split; [exact K|]. apply (app_inv_tail t). rewrite <- E, K, <- !app_assoc. reflexivity. }
    destruct (title_start_at _ _ _ _ l H1 Eq) as [n ->]. rewrite paren_skip. destruct (identification_cases t) as [(m & r & K & _)|(_ & r & ->)]; [exfalso; exact (H2 _ K)|]. cbv zeta. rewrite right_zero, moved_app. reflexivity.
  - destruct (title_paren_at _ _ _ l H1 E) as (n & tid & ->). rewrite (char_none _ _ H2). reflexivity.
  - destruct (title_start_at _ _ _ _ l H1 E) as [n ->]. rewrite (paren_none _ _ _ H2). cbn [and_then]. unfold colon_loc. rewrite (skip_not _ _ H3). reflexivity.
  - destruct (title_paren_at _ _ _ l H1 E) as (n & tid & ->). change (L ")" ++ t) with (")"%char :: t). rewrite char_here. unfold colon_loc. rewrite (skip_not _ _ H2). reflexivity.
Qed.
Lemma colon_line l p : ~ In nl p -> sr_location_add l 2 0 = moved l (p ++ [nl]).
Proof.
  intros H. unfold sr_location_add, loc_add, moved. rewrite eat_all_app, (eat_line _ _ H). reflexivity.
Qed.
Lemma title_at s l : match thread_header s with
  | Some (number, tid, r) => exists p, s = p ++ r /\ thread_header_loc s l = Took (number, tid, r) (moved l p)
  | None => exists why u, title_wrong why s u /\ thread_header_loc s l = Refused (says (moved l u) why)
  end.
Proof.
  rewrite header_steps. destruct (skip_string_cases (L "Thread") s) as [(t1 & -> & ->)|[Hb ->]].
  2:{ cbn [Nat.eqb]. exists []. rewrite moved_nil. split; [reflexivity|]. apply title_head. exact Hb. }
  change (length (L "Thread") =? 0) with false. cbv iota. unfold title.
  assert (T : forall why u, title_wrong why (L "Thread" ++ t1) u -> exists why u, title_wrong why (L "Thread" ++ t1) u /\ thread_header_loc (L "Thread" ++ t1) l = Refused (says (moved l u) why)).
  { intros why u H. exists why, u. split; [exact H|]. apply title_wrong_at. exact H. }
  destruct (spaces_cases t1) as [(k1 & t2 & H1 & ->)|[H1 ->]]; cbn [Nat.eqb]; [|eapply T, tw_space; exact H1].
  pose proof H1 as (k1' & E1 & _).
  destruct (decimal_cases t2) as [(n & k2 & t3 & H2 & ->)|[H2 ->]]; [|eapply (T _ (L "Thread" ++ repeat sp (S k1'))); eapply tw_number; [rewrite E1, <- app_assoc; reflexivity|exact H1|exact H2]].
  pose proof H2 as (ds & E2 & _).
  destruct (spaces_cases t3) as [(k3 & t4 & H3 & ->)|[H3 ->]]; cbn [Nat.eqb]; [|eapply (T _ (L "Thread" ++ repeat sp (S k1') ++ ds)); eapply tw_after; [rewrite E1, E2, <- !app_assoc; reflexivity|exact H1|exact H2|exact H3]].
  pose proof H3 as (k3' & E3 & _). change (gt_tid gdb_thread_new) with no_tid.
  destruct (lwp_or no_tid t4) as [tid1 t5] eqn:E4. apply maybe_lwp_iff in E4. pose proof E4 as H4. apply lwp_piece in E4 as (p4 & E4 & _).
  assert (S0 : title_start (L "Thread" ++ t1) tid1 t5) by (exists n, t1, t2, t3, t4; auto 10).
  set (p := L "Thread" ++ repeat sp (S k1') ++ ds ++ repeat sp (S k3') ++ p4). assert (Ep : L "Thread" ++ t1 = p ++ t5) by (unfold p; rewrite E1, E2, E3, E4, <- !app_assoc; reflexivity). clearbody p.
  unfold in_paren. destruct (skip_string_cases (L "(Thread ") t5) as [(t6 & -> & ->)|[H5 ->]].
  - change (length (L "(Thread ") =? 0) with false. cbv iota. destruct (identification_cases t6) as [(k6 & t7 & H6 & ->)|(H6 & r & ->)]; cbn [Nat.eqb].
    2:{ eapply (T _ (p ++ L "(Thread ")). eapply tw_id; [rewrite Ep, <- app_assoc; reflexivity|exact S0|exact H6]. }
    destruct (identification_eval _ _ H6) as [k6' E6]. apply id_adv in E6 as (p6 & E6 & _).
    assert (exists k7 t8, sr_skip_char_sequence sp t7 = (k7, t8) /\ (spaces_to t7 t8 \/ (~ begins [sp] t7 /\ t8 = t7)) /\ t7 = repeat sp k7 ++ t8) as (k7 & t8 & E7 & H7 & K7).
    { destruct (sr_skip_char_sequence sp t7) as [k r] eqn:K. pose proof K as K'. apply skip_sequence_contract in K' as (K' & _ & _). exists k, r. split; [reflexivity|]. split; [|exact K'].
      destruct (spaces_cases t7) as [(m & q & Hq & E)|[Hq E]]; rewrite K in E; injection E as -> ->; auto. }
    rewrite E7. destruct (lwp_or tid1 t8) as [tid t9] eqn:E8. apply maybe_lwp_iff in E8. pose proof E8 as H8. apply lwp_piece in E8 as (p8 & E8 & N8).
    assert (S1 : title_paren (L "Thread" ++ t1) t9) by (exists tid1, tid, t6, t7, t8; auto).
    assert (Eq : L "Thread" ++ t1 = (p ++ L "(Thread " ++ p6 ++ repeat sp k7 ++ p8) ++ t9) by (rewrite Ep, E6, K7, E8, <- !app_assoc; reflexivity).
    assert (Er : L "(Thread " ++ t6 = (L "(Thread " ++ p6 ++ repeat sp k7 ++ p8) ++ t9) by (rewrite E6, K7, E8, <- !app_assoc; reflexivity).
    destruct (skip_char_cases ")" t9) as [(t10 & E9 & K9)|[H9 K9]]; rewrite K9; [|eapply T, tw_paren; [exact Eq|exact S1|exact H9]].
    destruct (skip_string_cases (L ":" ++ [nl]) t10) as [(r & E10 & ->)|[H10 ->]].
    + change (length (L ":" ++ [nl]) =? 0) with false. cbv iota. rewrite (title_go _ _ _ _ _ _ _ _ l H1 H2 H3 H4 Ep), (paren_at _ _ _ _ _ _ _ _ H6 H7 H8 Er), K9. cbn [and_then]. unfold colon_loc. rewrite E10, skip_lit.
      change (length (L ":" ++ [nl]) =? 0) with false. cbv iota. rewrite (colon_line _ (L "):")) by (apply nl_not_in; reflexivity). rewrite !moved_app.
      exists ((p ++ L "(Thread " ++ p6 ++ repeat sp k7 ++ p8) ++ L "):" ++ [nl]). split; [rewrite Eq, E9, E10, <- !app_assoc; reflexivity|].
      rewrite <- !app_assoc. reflexivity.
    + cbn [Nat.eqb]. eapply T, tw_paren_colon; [rewrite Eq, E9; reflexivity|rewrite <- (E9 : t9 = L ")" ++ t10); exact S1|exact H10].
  - cbn [Nat.eqb]. destruct (skip_string_cases (L ":" ++ [nl]) t5) as [(r & -> & ->)|[H10 ->]].
    + change (length (L ":" ++ [nl]) =? 0) with false. cbv iota. rewrite (title_go _ _ _ _ _ _ _ _ l H1 H2 H3 H4 Ep), (paren_none _ _ _ H5). cbn [and_then]. unfold colon_loc. rewrite skip_lit.
      change (length (L ":" ++ [nl]) =? 0) with false. cbv iota. rewrite (colon_line _ (L ":")) by (apply nl_not_in; reflexivity). rewrite !moved_app.
      exists (p ++ L ":" ++ [nl]). split; [rewrite Ep, <- !app_assoc; reflexivity|]. reflexivity.
    + cbn [Nat.eqb]. eapply T, tw_colon; [exact Ep|exact S0|exact H5|exact H10].
Qed.
