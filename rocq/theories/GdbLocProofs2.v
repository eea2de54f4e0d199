(** * Locations in gdb texts: calls, addresses, files and the headers of frames. *)
From Verif Require Import Base Types UtilsModel UtilsSpec UtilsProofs ParseModel ParseSpec ParseProofs JsParseProofs PyParseProofs KoopsSpec KoopsProofs KoopsProofs2
  GdbParseModel GdbParseSpec GdbParseProofs GdbParseProofs2 GdbParseProofs3 GdbParseProofs4 GdbParseProofs5 LocParseModel LocParseProofs GdbLocModel GdbLocSpec GdbLocProofs.
Open Scope nat_scope.

(** ** Exact steps *)
Definition adv (s r : str) (n : nat) : Prop := exists p, s = p ++ r /\ forall l, right l (Z.of_nat n) = moved l p.
Lemma adv_line p r : ~ In nl p -> adv (p ++ r) r (length p).
Proof. intros H. exists p. split; [reflexivity|]. intros l. apply moved_right. exact H. Qed.
Lemma adv_none s : adv s s 0.
Proof. exact (adv_line [] s (fun x => x)). Qed.
Lemma adv_seq s n r : sr_skip_char_sequence sp s = (n, r) -> adv s r n.
Proof. intros H. apply skip_sequence_contract in H as (-> & _ & _). rewrite <- (repeat_length sp n) at 2. apply adv_line. intros H. apply repeat_spec in H. discriminate. Qed.
Lemma adv_string p s n r : ~ In nl p -> sr_skip_string p s = (n, r) -> adv s r n.
Proof. intros Hp H. apply skip_string_contract in H as [[-> ->]|(-> & -> & _)]; [apply adv_line; exact Hp|apply adv_none]. Qed.
Lemma adv_char c s r : c <> nl -> sr_skip_char c s = (true, r) -> adv s r 1.
Proof. intros Hc H. apply skip_char_contract in H as ->. apply (adv_line [c]). intros [E|[]]. congruence. Qed.
Lemma numeral_line digit run : digit nl = None -> Forall (is_numeral_char digit) run -> ~ In nl run.
Proof. intros H F K. rewrite Forall_forall in F. apply F in K. unfold is_numeral_char in K. congruence. Qed.
Lemma adv_uint s v n r : sr_parse_uint32 s = Some (v, n, r) -> adv s r n.
Proof. intros H. pose proof (parse_uint32_correct s) as K. rewrite H in K. destruct K as (run & (-> & F & _) & _ & -> & _). apply adv_line. apply (numeral_line decimal_digit); [reflexivity|exact F]. Qed.
Lemma adv_hex s v n r : sr_parse_hexadecimal_0xuint64 s = Some (v, n, r) -> adv s r n.
Proof.
  intros H. pose proof (parse_0xhex_correct s) as K. rewrite H in K. destruct K as (run & -> & (_ & F & _) & _ & -> & _). change (2 + length run) with (length (L "0x" ++ run)). rewrite app_assoc. apply adv_line.
  intros K. apply in_app_or in K as [K|K]; [cbn in K; intuition discriminate|]. exact (numeral_line hexadecimal_digit run eq_refl F K).
Qed.
Lemma adv_file s name r : sr_parse_char_span (sr_alnum ++ L "_/\+.-") s = Some (name, r) -> adv s r (length name).
Proof.
  intros H. destruct (file_span s) as [(n & q & -> & _ & F & _ & E)|[_ E]]; rewrite H in E; [|discriminate]. injection E as -> ->. apply adv_line. intros K. rewrite Forall_forall in F. apply F in K.
  apply file_char_iff in K. apply mem_In in K. discriminate K.
Qed.
Lemma nl_not_in p : mem nl p = false -> ~ In nl p.
Proof. intros H K. apply mem_In in K. congruence. Qed.
(** What a parser with a location does: the same as without, and it moves over all that it reads. *)
Definition agrees {A} (rest : A -> str) (o : outcome A) (e : res A) (s : str) (l : location) : Prop :=
  match e with Ok x => exists p, s = p ++ rest x /\ o = Took x (moved l p) | Fail => exists l', o = Refused l' | UB => o = Broken end.
Lemma agrees_took {A} rest (x : A) s l : s = rest x -> agrees rest (Took x l) (Ok x) s l.
Proof. intros H. exists []. rewrite moved_nil. auto. Qed.
Lemma agrees_refused {A} rest l' s l : agrees rest (@Refused A l') Fail s l.
Proof. exists l'. reflexivity. Qed.
Lemma agrees_moved {A} rest (o : outcome A) e s p t l : s = p ++ t -> agrees rest o e t (moved l p) -> agrees rest o e s l.
Proof. intros -> H. unfold agrees in *. destruct e; [|exact H|exact H]. destruct H as (q & -> & ->). exists (p ++ q). rewrite app_assoc, moved_app. auto. Qed.
Lemma agrees_adv {A} rest (o : location -> outcome A) e s n t l : adv s t n -> (forall l, agrees rest (o l) e t l) -> agrees rest (o (right l (Z.of_nat n))) e s l.
Proof. intros (p & E & Hp) H. rewrite Hp. eapply agrees_moved; [exact E|apply H]. Qed.
Lemma adv_zero s t : adv s t 0 -> s = t.
Proof.
  intros (p & -> & H). destruct p as [|c p]; [reflexivity|]. exfalso. specialize (H (mk_location 1 (-1) None)). unfold right, moved in H. cbn [line column message Z.of_nat] in H.
  destruct (eat_all (1, -1)%Z (c :: p)) as [x y] eqn:E. injection H as Hx Hy. assert (K : ~ In nl (c :: p)).
  { pose proof (eat_all_fst (1, -1)%Z (c :: p)) as F. rewrite E in F. cbn [fst] in F. rewrite <- Hx in F. intros K. apply (count_occ_In ascii_dec) in K. lia. }
  rewrite (eat_line _ _ K) in E. injection E as _ Ey. cbn [snd length] in Ey. lia.
Qed.
(** Goes on behind the next step. *)
Ltac skip K := lazymatch type of K with adv ?s ?t ?n => lazymatch goal with |- agrees ?rest ?o ?e _ ?l =>
  lazymatch eval pattern (right l (Z.of_nat n)) in o with ?f _ => apply (agrees_adv rest f e s n t l K); cbv beta; clear l; intros l end end end.

(** ** Arguments *)
Lemma args_loop_at s : forall depth string escape l, exists p, s = p ++ snd (args_loop depth string escape s) /\ args_loop_loc depth string escape s l = (args_loop depth string escape s, moved l p).
Proof.
  induction s as [|c r IH]; intros depth string escape l; [exists []; rewrite moved_nil; auto|].
  assert (G : forall d st e, exists p, c :: r = p ++ snd (args_loop d st e r) /\ args_loop_loc d st e r (sr_location_eat_char l c) = (args_loop d st e r, moved l p)).
  { intros d st e. destruct (IH d st e (sr_location_eat_char l c)) as (p & E & ->). exists (c :: p). split; [cbn [app]; f_equal; exact E|]. rewrite moved_char, moved_app. reflexivity. }
  cbn [args_loop args_loop_loc]. destruct (if negb escape && starts_with (L "(truncated)") (c :: r) then (0, false) else (depth, string)) as [d st].
  repeat match goal with |- context [if ?b then _ else _] => destruct b end; try apply G. exists []. rewrite moved_nil. auto.
Qed.
Lemma args_at s l : agrees (fun r => r) (gdb_args_loc s l) (sr_gdb_frame_skip_function_args s) s l.
Proof.
  unfold gdb_args_loc, sr_gdb_frame_skip_function_args. destruct (sr_skip_char "(" s) as [b t] eqn:E. destruct b; cbn [negb]; [|apply agrees_refused].
  apply adv_char in E; [|discriminate]. change 1%Z with (Z.of_nat 1). destruct t as [|c r]; [reflexivity|]. skip E.
  destruct (args_loop_at (c :: r) 0 false false l) as (p & Ep & ->). destruct (args_loop 0 false false (c :: r)) as [[[d st] e] q]. cbn [snd] in Ep. eapply agrees_moved; [exact Ep|].
  destruct (negb (d =? 0) || st || e); [apply agrees_refused|]. destruct (sr_skip_char ")" q) as [b' w] eqn:Ew. destruct b'; [|apply agrees_refused].
  apply adv_char in Ew; [|discriminate]. generalize (moved l p). intros l'. skip Ew. apply agrees_took. reflexivity.
Qed.
Lemma span_location set s n r : sr_skip_char_span set s = (n, r) -> exists ws, s = ws ++ r /\ length ws = n /\ sr_skip_char_span_location s set = (n, eat_all (1%Z, 0%Z) ws, r).
Proof.
  unfold sr_skip_char_span, sr_skip_char_span_location, sr_strspn_location. rewrite strspn_loc_spec. cbn [Nat.add]. destruct (span (fun c => mem c set) s) as [a b] eqn:E. intros H. injection H as <- <-.
  exists a. apply (span_max_run _ (fun c => In c set)) in E; [|intros c; apply mem_In]. destruct E as (-> & _ & _). split; [reflexivity|]. split; [reflexivity|]. cbn [fst].
  f_equal. rewrite skipn_app, skipn_all, Nat.sub_diag. reflexivity.
Qed.
(** ** Calls *)
Lemma call_counts_at s u r l : call_counts s u r -> exists name type, function_call s name type r /\ gdb_call_loc s l = Took (name, type, r) (moved l u).
Proof.
  intros (v & t & w & x & Hv & Et & Hs & Ha & ->). destruct (name_counts_at _ _ _ l Hv) as (name & type & Hn & E). exists name, type. split; [exists t, x; auto|].
  unfold gdb_call_loc. rewrite E. cbn [and_then]. destruct (spaces_nl_eval _ _ Hs) as [n Es]. destruct (span_location _ _ _ _ Es) as (ws & Ew & _ & ->).
  destruct (eat_all (1%Z, 0%Z) ws) as [a b] eqn:Ee. cbn [Nat.eqb]. assert (Em : sr_location_add (moved l v) a b = moved l (v ++ ws)) by (rewrite <- moved_app, <- (moved_add (moved l v) ws), Ee; reflexivity). rewrite Em.
  pose proof (args_at (L "(" ++ x) (moved l (v ++ ws))) as A. rewrite (proj2 (proj1 (skip_args_exact (L "(" ++ x)) r)) in A by eauto. destruct A as (p & Ep & ->). cbn [and_then].
  rewrite moved_app, <- app_assoc. do 3 f_equal. rewrite Ep, app_assoc, Et in Ew. apply app_inv_tail in Ew. symmetry. exact Ew.
Qed.
Lemma call_at s l : match sr_gdb_frame_parse_function_call s with
  | Ok (name, type, r) => exists u, call_counts s u r /\ gdb_call_loc s l = Took (name, type, r) (moved l u)
  | Fail => exists l', gdb_call_loc s l = Refused l'
  | UB => gdb_call_loc s l = Broken
  end.
Proof.
  unfold sr_gdb_frame_parse_function_call, gdb_call_loc. pose proof (name_at s l) as A. destruct (sr_gdb_frame_parse_function_name s) as [[[name type] t]| |] eqn:En; cbn [bind].
  2:{ destruct A as [l' ->]. eexists. reflexivity. }
  2:{ rewrite A. reflexivity. }
  destruct A as (v & Hv & ->). cbn [and_then]. destruct (spaces_nl_cases t) as [(n & q & Hs & E)|[Hs E]]; destruct (span_location _ _ _ _ E) as (ws & Ew & _ & ->); rewrite E;
    destruct (eat_all (1%Z, 0%Z) ws) as [a b] eqn:Ee; cbn [Nat.eqb]; [|eexists; reflexivity].
  assert (Em : sr_location_add (moved l v) a b = moved l (v ++ ws)) by (rewrite <- moved_app, <- (moved_add (moved l v) ws), Ee; reflexivity). rewrite Em.
  pose proof (args_at q (moved l (v ++ ws))) as A. destruct (sr_gdb_frame_skip_function_args q) as [r| |] eqn:Eq; cbn [bind agrees] in *.
  - destruct A as (p & Ep & ->). cbn [and_then]. apply skip_args_exact in Eq as (x & -> & Hx). exists (v ++ ws ++ p). split; [|rewrite moved_app, <- app_assoc; reflexivity].
    exists v, t, (ws ++ p), x. split; [exact Hv|]. split; [rewrite Ew, Ep, app_assoc; reflexivity|]. auto.
  - destruct A as [l' ->]. eexists. reflexivity.
  - rewrite A. reflexivity.
Qed.
Lemma call_counted s name type r : function_call s name type r -> exists u, call_counts s u r.
Proof. intros H. apply function_call_exact in H. pose proof (call_at s sr_location_init) as A. rewrite H in A. destruct A as (u & Hu & _). eauto. Qed.

(** ** Addresses *)
Definition address_tail_loc (s : str) (l : location) : outcome str :=
  let '(n, s) := sr_skip_char_sequence sp s in
  let l := right l (Z.of_nat n) in
  if n =? 0 then Refused (says l (L "Space expected after memory address.")) else
  let '(n, s) := sr_skip_string (L "in") s in
  let l := right l (Z.of_nat n) in
  if n =? 0 then Refused (says l (L "Keyword ""in"" expected after memory address.")) else
  let '(n, s) := sr_skip_char_sequence sp s in
  let l := right l (Z.of_nat n) in
  if n =? 0 then Refused (says l (L "Space expected after 'in'.")) else
  let '(n, r) := sr_skip_string (L "vtable") s in
  let l := right l (Z.of_nat n) in
  if 0 <? n then
    let '(n, r) := sr_skip_char_sequence sp r in
    let l := right l (Z.of_nat n) in
    if n =? 0 then Refused (says l (L "Space expected after 'vtable'.")) else
    let '(n, r) := sr_skip_string (L "for") r in
    let l := right l (Z.of_nat n) in
    if n =? 0 then Refused (says l (L "Keyword ""for"" expected.")) else
    let '(n, r) := sr_skip_char_sequence sp r in
    let l := right l (Z.of_nat n) in
    if n =? 0 then Refused (says l (L "Space expected after 'for'.")) else Took r l
  else Took s l.
Lemma address_loc_steps s l : gdb_address_loc s l =
  match sr_parse_hexadecimal_0xuint64 s with
  | None => (ulong_max, gdb_call_loc s l)
  | Some (address, digits, s) => (Z.of_N address, and_then (address_tail_loc s (right l (Z.of_nat digits))) gdb_call_loc)
  end.
Proof.
  unfold gdb_address_loc, address_tail_loc. destruct (sr_parse_hexadecimal_0xuint64 s) as [[[a k] t]|]; [|reflexivity]. f_equal.
  repeat first [reflexivity | match goal with |- context [let '(_, _) := ?e in _] => destruct e as [? ?] end | match goal with |- context [if ?b then _ else _] => destruct b; cbn [and_then] end].
Qed.
Definition of_option {A} (o : option A) : res A := match o with Some x => Ok x | None => Fail end.
Lemma tail_at s l : agrees (fun r => r) (address_tail_loc s l) (of_option (address_tail s)) s l.
Proof.
  unfold address_tail_loc, address_tail. destruct (sr_skip_char_sequence sp s) as [n1 s1] eqn:E1. apply adv_seq in E1. destruct (n1 =? 0); [apply agrees_refused|]. skip E1.
  destruct (sr_skip_string (L "in") s1) as [n2 s2] eqn:E2. apply adv_string in E2; [|apply nl_not_in; reflexivity]. destruct (n2 =? 0); [apply agrees_refused|]. skip E2.
  destruct (sr_skip_char_sequence sp s2) as [n3 s3] eqn:E3. apply adv_seq in E3. destruct (n3 =? 0); [apply agrees_refused|]. skip E3.
  destruct (sr_skip_string (L "vtable") s3) as [n4 s4] eqn:E4. apply adv_string in E4; [|apply nl_not_in; reflexivity]. destruct (0 <? n4) eqn:K.
  - destruct (sr_skip_char_sequence sp s4) as [n5 s5] eqn:E5. apply adv_seq in E5. destruct (n5 =? 0); [apply agrees_refused|]. skip E4. skip E5.
    destruct (sr_skip_string (L "for") s5) as [n6 s6] eqn:E6. apply adv_string in E6; [|apply nl_not_in; reflexivity]. destruct (n6 =? 0); [apply agrees_refused|]. skip E6.
    destruct (sr_skip_char_sequence sp s6) as [n7 s7] eqn:E7. apply adv_seq in E7. destruct (n7 =? 0); [apply agrees_refused|]. skip E7. apply agrees_took. reflexivity.
  - apply Nat.ltb_ge in K. assert (n4 = 0) as -> by lia. pose proof (adv_zero _ _ E4) as ->. skip E4. apply agrees_took. reflexivity.
Qed.
Lemma address_at s l : let '(a, x) := sr_gdb_frame_parse_address_in_function s in
  exists o, gdb_address_loc s l = (a, o) /\
  match x with
  | Ok (name, type, r) => exists u, located_counts s u r /\ o = Took (name, type, r) (moved l u)
  | Fail => exists l', o = Refused l'
  | UB => o = Broken
  end.
Proof.
  rewrite address_steps, address_loc_steps. destruct (hex_cases s) as [(n & k & t & Hh & E)|[Hh E]].
  - rewrite E. eexists. split; [reflexivity|]. destruct (adv_hex _ _ _ _ E) as (p & Ep & Hp). rewrite Hp. pose proof (tail_at t (moved l p)) as A. pose proof (fun r => address_in_iff s n k t r E) as Ha.
    destruct (address_tail t) as [q|]; cbn [of_option agrees] in A; [|destruct A as [l' ->]; eexists; reflexivity]. destruct A as (p' & Ep' & ->). cbn [and_then]. rewrite moved_app.
    pose proof (call_at q (moved l (p ++ p'))) as C. destruct (sr_gdb_frame_parse_function_call q) as [[[name type] r]| |]; [|exact C|exact C]. destruct C as (v & Hv & ->). rewrite moved_app.
    exists ((p ++ p') ++ v). split; [|reflexivity]. left. exists n, q, (p ++ p'), v. split; [apply Ha; reflexivity|]. split; [rewrite Ep, Ep', app_assoc; reflexivity|]. auto.
  - rewrite E. eexists. split; [reflexivity|]. pose proof (call_at s l) as C. destruct (sr_gdb_frame_parse_function_call s) as [[[name type] r]| |]; [|exact C|exact C]. destruct C as (v & Hv & ->).
    exists v. split; [|reflexivity]. right. auto.
Qed.
Lemma located_counts_at s u r l : located_counts s u r -> exists a name type, located_call s a name type r /\ gdb_address_loc s l = (a, Took (name, type, r) (moved l u)).
Proof.
  intros [(n & t & a & v & Hn & Es & Hv & ->)|[Hh Hv]].
  - destruct (call_counts_at _ _ _ (moved l a) Hv) as (name & type & Hc & E). exists (Z.of_N n), name, type. split; [left; eauto|].
    rewrite address_loc_steps. pose proof Hn as (q & _ & _ & Hq & _). destruct (hex_cases s) as [(n' & k & t' & Hh & K)|[Hh _]]; [|exfalso; exact (Hh _ _ Hq)]. destruct (hex_fun _ _ _ _ _ Hh Hq) as [-> ->]. rewrite K. f_equal.
    destruct (adv_hex _ _ _ _ K) as (p & Ep & Hp). rewrite Hp. pose proof (tail_at q (moved l p)) as A. rewrite (proj2 (address_in_iff s n k q t K) Hn) in A. cbn [of_option agrees] in A. destruct A as (p' & Ep' & ->).
    cbn [and_then]. rewrite moved_app. assert (Ea : p ++ p' = a) by (rewrite Ep' in Ep; rewrite Ep, app_assoc in Es; apply app_inv_tail in Es; exact Es). rewrite Ea, E, moved_app. reflexivity.
  - destruct (call_counts_at _ _ _ l Hv) as (name & type & Hc & E). exists no_address, name, type. split; [right; auto|]. rewrite address_loc_steps. destruct (hex_cases s) as [(n & k & t & Ht & _)|[_ ->]]; [exfalso; exact (Hh _ _ Ht)|].
    rewrite E. reflexivity.
Qed.

(** ** Files *)
Lemma file_at s l : agrees snd (gdb_file_loc s l) (of_option (sr_gdb_frame_parse_file_location s)) s l.
Proof.
  unfold gdb_file_loc, sr_gdb_frame_parse_file_location. destruct (sr_skip_char_span [sp; nl] s) as [n0 s0] eqn:E0. destruct (span_location _ _ _ _ E0) as (ws & -> & _ & ->).
  destruct (eat_all (1%Z, 0%Z) ws) as [a b] eqn:Ee. destruct (n0 =? 0); [apply agrees_refused|].
  assert (Em : sr_location_add l a b = moved l ws) by (rewrite <- (moved_add l ws), Ee; reflexivity). rewrite Em. eapply agrees_moved; [reflexivity|]. generalize (moved l ws). clear l Em Ee. intros l.
  destruct (sr_skip_string (L "at") s0) as [n1 r1] eqn:E1. destruct (if n1 =? 0 then sr_skip_string (L "from") s0 else (n1, r1)) as [n2 s2] eqn:E2.
  assert (A : adv s0 s2 n2) by (destruct (n1 =? 0); [apply (adv_string (L "from")); [apply nl_not_in; reflexivity|exact E2]|injection E2 as <- <-; apply (adv_string (L "at")); [apply nl_not_in; reflexivity|exact E1]]).
  destruct (n2 =? 0); [apply agrees_refused|]. skip A.
  destruct (sr_skip_char_sequence sp s2) as [n3 s3] eqn:E3. apply adv_seq in E3. destruct (n3 =? 0); [apply agrees_refused|]. skip E3.
  destruct (sr_parse_char_span (sr_alnum ++ L "_/\+.-") s3) as [[name s4]|] eqn:E4; [|apply agrees_refused]. apply adv_file in E4. skip E4.
  destruct (sr_skip_char ":" s4) as [c s5] eqn:E5. destruct c.
  - apply adv_char in E5; [|discriminate]. change 1%Z with (Z.of_nat 1). skip E5. destruct (sr_parse_uint32 s5) as [[[m k] s6]|] eqn:E6; [|apply agrees_refused]. apply adv_uint in E6. skip E6. apply agrees_took. reflexivity.
  - apply skip_char_contract in E5 as [-> _]. apply agrees_took. reflexivity.
Qed.
