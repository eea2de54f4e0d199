(** * The gdb parser: calls and frames. *)
From Verif Require Import Base Types UtilsModel UtilsSpec UtilsProofs ParseSpec ParseProofs JsParseProofs PyParseProofs KoopsSpec KoopsProofs KoopsProofs2
  GdbParseModel GdbParseSpec GdbParseProofs GdbParseProofs2 GdbParseProofs3.
Open Scope nat_scope.

(** ** Spaces and numbers *)
Lemma spaces_eval s r : spaces_to s r -> exists n, sr_skip_char_sequence sp s = (S n, r).
Proof.
  intros (n & -> & H). exists n. destruct (sr_skip_char_sequence sp (repeat sp (S n) ++ r)) as [m q] eqn:E. apply skip_sequence_contract in E.
  assert (K : max_run (fun x => x = sp) (repeat sp (S n) ++ r) (repeat sp (S n)) r).
  { split; [reflexivity|]. split; [apply Forall_forall; intros c Hc; apply repeat_spec in Hc; exact Hc|]. destruct r as [|c r]; [exact Logic.I|]. intros ->. apply H. exists r. reflexivity. }
  destruct (max_run_unique _ _ _ _ _ _ E K) as [E1 ->]. apply (f_equal (@length _)) in E1. rewrite !repeat_length in E1. subst m. reflexivity.
Qed.
Lemma spaces_cases s : (exists n r, spaces_to s r /\ sr_skip_char_sequence sp s = (S n, r)) \/ (~ begins [sp] s /\ sr_skip_char_sequence sp s = (0, s)).
Proof.
  destruct (sr_skip_char_sequence sp s) as [n r] eqn:E. apply skip_sequence_contract in E as (-> & _ & H). destruct n as [|n].
  - right. split; [|reflexivity]. intros [t Et]. cbn [repeat app] in Et. subst r. apply H. reflexivity.
  - left. exists n, r. split; [|reflexivity]. exists n. split; [reflexivity|]. intros [t ->]. apply H. reflexivity.
Qed.
Lemma spaces_not s r : ~ begins [sp] s -> ~ spaces_to s r.
Proof. intros H (n & -> & _). apply H. eexists. reflexivity. Qed.
Lemma spaces_nl_eval s r : spaces_nl s r -> exists n, sr_skip_char_span [sp; nl] s = (S n, r).
Proof.
  intros (ws & -> & Hn & Hw & H1 & H2). destruct ws as [|c ws]; [congruence|]. exists (length ws). apply skip_span_iff. exists (c :: ws).
  split; [reflexivity|]. split; [reflexivity|]. split; [eapply Forall_impl; [|exact Hw]; intros x [->| ->]; cbn; auto|].
  destruct r as [|x r]; [exact Logic.I|]. intros [<-|[<-|[]]]; [apply H1|apply H2]; exists r; reflexivity.
Qed.
Lemma spaces_nl_cases s : (exists n r, spaces_nl s r /\ sr_skip_char_span [sp; nl] s = (S n, r)) \/ ((forall r, ~ spaces_nl s r) /\ sr_skip_char_span [sp; nl] s = (0, s)).
Proof.
  destruct (sr_skip_char_span [sp; nl] s) as [n r] eqn:E. pose proof E as E0. apply skip_span_iff in E as (a & -> & -> & Ha & Hr). destruct a as [|c a].
  - right. split; [|reflexivity]. intros q Hq. apply spaces_nl_eval in Hq as [m Hq]. cbn [app] in *. rewrite E0 in Hq. discriminate.
  - left. exists (length a), r. split; [|reflexivity]. exists (c :: a). split; [reflexivity|]. split; [discriminate|].
    split; [eapply Forall_impl; [|exact Ha]; intros x [<-|[<-|[]]]; auto|]. destruct r as [|x r]; [split; intros [t E]; discriminate E|].
    split; intros [t E]; injection E as -> _; apply Hr; cbn; auto.
Qed.
Lemma spaces_nl_fun s r r' : spaces_nl s r -> spaces_nl s r' -> r = r'.
Proof. intros H H'. apply spaces_nl_eval in H as [n H], H' as [m H']. congruence. Qed.
Lemma decimal_iff s v r : (exists n, sr_parse_uint32 s = Some (v, n, r)) <-> decimal s v r.
Proof.
  unfold decimal. split.
  - intros [n H]. apply uint32_iff in H as (ds & -> & H & _ & K). exists ds. auto.
  - intros (ds & -> & H & K). exists (length ds). apply uint32_iff. exists ds. auto.
Qed.
Lemma decimal_cases s : (exists v n r, decimal s v r /\ sr_parse_uint32 s = Some (v, n, r)) \/ ((forall v r, ~ decimal s v r) /\ sr_parse_uint32 s = None).
Proof.
  destruct (sr_parse_uint32 s) as [[[v n] r]|] eqn:E.
  - left. exists v, n, r. split; [|reflexivity]. apply decimal_iff. eauto.
  - right. split; [|reflexivity]. intros v r H. apply decimal_iff in H as [n H]. congruence.
Qed.

(** ** Arguments *)
Definition args_result (x : nat * bool * bool * str) : option str :=
  let '(depth, string, escape, s) := x in
  if negb (depth =? 0) || string || escape then None else let '(b, s) := sr_skip_char ")" s in if b then Some s else None.
Lemma args_unfold depth string escape c r : args_loop depth string escape (c :: r) =
    let '(depth, string) := if negb escape && starts_with (L "(truncated)") (c :: r) then (0, false) else (depth, string) in
    if string then
      if escape then args_loop depth string false r
      else if Ascii.eqb c "\" then args_loop depth string true r
      else if Ascii.eqb c dquote then args_loop depth false escape r
      else args_loop depth string escape r
    else if Ascii.eqb c dquote then args_loop depth true escape r
    else if Ascii.eqb c "(" then args_loop (S depth) string escape r
    else if Ascii.eqb c ")" then
      if 0 <? depth then args_loop (depth - 1) string escape r else (depth, string, escape, c :: r)
    else args_loop depth string escape r.
Proof. reflexivity. Qed.
Lemma args_truncated depth string s : args_loop depth string false (L "(truncated)" ++ s) = args_loop 0 false false s.
Proof. destruct string; reflexivity. Qed.
Lemma args_step depth (string escape : bool) c r : escape = true \/ ~ begins (L "(truncated)") (c :: r) -> args_loop depth string escape (c :: r) =
    if string then
      if escape then args_loop depth string false r
      else if Ascii.eqb c "\" then args_loop depth string true r
      else if Ascii.eqb c dquote then args_loop depth false escape r
      else args_loop depth string escape r
    else if Ascii.eqb c dquote then args_loop depth true escape r
    else if Ascii.eqb c "(" then args_loop (S depth) string escape r
    else if Ascii.eqb c ")" then
      if 0 <? depth then args_loop (depth - 1) string escape r else (depth, string, escape, c :: r)
    else args_loop depth string escape r.
Proof.
  intros H. rewrite args_unfold. replace (negb escape && starts_with (L "(truncated)") (c :: r)) with false; [reflexivity|].
  destruct H as [->|H]; [reflexivity|]. destruct (starts_with (L "(truncated)") (c :: r)) eqn:E; [apply starts_with_iff in E; contradiction|]. destruct escape; reflexivity.
Qed.
Lemma not_truncated c r : c <> "("%char -> ~ begins (L "(truncated)") (c :: r).
Proof. intros H [t E]. injection E as -> _. congruence. Qed.
Lemma args_eval depth string s r : args depth string s r -> args_loop depth string false s = (0, false, false, L ")" ++ r).
Proof.
  induction 1 as [r|depth string s r H IH|depth s r N H IH|depth s r H IH|depth s r H IH|depth c s r Hc H IH|depth s r H IH|depth c s r H IH|depth c s r Hc N H IH].
  - reflexivity.
  - rewrite args_truncated. exact IH.
  - change (L "(" ++ s) with ("("%char :: s) in *. rewrite args_step by auto. exact IH.
  - change (L ")" ++ s) with (")"%char :: s). rewrite args_step by (right; apply not_truncated; discriminate).
    change (Ascii.eqb ")" dquote) with false. change (Ascii.eqb ")" "(") with false. change (Ascii.eqb ")" ")") with true. cbv iota.
    cbn [Nat.ltb Nat.leb]. replace (S depth - 1) with depth by lia. exact IH.
  - rewrite args_step by (right; apply not_truncated; discriminate). exact IH.
  - assert (c <> dquote /\ c <> "("%char /\ c <> ")"%char) as (H1 & H2 & H3) by (repeat split; intros ->; apply Hc; cbn; auto).
    rewrite args_step by (right; apply not_truncated; exact H2). apply ascii_eqb_false in H1, H2, H3. rewrite H1, H2, H3. exact IH.
  - rewrite args_step by (right; apply not_truncated; discriminate). exact IH.
  - change (L "\" ++ c :: s) with ("\"%char :: c :: s). rewrite args_step by (right; apply not_truncated; discriminate). change (Ascii.eqb "\" "\") with true. cbv iota.
    rewrite args_step by auto. exact IH.
  - assert (c <> dquote /\ c <> "\"%char) as (H1 & H2) by (split; intros ->; apply Hc; cbn; auto).
    rewrite args_step by auto. apply ascii_eqb_false in H1, H2. rewrite H1, H2. exact IH.
Qed.
Lemma args_inv n : forall depth string s r, length s <= n -> args_result (args_loop depth string false s) = Some r -> args depth string s r.
Proof.
  induction n as [|n IH]; intros depth string s r Hl E.
  - destruct s; [|cbn in Hl; lia]. cbn [args_loop args_result] in E. destruct depth, string; discriminate E.
  - destruct s as [|c s]; [cbn [args_loop args_result] in E; destruct depth, string; discriminate E|].
    destruct (begins_dec (L "(truncated)") (c :: s)) as [[t Et]|N].
    + rewrite Et in *. rewrite args_truncated in E. apply a_truncated. apply IH; [|exact E]. rewrite app_length in Hl. cbn [length L list_ascii_of_string] in Hl. lia.
    + rewrite args_step in E by auto. cbn [length] in Hl. destruct string.
      * destruct (Ascii.eqb c "\") eqn:E1.
        -- apply ascii_eqb_true in E1. subst c. destruct s as [|x s]; [cbn [args_loop args_result] in E; destruct depth; discriminate E|].
           rewrite args_step in E by auto. apply (a_escape _ x s). apply IH; [cbn [length] in Hl; lia|exact E].
        -- apply ascii_eqb_false in E1. destruct (Ascii.eqb c dquote) eqn:E2.
           ++ apply ascii_eqb_true in E2. subst c. apply a_unquote. apply IH; [lia|exact E].
           ++ apply ascii_eqb_false in E2. apply a_text; [intros [H|[H|[]]]; congruence|exact N|]. apply IH; [lia|exact E].
      * destruct (Ascii.eqb c dquote) eqn:E1; [apply ascii_eqb_true in E1; subst c; apply a_quote; apply IH; [lia|exact E]|].
        destruct (Ascii.eqb c "(") eqn:E2; [apply ascii_eqb_true in E2; subst c; apply (a_open depth s); [exact N|apply IH; [lia|exact E]]|].
        destruct (Ascii.eqb c ")") eqn:E3.
        -- apply ascii_eqb_true in E3. subst c. destruct depth as [|depth].
           ++ cbn [Nat.ltb Nat.leb] in E. cbn [args_result Nat.eqb negb orb] in E. rewrite skip_char_here in E. injection E as <-. apply (a_end s).
           ++ cbn [Nat.ltb Nat.leb] in E. replace (S depth - 1) with depth in E by lia. apply (a_close depth s). apply IH; [lia|exact E].
        -- apply ascii_eqb_false in E1, E2, E3. apply a_char; [intros [H|[H|[H|[]]]]; congruence|]. apply IH; [lia|exact E].
Qed.
Lemma args_nonempty depth string s r : args depth string s r -> s <> [].
Proof. destruct 1; discriminate. Qed.
Lemma args_fun depth string s r r' : args depth string s r -> args depth string s r' -> r = r'.
Proof. intros H H'. apply args_eval in H, H'. rewrite H in H'. injection H' as E. exact E. Qed.
Lemma skip_args_exact s : (forall r, sr_gdb_frame_skip_function_args s = Ok r <-> exists u, s = L "(" ++ u /\ args 0 false u r) /\
  (sr_gdb_frame_skip_function_args s = UB <-> s = L "(").
Proof.
  unfold sr_gdb_frame_skip_function_args. destruct (skip_char_cases "(" s) as [(t & -> & ->)|[Hb ->]]; cbn [negb].
  2:{ split; [intros r|]; (split; [discriminate|]).
      - intros (u & -> & _). exfalso. apply Hb. eexists. reflexivity.
      - intros ->. exfalso. apply Hb. exists []. reflexivity. }
  destruct t as [|c t].
  - split; [intros r|]; (split; [try discriminate|]); auto. intros (u & E & H). injection E as <-. exfalso. exact (args_nonempty _ _ _ _ H eq_refl).
  - assert (F : forall r, args_result (args_loop 0 false false (c :: t)) = Some r <-> args 0 false (c :: t) r).
    { intros r. split; [apply (args_inv (length (c :: t))); lia|]. intros H. rewrite (args_eval _ _ _ _ H). cbn [args_result Nat.eqb negb orb]. change (L ")" ++ r) with (")"%char :: r). rewrite skip_char_here. reflexivity. }
    unfold args_result in F. destruct (args_loop 0 false false (c :: t)) as [[[d st] es] q]. destruct (negb (d =? 0) || st || es).
    + split; [intros r|]; (split; [discriminate|]); [|discriminate]. intros (u & E & H). injection E as <-. apply F in H. discriminate H.
    + destruct (sr_skip_char ")" q) as [b q']. destruct b.
      * split; [intros r; split|split; discriminate].
        -- intros E. injection E as <-. exists (c :: t). split; [reflexivity|]. apply F. reflexivity.
        -- intros (u & E & H). injection E as <-. apply F in H. injection H as ->. reflexivity.
      * split; [intros r|]; (split; [discriminate|]); [|discriminate]. intros (u & E & H). injection E as <-. apply F in H. discriminate H.
Qed.

(** ** Calls *)
Lemma function_name_fun s n t r n' t' r' : function_name s n t r -> function_name s n' t' r' -> n = n' /\ t = t' /\ r = r'.
Proof. intros H H'. apply name_eval in H, H'. rewrite H in H'. injection H' as -> -> ->. auto. Qed.
Lemma function_name_not_off s n t r : function_name s n t r -> ~ function_name_off s.
Proof. intros H H'. apply name_eval in H. apply name_off_eval in H'. congruence. Qed.
Theorem function_call_exact s :
  (forall name type r, sr_gdb_frame_parse_function_call s = Ok (name, type, r) <-> function_call s name type r) /\
  (sr_gdb_frame_parse_function_call s = UB <-> function_call_off s).
Proof.
  unfold sr_gdb_frame_parse_function_call. destruct (name_cases s) as [(n & ty & q & H)|[H|H]].
  - rewrite (name_eval _ _ _ _ H). cbn [bind]. destruct (spaces_nl_cases q) as [(m & u & Hs & ->)|[Hs ->]]; cbn [Nat.eqb].
    + destruct (skip_args_exact u) as [S1 S2]. split; [intros name type r|]; split.
      * destruct (sr_gdb_frame_skip_function_args u) as [x| |]; cbn [bind]; [|discriminate|discriminate]. intros E. injection E as <- <- <-.
        destruct (proj1 (S1 x) eq_refl) as (v & -> & Hv). exists q, v. auto.
      * intros (t & v & Hn & Ht & Hv). destruct (function_name_fun _ _ _ _ _ _ _ H Hn) as (-> & -> & ->).
        rewrite (spaces_nl_fun _ _ _ Hs Ht) in *. rewrite (proj2 (S1 r)) by eauto. reflexivity.
      * destruct (sr_gdb_frame_skip_function_args u) as [x| |]; cbn [bind]; [discriminate|discriminate|]. intros _. right. exists n, ty, q. rewrite (proj1 S2 eq_refl) in Hs. auto.
      * intros [Hoff|(n' & ty' & q' & Hn & Ht)]; [exfalso; exact (function_name_not_off _ _ _ _ H Hoff)|].
        destruct (function_name_fun _ _ _ _ _ _ _ H Hn) as (-> & -> & ->). rewrite (spaces_nl_fun _ _ _ Hs Ht) in *. rewrite (proj2 S2 eq_refl). reflexivity.
    + split; [intros name type r|]; (split; [discriminate|]).
      * intros (t & v & Hn & Ht & Hv). destruct (function_name_fun _ _ _ _ _ _ _ H Hn) as (-> & -> & ->). exfalso. exact (Hs _ Ht).
      * intros [Hoff|(n' & ty' & q' & Hn & Ht)]; [exfalso; exact (function_name_not_off _ _ _ _ H Hoff)|].
        destruct (function_name_fun _ _ _ _ _ _ _ H Hn) as (-> & -> & ->). exfalso. exact (Hs _ Ht).
  - rewrite (name_off_eval _ H). cbn [bind]. split; [intros name type r; split; [discriminate|]|split; [intros _; left; exact H|reflexivity]].
    intros (t & v & Hn & _). exfalso. exact (function_name_not_off _ _ _ _ Hn H).
  - rewrite H. cbn [bind]. split; [intros name type r|]; (split; [discriminate|]).
    + intros (t & v & Hn & _). apply name_eval in Hn. congruence.
    + intros [Hoff|(n' & ty' & q' & Hn & _)]; [apply name_off_eval in Hoff; congruence|apply name_eval in Hn; congruence].
Qed.
Lemma call_cases s : (exists name type r, function_call s name type r /\ sr_gdb_frame_parse_function_call s = Ok (name, type, r)) \/
  (function_call_off s /\ sr_gdb_frame_parse_function_call s = UB) \/
  ((forall name type r, ~ function_call s name type r) /\ ~ function_call_off s /\ sr_gdb_frame_parse_function_call s = Fail).
Proof.
  destruct (function_call_exact s) as [H1 H2]. destruct (sr_gdb_frame_parse_function_call s) as [[[n t] r]| |].
  - left. exists n, t, r. split; [apply H1; reflexivity|reflexivity].
  - right. right. split; [intros n t r H; apply H1 in H; discriminate|]. split; [intros H; apply H2 in H; discriminate|reflexivity].
  - right. left. split; [apply H2; reflexivity|reflexivity].
Qed.

(** ** Addresses *)
Definition address_tail (s : str) : option str :=
  let '(n, s) := sr_skip_char_sequence sp s in
  if n =? 0 then None else
  let '(n, s) := sr_skip_string (L "in") s in
  if n =? 0 then None else
  let '(n, s) := sr_skip_char_sequence sp s in
  if n =? 0 then None else
  let '(n, r) := sr_skip_string (L "vtable") s in
  if 0 <? n then
    let '(n, r) := sr_skip_char_sequence sp r in
    if n =? 0 then None else
    let '(n, r) := sr_skip_string (L "for") r in
    if n =? 0 then None else
    let '(n, r) := sr_skip_char_sequence sp r in
    if n =? 0 then None else Some r
  else Some s.
Lemma address_steps s : sr_gdb_frame_parse_address_in_function s =
  match sr_parse_hexadecimal_0xuint64 s with
  | None => (ulong_max, sr_gdb_frame_parse_function_call s)
  | Some (address, _, s) => (Z.of_N address, match address_tail s with None => Fail | Some t => sr_gdb_frame_parse_function_call t end)
  end.
Proof.
  unfold sr_gdb_frame_parse_address_in_function, address_tail. destruct (sr_parse_hexadecimal_0xuint64 s) as [[[a k] t]|]; [|reflexivity]. f_equal.
  destruct (sr_skip_char_sequence sp t) as [n1 t1]. destruct (n1 =? 0); [reflexivity|].
  destruct (sr_skip_string (L "in") t1) as [n2 t2]. destruct (n2 =? 0); [reflexivity|].
  destruct (sr_skip_char_sequence sp t2) as [n3 t3]. destruct (n3 =? 0); [reflexivity|].
  destruct (sr_skip_string (L "vtable") t3) as [n4 t4]. destruct (0 <? n4); [|reflexivity].
  destruct (sr_skip_char_sequence sp t4) as [n5 t5]. destruct (n5 =? 0); [reflexivity|].
  destruct (sr_skip_string (L "for") t5) as [n6 t6]. destruct (n6 =? 0); [reflexivity|].
  destruct (sr_skip_char_sequence sp t6) as [n7 t7]. destruct (n7 =? 0); reflexivity.
Qed.
Lemma skip_not p s : ~ begins p s -> sr_skip_string p s = (0, s).
Proof. intros H. destruct (skip_string_cases p s) as [(r & -> & _)|[_ E]]; [exfalso; apply H; eexists; reflexivity|exact E]. Qed.
Lemma address_tail_iff t1 r : address_tail t1 = Some r <-> exists t2 t3, spaces_to t1 (L "in" ++ t2) /\ spaces_to t2 t3 /\
    ((~ begins (L "vtable") t3 /\ r = t3) \/ (exists t4 t5, t3 = L "vtable" ++ t4 /\ spaces_to t4 (L "for" ++ t5) /\ spaces_to t5 r)).
Proof.
  unfold address_tail. split.
  - destruct (spaces_cases t1) as [(n & u1 & H1 & ->)|[_ ->]]; cbn [Nat.eqb]; [|discriminate].
    destruct (skip_string_cases (L "in") u1) as [(t2 & -> & ->)|[_ ->]]; change (length (L "in") =? 0) with false; change (length (L "for") =? 0) with false; cbn [Nat.eqb]; [|discriminate].
    destruct (spaces_cases t2) as [(m & t3 & H2 & ->)|[_ ->]]; cbn [Nat.eqb]; [|discriminate].
    destruct (skip_string_cases (L "vtable") t3) as [(t4 & -> & ->)|[Hv ->]].
    + change (0 <? length (L "vtable")) with true. cbv iota.
      destruct (spaces_cases t4) as [(k & u2 & H3 & ->)|[_ ->]]; cbn [Nat.eqb]; [|discriminate].
      destruct (skip_string_cases (L "for") u2) as [(t5 & -> & ->)|[_ ->]]; change (length (L "in") =? 0) with false; change (length (L "for") =? 0) with false; cbn [Nat.eqb]; [|discriminate].
      destruct (spaces_cases t5) as [(l & t6 & H4 & ->)|[_ ->]]; cbn [Nat.eqb]; [|discriminate]. intros E. injection E as <-.
      exists t2, (L "vtable" ++ t4). split; [exact H1|]. split; [exact H2|]. right. exists t4, t5. auto.
    + cbn [Nat.ltb Nat.leb]. intros E. injection E as <-. exists t2, t3. auto.
  - intros (t2 & t3 & H1 & H2 & H). apply spaces_eval in H1 as [n ->]. cbn [Nat.eqb]. rewrite skip_lit. change (length (L "in") =? 0) with false; change (length (L "for") =? 0) with false; cbn [Nat.eqb].
    apply spaces_eval in H2 as [m ->]. cbn [Nat.eqb]. destruct H as [[Hv ->]|(t4 & t5 & -> & H3 & H4)].
    + rewrite (skip_not _ _ Hv). reflexivity.
    + rewrite skip_lit. change (0 <? length (L "vtable")) with true. cbv iota. apply spaces_eval in H3 as [k ->]. cbn [Nat.eqb]. rewrite skip_lit. change (length (L "in") =? 0) with false; change (length (L "for") =? 0) with false; cbn [Nat.eqb].
      apply spaces_eval in H4 as [l ->]. reflexivity.
Qed.
Lemma hex_cases s : (exists n k t, hex_0x s n t /\ sr_parse_hexadecimal_0xuint64 s = Some (n, k, t)) \/ ((forall n t, ~ hex_0x s n t) /\ sr_parse_hexadecimal_0xuint64 s = None).
Proof.
  destruct (sr_parse_hexadecimal_0xuint64 s) as [[[n k] t]|] eqn:E; [left; exists n, k, t; split; [apply hex_0x_iff; eauto|reflexivity]|right; split; [apply hex_0x_none; exact E|reflexivity]].
Qed.
Lemma hex_fun s n t n' t' : hex_0x s n t -> hex_0x s n' t' -> n = n' /\ t = t'.
Proof. intros H H'. apply hex_0x_eval in H as [k H], H' as [k' H']. rewrite H in H'. injection H' as -> _ ->. auto. Qed.
Lemma address_in_iff s n k t r : sr_parse_hexadecimal_0xuint64 s = Some (n, k, t) -> (address_tail t = Some r <-> address_in s n r).
Proof.
  intros E. assert (Hh : hex_0x s n t) by (apply hex_0x_iff; eauto). rewrite address_tail_iff. unfold address_in. split.
  - intros (t2 & t3 & H). exists t, t2, t3. auto.
  - intros (t1 & t2 & t3 & Ht & H). destruct (hex_fun _ _ _ _ _ Hh Ht) as [_ ->]. exists t2, t3. exact H.
Qed.
Lemma address_in_fun s n r n' r' : address_in s n r -> address_in s n' r' -> n = n' /\ r = r'.
Proof.
  intros H H'. assert (Hh : exists t, hex_0x s n t) by (destruct H as (t & _ & _ & Ht & _); eauto). assert (Hh' : exists t, hex_0x s n' t) by (destruct H' as (t & _ & _ & Ht & _); eauto).
  destruct Hh as [t Hh], Hh' as [t' Hh']. destruct (hex_fun _ _ _ _ _ Hh Hh') as [-> ->]. apply hex_0x_eval in Hh as [k E].
  pose proof (proj2 (address_in_iff _ _ _ _ _ E) H). pose proof (proj2 (address_in_iff _ _ _ _ _ E) H'). split; [reflexivity|congruence].
Qed.
Lemma located_cases s a x : sr_gdb_frame_parse_address_in_function s = (a, x) ->
  address_read s a /\
  (match x with
   | Ok (name, type, r) => located_call s a name type r
   | UB => located_call_off s
   | Fail => (forall a name type r, ~ located_call s a name type r) /\ ~ located_call_off s
   end).
Proof.
  rewrite address_steps. destruct (hex_cases s) as [(n & k & t & Hh & E)|[Hh ->]].
  - rewrite E. intros H. injection H as <- <-. split; [left; eauto|]. pose proof (fun r => address_in_iff s n k t r E) as Ha.
    assert (Noc : forall a name type u, located_call s a name type u -> exists r, address_in s n r /\ function_call r name type u).
    { intros a name type u [(m & v & Hm & Hf & _)|(Hm & _)]; [|exfalso; exact (Hm _ _ Hh)]. assert (m = n) as ->; [|eauto].
      destruct Hm as (q & _ & _ & Hq & _). apply (hex_fun _ _ _ _ _ Hq Hh). }
    assert (Noo : located_call_off s -> exists r, address_in s n r /\ function_call_off r).
    { intros [(m & v & Hm & Hf)|(Hm & _)]; [|exfalso; exact (Hm _ _ Hh)]. assert (m = n) as ->; [|eauto]. destruct Hm as (q & _ & _ & Hq & _). apply (hex_fun _ _ _ _ _ Hq Hh). }
    destruct (address_tail t) as [r|] eqn:Et.
    + assert (Hr : address_in s n r) by (apply Ha; reflexivity).
      destruct (call_cases r) as [(name & type & u & Hf & ->)|[[Hf ->]|(Hf & Hg & ->)]].
      * left. eauto.
      * left. eauto.
      * split.
        -- intros a name type u Hc. apply Noc in Hc as (q & Hq & Hc). destruct (address_in_fun _ _ _ _ _ Hr Hq) as [_ ->]. exact (Hf _ _ _ Hc).
        -- intros Hc. apply Noo in Hc as (q & Hq & Hc). destruct (address_in_fun _ _ _ _ _ Hr Hq) as [_ ->]. exact (Hg Hc).
    + split; [intros a name type u Hc; apply Noc in Hc as (q & Hq & _)|intros Hc; apply Noo in Hc as (q & Hq & _)]; apply Ha in Hq; discriminate.
  - intros H. injection H as <- <-. split; [right; split; [exact Hh|reflexivity]|].
    assert (Hadr : forall n r, ~ address_in s n r) by (intros n r (t & _ & _ & Ht & _); exact (Hh _ _ Ht)).
    destruct (call_cases s) as [(name & type & u & Hf & ->)|[[Hf ->]|(Hf & Hg & ->)]].
    + right. auto.
    + right. auto.
    + split; [intros a name type u [(n & r & Hn & _)|(_ & Hc & _)]; [exact (Hadr _ _ Hn)|exact (Hf _ _ _ Hc)]|].
      intros [(n & r & Hn & _)|(_ & Hc)]; [exact (Hadr _ _ Hn)|exact (Hg Hc)].
Qed.
Lemma address_read_fun s a b : address_read s a -> address_read s b -> a = b.
Proof.
  intros [(n & t & H & ->)|[H ->]] [(n' & t' & H' & ->)|[H' ->]].
  - destruct (hex_fun _ _ _ _ _ H H') as [-> _]. reflexivity.
  - exfalso. exact (H' _ _ H).
  - exfalso. exact (H _ _ H').
  - reflexivity.
Qed.
Lemma call_fun s n t r n' t' r' : function_call s n t r -> function_call s n' t' r' -> n = n' /\ t = t' /\ r = r'.
Proof. intros H H'. apply (proj1 (function_call_exact s)) in H, H'. rewrite H in H'. injection H' as -> -> ->. auto. Qed.
Lemma call_not_off s n t r : function_call s n t r -> ~ function_call_off s.
Proof. intros H H'. apply (proj1 (function_call_exact s)) in H. apply (proj2 (function_call_exact s)) in H'. congruence. Qed.
Lemma located_eval s a name type r : located_call s a name type r -> sr_gdb_frame_parse_address_in_function s = (a, Ok (name, type, r)).
Proof.
  intros H. rewrite address_steps. destruct H as [(n & t & Ha & Hc & ->)|(Hh & Hc & ->)].
  - assert (Hh : exists q, hex_0x s n q) by (destruct Ha as (q & _ & _ & Hq & _); eauto). destruct Hh as [q Hh]. apply hex_0x_eval in Hh as [k E]. rewrite E.
    rewrite (proj2 (address_in_iff _ _ _ _ _ E) Ha). rewrite (proj2 (proj1 (function_call_exact t) _ _ _) Hc). reflexivity.
  - apply hex_0x_none in Hh. rewrite Hh. rewrite (proj2 (proj1 (function_call_exact s) _ _ _) Hc). reflexivity.
Qed.
Lemma located_off_eval s : located_call_off s -> exists a, sr_gdb_frame_parse_address_in_function s = (a, UB).
Proof.
  intros H. rewrite address_steps. destruct H as [(n & t & Ha & Hc)|(Hh & Hc)].
  - assert (Hh : exists q, hex_0x s n q) by (destruct Ha as (q & _ & _ & Hq & _); eauto). destruct Hh as [q Hh]. apply hex_0x_eval in Hh as [k E]. rewrite E.
    rewrite (proj2 (address_in_iff _ _ _ _ _ E) Ha). rewrite (proj2 (proj2 (function_call_exact t)) Hc). eauto.
  - apply hex_0x_none in Hh. rewrite Hh. rewrite (proj2 (proj2 (function_call_exact s)) Hc). eauto.
Qed.
