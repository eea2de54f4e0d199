(** * Proofs: address lookups, call targets, unstrip output. *)
From Verif Require Import Base Types UtilsModel UtilsSpec UtilsProofs RpmSpec RpmProofs LookupModel LookupSpec.
Open Scope nat_scope.

(** ** Lookups *)
Lemma find_first {A} (test : A -> bool) (P : A -> Prop) (find : list A -> option A) :
  find [] = None -> (forall x r, find (x :: r) = if test x then Some x else find r) -> (forall x, test x = true <-> P x) ->
  forall l, finds P l (find l).
Proof.
  intros E0 E1 T l. induction l as [|x l IH]; [rewrite E0; constructor|]. rewrite E1. destruct (test x) eqn:Ex.
  - exists [], l. split; [reflexivity|]. split; [now apply T|constructor].
  - assert (~ P x) by (intros X; apply T in X; congruence). destruct (find l) as [y|]; cbn [finds] in *.
    + destruct IH as (b & a & -> & Hy & Hb). exists (x :: b), a. split; [reflexivity|]. split; [assumption|now constructor].
    + now constructor.
Qed.
Lemma w64_small z : uint64 z -> w64 z = z.
Proof. intros H. apply Z.mod_small. exact H. Qed.
Theorem sharedlib_find libs address : address <> 18446744073709551615%Z ->
  finds (fun l => gl_from l <= address <= gl_to l)%Z libs (sr_gdb_sharedlib_find_address libs address).
Proof.
  intros H. unfold sr_gdb_sharedlib_find_address. destruct (Z.eqb_spec address ulong_max); [contradiction|].
  apply (find_first (fun l => (gl_from l <=? address)%Z && (address <=? gl_to l)%Z) _ (fun l => sharedlib_loop l address)); try reflexivity.
  intros x. rewrite andb_true_iff, !Z.leb_le. reflexivity.
Qed.
Theorem unstrip_find entries address :
  finds (fun e => un_start e <= address < (un_start e + un_length e) mod 18446744073709551616)%Z entries (sr_unstrip_find_address entries address).
Proof.
  apply (find_first (fun e => (un_start e <=? address)%Z && (address <? w64 (un_start e + un_length e))%Z) _ (fun l => sr_unstrip_find_address l address)); try reflexivity.
  intros x. rewrite andb_true_iff, Z.leb_le, Z.ltb_lt. reflexivity.
Qed.
Theorem fde_offset_find eh offset :
  finds (fun f => fde_start_address f <= offset < (fde_start_address f + fde_length f) mod 18446744073709551616)%Z eh (sr_elf_find_fde_for_offset eh offset).
Proof.
  apply (find_first (fun e => (fde_start_address e <=? offset)%Z && (offset <? w64 (fde_start_address e + fde_length e))%Z) _ (fun l => sr_elf_find_fde_for_offset l offset)); try reflexivity.
  intros x. rewrite andb_true_iff, Z.leb_le, Z.ltb_lt. reflexivity.
Qed.
Theorem fde_address_find eh address :
  finds (fun f => (fde_start_address f + fde_exec_base f) mod 18446744073709551616 <= address <
                  (fde_start_address f + fde_exec_base f + fde_length f) mod 18446744073709551616)%Z eh (sr_elf_find_fde_for_address eh address).
Proof.
  apply (find_first (fun e => (w64 (fde_start_address e + fde_exec_base e) <=? address)%Z && (address <? w64 (fde_start_address e + fde_exec_base e + fde_length e))%Z)
     _ (fun l => sr_elf_find_fde_for_address l address)); try reflexivity.
  intros x. rewrite andb_true_iff, Z.leb_le, Z.ltb_lt. reflexivity.
Qed.
Theorem fde_start_find eh start : finds (starts_at start) eh (sr_elf_find_fde_for_start_address eh start).
Proof.
  apply (find_first (fun e => (start =? w64 (fde_start_address e + fde_exec_base e))%Z) _ (fun l => sr_elf_find_fde_for_start_address l start)); try reflexivity.
  intros x. rewrite Z.eqb_eq. reflexivity.
Qed.
Lemma finds_ext {A} (P Q : A -> Prop) l r : Forall (fun x => P x <-> Q x) l -> finds P l r -> finds Q l r.
Proof.
  intros E. destruct r as [x|]; cbn [finds].
  - intros (b & a & -> & Hx & Hb). apply Forall_app in E as [E1 E2]. inversion_clear E2 as [|? ? E3 _].
    exists b, a. split; [reflexivity|]. split; [now apply E3|]. clear -E1 Hb. induction Hb as [|y b H Hb IH]; constructor; inversion_clear E1; [rewrite <- H0; assumption|auto].
  - intros H. induction H as [|y l H Hl IH]; constructor; inversion_clear E; [rewrite <- H0; assumption|auto].
Qed.
Lemma finds_unique {A} (P : A -> Prop) l r r' : finds P l r -> finds P l r' -> r = r'.
Proof.
  destruct r as [x|], r' as [y|]; cbn [finds].
  - intros (b & a & -> & Hx & Hb) (b' & a' & E & Hy & Hb'). f_equal. revert b' E Hb'. induction b as [|z b IH]; intros [|z' b'] E Hb'; cbn [app] in E; injection E as E1 E2.
    + assumption.
    + subst z'. inversion_clear Hb'. contradiction.
    + subst z. inversion_clear Hb. contradiction.
    + subst z'. inversion_clear Hb. inversion_clear Hb'. eauto.
  - intros (b & a & -> & Hx & Hb) H. apply Forall_app in H as [_ H]. inversion_clear H. contradiction.
  - intros H (b & a & -> & Hx & Hb). apply Forall_app in H as [_ H]. inversion_clear H. contradiction.
  - reflexivity.
Qed.

(** ** Hexadecimal numbers *)
Lemma is_hex_iff c : is_hex c = true <-> hexadecimal_digit c <> None.
Proof. unfold is_hex. rewrite mem_In. symmetry. apply (in_set_iff _ _ digit_val_hex hexdigits_hex). Qed.
Lemma fold_hex d : fold_left (fun a c => a * 16 + Z.of_N (digit_val c))%Z d 0%Z = Z.of_N (horner 16 d).
Proof.
  unfold horner. change 0%Z with (Z.of_N 0). generalize 0%N. induction d as [|c d IH]; intros a; cbn [fold_left]; [reflexivity|].
  rewrite <- IH. f_equal. lia.
Qed.
Lemma hex_horner d n : hexadecimal d n -> n = horner 16 d /\ d <> [] /\ Forall (fun c => is_hex c = true) d.
Proof.
  intros H. apply (numeral_horner _ _ _ digit_val_hex) in H as (-> & Hn & Hf). split; [reflexivity|]. split; [assumption|].
  eapply Forall_impl; [|exact Hf]. intros c Hc. unfold is_hex. now apply mem_In.
Qed.
Lemma horner_hex d : d <> [] -> Forall (fun c => is_hex c = true) d -> hexadecimal d (horner 16 d).
Proof.
  intros Hn Hf. apply (horner_numeral _ _ hexdigits digit_val_hex hexdigits_hex); [assumption|]. eapply Forall_impl; [|exact Hf]. intros c. apply mem_In.
Qed.
Lemma hex_value sign n : (sign = [] \/ sign = L "+" \/ sign = L "-") ->
  forall z, (z = if (ulong_max <? Z.of_N n)%Z then ulong_max else if str_eqb sign (L "-") then w64 (- Z.of_N n) else Z.of_N n) <->
    ((18446744073709551615 < n)%N /\ z = 18446744073709551615%Z \/
     (n <= 18446744073709551615)%N /\ sign <> L "-" /\ z = Z.of_N n \/
     (n <= 18446744073709551615)%N /\ sign = L "-" /\ z = ((- Z.of_N n) mod 18446744073709551616)%Z).
Proof.
  intros Hs z. destruct (Z.ltb_spec ulong_max (Z.of_N n)) as [H|H]; unfold ulong_max in *.
  - split; [intros ->; left; lia|]. intros [[_ ->]|[[X _]|[X _]]]; [reflexivity|lia|lia].
  - destruct Hs as [->|[->| ->]].
    + change (str_eqb [] (L "-")) with false. split; [intros ->; right; left; split; [lia|]; split; [discriminate|reflexivity]|].
      intros [[X _]|[(_ & _ & ->)|(_ & X & _)]]; [lia|reflexivity|discriminate].
    + change (str_eqb (L "+") (L "-")) with false. split; [intros ->; right; left; split; [lia|]; split; [discriminate|reflexivity]|].
      intros [[X _]|[(_ & _ & ->)|(_ & X & _)]]; [lia|reflexivity|discriminate].
    + change (str_eqb (L "-") (L "-")) with true. split; [intros ->; right; right; split; [lia|]; split; reflexivity|].
      intros [[X _]|[(_ & X & _)|(_ & _ & ->)]]; [lia|congruence|reflexivity].
Qed.
Lemma skip_ws_split s : exists b, s = b ++ sr_skip_whitespace s /\ Forall space_char b /\ match sr_skip_whitespace s with [] => True | c :: _ => ~ space_char c end.
Proof.
  unfold sr_skip_whitespace. destruct (span is_space s) as [a b] eqn:E. apply span_spec in E as (-> & Ha & Hb). exists a. cbn [snd]. split; [reflexivity|]. split.
  - eapply Forall_impl; [|exact Ha]. intros c. apply is_space_iff.
  - destruct b; [exact Logic.I|]. rewrite <- is_space_iff. congruence.
Qed.
Lemma skip_ws_eval b s : Forall space_char b -> match s with [] => True | c :: _ => ~ space_char c end -> sr_skip_whitespace (b ++ s) = s.
Proof.
  intros Hb Hs. unfold sr_skip_whitespace. rewrite span_unique; [reflexivity| |].
  - eapply Forall_impl; [|exact Hb]. intros c. apply is_space_iff.
  - destruct s as [|c s]; [exact Logic.I|]. destruct (is_space c) eqn:E; [apply is_space_iff in E; contradiction|reflexivity].
Qed.
Lemma skip_nonws_split s : exists w, s = w ++ sr_skip_non_whitespace s /\ Forall (fun c => ~ space_char c) w /\ match sr_skip_non_whitespace s with [] => True | c :: _ => space_char c end.
Proof.
  unfold sr_skip_non_whitespace. destruct (span _ s) as [a b] eqn:E. apply span_spec in E as (-> & Ha & Hb). exists a. cbn [snd]. split; [reflexivity|]. split.
  - eapply Forall_impl; [|exact Ha]. intros c H X. cbv beta in H. apply is_space_iff in X. rewrite X in H. discriminate.
  - destruct b; [exact Logic.I|]. apply is_space_iff. apply negb_false_iff in Hb. assumption.
Qed.
Lemma span_nonws w s : Forall (fun c => ~ space_char c) w -> match s with [] => True | c :: _ => space_char c end -> span (fun c => negb (is_space c)) (w ++ s) = (w, s).
Proof.
  intros Hw Hs. apply span_unique.
  - eapply Forall_impl; [|exact Hw]. intros c H. apply negb_true_iff. destruct (is_space c) eqn:E; [apply is_space_iff in E; contradiction|reflexivity].
  - destruct s as [|c s]; [exact Logic.I|]. apply is_space_iff in Hs. now rewrite Hs.
Qed.
Lemma skip_nonws_eval w s : Forall (fun c => ~ space_char c) w -> match s with [] => True | c :: _ => space_char c end -> sr_skip_non_whitespace (w ++ s) = s.
Proof. intros Hw Hs. unfold sr_skip_non_whitespace. now rewrite span_nonws. Qed.
Lemma not_space c : is_space c = false -> ~ space_char c.
Proof. rewrite <- is_space_iff. congruence. Qed.
Lemma hex_not_space c : is_hex c = true -> ~ space_char c.
Proof. rewrite <- is_space_iff. destruct c as [[] [] [] [] [] [] [] []]; vm_compute; discriminate. Qed.
Lemma scan_hex_sound s z rest : scan_hex s = Some (z, rest) -> exists blank number, s = blank ++ number ++ rest /\ Forall space_char blank /\ hex_number number z /\
  match rest with [] => True | c :: _ => hexadecimal_digit c = None end.
Proof.
  unfold scan_hex. destruct (skip_ws_split s) as (blank & E & Hb & _). set (t := sr_skip_whitespace s) in *. clearbody t.
  set (sg := match t with c :: r => if Ascii.eqb c "-" then (true, r) else if Ascii.eqb c "+" then (false, r) else (false, t) | [] => (false, t) end).
  assert (G : exists sign, t = sign ++ snd sg /\ (sign = [] \/ sign = L "+" \/ sign = L "-") /\ fst sg = str_eqb sign (L "-")).
  { destruct t as [|c r]; [exists []; auto|]. subst sg. destruct (Ascii.eqb_spec c "-") as [->|]; [exists (L "-"); auto|].
    destruct (Ascii.eqb_spec c "+") as [->|]; [exists (L "+"); auto|exists []; auto]. }
  destruct G as (sign & Et & Hs & Hneg). clearbody sg. destruct sg as [neg u]. cbn [fst snd] in *.
  set (v := if starts_with (L "0x") u || starts_with (L "0X") u then skipn 2 u else u).
  assert (G : exists prefix, u = prefix ++ v /\ (prefix = [] \/ prefix = L "0x" \/ prefix = L "0X")).
  { subst v. destruct (starts_with (L "0x") u) eqn:E1; [apply starts_with_iff in E1 as [r ->]; exists (L "0x"); auto|].
    destruct (starts_with (L "0X") u) eqn:E2; [apply starts_with_iff in E2 as [r ->]; exists (L "0X"); auto|exists []; auto]. }
  destruct G as (prefix & Eu & Hp). clearbody v. destruct (span is_hex v) as [d r] eqn:Ed. apply span_spec in Ed as (-> & Hd & Hr).
  destruct d as [|c d]; [discriminate|]. rewrite fold_hex. intros H. injection H as Hz <-.
  exists blank, (sign ++ prefix ++ c :: d). split; [now rewrite E, Et, Eu, <- !app_assoc|]. split; [assumption|]. split.
  - exists sign, prefix, (c :: d), (horner 16 (c :: d)). split; [reflexivity|]. split; [assumption|]. split; [assumption|].
    split; [apply horner_hex; [discriminate|assumption]|]. apply (hex_value sign _ Hs). rewrite <- Hneg. symmetry. exact Hz.
  - destruct r as [|x r]; [exact Logic.I|]. destruct (hexadecimal_digit x) eqn:E'; [|reflexivity]. exfalso.
    assert (is_hex x = true) by (apply is_hex_iff; congruence). congruence.
Qed.
Lemma scan_hex_complete blank number z rest : Forall space_char blank -> hex_number number z ->
  match rest with [] => True | c :: _ => hexadecimal_digit c = None /\ c <> "x"%char /\ c <> "X"%char end ->
  scan_hex (blank ++ number ++ rest) = Some (z, rest).
Proof.
  intros Hb (sign & prefix & digits & n & -> & Hs & Hp & Hd & Hz) Hr.
  apply hex_horner in Hd as (-> & Hne & Hd). unfold scan_hex. rewrite <- !app_assoc.
  assert (Hfirst : match digits ++ rest with [] => True | c :: _ => is_hex c = true end) by (destruct digits; [congruence|]; inversion_clear Hd; assumption).
  assert (Hpre : match prefix ++ digits ++ rest with [] => True | c :: _ => is_hex c = true end).
  { destruct Hp as [->|[->| ->]]; [exact Hfirst|reflexivity|reflexivity]. }
  rewrite skip_ws_eval; [|assumption|].
  2:{ destruct Hs as [->|[->| ->]]; [|cbn [L list_ascii_of_string app]; apply not_space; reflexivity..]. cbn [app].
      destruct (prefix ++ digits ++ rest) as [|c u]; [exact Logic.I|]. now apply hex_not_space. }
  assert (E1 : match sign ++ prefix ++ digits ++ rest with
     | c :: r => if Ascii.eqb c "-" then (true, r) else if Ascii.eqb c "+" then (false, r) else (false, sign ++ prefix ++ digits ++ rest)
     | [] => (false, sign ++ prefix ++ digits ++ rest) end = (str_eqb sign (L "-"), prefix ++ digits ++ rest)).
  { destruct Hs as [->|[->| ->]]; [|reflexivity|reflexivity]. cbn [app]. destruct (prefix ++ digits ++ rest) as [|c u]; [reflexivity|].
    destruct (Ascii.eqb_spec c "-") as [->|]; [discriminate|]. destruct (Ascii.eqb_spec c "+") as [->|]; [discriminate|]. reflexivity. }
  rewrite E1.
  assert (E2 : (if starts_with (L "0x") (prefix ++ digits ++ rest) || starts_with (L "0X") (prefix ++ digits ++ rest) then skipn 2 (prefix ++ digits ++ rest) else prefix ++ digits ++ rest) = digits ++ rest).
  { destruct Hp as [->|[->| ->]]; [|reflexivity|reflexivity]. cbn [app].
    assert (NX : forall p, p = L "0x" \/ p = L "0X" -> starts_with p (digits ++ rest) = false).
    { intros p Hp. destruct (starts_with p (digits ++ rest)) eqn:E; [|reflexivity]. exfalso. apply starts_with_iff in E as [r E].
      destruct digits as [|c digits]; [congruence|]. destruct digits as [|c' digits].
      - cbn [app] in E. destruct rest as [|x rest]; [destruct Hp; subst p; discriminate|]. destruct Hp; subst p; cbn in E; injection E as _ E _; intuition congruence.
      - inversion_clear Hd as [|? ? _ Hd']. inversion_clear Hd' as [|? ? Hx _]. destruct Hp; subst p; cbn in E; injection E as _ E _; subst c'; discriminate. }
    rewrite !NX by auto. reflexivity. }
  rewrite E2, span_unique; [|assumption|].
  - destruct digits as [|c digits]; [congruence|]. rewrite fold_hex. apply (hex_value sign _ Hs) in Hz. rewrite Hz. reflexivity.
  - destruct rest as [|c rest]; [exact Logic.I|]. destruct (is_hex c) eqn:E; [|reflexivity]. apply is_hex_iff in E. destruct Hr as [Hr _]. congruence.
Qed.

(** ** Call targets *)
Lemma one_of_call i : sr_disasm_instruction_is_one_of i call_mnems = true <-> exists r, i = L "call" ++ r.
Proof.
  unfold sr_disasm_instruction_is_one_of, call_mnems. rewrite existsb_exists. split.
  - intros (m & Hm & Hs). apply starts_with_iff in Hs as [r ->]. cbn [In] in Hm.
    repeat (destruct Hm as [<-|Hm]; [eexists; reflexivity|]). contradiction.
  - intros [r ->]. exists (L "call"). split; [now left|]. apply starts_with_iff. eexists. reflexivity.
Qed.
Lemma hex_number_first number z : hex_number number z -> match number with [] => False | c :: _ => ~ space_char c end.
Proof.
  intros (sign & prefix & digits & n & -> & Hs & Hp & Hd & _). apply hex_horner in Hd as (_ & Hne & Hd).
  destruct Hs as [->|[->| ->]]; [|cbn [L list_ascii_of_string app]; apply not_space; reflexivity..].
  destruct Hp as [->|[->| ->]]; [|cbn [L list_ascii_of_string app]; apply not_space; reflexivity..].
  cbn [app]. destruct digits; [congruence|]. inversion_clear Hd. now apply hex_not_space.
Qed.
Lemma space_not_hex c : space_char c -> hexadecimal_digit c = None /\ c <> "x"%char /\ c <> "X"%char.
Proof.
  intros H. split; [|split; intros ->; apply is_space_iff in H; discriminate].
  destruct (hexadecimal_digit c) eqn:E; [|reflexivity]. exfalso. revert H. apply hex_not_space. apply is_hex_iff. congruence.
Qed.
Theorem call_operand_iff i z : call_operand i = Some z <-> call_target i z.
Proof.
  unfold call_operand. split.
  - destruct (sr_disasm_instruction_is_one_of i call_mnems) eqn:E; [|discriminate]. apply one_of_call in E as [r ->].
    unfold sr_disasm_instruction_parse_single_address_operand. set (i := L "call" ++ r) in *.
    destruct (skip_nonws_split i) as (w & Ew & Hw & Hw'). set (t := sr_skip_non_whitespace i) in *. clearbody t.
    destruct (skip_ws_split t) as (b & Eb & Hb & Hb'). set (u := sr_skip_whitespace t) in *. clearbody u.
    destruct (scan_hex u) as [[addr rest]|] eqn:Es; [|discriminate]. apply scan_hex_sound in Es as (b2 & num & Eu & Hb2 & Hn & _).
    destruct (skip_ws_split rest) as (b3 & E3 & Hb3 & _). destruct (sr_skip_whitespace rest) as [|]; [|discriminate]. rewrite app_nil_r in E3. subst b3.
    intros H. injection H as ->.
    assert (Hcall : exists rest, w = L "call" ++ rest).
    { subst i. destruct t as [|x t].
      - rewrite app_nil_r in Ew. exists r. now symmetry.
      - assert (Hl : firstn 4 (w ++ x :: t) = L "call") by (rewrite <- Ew; reflexivity).
        destruct w as [|c1 [|c2 [|c3 [|c4 w]]]]; cbn in Hl; injection Hl; intros; subst;
          try (exfalso; apply is_space_iff in Hw'; discriminate). exists w. reflexivity. }
    destruct Hcall as [wr ->]. exists wr, (b ++ b2), num, rest.
    split; [rewrite Ew, Eb, Eu, <- !app_assoc; reflexivity|]. split; [apply Forall_app in Hw as [_ Hw]; exact Hw|].
    split; [|split; [apply Forall_app; auto|split; assumption]].
    intros X. apply app_eq_nil in X as [-> ->]. cbn [app] in *. subst t u.
    pose proof (hex_number_first _ _ Hn) as F. destruct num as [|c num]; [contradiction|]. cbn [app] in Hw'. contradiction.
  - intros (rest & blank & number & blank' & -> & Hr & Hne & Hb & Hb' & Hn).
    assert (sr_disasm_instruction_is_one_of ((L "call" ++ rest) ++ blank ++ number ++ blank') call_mnems = true) as -> by (apply one_of_call; eexists; rewrite <- app_assoc; reflexivity).
    unfold sr_disasm_instruction_parse_single_address_operand.
    rewrite skip_nonws_eval.
    + rewrite skip_ws_eval; [|assumption|].
      * assert (Es := scan_hex_complete [] number z blank' (Forall_nil _) Hn). cbn [app] in Es. rewrite Es.
        -- rewrite <- (app_nil_r blank'), skip_ws_eval; [reflexivity|assumption|exact Logic.I].
        -- destruct blank'; [exact Logic.I|]. inversion_clear Hb'. now apply space_not_hex.
      * pose proof (hex_number_first _ _ Hn) as F. destruct number; [contradiction|exact F].
    + apply Forall_app. split; [|assumption]. repeat constructor; apply not_space; reflexivity.
    + destruct blank; [congruence|]. inversion_clear Hb. assumption.
Qed.
Lemma call_target_fun i a b : call_target i a -> call_target i b -> a = b.
Proof. rewrite <- !call_operand_iff. congruence. Qed.
Lemma fill_ok ins : forall r, NoDup r -> exists l, fill_calls ins r = r ++ l /\ NoDup (r ++ l) /\ forall z, In z (r ++ l) <-> In z r \/ has_target ins z.
Proof.
  induction ins as [|i ins IH]; intros r Hr; cbn [fill_calls].
  - exists []. rewrite app_nil_r. split; [reflexivity|]. split; [assumption|]. intros z. split; [auto|]. intros [?|(j & [] & _)]. assumption.
  - destruct (call_operand i) as [a|] eqn:E.
    + apply call_operand_iff in E. destruct (existsb (Z.eqb a) r) eqn:Ex.
      * apply existsb_exists in Ex as (a' & Ha & Ea). apply Z.eqb_eq in Ea as <-. destruct (IH r Hr) as (l & -> & Hn & Hi). exists l. split; [reflexivity|]. split; [assumption|].
        intros z. rewrite Hi. split; [intros [?|(j & Hj & Ht)]; [auto|right; exists j; split; [now right|assumption]]|].
        intros [?|(j & [<-|Hj] & Ht)]; [auto| |right; exists j; auto]. left. now rewrite (call_target_fun _ _ _ Ht E).
      * assert (~ In a r) by (intros X; assert (existsb (Z.eqb a) r = true) by (apply existsb_exists; exists a; split; [assumption|apply Z.eqb_refl]); congruence).
        destruct (IH (r ++ [a])) as (l & -> & Hn & Hi).
        { apply (Permutation_NoDup (l := a :: r)); [apply Permutation_cons_append|now constructor]. }
        exists (a :: l). rewrite <- app_assoc in Hn, Hi |- *. split; [reflexivity|]. split; [assumption|]. intros z. cbn [app] in Hi. rewrite Hi, in_app_iff. cbn [In]. split.
        -- intros [[?|[<-|[]]]|(j & Hj & Ht)]; [auto|right; exists i; split; [now left|assumption]|right; exists j; split; [now right|assumption]].
        -- intros [?|(j & [<-|Hj] & Ht)]; [auto| |right; exists j; auto]. left. right. left. exact (call_target_fun _ _ _ E Ht).
    + destruct (IH r Hr) as (l & -> & Hn & Hi). exists l. split; [reflexivity|]. split; [assumption|]. intros z. rewrite Hi. split.
      * intros [?|(j & Hj & Ht)]; [auto|right; exists j; split; [now right|assumption]].
      * intros [?|(j & [<-|Hj] & Ht)]; [auto| |right; exists j; auto]. apply call_operand_iff in Ht. congruence.
Qed.
