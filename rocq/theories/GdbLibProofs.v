(** * Shared libraries: every parser accepts exactly its texts. *)
From Verif Require Import Base Types UtilsModel UtilsSpec UtilsProofs RpmModel RpmSpec RpmProofs LookupModel LookupSpec LookupProofs ParseSpec ParseProofs KoopsSpec GdbParseModel GdbParseSpec GdbParseProofs6 GdbLibModel GdbLibSpec.
Open Scope nat_scope.

Lemma not_white s : ~ starts_white s <-> match s with [] => True | c :: _ => ~ space_char c end.
Proof. destruct s; cbn; tauto. Qed.
Lemma blanks_iff s r : snd (span is_space s) = r <-> blanks s r.
Proof.
  split.
  - intros <-. destruct (skip_ws_split s) as (b & E & Hb & Hn). unfold sr_skip_whitespace in *. exists b. split; [exact E|]. split; [exact Hb|]. apply not_white. exact Hn.
  - intros (ws & -> & Hw & Hn). apply skip_ws_eval; [exact Hw|]. apply not_white. exact Hn.
Qed.
Lemma blanks_fun s r r' : blanks s r -> blanks s r' -> r = r'.
Proof. rewrite <- !blanks_iff. congruence. Qed.
Lemma lit_iff w s r : (if starts_with w s then Some (skipn (length w) s) else None) = Some r <-> s = w ++ r.
Proof.
  destruct (starts_with w s) eqn:E.
  - apply starts_with_iff in E as [q ->]. rewrite skipn_app_exact. split; [intros H; injection H as ->; reflexivity|intros H; apply app_inv_head in H; congruence].
  - split; [discriminate|]. intros ->. assert (starts_with w (w ++ r) = true) by (apply starts_with_iff; eexists; reflexivity). congruence.
Qed.
(** ** The title *)
Definition lit (w : str) (s : str) : option str := if starts_with w s then Some (skipn (length w) s) else None.
Definition obind {A B} (o : option A) (f : A -> option B) : option B := match o with Some a => f a | None => None end.
Lemma title_steps s : section_title s = obind (lit (L "From") s) (fun t => obind (lit (L "To") (snd (span is_space t))) (fun t => obind (lit (L "Syms Read") (snd (span is_space t)))
  (fun t => lit (L "Shared Object Library" ++ [nl]) (snd (span is_space t))))).
Proof.
  unfold section_title, lit. change (length (L "From")) with 4. change (length (L "To")) with 2. change (length (L "Syms Read")) with 9. change (length (L "Shared Object Library" ++ [nl])) with 22.
  destruct (starts_with (L "From") s); [|reflexivity]. cbn [obind]. destruct (starts_with (L "To") _); [|reflexivity]. cbn [obind]. destruct (starts_with (L "Syms Read") _); reflexivity.
Qed.
Lemma obind_iff {A B} (o : option A) (f : A -> option B) b : obind o f = Some b <-> exists a, o = Some a /\ f a = Some b.
Proof. destruct o; cbn; split; [eauto|intros (x & E & H); injection E as ->; exact H|discriminate|intros (x & E & _); discriminate]. Qed.
Lemma title_iff s r : section_title s = Some r <-> title s r.
Proof.
  rewrite title_steps, obind_iff. unfold title. split.
  - intros (t1 & H1 & H). apply obind_iff in H as (t2 & H2 & H). apply obind_iff in H as (t3 & H3 & H4). apply lit_iff in H1, H2, H3, H4.
    exists t1, t2, t3. split; [exact H1|]. rewrite <- !blanks_iff. split; [exact H2|]. split; [exact H3|]. rewrite H4, <- app_assoc. reflexivity.
  - intros (t1 & t2 & t3 & H1 & H2 & H3 & H4). apply blanks_iff in H2, H3, H4. exists t1. split; [apply lit_iff; exact H1|]. apply obind_iff. exists t2. split; [apply lit_iff; exact H2|].
    apply obind_iff. exists t3. split; [apply lit_iff; exact H3|]. apply lit_iff. rewrite H4, <- app_assoc. reflexivity.
Qed.
Lemma title_not_nil r : ~ title [] r.
Proof. intros (t1 & t2 & t3 & E & _). discriminate E. Qed.
Definition lstart (b : bool) (pre : str) : Prop := (pre = [] /\ b = true) \/ exists q, pre = q ++ [nl].
Lemma lstart_cons b c pre : lstart b (c :: pre) <-> lstart (Ascii.eqb c nl) pre.
Proof.
  unfold lstart. split.
  - intros [[E _]|[q E]]; [discriminate|]. destruct q as [|d q]; injection E as -> ->; [left; rewrite Ascii.eqb_refl; auto|right; eauto].
  - intros [[-> E]|[q ->]]; right; [apply Ascii.eqb_eq in E as ->; exists []; reflexivity|exists (c :: q); reflexivity].
Qed.
Lemma lstart_nil b : lstart b [] <-> b = true.
Proof. split; [intros [[_ H]|[q E]]; [exact H|destruct q; discriminate E]|intros ->; left; auto]. Qed.
Definition found (b : bool) (s r : str) : Prop :=
  exists pre t, s = pre ++ t /\ lstart b pre /\ title t r /\ forall pre' t' r', s = pre' ++ t' -> lstart b pre' -> title t' r' -> length pre <= length pre'.
Lemma find_iff s : forall (b : bool) r, find_section b s = Some r <-> found b s r.
Proof.
  assert (Hhere : forall (b : bool) s r, (if b then section_title s else None) = Some r -> forall q, Some r = Some q <-> found b s q).
  { intros b s' r E q. destruct b; [|discriminate]. apply title_iff in E. split.
    - intros H. injection H as <-. exists [], s'. split; [reflexivity|]. split; [apply lstart_nil; reflexivity|]. split; [exact E|]. intros. cbn. lia.
    - intros (pre & t & -> & H1 & H2 & H3). specialize (H3 [] (pre ++ t) r eq_refl). cbn in H3. rewrite lstart_nil in H3. specialize (H3 eq_refl E). destruct pre; [|cbn in H3; lia]. cbn [app] in E.
      apply title_iff in E, H2. congruence. }
  assert (Hnot : forall (b : bool) s, (if b then section_title s else None) = None -> forall r, lstart b [] -> title s r -> False).
  { intros b s' E r Hb Ht. apply lstart_nil in Hb. subst b. apply title_iff in Ht. congruence. }
  induction s as [|c s IH]; intros b r; cbn [find_section].
  - destruct (if b then section_title [] else None) as [q|] eqn:E; [exact (Hhere _ _ _ E r)|]. split; [discriminate|].
    intros (pre & t & E' & _ & Ht & _). symmetry in E'. apply app_eq_nil in E' as [-> ->]. destruct (title_not_nil _ Ht).
  - destruct (if b then section_title (c :: s) else None) as [q|] eqn:E; [exact (Hhere _ _ _ E r)|]. rewrite IH. split; intros (pre & t & Es & H1 & H2 & H3).
    + exists (c :: pre), t. split; [cbn; congruence|]. split; [apply lstart_cons; exact H1|]. split; [exact H2|]. intros pre' t' r' E' Hl Ht. destruct pre' as [|d pre'].
      * cbn [app] in E'. subst t'. destruct (Hnot b _ E r' Hl Ht).
      * injection E' as <- E'. apply lstart_cons in Hl. specialize (H3 pre' t' r' E' Hl Ht). cbn. lia.
    + destruct pre as [|d pre]; [cbn [app] in Es; subst t; destruct (Hnot b _ E r H1 H2)|]. injection Es as <- Es. exists pre, t. split; [exact Es|]. split; [apply lstart_cons in H1; exact H1|].
      split; [exact H2|]. intros pre' t' r' E' Hl Ht. specialize (H3 (c :: pre') t' r'). cbn [app length] in H3. rewrite <- E' in H3. apply lstart_cons with (b := b) in Hl. specialize (H3 eq_refl Hl Ht). lia.
Qed.
Theorem section_iff s r : find_sharedlib_section_start s = Some r <-> section s r.
Proof.
  unfold find_sharedlib_section_start. rewrite find_iff. assert (H : forall pre, lstart true pre <-> at_line_start pre) by (intros pre; unfold lstart, at_line_start; tauto).
  split; intros (pre & t & E & H1 & H2 & H3); exists pre, t; (split; [exact E|]); (split; [apply H; exact H1|]); (split; [exact H2|]); intros p u v Eu Hl; apply (H3 p u v Eu), H, Hl.
Qed.

(** ** Numbers *)
Lemma hex_start s : ~ starts_with_hex s <-> match s with [] => True | c :: _ => hexadecimal_digit c = None end.
Proof. destruct s as [|c s]; cbn; [tauto|]. destruct (hexadecimal_digit c); split; intros H; [exfalso; apply H; discriminate|discriminate|reflexivity|congruence]. Qed.
Lemma scan_x ws sign x q z r : Forall space_char ws -> (sign = [] \/ sign = L "+" \/ sign = L "-") -> (x = "x"%char \/ x = "X"%char) ->
  scan_hex (ws ++ (sign ++ L "0") ++ x :: q) = Some (z, r) -> length r <= length q.
Proof.
  intros Hw Hs Hx. rewrite <- app_assoc. unfold scan_hex. rewrite skip_ws_eval; [|exact Hw|].
  - assert (E : match sign ++ L "0" ++ x :: q with
      | c :: r0 => if Ascii.eqb c "-" then (true, r0) else if Ascii.eqb c "+" then (false, r0) else (false, sign ++ L "0" ++ x :: q)
      | [] => (false, sign ++ L "0" ++ x :: q) end = (str_eqb sign (L "-"), L "0" ++ x :: q)) by (destruct Hs as [->|[->| ->]]; reflexivity).
    rewrite E. assert (E2 : (if starts_with (L "0x") (L "0" ++ x :: q) || starts_with (L "0X") (L "0" ++ x :: q) then skipn 2 (L "0" ++ x :: q) else L "0" ++ x :: q) = q) by (destruct Hx as [->| ->]; reflexivity).
    rewrite E2. destruct (span is_hex q) as [d u] eqn:Eu. apply span_spec in Eu as (-> & _ & _). destruct d; [discriminate|]. intros H. injection H as _ <-. rewrite app_length. lia.
  - destruct Hs as [->|[->| ->]]; cbn [app L list_ascii_of_string]; apply not_space; reflexivity.
Qed.
Lemma scan_sound s z r : scan_hex s = Some (z, r) -> scanned s z r.
Proof.
  intros H. pose proof H as H0. apply scan_hex_sound in H as (ws & number & -> & Hw & Hn & Hr). exists ws, number. split; [reflexivity|]. split; [exact Hw|]. split; [exact Hn|]. split; [apply hex_start; exact Hr|].
  intros [Hz Hx]. assert (G : exists sign x q, number = sign ++ L "0" /\ (sign = [] \/ sign = L "+" \/ sign = L "-") /\ (x = "x"%char \/ x = "X"%char) /\ r = x :: q).
  { destruct Hx as [[q ->]|[q ->]]; (destruct Hz as [->|[->| ->]]; [exists []|exists (L "+")|exists (L "-")]); eexists _, q; (split; [reflexivity|]); (split; [auto|]); (split; [|reflexivity]); auto. }
  destruct G as (sign & x & q & -> & Hs & Hx' & ->). apply scan_x in H0; [|assumption..]. cbn [length] in H0. lia.
Qed.
Lemma scan_complete s z r : scanned s z r -> scan_hex s = Some (z, r).
Proof.
  intros (ws & number & -> & Hw & Hn & Hr & Hz). apply hex_start in Hr. pose proof Hn as Hn0.
  destruct Hn as (sign & prefix & digits & n & -> & Hs & Hp & Hd & Hv).
  destruct r as [|x r]; [apply scan_hex_complete; auto|].
  destruct (ascii_dec x "x") as [Ex|Nx]; [|destruct (ascii_dec x "X") as [Ex|NX]; [|apply scan_hex_complete; auto]].
  all: apply hex_horner in Hd as (-> & Hne & Hd); unfold scan_hex; rewrite <- !app_assoc.
  all: assert (Hfirst : match digits ++ x :: r with [] => True | c :: _ => is_hex c = true end) by (destruct digits; [congruence|]; inversion_clear Hd; assumption).
  all: assert (Hpre : match prefix ++ digits ++ x :: r with [] => True | c :: _ => is_hex c = true end) by (destruct Hp as [->|[->| ->]]; [exact Hfirst|reflexivity|reflexivity]).
  all: rewrite skip_ws_eval; [|assumption|destruct Hs as [->|[->| ->]]; [|cbn [L list_ascii_of_string app]; apply not_space; reflexivity..]; cbn [app]; destruct (prefix ++ digits ++ x :: r) as [|c u]; [exact Logic.I|]; now apply hex_not_space].
  all: assert (E1 : match sign ++ prefix ++ digits ++ x :: r with
     | c :: r0 => if Ascii.eqb c "-" then (true, r0) else if Ascii.eqb c "+" then (false, r0) else (false, sign ++ prefix ++ digits ++ x :: r)
     | [] => (false, sign ++ prefix ++ digits ++ x :: r) end = (str_eqb sign (L "-"), prefix ++ digits ++ x :: r)) by
     (destruct Hs as [->|[->| ->]]; [|reflexivity|reflexivity]; cbn [app]; destruct (prefix ++ digits ++ x :: r) as [|c u]; [reflexivity|];
      destruct (Ascii.eqb_spec c "-") as [->|]; [discriminate|]; destruct (Ascii.eqb_spec c "+") as [->|]; [discriminate|]; reflexivity).
  all: rewrite E1.
  all: assert (E2 : (if starts_with (L "0x") (prefix ++ digits ++ x :: r) || starts_with (L "0X") (prefix ++ digits ++ x :: r) then skipn 2 (prefix ++ digits ++ x :: r) else prefix ++ digits ++ x :: r) = digits ++ x :: r) by
     (destruct Hp as [->|[->| ->]]; [|reflexivity|reflexivity]; cbn [app] in *;
      assert (NX' : forall p, p = L "0x" \/ p = L "0X" -> starts_with p (digits ++ x :: r) = false) by
       (intros p Hp; destruct (starts_with p (digits ++ x :: r)) eqn:E; [|reflexivity]; exfalso; apply starts_with_iff in E as [q E];
        destruct digits as [|c digits]; [congruence|]; destruct digits as [|c' digits];
        [ assert (c = "0"%char) as -> by (destruct Hp; subst p; cbn in E; injection E; intros; subst; reflexivity);
          apply Hz; split; [destruct Hs as [->|[->| ->]]; auto|subst x; first [left; exists r; reflexivity|right; exists r; reflexivity]]
        | inversion_clear Hd as [|? ? _ Hd']; inversion_clear Hd' as [|? ? Hx _]; destruct Hp; subst p; cbn in E; injection E as _ E _; subst c'; discriminate ]);
      rewrite !NX' by auto; reflexivity).
  all: rewrite E2, span_unique; [|assumption|destruct (is_hex x) eqn:E; [|reflexivity]; apply is_hex_iff in E; congruence].
  all: destruct digits as [|c digits]; [congruence|]; rewrite fold_hex; apply (hex_value sign _ Hs) in Hv; rewrite Hv; reflexivity.
Qed.
Theorem scan_iff s z r : scan_hex s = Some (z, r) <-> scanned s z r.
Proof. split; [apply scan_sound|apply scan_complete]. Qed.

(** ** Libraries *)
Lemma space_cur s : is_space (cur s) = true <-> starts_white s.
Proof. destruct s as [|c s]; [split; [discriminate|intros []]|]. apply is_space_iff. Qed.
Lemma address_char_iff c : address_skipped c = true <-> address_char c.
Proof. unfold address_skipped, address_char. rewrite !orb_true_iff, is_hex_iff, is_space_iff, Ascii.eqb_eq. tauto. Qed.
Lemma span_iff p s a b : span p s = (a, b) <-> s = a ++ b /\ Forall (fun c => p c = true) a /\ match b with [] => True | c :: _ => p c = false end.
Proof. split; [apply span_spec|]. intros (-> & Ha & Hb). apply span_unique; assumption. Qed.
Lemma skipped_iff s r : snd (span address_skipped s) = r <-> exists w, s = w ++ r /\ Forall address_char w /\ match r with [] => True | c :: _ => ~ address_char c end.
Proof.
  assert (N : forall c, address_skipped c = false <-> ~ address_char c) by (intros c; rewrite <- address_char_iff; destruct (address_skipped c); split; congruence || tauto).
  split.
  - destruct (span address_skipped s) as [a b] eqn:E. cbn [snd]. intros <-. apply span_iff in E as (-> & Ha & Hb). exists a. split; [reflexivity|]. split; [eapply Forall_impl; [|exact Ha]; intros c; apply address_char_iff|]. destruct b; [exact Logic.I|]. apply N, Hb.
  - intros (w & -> & Hw & Hr). rewrite span_unique; [reflexivity| |]; [eapply Forall_impl; [|exact Hw]; intros c; apply address_char_iff|]. destruct r; [exact Logic.I|]. apply N, Hr.
Qed.
Lemma addresses_iff s from to r : library_addresses s = Some (from, to, r) <-> addresses s from to r.
Proof.
  unfold library_addresses, addresses. destruct (is_space (cur s)) eqn:E.
  - apply space_cur in E. split.
    + intros H. injection H as <- <- H. left. apply blanks_iff in H. auto.
    + intros [(_ & H & -> & ->)|[N _]]; [|contradiction]. apply blanks_iff in H. rewrite H. reflexivity.
  - assert (N : ~ starts_white s) by (rewrite <- space_cur; congruence). split.
    + destruct (scan_hex s) as [[a t]|] eqn:E1; [|discriminate]. destruct (scan_hex t) as [[b u]|] eqn:E2; [|discriminate]. intros H. injection H as <- <- H.
      right. split; [exact N|]. split; [exists t, u; split; apply scan_iff; assumption|]. apply skipped_iff. exact H.
    + intros [[W _]|(_ & (t & u & H1 & H2) & H)]; [contradiction|]. apply scan_iff in H1, H2. rewrite H1, H2. apply skipped_iff in H. rewrite H. reflexivity.
Qed.
Lemma symbols_iff s n r : library_symbols s = Some (n, r) <-> symbols s n r.
Proof.
  unfold library_symbols, symbols. destruct (starts_with (L "Yes (*)") s) eqn:E1; [|destruct (starts_with (L "Yes") s) eqn:E2; [|destruct (starts_with (L "No") s) eqn:E3]].
  - apply starts_with_iff in E1 as [q ->]. change (skipn 7 (L "Yes (*)" ++ q)) with q. split; [intros H; injection H as <- <-; auto|].
    intros [[H ->]|[(H & N & _)|[H _]]]; [apply app_inv_head in H; congruence| |discriminate H].
    exfalso. apply N. change (L "Yes (*)" ++ q) with (L "Yes" ++ L " (*)" ++ q) in H. apply app_inv_head in H. exists q. congruence.
  - apply starts_with_iff in E2 as [q ->]. change (skipn 3 (L "Yes" ++ q)) with q. split.
    + intros H. injection H as <- <-. right. left. split; [reflexivity|]. split; [|reflexivity]. intros [u ->].
      assert (starts_with (L "Yes (*)") (L "Yes" ++ L " (*)" ++ u) = true) by (apply starts_with_iff; exists u; reflexivity). congruence.
    + intros [[H ->]|[(H & _ & ->)|[H _]]]; [|apply app_inv_head in H; congruence|discriminate H].
      assert (starts_with (L "Yes (*)") (L "Yes" ++ q) = true) by (apply starts_with_iff; exists r; exact H). congruence.
  - apply starts_with_iff in E3 as [q ->]. change (skipn 2 (L "No" ++ q)) with q. split; [intros H; injection H as <- <-; auto|].
    intros [[H ->]|[(H & _)|[H ->]]]; [discriminate H..|apply app_inv_head in H; congruence].
  - assert (forall w, starts_with w s = false -> s <> w ++ r) as G by (intros w Ew ->; assert (starts_with w (w ++ r) = true) by (apply starts_with_iff; eexists; reflexivity); congruence).
    split; [discriminate|]. intros [[H _]|[(H & _)|[H _]]]; exfalso; [apply (G _ E1 H)|apply (G _ E2 H)|apply (G _ E3 H)].
Qed.
Lemma not_nl c : negb (Ascii.eqb c nl) = true <-> c <> nl.
Proof. rewrite negb_true_iff, Ascii.eqb_neq. tauto. Qed.
Lemma line_iff s l r : library_line s = Some (l, r) <-> library s l r.
Proof.
  unfold library_line, library. split.
  - destruct (library_addresses s) as [[[from to] t]|] eqn:E1; [|discriminate]. apply addresses_iff in E1. destruct (library_symbols t) as [[n u]|] eqn:E2; [|discriminate]. apply symbols_iff in E2.
    remember (snd (span is_space u)) as v eqn:Ev. symmetry in Ev. apply blanks_iff in Ev. destruct (span _ v) as [name q] eqn:En. apply span_iff in En as (-> & Hn & Hq). intros H. injection H as <- <-.
    exists from, to, n, name, t, u. split; [exact E1|]. split; [exact E2|]. split; [exact Ev|]. split; [|split; [|reflexivity]].
    + intros H. rewrite Forall_forall in Hn. apply Hn, not_nl in H. congruence.
    + destruct q as [|c q]; [auto|]. right. apply negb_false_iff, Ascii.eqb_eq in Hq. subst c. exists q. reflexivity.
  - intros (from & to & n & name & t & u & H1 & H2 & H3 & H4 & H5 & ->). apply addresses_iff in H1. apply symbols_iff in H2. apply blanks_iff in H3. rewrite H1, H2, H3. rewrite span_unique; [reflexivity| |].
    + rewrite Forall_forall. intros c Hc. apply not_nl. congruence.
    + destruct H5 as [->|[q ->]]; [exact Logic.I|reflexivity].
Qed.
Lemma library_fun s l r l' r' : library s l r -> library s l' r' -> l = l' /\ r = r'.
Proof. rewrite <- !line_iff. intros H H'. rewrite H in H'. injection H' as -> ->. auto. Qed.
Lemma symbols_len s n r : symbols s n r -> length r < length s.
Proof. intros [[-> _]|[(-> & _)|[-> _]]]; rewrite app_length; cbn; lia. Qed.
Lemma addresses_len s a b r : addresses s a b r -> length r <= length s.
Proof. intros [(_ & (w & -> & _) & _)|(_ & _ & w & -> & _)]; rewrite app_length; lia. Qed.
Lemma library_len s l r : library s l r -> length r < length s.
Proof. intros (from & to & n & name & t & u & H1 & H2 & (w & -> & _) & _). apply addresses_len in H1. apply symbols_len in H2. rewrite !app_length in H2. lia. Qed.
Lemma libraries_cases fuel : forall s, length s < fuel ->
  (exists ls, libraries s ls /\ libraries_loop fuel s = Ok ls) \/ (libraries_off s /\ libraries_loop fuel s = UB).
Proof.
  induction fuel as [|fuel IH]; [lia|]. intros s Hl. cbn [libraries_loop]. destruct (library_line s) as [[l r]|] eqn:E.
  - apply line_iff in E. pose proof E as E0. destruct r as [|c r]; [right; split; [econstructor; exact E|reflexivity]|].
    assert (c = nl) as -> by (destruct E0 as (a & b & n & name & t & u & _ & _ & _ & _ & [H|[q H]] & _); [discriminate|injection H as -> _; reflexivity]).
    apply library_len in E0. cbn [length] in E0. destruct (IH r) as [(ls & H & ->)|[H ->]]; [lia| |]; cbn [bind].
    + left. exists (l :: ls). split; [econstructor; eassumption|reflexivity].
    + right. split; [eapply lo_more; eassumption|reflexivity].
  - left. exists []. split; [|reflexivity]. constructor. intros l r H. apply line_iff in H. congruence.
Qed.
Lemma libraries_fun s ls : libraries s ls -> forall ls', libraries s ls' -> ls = ls'.
Proof.
  induction 1 as [s N|s l r ls H _ IH]; intros ls' H'; inversion H' as [s' N' |s' l' r' ls'' H1 H2]; subst.
  - reflexivity.
  - destruct (N _ _ H1).
  - destruct (N' _ _ H).
  - destruct (library_fun _ _ _ _ _ H H1) as [-> E]. injection E as ->. f_equal. apply IH, H2.
Qed.
Lemma libraries_not_off s ls : libraries s ls -> ~ libraries_off s.
Proof.
  induction 1 as [s N|s l r ls H _ IH]; intros O; inversion O as [s' l' H1|s' l' r' H1 H2]; subst; try (exact (N _ _ H1)).
  - destruct (library_fun _ _ _ _ _ H H1) as [_ E]. discriminate E.
  - destruct (library_fun _ _ _ _ _ H H1) as [_ E]. injection E as ->. exact (IH H2).
Qed.
Theorem libs_exact s : (forall ls, sr_gdb_sharedlib_parse s = Ok ls <-> libs_text s ls) /\ (sr_gdb_sharedlib_parse s = UB <-> libs_off s).
Proof.
  unfold sr_gdb_sharedlib_parse. destruct (find_sharedlib_section_start s) as [r|] eqn:E.
  - assert (F : forall q, section s q -> q = r) by (intros q H; apply section_iff in H; congruence). apply section_iff in E.
    destruct (libraries_cases (S (length r)) r) as [(ls & H & ->)|[H ->]]; [lia| |]; split; [intros ls'; split|split|intros ls'; split|split]; try discriminate.
    + intros X. injection X as <-. left. eauto.
    + intros [(q & Hq & H')|[N _]]; [|destruct (N _ E)]. apply F in Hq as ->. f_equal. eapply libraries_fun; eassumption.
    + intros (q & Hq & O). apply F in Hq as ->. destruct (libraries_not_off _ _ H O).
    + intros [(q & Hq & H')|[N _]]; [|destruct (N _ E)]. apply F in Hq as ->. destruct (libraries_not_off _ _ H' H).
    + intros _. exists r. auto.
    + reflexivity.
  - assert (N : forall r, ~ section s r) by (intros r H; apply section_iff in H; congruence). split; [intros ls; split|split]; try discriminate.
    + intros X. injection X as <-. right. auto.
    + intros [(q & Hq & _)|[_ ->]]; [destruct (N _ Hq)|reflexivity].
    + intros (q & Hq & _). destruct (N _ Hq).
Qed.
Theorem libs_cases s : (exists ls, libs_text s ls /\ sr_gdb_sharedlib_parse s = Ok ls) \/ (libs_off s /\ sr_gdb_sharedlib_parse s = UB).
Proof.
  destruct (libs_exact s) as [H1 H2]. destruct (sr_gdb_sharedlib_parse s) as [ls| |] eqn:E.
  - left. exists ls. split; [apply H1|]; reflexivity.
  - exfalso. unfold sr_gdb_sharedlib_parse in E. destruct (find_sharedlib_section_start s) as [r|]; [|discriminate]. destruct (libraries_cases (S (length r)) r) as [(ls & _ & H)|[_ H]]; [lia| |]; congruence.
  - right. split; [apply H2|]; reflexivity.
Qed.
Theorem whole_exact s : (forall t r, sr_gdb_stacktrace_parse s = Ok (t, r) <-> whole_trace s t r) /\ (sr_gdb_stacktrace_parse s = UB <-> whole_off s).
Proof.
  unfold sr_gdb_stacktrace_parse, whole_trace, whole_off. destruct (libs_exact s) as [L1 L2], (trace_exact s) as [T1 T2].
  destruct (libs_cases s) as [(ls & Hl & E)|[Hl E]]; rewrite E in *; cbn [bind].
  - assert (F : forall ls', libs_text s ls' -> ls' = ls) by (intros ls' H; apply L1 in H; congruence). assert (N : ~ libs_off s) by (intros H; apply L2 in H; discriminate).
    destruct (sr_gdb_stacktrace_parse_threads s) as [[[crash ts] q]| |]; cbn [bind]; split; [intros t r; split|split|intros t r; split|split|intros t r; split|split]; try discriminate.
    + intros X. apply ok_inj in X. injection X as <- <-. exists ls, crash, ts. split; [exact Hl|]. split; [apply T1; reflexivity|reflexivity].
    + intros (ls' & c & ts' & H1 & H2 & ->). apply F in H1 as ->. apply T1 in H2. apply ok_inj in H2. injection H2 as -> -> ->. reflexivity.
    + intros [H|H]; [contradiction|]. apply T2 in H. discriminate H.
    + intros (ls' & c & ts' & H1 & H2 & ->). apply T1 in H2. discriminate H2.
    + intros [H|H]; [contradiction|]. apply T2 in H. discriminate H.
    + intros (ls' & c & ts' & H1 & H2 & ->). apply T1 in H2. discriminate H2.
    + intros _. right. apply T2. reflexivity.
    + reflexivity.
  - split; [intros t r; split|split]; try discriminate; [|intros _; left; exact Hl|reflexivity]. intros (ls' & c & ts' & H1 & _). apply L1 in H1. discriminate H1.
Qed.
