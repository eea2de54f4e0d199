(** * Proofs about backtrace hashes (C22). *)
From Verif Require Import Base Types JsonSpec JsonModel JsonProofs TextModel TextSpec TextProofs.
Open Scope Z_scope.

(** ** Splitting lines into fields *)
Lemma split_comma a x b y : ~ In ","%char a -> ~ In ","%char b -> a ++ comma ++ x = b ++ comma ++ y -> a = b /\ x = y.
Proof.
  intros Ha Hb E. unfold comma in E. change (L ", ") with [","%char; sp] in E. cbn [app] in E.
  apply split_first in E as [-> E]; [|assumption|assumption]. injection E as ->. auto.
Qed.
Lemma split_last (c : ascii) a h b k : ~ In c h -> ~ In c k -> a ++ c :: h = b ++ c :: k -> a = b /\ h = k.
Proof.
  intros Hh Hk E. apply (f_equal (@rev ascii)) in E. rewrite !rev_app_distr in E. cbn [rev] in E.
  rewrite <- !app_assoc in E. cbn [app] in E. apply split_first in E as [E1 E2].
  - apply (f_equal (@rev ascii)) in E1, E2. rewrite !rev_involutive in E1, E2. auto.
  - rewrite <- in_rev. assumption.
  - rewrite <- in_rev. assumption.
Qed.
Lemma shown_or s : or_unknown s = shown s.
Proof. reflexivity. Qed.
Lemma shown_inj a b : whole a -> whole b -> shown a = shown b -> a = b.
Proof.
  destruct a as [a|], b as [b|]; cbn [whole shown]; intros [? ?] || intros ?; intros [? ?] || intros ?; intros E;
    try reflexivity; try congruence.
Qed.
Ltac nochar := let K := fresh in intros K; vm_compute in K; intuition discriminate.
Lemma shown_no_comma s : field s -> ~ In ","%char (shown s).
Proof. destruct s as [s|]; intros [_ H]; cbn [shown]; [assumption|nochar]. Qed.
Lemma whole_line s : whole s -> no_newline (shown s).
Proof. destruct s as [s|]; cbn [whole shown]; [tauto|]. intros _. nochar. Qed.
Lemma field_whole s : field s -> whole s.
Proof. intros [H _]; exact H. Qed.
Lemma bit_inj a b : bit a = bit b -> a = b.
Proof. destruct a, b; intros E; try reflexivity; discriminate. Qed.
Lemma bit_chars c b : c <> "0"%char -> c <> "1"%char -> ~ In c (bit b).
Proof. intros H0 H1. destruct b; intros [E|[]]; congruence. Qed.
Lemma hex_no_comma z : ~ In ","%char (hex z). Proof. apply hex_chars. nochar. Qed.
Lemma hex_no_nl z : no_newline (hex z). Proof. apply hex_chars. nochar. Qed.
Lemma dec_no_comma z : ~ In ","%char (dec z). Proof. apply dec_chars. reflexivity. Qed.
Lemma dec_no_nl z : no_newline (dec z). Proof. apply dec_chars. reflexivity. Qed.
Lemma bit_no_comma z : ~ In ","%char (bit z). Proof. apply bit_chars; discriminate. Qed.
Lemma bit_no_nl z : no_newline (bit z). Proof. apply bit_chars; discriminate. Qed.
Lemma ox_no_comma z : ~ In ","%char (L "0x" ++ hex z).
Proof. rewrite in_app_iff. intros [K|K]; [vm_compute in K; intuition discriminate|exact (hex_no_comma _ K)]. Qed.

(** ** The lines of a frame, without the newline *)
Definition line (f : frame) : str :=
  match f with
  | FCore f => (if cf_address f =? 0 then L "<unknown>" else L "0x" ++ hex (cf_address f)) ++ comma
      ++ (shown (cf_build_id f) ++ L "+0x" ++ hex (cf_build_id_offset f)) ++ comma ++ shown (cf_file_name f) ++ comma ++ shown (cf_fingerprint f)
  | FPython f => shown (pf_file_name f) ++ comma ++ bit (pf_special_file f) ++ comma ++ dec (pf_file_line f) ++ comma
      ++ shown (pf_function_name f) ++ comma ++ bit (pf_special_function f) ++ comma ++ shown (pf_line_contents f)
  | FKoops f => (L "0x" ++ hex (kf_address f)) ++ comma ++ bit (kf_reliable f) ++ comma ++ shown (kf_function_name f) ++ comma
      ++ (L "0x" ++ hex (kf_function_offset f)) ++ comma ++ (L "0x" ++ hex (kf_function_length f)) ++ comma
      ++ shown (kf_module_name f) ++ comma ++ (L "0x" ++ hex (kf_from_address f)) ++ comma
      ++ shown (kf_from_function_name f) ++ comma ++ (L "0x" ++ hex (kf_from_function_offset f)) ++ comma
      ++ (L "0x" ++ hex (kf_from_function_length f)) ++ comma ++ shown (kf_from_module_name f)
  | FJava f => shown (vf_name f) ++ comma ++ shown (vf_file_name f) ++ comma ++ dec (vf_file_line f) ++ comma
      ++ shown (vf_class_path f) ++ comma ++ bit (vf_is_native f) ++ comma ++ bit (vf_is_exception f) ++ comma ++ shown (vf_message f)
  | FGdb f => shown (gf_function_name f) ++ comma ++ shown (gf_function_type f) ++ comma ++ dec (gf_number f) ++ comma
      ++ shown (gf_source_file f) ++ comma ++ dec (gf_source_line f) ++ comma ++ bit (gf_signal_handler_called f) ++ comma
      ++ (L "0x" ++ hex (gf_address f)) ++ comma ++ shown (gf_library_name f)
  | FRuby f => shown (rf_file_name f) ++ comma ++ dec (rf_file_line f) ++ comma ++ shown (rf_function_name f) ++ comma
      ++ bit (rf_special_function f) ++ comma ++ dec (rf_block_level f) ++ comma ++ dec (rf_rescue_level f)
  | FJs f => shown (jf_file_name f) ++ comma ++ dec (jf_file_line f) ++ comma ++ shown (jf_function_name f)
  end.
Lemma frame_bthash_line f : frame_bthash_text f = line f ++ [nl].
Proof.
  destruct f as [f|f|f|f|f|f|f]; cbn [frame_bthash_text line];
    unfold core_bthash_text, python_bthash_text, koops_bthash_text, java_bthash_text, gdb_bthash_text, ruby_bthash_text, js_bthash_text;
    rewrite ?shown_or, <- ?app_assoc; try reflexivity.
  destruct (cf_address f =? 0); rewrite <- ?app_assoc; reflexivity.
Qed.
Ltac nonl :=
  unfold no_newline in *; rewrite ?in_app_iff;
  let K := fresh "K" in intros K;
  repeat match type of K with _ \/ _ => destruct K as [K|K] end;
  match type of K with
  | In nl (hex _) => exact (hex_no_nl _ K)
  | In nl (dec _) => exact (dec_no_nl _ K)
  | In nl (bit _) => exact (bit_no_nl _ K)
  | In nl (shown _) => revert K; apply whole_line; assumption || (apply field_whole; assumption)
  | In nl _ => vm_compute in K; intuition discriminate
  end.
Lemma line_no_newline f : frame_plain f -> no_newline (line f).
Proof.
  intros [_ H]. destruct f as [f|f|f|f|f|f|f]; cbn [line];
    repeat match goal with H : _ /\ _ |- _ => destruct H end; try nonl.
  destruct (cf_address f =? 0); nonl.
Qed.
Lemma app_ne (a b c : str) : c <> [] -> a ++ c ++ b <> [].
Proof. intros H E. apply app_eq_nil in E as [_ E]. apply app_eq_nil in E as [E _]. tauto. Qed.
Lemma line_ne f : line f <> [].
Proof. destruct f as [f|f|f|f|f|f|f]; cbn [line]; apply app_ne; discriminate. Qed.

Ltac next E :=
  apply split_comma in E as [? E];
  [|first [apply shown_no_comma; assumption | apply dec_no_comma | apply bit_no_comma | apply ox_no_comma]
   |first [apply shown_no_comma; assumption | apply dec_no_comma | apply bit_no_comma | apply ox_no_comma]].
Ltac unfield := repeat match goal with
  | H : shown ?a = shown ?b |- _ => apply shown_inj in H; [|first [assumption|apply field_whole; assumption]|first [assumption|apply field_whole; assumption]]
  | H : bit _ = bit _ |- _ => apply bit_inj in H
  | H : dec _ = dec _ |- _ => apply dec_inj in H; [|lia|lia]
  | H : L "0x" ++ hex _ = L "0x" ++ hex _ |- _ => apply app_inv_head in H; apply hex_inj in H; [|lia|lia]
  end.
Ltac opens := repeat match goal with H : _ /\ _ |- _ => destruct H end.
Lemma core_line_inj f g : frame_plain (FCore f) -> frame_plain (FCore g) -> line (FCore f) = line (FCore g) -> hashed_core_frame f = hashed_core_frame g.
Proof.
  unfold frame_plain. cbn [frame_unsigned line]. intros Hf Hg E. opens.
  assert (A : forall f, ~ In ","%char (if cf_address f =? 0 then L "<unknown>" else L "0x" ++ hex (cf_address f))).
  { intros h. destruct (cf_address h =? 0); [nochar|apply ox_no_comma]. }
  assert (B : forall f, field (cf_build_id f) -> ~ In ","%char (shown (cf_build_id f) ++ L "+0x" ++ hex (cf_build_id_offset f))).
  { intros h Hh. rewrite !in_app_iff. intros [K|[K|K]]; [exact (shown_no_comma _ Hh K)|vm_compute in K; intuition discriminate|exact (hex_no_comma _ K)]. }
  apply split_comma in E as [E1 E]; [|apply A|apply A].
  apply split_comma in E as [E2 E]; [|apply B; assumption|apply B; assumption].
  next E.
  assert (K : cf_address f = cf_address g).
  { destruct (Z.eqb_spec (cf_address f) 0), (Z.eqb_spec (cf_address g) 0); [lia|discriminate|discriminate|].
    apply app_inv_head in E1. apply hex_inj; [lia|lia|assumption]. }
  change (L "+0x") with ("+"%char :: L "0x") in E2. cbn [app] in E2.
  assert (P : forall z, ~ In "+"%char (L "0x" ++ hex z)).
  { intros z. rewrite in_app_iff. intros [Q|Q]; [vm_compute in Q; intuition discriminate|revert Q; apply hex_chars; nochar]. }
  apply split_last in E2 as [E2 E3]; [|apply P|apply P].
  unfield. unfold hashed_core_frame. congruence.
Qed.
Ltac begin := unfold frame_plain; cbn [frame_unsigned line]; intros Hf Hg E; opens.
Lemma python_line_inj f g : frame_plain (FPython f) -> frame_plain (FPython g) -> line (FPython f) = line (FPython g) -> f = g.
Proof. begin. do 5 next E. unfield. destruct f, g; cbn in *. congruence. Qed.
Lemma koops_line_inj f g : frame_plain (FKoops f) -> frame_plain (FKoops g) -> line (FKoops f) = line (FKoops g) -> hashed_koops_frame f = hashed_koops_frame g.
Proof. begin. do 10 next E. unfield. unfold hashed_koops_frame. congruence. Qed.
Lemma java_line_inj f g : frame_plain (FJava f) -> frame_plain (FJava g) -> line (FJava f) = line (FJava g) -> f = g.
Proof. begin. do 6 next E. unfield. destruct f, g; cbn in *. congruence. Qed.
Lemma gdb_line_inj f g : frame_plain (FGdb f) -> frame_plain (FGdb g) -> line (FGdb f) = line (FGdb g) -> f = g.
Proof. begin. do 7 next E. unfield. destruct f, g; cbn in *. congruence. Qed.
Lemma ruby_line_inj f g : frame_plain (FRuby f) -> frame_plain (FRuby g) -> line (FRuby f) = line (FRuby g) -> f = g.
Proof. begin. do 5 next E. unfield. destruct f, g; cbn in *. congruence. Qed.
Lemma js_line_inj f g : frame_plain (FJs f) -> frame_plain (FJs g) -> line (FJs f) = line (FJs g) -> hashed_js_frame f = hashed_js_frame g.
Proof. begin. do 2 next E. unfield. unfold hashed_js_frame. congruence. Qed.
Lemma map_inj_on {A B C} (P : A -> Prop) (f : A -> B) (h : A -> C) : (forall x y, P x -> P y -> f x = f y -> h x = h y) ->
  forall l m, Forall P l -> Forall P m -> map f l = map f m -> map h l = map h m.
Proof.
  intros I. induction l as [|x l IH]; intros [|y m] Hl Hm E; try discriminate; [reflexivity|].
  cbn [map] in *. injection E as E1 E2. inversion Hl; inversion Hm; subst. f_equal; auto.
Qed.
Lemma map_inj_id {A B} (P : A -> Prop) (f : A -> B) : (forall x y, P x -> P y -> f x = f y -> x = y) ->
  forall l m, Forall P l -> Forall P m -> map f l = map f m -> l = m.
Proof.
  intros I l m Hl Hm E. rewrite <- (map_id l), <- (map_id m). apply (map_inj_on P f (fun x => x)); assumption.
Qed.

(** ** Blocks of lines separated by blank lines *)
Fixpoint blocks (l : list (list str)) : list str :=
  match l with
  | [] => []
  | [b] => b
  | b :: r => b ++ [] :: blocks r
  end.
Lemma blocks_cons b c r : blocks (b :: c :: r) = b ++ [] :: blocks (c :: r).
Proof. reflexivity. Qed.
Definition full (b : list str) : Prop := Forall (fun x => x <> []) b.
Lemma split_blank (a b x y : list str) : full a -> full b -> a ++ [] :: x = b ++ [] :: y -> a = b /\ x = y.
Proof.
  revert b. induction a as [|u a IH]; intros [|v b] Ha Hb E; cbn [app] in E.
  - injection E as ->. auto.
  - injection E as <- E. inversion Hb. congruence.
  - injection E as -> E. inversion Ha. congruence.
  - injection E as -> E. inversion Ha; inversion Hb; subst. apply IH in E as [-> ->]; auto.
Qed.
Lemma no_blank (a b x : list str) : full a -> a <> b ++ [] :: x.
Proof. intros Ha ->. unfold full in Ha. rewrite Forall_app in Ha. destruct Ha as [_ Ha]. inversion Ha. congruence. Qed.
Lemma blocks_inj : forall l m, l <> [] -> m <> [] -> Forall full l -> Forall full m -> blocks l = blocks m -> l = m.
Proof.
  induction l as [|b l IH]; intros [|c m] Hl Hm Fl Fm E; [congruence|congruence|congruence|].
  inversion Fl; inversion Fm; subst. destruct l as [|b' l], m as [|c' m].
  - cbn [blocks] in E. congruence.
  - rewrite blocks_cons in E. cbn [blocks] in E. exfalso. revert E. apply no_blank. assumption.
  - rewrite blocks_cons in E. cbn [blocks] in E. exfalso. symmetry in E. revert E. apply no_blank. assumption.
  - rewrite !blocks_cons in E. apply split_blank in E as [-> E]; [|assumption|assumption]. f_equal.
    apply IH; [discriminate|discriminate|assumption|assumption|exact E].
Qed.
Lemma blocks_ne l : Forall (fun b => b <> []) l -> l <> [] -> blocks l <> [].
Proof.
  destruct l as [|b [|c l]]; intros F N; [congruence| |]; inversion F; subst; [assumption|].
  rewrite blocks_cons. destruct b; discriminate.
Qed.
Lemma blocks_inj_ne l m : Forall (fun b => b <> []) l -> Forall (fun b => b <> []) m -> Forall full l -> Forall full m ->
  blocks l = blocks m -> l = m.
Proof.
  intros Nl Nm Fl Fm E. destruct l as [|b l], m as [|c m]; [reflexivity| | |].
  - symmetry in E. apply blocks_ne in E; [tauto|assumption|discriminate].
  - apply blocks_ne in E; [tauto|assumption|discriminate].
  - apply blocks_inj; try assumption; discriminate.
Qed.
Definition title (t : thread) : list str :=
  match t with
  | TGdb t => [L "Thread " ++ dec (gt_number t)]
  | TJava t => [L "Thread " ++ shown (vt_name t)]
  | _ => []
  end.
Definition block (t : thread) : list str := title t ++ map line (sr_thread_frames t).
Lemma thread_text t : thread_bthash_text t ++ concat (map frame_bthash_text (sr_thread_frames t)) = unlines (block t).
Proof.
  unfold block. rewrite unlines_app. f_equal.
  - destruct t; cbn [thread_bthash_text title]; try reflexivity; unfold unlines; cbn [map concat]; rewrite app_nil_r, <- app_assoc; reflexivity.
  - unfold unlines. rewrite map_map. f_equal. apply map_ext. intros f. apply frame_bthash_line.
Qed.
Lemma threads_text : forall l, bthash_threads l = unlines (blocks (map block l)).
Proof.
  induction l as [|t l IH]; [reflexivity|]. cbn [bthash_threads]. rewrite app_assoc, thread_text.
  destruct l as [|u l].
  - cbn [map blocks bthash_threads]. rewrite app_nil_r. reflexivity.
  - cbn [map] in *. rewrite blocks_cons, unlines_app, IH. reflexivity.
Qed.
(** The lines before the threads. *)
Fixpoint joined (l : list str) : str := match l with [] => [] | [m] => m | m :: r => m ++ comma ++ joined r end.
Definition lib_line (l : gdb_sharedlib) : str := (hex (gl_from l) ++ L "-" ++ hex (gl_to l)) ++ comma ++ shown (gl_soname l).
Definition head_lines (s : stacktrace) : list str :=
  match s with
  | SCore s => [L "Executable: " ++ shown (cs_executable s); L "Signal: " ++ dec (cs_signal s); []]
  | SPython s => [L "Exception: " ++ shown (ps_exception_name s); []]
  | SRuby s => [L "Exception: " ++ shown (rs_exception_name s); []]
  | SJs s => [L "Error: " ++ shown (js_exception_name s); []]
  | SJava s => []
  | SKoops s => [L "Version: " ++ shown (ks_version s); L "Flags: ";
                 L "Modules: " ++ joined match ks_modules s with Some l => l | None => [] end; []]
  | SGdb s => map lib_line (gs_libs s) ++ [[]]
  end.
Lemma join_joined l : join_modules l = joined l.
Proof. induction l as [|m [|n l] IH]; [reflexivity|reflexivity|]. cbn [join_modules joined] in *. rewrite IH. reflexivity. Qed.
Lemma head_text s : stacktrace_bthash_text s = unlines (head_lines s).
Proof.
  destruct s as [s|s|s|s|s|s|s]; cbn [stacktrace_bthash_text head_lines]; unfold koops_stacktrace_bthash_text;
    rewrite ?shown_or; try (rewrite !unlines_cons; rewrite <- !app_assoc; reflexivity); [| reflexivity|].
  - destruct (ks_modules s) as [m|]; rewrite ?join_joined, !unlines_cons; rewrite <- !app_assoc; reflexivity.
  - rewrite unlines_app. unfold unlines. rewrite map_map. cbn [map concat app]. f_equal. f_equal. apply map_ext. intros l.
    unfold gdb_lib_bthash_text, lib_line. rewrite shown_or, <- !app_assoc. reflexivity.
Qed.
Lemma bthash_lines sha1 s flags :
  sr_stacktrace_get_bthash sha1 s flags =
  let text := unlines (head_lines s ++ blocks (map block (sr_stacktrace_threads s))) in
  if flag_nohash flags then text else sha1 text.
Proof. unfold sr_stacktrace_get_bthash. rewrite head_text, threads_text, <- unlines_app. reflexivity. Qed.

(** ** Injectivity *)
Lemma nl_L (p x : str) : no_newline p -> no_newline x -> no_newline (p ++ x).
Proof. unfold no_newline. rewrite in_app_iff. tauto. Qed.
Lemma joined_no_nl l : Forall no_newline l -> no_newline (joined l).
Proof.
  induction 1 as [|m l Hm F IH]; [intros []|]. destruct l as [|n l]; [exact Hm|]. cbn [joined] in *.
  apply nl_L; [assumption|]. apply nl_L; [nochar|assumption].
Qed.
Lemma joined_cons m n l : joined (m :: n :: l) = m ++ comma ++ joined (n :: l).
Proof. reflexivity. Qed.
Lemma no_comma_app a x : ~ In ","%char (a ++ comma ++ x) -> False.
Proof. intros H. apply H. rewrite !in_app_iff. right; left. left. reflexivity. Qed.
Definition module_ok (m : str) : Prop := no_newline m /\ ~ In ","%char m /\ m <> [].
Lemma joined_inj : forall l m, Forall module_ok l -> Forall module_ok m -> joined l = joined m -> l = m.
Proof.
  assert (N : forall l, Forall module_ok l -> l <> [] -> joined l <> []).
  { intros [|a [|b l]] F K; [congruence| |]; inversion F as [|? ? (_ & _ & Ha) ?]; subst; [assumption|].
    rewrite joined_cons. destruct a; [congruence|discriminate]. }
  induction l as [|a l IH]; intros [|b m] Fl Fm E; [reflexivity| | |].
  - symmetry in E. apply N in E; [tauto|assumption|discriminate].
  - apply N in E; [tauto|assumption|discriminate].
  - inversion Fl as [|? ? (_ & Ha & _) Fl']; inversion Fm as [|? ? (_ & Hb & _) Fm']; subst.
    destruct l as [|a' l], m as [|b' m].
    + cbn [joined] in E. congruence.
    + rewrite joined_cons in E. cbn [joined] in E. subst. elim (no_comma_app _ _ Ha).
    + rewrite joined_cons in E. cbn [joined] in E. subst. elim (no_comma_app _ _ Hb).
    + rewrite !joined_cons in E. apply split_comma in E as [-> E]; [|assumption|assumption]. f_equal. apply IH; assumption.
Qed.
Lemma lib_line_inj a b : (0 <= gl_from a /\ 0 <= gl_to a /\ whole (gl_soname a)) -> (0 <= gl_from b /\ 0 <= gl_to b /\ whole (gl_soname b)) ->
  lib_line a = lib_line b -> hashed_lib a = hashed_lib b.
Proof.
  intros (A1 & A2 & A3) (B1 & B2 & B3) E. unfold lib_line in E.
  assert (P : forall x y, ~ In ","%char (hex x ++ L "-" ++ hex y)).
  { intros x y. rewrite !in_app_iff. intros [K|[K|K]]; [exact (hex_no_comma _ K)|vm_compute in K; intuition discriminate|exact (hex_no_comma _ K)]. }
  apply split_comma in E as [E1 E2]; [|apply P|apply P].
  change (L "-") with ["-"%char] in E1. cbn [app] in E1.
  apply split_first in E1 as [E3 E4]; [|apply hex_chars; nochar|apply hex_chars; nochar].
  apply hex_inj in E3, E4; try assumption. apply shown_inj in E2; try assumption. unfold hashed_lib. congruence.
Qed.
Lemma lib_line_ok l : 0 <= gl_from l /\ 0 <= gl_to l /\ whole (gl_soname l) -> no_newline (lib_line l) /\ lib_line l <> [].
Proof.
  intros (H1 & H2 & H3). unfold lib_line. split; [nonl|]. apply app_ne. discriminate.
Qed.
Lemma head_no_nl s : plain s -> Forall no_newline (head_lines s).
Proof.
  intros [_ H]. destruct s as [s|s|s|s|s|s|s]; cbn [head_lines]; opens; repeat constructor; try nonl; try (intros []; fail).
  - unfold no_newline. rewrite in_app_iff. intros [K|K]; [vm_compute in K; intuition discriminate|].
    revert K. apply joined_no_nl. eapply Forall_impl; [|eassumption]. cbn. tauto.
  - rewrite Forall_app. split; [|repeat constructor; intros []]. rewrite Forall_map. eapply Forall_impl; [|eassumption].
    intros l Hl. apply lib_line_ok. assumption.
Qed.
Lemma block_full t : full (block t).
Proof.
  unfold full, block. rewrite Forall_app. split.
  - destruct t; cbn [title]; repeat constructor; discriminate.
  - rewrite Forall_map, Forall_forall. intros f _. apply line_ne.
Qed.
Lemma blocks_forall (P : str -> Prop) l : P [] -> Forall (Forall P) l -> Forall P (blocks l).
Proof.
  intros H F. induction F as [|b l Hb F IH]; [constructor|]. destruct l as [|c l]; [exact Hb|].
  rewrite blocks_cons, Forall_app. split; [assumption|]. constructor; assumption.
Qed.
Lemma threads_no_nl s : plain s -> Forall no_newline (blocks (map block (sr_stacktrace_threads s))).
Proof.
  intros [F H]. apply blocks_forall; [intros []|]. rewrite Forall_map.
  assert (T : Forall (fun t => Forall no_newline (title t)) (sr_stacktrace_threads s)).
  { destruct s as [s|s|s|s|s|s|s]; cbn [sr_stacktrace_threads]; rewrite ?Forall_map; repeat constructor; cbn [title].
    - rewrite Forall_forall; intros; constructor.
    - eapply Forall_impl; [|exact H]. intros t Ht. cbn beta in Ht. repeat constructor. nonl.
    - rewrite Forall_forall; intros; repeat constructor. nonl. }
  rewrite Forall_forall in *. intros t Ht. unfold block. rewrite Forall_app. split; [auto|].
  rewrite Forall_map, Forall_forall. intros f Hf. apply line_no_newline. specialize (F t Ht). rewrite Forall_forall in F. auto.
Qed.
Lemma text_lines s t : plain s -> plain t ->
  unlines (head_lines s ++ blocks (map block (sr_stacktrace_threads s))) = unlines (head_lines t ++ blocks (map block (sr_stacktrace_threads t))) ->
  head_lines s ++ blocks (map block (sr_stacktrace_threads s)) = head_lines t ++ blocks (map block (sr_stacktrace_threads t)).
Proof.
  intros Hs Ht E. apply unlines_inj in E; [exact E| |]; rewrite Forall_app; split;
    (apply head_no_nl || apply threads_no_nl); assumption.
Qed.
Lemma map_full (l : list thread) : Forall full (map block l).
Proof. rewrite Forall_map, Forall_forall. intros t _. apply block_full. Qed.
Lemma libs_split a b x y : Forall (fun l => 0 <= gl_from l /\ 0 <= gl_to l /\ whole (gl_soname l)) a ->
  Forall (fun l => 0 <= gl_from l /\ 0 <= gl_to l /\ whole (gl_soname l)) b ->
  (map lib_line a ++ [[]]) ++ x = (map lib_line b ++ [[]]) ++ y -> map hashed_lib a = map hashed_lib b /\ x = y.
Proof.
  intros Ha Hb E. rewrite <- !app_assoc in E. cbn [app] in E.
  assert (F : forall l, Forall (fun l => 0 <= gl_from l /\ 0 <= gl_to l /\ whole (gl_soname l)) l -> full (map lib_line l)).
  { intros l Hl. unfold full. rewrite Forall_map. eapply Forall_impl; [|exact Hl]. intros z Hz. apply lib_line_ok. assumption. }
  apply split_blank in E as [E ->]; [|apply F; assumption|apply F; assumption]. split; [|reflexivity].
  exact (map_inj_on _ _ _ lib_line_inj _ _ Ha Hb E).
Qed.
Lemma single_block t u : blocks (map block [t]) = blocks (map block [u]) -> title t = [] -> title u = [] ->
  map line (sr_thread_frames t) = map line (sr_thread_frames u).
Proof. cbn [map blocks]. unfold block. intros E Ht Hu. rewrite Ht, Hu in E. exact E. Qed.
Lemma Forall_one {A} (P : A -> Prop) x : Forall P [x] -> P x.
Proof. intros H. inversion H. assumption. Qed.
Lemma map_line_map {F} (c : F -> frame) l : map line (map c l) = map (fun f => line (c f)) l.
Proof. apply map_map. Qed.

(** Which type a text belongs to *)
Definition family (s : stacktrace) : nat :=
  match s with SCore _ => 1 | SPython _ | SRuby _ => 2 | SKoops _ => 3 | SJava _ => 4 | SGdb _ => 5 | SJs _ => 6 end.
Lemma hex_head z : In (hd nul (hex z ++ L "-")) (L "0123456789abcdef-").
Proof.
  destruct (hex z) as [|c h] eqn:E; [vm_compute; tauto|]. cbn [app hd].
  destruct (in_dec ascii_dec c (L "0123456789abcdef")) as [K|K].
  - change (L "0123456789abcdef-") with (L "0123456789abcdef" ++ L "-"). apply in_or_app. left. exact K.
  - exfalso. apply (hex_chars c z K). rewrite E. left. reflexivity.
Qed.
Definition first_line (s : stacktrace) : option str := hd_error (head_lines s ++ blocks (map block (sr_stacktrace_threads s))).
Lemma first_char s : match family s with
  | 1%nat => exists x, first_line s = Some (L "Exec" ++ x)
  | 2%nat => exists x, first_line s = Some (L "Exce" ++ x)
  | 3%nat => exists x, first_line s = Some (L "V" ++ x)
  | 4%nat => first_line s = None \/ exists x, first_line s = Some (L "T" ++ x)
  | 5%nat => exists c x, In c (L "0123456789abcdef-") /\ (first_line s = Some (c :: x) \/ first_line s = Some [])
  | _ => exists x, first_line s = Some (L "Er" ++ x)
  end.
Proof.
  destruct s as [s|s|s|s|s|s|s]; cbn [family]; unfold first_line; cbn [head_lines sr_stacktrace_threads app hd_error]; try (eexists; reflexivity).
  - destruct (vs_threads s) as [|t [|u l]]; cbn [map blocks]; [left; reflexivity| |]; right; eexists; reflexivity.
  - destruct (gs_libs s) as [|l ls]; cbn [map app hd_error].
    + exists "0"%char, []. split; [vm_compute; tauto|right; reflexivity].
    + pose proof (hex_head (gl_from l)) as K. unfold lib_line.
      destruct (hex (gl_from l)) as [|c h] eqn:E.
      * exists "-"%char. eexists. split; [vm_compute; tauto|]. left. reflexivity.
      * cbn [app hd] in K. exists c. eexists. split; [exact K|]. left. cbn [app]. reflexivity.
Qed.
Lemma same_family s t : first_line s = first_line t -> family s = family t.
Proof.
  intros E. pose proof (first_char s) as A. pose proof (first_char t) as B. rewrite E in A.
  destruct s, t; cbn [family] in *; try reflexivity; exfalso; revert A B; clear;
    repeat match goal with |- (_ \/ _) -> _ => intros [?|?] | |- (ex _) -> _ => intros [? ?] | |- _ -> _ => intros ? end;
    opens; repeat match goal with H : _ \/ _ |- _ => destruct H | H : ex _ |- _ => destruct H end; opens;
    repeat match goal with H : _ \/ _ |- _ => destruct H | H : ex _ |- _ => destruct H end;
    try (match goal with H : first_line _ = _, K : first_line _ = _ |- _ => rewrite H in K; discriminate end);
    try (match goal with H : first_line _ = _, K : first_line _ = _, J : In _ _ |- _ =>
           rewrite H in K; injection K as K; vm_compute in J; intuition (subst; discriminate) end).
Qed.
Lemma head_cons (x y : str) (a b : list str) : x :: a = y :: b -> x = y /\ a = b.
Proof. intros E. injection E as -> ->. auto. Qed.
Ltac headers E := repeat (cbn [app] in E; apply head_cons in E as [? E]).
Ltac strip := repeat match goal with
  | H : L ?p ++ ?x = L ?p ++ ?y |- _ => apply app_inv_head in H
  | H : shown ?a = shown ?b |- _ => apply shown_inj in H; [|assumption|assumption]
  | H : dec _ = dec _ |- _ => apply dec_inj in H; [|lia|lia]
  end.
Lemma core_threads_inj : forall l m, Forall (fun t => Forall frame_plain (sr_thread_frames t)) (map TCore l) ->
  Forall (fun t => Forall frame_plain (sr_thread_frames t)) (map TCore m) ->
  map block (map TCore l) = map block (map TCore m) ->
  map (fun t => map hashed_core_frame (ct_frames t)) l = map (fun t => map hashed_core_frame (ct_frames t)) m.
Proof.
  intros l m Hl Hm E. rewrite !map_map in E. rewrite Forall_map in Hl, Hm. revert l m Hl Hm E. apply map_inj_on.
  intros t u Ht Hu E. unfold block in E. cbn [title app sr_thread_frames] in *. rewrite !map_map in E. rewrite Forall_map in Ht, Hu.
  revert E. apply (map_inj_on (fun f => frame_plain (FCore f))); [|assumption|assumption]. apply core_line_inj.
Qed.
Lemma java_threads_inj : forall l m, Forall (fun t => Forall frame_plain (sr_thread_frames t)) (map TJava l) ->
  Forall (fun t => Forall frame_plain (sr_thread_frames t)) (map TJava m) ->
  Forall (fun t => whole (vt_name t)) l -> Forall (fun t => whole (vt_name t)) m ->
  map block (map TJava l) = map block (map TJava m) ->
  map (fun t => (vt_name t, vt_frames t)) l = map (fun t => (vt_name t, vt_frames t)) m.
Proof.
  intros l m Hl Hm Nl Nm E. rewrite !map_map in E. rewrite Forall_map in Hl, Hm. revert E.
  apply (map_inj_on (fun t => Forall frame_plain (sr_thread_frames (TJava t)) /\ whole (vt_name t))).
  - intros t u [Ht Nt] [Hu Nu] E. unfold block in E. cbn [title app sr_thread_frames] in *. rewrite !map_map in E. rewrite Forall_map in Ht, Hu.
    apply head_cons in E as [E1 E2]. strip. f_equal; [assumption|].
    revert E2. apply (map_inj_id (fun f => frame_plain (FJava f))); [|assumption|assumption]. apply java_line_inj.
  - rewrite Forall_forall in *. auto.
  - rewrite Forall_forall in *. auto.
Qed.
Lemma gdb_threads_inj : forall l m, Forall (fun t => Forall frame_plain (sr_thread_frames t)) (map TGdb l) ->
  Forall (fun t => Forall frame_plain (sr_thread_frames t)) (map TGdb m) ->
  Forall (fun t => 0 <= gt_number t) l -> Forall (fun t => 0 <= gt_number t) m ->
  map block (map TGdb l) = map block (map TGdb m) ->
  map (fun t => (gt_number t, gt_frames t)) l = map (fun t => (gt_number t, gt_frames t)) m.
Proof.
  intros l m Hl Hm Nl Nm E. rewrite !map_map in E. rewrite Forall_map in Hl, Hm. revert E.
  apply (map_inj_on (fun t => Forall frame_plain (sr_thread_frames (TGdb t)) /\ 0 <= gt_number t)).
  - intros t u [Ht Nt] [Hu Nu] E. unfold block in E. cbn [title app sr_thread_frames] in *. rewrite !map_map in E. rewrite Forall_map in Ht, Hu.
    apply head_cons in E as [E1 E2]. strip. f_equal; [assumption|].
    revert E2. apply (map_inj_id (fun f => frame_plain (FGdb f))); [|assumption|assumption]. apply gdb_line_inj.
  - rewrite Forall_forall in *. auto.
  - rewrite Forall_forall in *. auto.
Qed.
Theorem bthash_text_inj s t : plain s -> plain t -> ~ mixed s t ->
  unlines (head_lines s ++ blocks (map block (sr_stacktrace_threads s))) = unlines (head_lines t ++ blocks (map block (sr_stacktrace_threads t))) ->
  identity_of s = identity_of t.
Proof.
  intros Ps Pt N E. apply text_lines in E; [|assumption|assumption].
  assert (F : family s = family t) by (apply same_family; unfold first_line; rewrite E; reflexivity).
  destruct Ps as [Fs Hs], Pt as [Ft Ht].
  destruct s as [s|s|s|s|s|s|s], t as [t|t|t|t|t|t|t]; try discriminate F; clear F;
    cbn [head_lines sr_stacktrace_threads] in *; opens.
  - headers E. strip. apply blocks_inj in E; [|destruct (cs_threads s); [congruence|discriminate]|destruct (cs_threads t); [congruence|discriminate]|apply map_full|apply map_full].
    apply core_threads_inj in E; [|assumption|assumption]. cbn [identity_of]. congruence.
  - headers E. strip. apply Forall_one in Fs, Ft. cbn [sr_thread_frames] in *. rewrite Forall_map in Fs, Ft.
    apply single_block in E; [|reflexivity|reflexivity]. cbn [sr_thread_frames] in E. rewrite !map_map in E.
    apply (map_inj_id (fun f => frame_plain (FPython f)) _ python_line_inj) in E; [|assumption|assumption]. cbn [identity_of]. congruence.
  - exfalso. apply N. exact I.
  - headers E. strip. apply Forall_one in Fs, Ft. cbn [sr_thread_frames] in *. rewrite Forall_map in Fs, Ft.
    apply single_block in E; [|reflexivity|reflexivity]. cbn [sr_thread_frames] in E. rewrite !map_map in E.
    apply (map_inj_on (fun f => frame_plain (FKoops f)) _ _ koops_line_inj) in E; [|assumption|assumption].
    match goal with H : joined _ = joined _ |- _ => apply joined_inj in H; [|assumption|assumption] end.
    cbn [identity_of]. congruence.
  - cbn [app] in E. apply blocks_inj_ne in E; [|rewrite !Forall_map, Forall_forall; intros; discriminate|rewrite !Forall_map, Forall_forall; intros; discriminate|apply map_full|apply map_full].
    apply java_threads_inj in E; try assumption. cbn [identity_of]. congruence.
  - apply libs_split in E as [EL E]; [|assumption|assumption].
    apply blocks_inj_ne in E; [|rewrite !Forall_map, Forall_forall; intros; discriminate|rewrite !Forall_map, Forall_forall; intros; discriminate|apply map_full|apply map_full].
    apply gdb_threads_inj in E; try assumption. cbn [identity_of]. congruence.
  - exfalso. apply N. exact I.
  - headers E. strip. apply Forall_one in Fs, Ft. cbn [sr_thread_frames] in *. rewrite Forall_map in Fs, Ft.
    apply single_block in E; [|reflexivity|reflexivity]. cbn [sr_thread_frames] in E. rewrite !map_map in E.
    apply (map_inj_id (fun f => frame_plain (FRuby f)) _ ruby_line_inj) in E; [|assumption|assumption]. cbn [identity_of]. congruence.
  - headers E. strip. apply Forall_one in Fs, Ft. cbn [sr_thread_frames] in *. rewrite Forall_map in Fs, Ft.
    apply single_block in E; [|reflexivity|reflexivity]. cbn [sr_thread_frames] in E. rewrite !map_map in E.
    apply (map_inj_on (fun f => frame_plain (FJs f)) _ _ js_line_inj) in E; [|assumption|assumption]. cbn [identity_of]. congruence.
Qed.

Theorem bthash_inj sha1 s t flags : plain s -> plain t -> ~ mixed s t ->
  sr_stacktrace_get_bthash sha1 s flags = sr_stacktrace_get_bthash sha1 t flags ->
  identity_of s = identity_of t \/ flag_nohash flags = false /\ exists x y, x <> y /\ sha1 x = sha1 y.
Proof.
  intros Ps Pt N E. rewrite !bthash_lines in E. cbn zeta in E. destruct (flag_nohash flags).
  - left. apply bthash_text_inj; assumption.
  - set (x := unlines (head_lines s ++ blocks (map block (sr_stacktrace_threads s)))) in *.
    set (y := unlines (head_lines t ++ blocks (map block (sr_stacktrace_threads t)))) in *.
    destruct (list_eq_dec ascii_dec x y) as [K|K]; [left; apply bthash_text_inj; assumption|].
    right. split; [reflexivity|]. exists x, y. auto.
Qed.
Lemma map_through {A B C} (h : A -> B) (f : A -> C) : (forall x y, h x = h y -> f x = f y) ->
  forall l m, map h l = map h m -> map f l = map f m.
Proof.
  intros I. induction l as [|x l IH]; intros [|y m] E; try discriminate; [reflexivity|].
  cbn [map] in *. injection E as E1 E2. f_equal; auto.
Qed.
Ltac fields H := repeat match goal with K : (_, _) = (_, _) |- _ => apply pair_equal_spec in K; destruct K end.
Lemma core_through f g : hashed_core_frame f = hashed_core_frame g -> line (FCore f) = line (FCore g).
Proof.
  unfold hashed_core_frame. intros E. fields E. cbn [line].
  repeat match goal with K : ?p f = ?p g |- _ => rewrite K; clear K end. reflexivity.
Qed.
Lemma koops_through f g : hashed_koops_frame f = hashed_koops_frame g -> line (FKoops f) = line (FKoops g).
Proof. unfold hashed_koops_frame. intros E. fields E. cbn [line]. congruence. Qed.
Lemma js_through f g : hashed_js_frame f = hashed_js_frame g -> line (FJs f) = line (FJs g).
Proof. unfold hashed_js_frame. intros E. fields E. cbn [line]. congruence. Qed.
Lemma lib_through f g : hashed_lib f = hashed_lib g -> lib_line f = lib_line g.
Proof. unfold hashed_lib, lib_line. intros E. fields E. congruence. Qed.
Theorem bthash_determined sha1 s t flags : identity_of s = identity_of t ->
  sr_stacktrace_get_bthash sha1 s flags = sr_stacktrace_get_bthash sha1 t flags.
Proof.
  intros E. rewrite !bthash_lines. cbn zeta.
  enough (head_lines s ++ blocks (map block (sr_stacktrace_threads s)) = head_lines t ++ blocks (map block (sr_stacktrace_threads t))) as -> by reflexivity.
  destruct s as [s|s|s|s|s|s|s], t as [t|t|t|t|t|t|t]; try discriminate E; cbn [identity_of head_lines sr_stacktrace_threads] in *.
  - injection E as E1 E2 E3. rewrite E1, E2. f_equal. f_equal. rewrite !map_map.
    apply (map_through (fun t => map hashed_core_frame (ct_frames t))); [|assumption].
    intros x y. unfold block. cbn [title app sr_thread_frames]. rewrite !map_map. apply map_through. apply core_through.
  - injection E as E1 E2. cbn [map blocks]. unfold block. cbn [title app sr_thread_frames]. congruence.
  - injection E as E1 E2 E3. cbn [map blocks]. unfold block. cbn [title app sr_thread_frames]. rewrite E1, E2, !map_map.
    apply (map_through _ _ koops_through) in E3. rewrite E3. reflexivity.
  - injection E as E. cbn [app]. f_equal. rewrite !map_map. apply (map_through (fun t => (vt_name t, vt_frames t))); [|assumption].
    intros x y K. fields K. unfold block. cbn [title app sr_thread_frames]. congruence.
  - injection E as E1 E2. apply (map_through _ _ lib_through) in E1. rewrite E1. f_equal. f_equal. rewrite !map_map.
    apply (map_through (fun t => (gt_number t, gt_frames t))); [|assumption].
    intros x y K. fields K. unfold block. cbn [title app sr_thread_frames]. congruence.
  - injection E as E1 E2. cbn [map blocks]. unfold block. cbn [title app sr_thread_frames]. congruence.
  - injection E as E1 E2. cbn [map blocks]. unfold block. cbn [title app sr_thread_frames]. rewrite E1, !map_map.
    apply (map_through _ _ js_through) in E2. rewrite E2. reflexivity.
Qed.
