(** * Proofs about stack traces embedded in reports. *)
From Verif Require Import Base UtilsModel UtilsProofs JsonSpec JsonModel JsonProofs JsonScan Types JsonTypesModel JsonTypesSpec JsonReaders JsonWriters JsonRoundtrip JsonRoundtrip2 JsonRoundtrip3 TextModel SystemModel ReportModel ReportSpec ReportProofs.
Open Scope Z_scope.

(** ** A second scanner: a comma directly before a closing brace, outside strings *)
Record cstate := mk_cs { cs_mode : mode; cs_comma : bool; cs_bad : bool }.
Definition cstep (s : cstate) (c : ascii) : cstate :=
  match cs_mode s with
  | OutStr =>
    if Ascii.eqb c dquote then mk_cs InStr false (cs_bad s)
    else if Ascii.eqb c "," then mk_cs OutStr true (cs_bad s)
    else if Ascii.eqb c "}" then mk_cs OutStr false (cs_bad s || cs_comma s)
    else if Ascii.eqb c sp || Ascii.eqb c tab || Ascii.eqb c nl || Ascii.eqb c cr then s
    else mk_cs OutStr false (cs_bad s)
  | InStr =>
    if Ascii.eqb c dquote then mk_cs OutStr false (cs_bad s)
    else if Ascii.eqb c backslash then mk_cs EscStr false (cs_bad s)
    else mk_cs InStr false (cs_bad s)
  | EscStr => mk_cs InStr false (cs_bad s)
  end.
Definition cscan (t : str) (s : cstate) : cstate := fold_left cstep t s.
Lemma cscan_app a b s : cscan (a ++ b) s = cscan b (cscan a s).
Proof. apply fold_left_app. Qed.
Lemma cscan_cons c t s : cscan (c :: t) s = cscan t (cstep s c).
Proof. reflexivity. Qed.
Lemma cscan_mode t : forall s s', cs_mode s = ss_mode s' -> cs_mode (cscan t s) = ss_mode (scan t s').
Proof.
  induction t as [|c t IH]; intros s s' H; [exact H|]. rewrite cscan_cons, scan_cons. apply IH.
  unfold cstep, step. rewrite H. destruct (ss_mode s') eqn:E.
  - destruct (Ascii.eqb c dquote) eqn:E1; [reflexivity|].
    destruct (Ascii.eqb c ",") eqn:E2; [apply Ascii.eqb_eq in E2; subst c; cbn; symmetry; exact E|].
    destruct (Ascii.eqb c "{") eqn:E3; [apply Ascii.eqb_eq in E3; subst c; reflexivity|].
    destruct (Ascii.eqb c "}") eqn:E4; [reflexivity|].
    destruct (Ascii.eqb c "[") eqn:E5; [apply Ascii.eqb_eq in E5; subst c; reflexivity|].
    destruct (Ascii.eqb c "]") eqn:E6; [apply Ascii.eqb_eq in E6; subst c; reflexivity|].
    destruct (_ || _); [rewrite H; symmetry; exact E|symmetry; exact E].
  - destruct (Ascii.eqb c dquote); [reflexivity|]. destruct (Ascii.eqb c backslash); reflexivity.
  - reflexivity.
Qed.
Lemma cscan_bad t : forall s, cs_bad s = true -> cs_bad (cscan t s) = true.
Proof.
  induction t as [|c t IH]; intros s H; [exact H|]. rewrite cscan_cons. apply IH. unfold cstep.
  destruct (cs_mode s).
  - destruct (Ascii.eqb c dquote); [exact H|]. destruct (Ascii.eqb c ","); [exact H|].
    destruct (Ascii.eqb c "}"); [cbn; rewrite H; reflexivity|]. destruct (_ || _); exact H.
  - destruct (Ascii.eqb c dquote); [exact H|]. destruct (Ascii.eqb c backslash); exact H.
  - exact H.
Qed.
(** whitespace keeps the state, a value ends with anything but a comma *)
Lemma cscan_ws w : ws w -> forall s, cs_mode s = OutStr -> cscan w s = s.
Proof.
  induction 1 as [|c w Hc Hw IH]; intros s Hs; [reflexivity|]. rewrite cscan_cons.
  replace (cstep s c) with s; [apply IH; exact Hs|]. unfold cstep. rewrite Hs. destruct Hc as [->|[->|[->| ->]]]; reflexivity.
Qed.
Lemma cscan_chars s b : jchars s b -> forall bad, cscan b (mk_cs InStr false bad) = mk_cs InStr false bad.
Proof.
  induction 1 as [|c s b Hc Hq Hb H IH|e c s b He H IH]; intros bad; [reflexivity| |].
  - rewrite cscan_cons. unfold cstep. cbn [cs_mode cs_bad].
    rewrite (proj2 (Ascii.eqb_neq _ _) Hq), (proj2 (Ascii.eqb_neq _ _) Hb). apply IH.
  - rewrite !cscan_cons. apply IH.
Qed.
Lemma cscan_string s b : jchars s b -> forall comma bad, cscan (dquote :: b ++ [dquote]) (mk_cs OutStr comma bad) = mk_cs OutStr false bad.
Proof.
  intros H comma bad. rewrite cscan_cons, cscan_app. change (cstep (mk_cs OutStr comma bad) dquote) with (mk_cs InStr false bad).
  rewrite (cscan_chars _ _ H). reflexivity.
Qed.
Lemma cscan_digits z t : jdigits z t -> forall comma bad, cscan t (mk_cs OutStr comma bad) = mk_cs OutStr false bad.
Proof.
  induction 1 as [c d Hd|z t c d H IH Hd]; intros comma bad.
  - destruct c as [[] [] [] [] [] [] [] []]; simpl in Hd; try discriminate Hd; reflexivity.
  - rewrite cscan_app, IH. destruct c as [[] [] [] [] [] [] [] []]; simpl in Hd; try discriminate Hd; reflexivity.
Qed.
Definition cquiet (t : str) : Prop := forall comma bad, cscan t (mk_cs OutStr comma bad) = mk_cs OutStr false bad.
Lemma cquiet_member k kb w1 w2 w3 t w4 : ws w1 -> jchars k kb -> ws w2 -> ws w3 -> cquiet t -> ws w4 ->
  cquiet (w1 ++ dquote :: kb ++ dquote :: w2 ++ ":"%char :: w3 ++ t ++ w4).
Proof.
  intros H1 Hk H2 H3 Ht H4 comma bad. rewrite cscan_app, (cscan_ws _ H1) by reflexivity.
  replace (dquote :: kb ++ dquote :: w2 ++ ":"%char :: w3 ++ t ++ w4) with ((dquote :: kb ++ [dquote]) ++ w2 ++ ":"%char :: w3 ++ t ++ w4)
    by (cbn [app]; rewrite <- app_assoc; reflexivity).
  rewrite cscan_app, (cscan_string _ _ Hk), cscan_app, (cscan_ws _ H2), cscan_cons by reflexivity.
  change (cstep (mk_cs OutStr false bad) ":"%char) with (mk_cs OutStr false bad).
  rewrite cscan_app, (cscan_ws _ H3), cscan_app, Ht, (cscan_ws _ H4) by reflexivity. reflexivity.
Qed.
Lemma json_cquiet :
  (forall v t, jval v t -> cquiet t) /\ (forall l t, jelems l t -> cquiet t) /\ (forall l t, jmembers l t -> cquiet t).
Proof.
  apply (json_mutind (fun _ t => cquiet t) (fun _ t => cquiet t) (fun _ t => cquiet t)).
  - intros comma bad. reflexivity.
  - intros comma bad. reflexivity.
  - intros comma bad. reflexivity.
  - intros z t [[H _]|(t' & -> & [H _])] comma bad; [eapply cscan_digits; eauto|]. rewrite cscan_cons. eapply cscan_digits; eauto.
  - intros s b H comma bad. eapply cscan_string; eauto.
  - intros w H comma bad. rewrite cscan_cons, cscan_app.
    change (cstep (mk_cs OutStr comma bad) "["%char) with (mk_cs OutStr false bad). rewrite (cscan_ws _ H) by reflexivity. reflexivity.
  - intros l t _ H comma bad. rewrite cscan_cons, cscan_app.
    change (cstep (mk_cs OutStr comma bad) "["%char) with (mk_cs OutStr false bad). rewrite H. reflexivity.
  - intros w H comma bad. rewrite cscan_cons, cscan_app.
    change (cstep (mk_cs OutStr comma bad) "{"%char) with (mk_cs OutStr false bad). rewrite (cscan_ws _ H) by reflexivity.
    change (mk_cs OutStr false (bad || false) = mk_cs OutStr false bad). rewrite orb_false_r. reflexivity.
  - intros l t _ H comma bad. rewrite cscan_cons, cscan_app.
    change (cstep (mk_cs OutStr comma bad) "{"%char) with (mk_cs OutStr false bad). rewrite H.
    change (mk_cs OutStr false (bad || false) = mk_cs OutStr false bad). rewrite orb_false_r. reflexivity.
  - intros v w1 t w2 H1 _ H H2 comma bad. rewrite cscan_app, (cscan_ws _ H1), cscan_app, H, (cscan_ws _ H2) by reflexivity. reflexivity.
  - intros v w1 t w2 l tl H1 _ H H2 _ Hl comma bad.
    rewrite cscan_app, (cscan_ws _ H1), cscan_app, H, cscan_app, (cscan_ws _ H2), cscan_cons by reflexivity. apply Hl.
  - intros. apply (cquiet_member k); assumption.
  - intros k kb v w1 w2 w3 t w4 l tl H1 Hk H2 H3 _ Ht H4 _ Hl comma bad.
    replace (w1 ++ dquote :: kb ++ dquote :: w2 ++ ":"%char :: w3 ++ t ++ w4 ++ ","%char :: tl)
      with ((w1 ++ dquote :: kb ++ dquote :: w2 ++ ":"%char :: w3 ++ t ++ w4) ++ ","%char :: tl)
      by (repeat (rewrite <- app_assoc; cbn [app]); reflexivity).
    rewrite cscan_app, (cquiet_member k) by assumption. rewrite cscan_cons. apply Hl.
Qed.
Lemma valid_cquiet t : valid_json t -> cs_bad (cscan t (mk_cs OutStr false false)) = false.
Proof.
  intros (v & w1 & t' & w2 & H1 & H & H2 & ->).
  rewrite cscan_app, (cscan_ws _ H1), cscan_app, (proj1 json_cquiet _ _ H), (cscan_ws _ H2) by reflexivity. reflexivity.
Qed.
(** A text with ",}" after a part that ends outside strings is not JSON. *)
Lemma comma_brace_invalid pre post : ss_mode (scan pre (mk_ss OutStr 0 0 false)) = OutStr -> ~ valid_json (pre ++ L ",}" ++ post).
Proof.
  intros Hm H. apply valid_cquiet in H. rewrite cscan_app, cscan_app in H.
  assert (Hc : cs_mode (cscan pre (mk_cs OutStr false false)) = OutStr).
  { transitivity (ss_mode (scan pre (mk_ss OutStr 0 0 false))); [|exact Hm]. apply cscan_mode. reflexivity. }
  destruct (cscan pre (mk_cs OutStr false false)) as [m c b]. cbn in Hc. subst m.
  rewrite cscan_bad in H; [discriminate|].
  change (b || true = true). apply orb_true_r.
Qed.

(** ** Stack traces of any type *)
Definition stacktrace_members (s : stacktrace) : list (str * json) :=
  match s with
  | SCore s => core_members s | SPython s => python_members s | SKoops s => koops_members s
  | SJava s => java_members s | SRuby s => ruby_members s | SJs s => js_members s | SGdb _ => []
  end.
Lemma stacktrace_jval s t : sr_stacktrace_to_json s = Some t -> valid_json t -> jval (JObj (stacktrace_members s)) t.
Proof.
  destruct s as [s|s|s|s|s|s|s]; cbn [sr_stacktrace_to_json stacktrace_members]; intros E H; try discriminate;
    assert (E' : t = t) by reflexivity; injection E as <-.
  - apply core_valid_iff in H as [? ?]. apply core_jval; assumption.
  - apply python_valid_iff in H as [? ?]. apply python_jval; assumption.
  - apply koops_valid_iff in H. apply koops_jval; assumption.
  - apply java_valid_iff in H. apply java_jval; assumption.
  - apply ruby_valid_iff in H as [? ?]. apply ruby_jval; assumption.
  - apply js_valid_iff in H as [? ?]. apply js_jval; assumption.
Qed.
Lemma stacktrace_eff s t : sr_stacktrace_to_json s = Some t -> exists x y b, eff t x y b.
Proof.
  destruct s as [s|s|s|s|s|s|s]; cbn [sr_stacktrace_to_json]; intros E; try discriminate; injection E as <-.
  - do 3 eexists. apply core_eff.
  - do 3 eexists. apply python_eff.
  - do 3 eexists. apply koops_eff.
  - destruct (vs_threads s) as [|th ths] eqn:E.
    + exists 0, 0, false. apply valid_json_neutral, java_valid_iff. unfold java_safe, java_frames. rewrite E. split; constructor.
    + rewrite java_text by (rewrite E; discriminate).
      pose proof (eff_frames (L "threads") java_thread_to_json (fun _ => 0) java_thread_unsafe 8 (vs_threads s) eq_refl
        (fun t _ => java_thread_eff t)) as G. rewrite E in *. cbv iota in G. do 3 eexists.
      apply eff_close_object; [apply comma_start_cons|]. exact G.
  - do 3 eexists. apply ruby_eff.
  - do 3 eexists. apply js_eff.
Qed.
Lemma stacktrace_neutral s t : sr_stacktrace_to_json s = Some t -> neutral t -> valid_json t.
Proof.
  destruct s as [s|s|s|s|s|s|s]; cbn [sr_stacktrace_to_json]; intros E H; try discriminate; injection E as <-.
  - apply core_valid_iff, core_neutral, H.
  - apply python_valid_iff, python_neutral, H.
  - apply koops_valid_iff, koops_neutral, H.
  - apply java_valid_iff, java_neutral, H.
  - apply ruby_valid_iff, ruby_neutral, H.
  - apply js_valid_iff, js_neutral, H.
Qed.
Lemma close_object_shape t : exists m, close_object t = "{"%char :: m ++ L "}".
Proof. destruct t as [|c t]; [exists []; reflexivity|exists t; reflexivity]. Qed.
Lemma stacktrace_shape s t : sr_stacktrace_to_json s = Some t -> exists m, t = "{"%char :: m ++ L "}".
Proof.
  destruct s as [s|s|s|s|s|s|s]; cbn [sr_stacktrace_to_json]; intros E; try discriminate; injection E as <-.
  - rewrite core_text. apply close_object_shape.
  - apply close_object_shape.
  - apply close_object_shape.
  - unfold java_stacktrace_to_json. set (A := match vs_threads s with [] => _ | _ => _ end). set (B := array_loop _).
    exists (L "   ""threads"":" ++ A ++ B). change (L "{   ""threads"":") with ("{"%char :: L "   ""threads"":").
    rewrite <- !app_assoc. reflexivity.
  - apply close_object_shape.
  - apply close_object_shape.
Qed.
Lemma dismantle_shape m : dismantle_object (Some ("{"%char :: m ++ L "}")) = Ok (","%char :: m).
Proof. unfold dismantle_object. change (L "}") with ["}"%char]. rewrite last_last, removelast_last. reflexivity. Qed.
(** the effect of the part between the braces *)
Lemma eff_inner m x y b : eff ("{"%char :: m ++ L "}") x y b -> eff m x y b.
Proof.
  intros H br bk bad. specialize (H (br - 1) bk bad). rewrite scan_cons, scan_app in H.
  change (step (mk_ss OutStr (br - 1) bk bad) "{"%char) with (mk_ss OutStr (br - 1 + 1) bk bad) in H.
  replace (br - 1 + 1) with br in H by lia.
  destruct (scan m (mk_ss OutStr br bk bad)) as [md br' bk' bad'].
  destruct md; cbn in H; [|discriminate|discriminate]. injection H as H1 H2 H3. f_equal; [lia|exact H2|exact H3].
Qed.
Lemma stacktrace_nonempty s t : sr_stacktrace_to_json s = Some t -> valid_json t -> t <> L "{}" -> stacktrace_members s <> [].
Proof.
  intros E H Hn E0. pose proof (stacktrace_jval s t E H) as Hj. rewrite E0 in Hj.
  destruct s as [s|s|s|s|s|s|s]; cbn [sr_stacktrace_to_json stacktrace_members] in *; try discriminate; injection E as <-.
  - unfold python_members in E0. destruct (ps_exception_name s) eqn:E1, (ps_frames s) eqn:E2; try discriminate.
    apply Hn. unfold python_stacktrace_to_json. rewrite E1, E2. reflexivity.
  - unfold koops_members in E0. apply app_eq_nil in E0 as [_ E0]. apply app_eq_nil in E0 as [_ E0]. discriminate.
  - unfold ruby_members in E0. destruct (rs_exception_name s) eqn:E1, (rs_frames s) eqn:E2; try discriminate.
    apply Hn. unfold ruby_stacktrace_to_json. rewrite E1, E2. reflexivity.
  - unfold js_members in E0. destruct (js_exception_name s) eqn:E1, (js_frames s) eqn:E2, (js_platform s =? 0) eqn:E3; try discriminate.
    apply Hn. unfold js_stacktrace_to_json. rewrite E1, E2, E3. reflexivity.
Qed.
(** members as comma-prefixed fields *)
Lemma members_fields l r : jmembers l r -> jfields l (","%char :: r).
Proof.
  induction 1 as [k kb v w1 w2 w3 t w4|k kb v w1 w2 w3 t w4 l tl H1 H2 H3 H4 H5 H6 H7 IH].
  - rewrite <- (app_nil_r w4). apply jf_cons; auto. constructor.
  - apply jf_cons; auto.
Qed.
Lemma object_fields l m : l <> [] -> jval (JObj l) ("{"%char :: m ++ L "}") -> jfields l (","%char :: m).
Proof.
  intros Hne H. inversion H as [| | | | | |l' t Ht|w Hw|l' t Ht]; subst.
  - congruence.
  - match goal with E : _ ++ _ = _ ++ _ |- _ => apply app_inj_tail in E as [<- _] end. apply members_fields. exact Ht.
Qed.

(** Reading: members in front that have other names make no difference. *)
Definition stacktrace_keys : list str :=
  [L "signal"; L "executable"; L "only_crash_thread"; L "stacktrace"; L "exception_name"; L "threads"; L "version"; L "raw_oops"; L "taint_flags"; L "modules"; L "frames"].
Lemma jget_prefix pre m k : jget k pre = None -> jget k (pre ++ m) = jget k m.
Proof. intros H. rewrite jget_app, H. destruct (jget k m); reflexivity. Qed.
Lemma stacktrace_reads_prefix pre s :
  (forall k, In k stacktrace_keys -> jget k pre = None) ->
  stacktrace_range s -> (forall k, s = SKoops k -> koops_modules_fit k) -> read_with_stacktrace (stacktrace_type s) = true ->
  sr_stacktrace_from_json (stacktrace_type s) (JObj (pre ++ stacktrace_members s)) = Ok (Some (stacktrace_as_read s)).
Proof.
  intros Hk Hr Hm Ht. unfold stacktrace_keys in Hk.
  assert (K : forall k, In k stacktrace_keys -> forall m, jget k (pre ++ m) = jget k m).
  { intros k Hin m. apply jget_prefix, Hk, Hin. }
  destruct s as [s|s|s|s|s|s|s]; cbn [stacktrace_type stacktrace_members stacktrace_as_read stacktrace_range] in *; try discriminate Ht.
  - apply core_back in Hr. apply core_reads in Hr. change (sr_stacktrace_from_json 1 ?j) with (to_option SCore (core_stacktrace_from_json j)).
    replace (core_stacktrace_from_json (JObj (pre ++ core_members s))) with (core_stacktrace_from_json (JObj (core_members s))); [rewrite Hr; reflexivity|].
    unfold core_stacktrace_from_json, json_read_uint16, json_read_string, json_read_bool, json_read.
    rewrite !K by (cbn; tauto). reflexivity.
  - apply python_back in Hr. apply python_reads in Hr. change (sr_stacktrace_from_json 2 ?j) with (to_option SPython (python_stacktrace_from_json j)).
    replace (python_stacktrace_from_json (JObj (pre ++ python_members s))) with (python_stacktrace_from_json (JObj (python_members s))); [rewrite Hr; reflexivity|].
    unfold python_stacktrace_from_json, read_array, json_read_string, json_read. rewrite !K by (cbn; tauto). reflexivity.
  - apply koops_back in Hr. pose proof (proj2 (koops_reads _ _) (conj Hr (Hm _ eq_refl))) as Hr'.
    change (sr_stacktrace_from_json 3 ?j) with (to_option SKoops (koops_stacktrace_from_json j)).
    replace (koops_stacktrace_from_json (JObj (pre ++ koops_members s))) with (koops_stacktrace_from_json (JObj (koops_members s))); [rewrite Hr'; reflexivity|].
    unfold koops_stacktrace_from_json, read_array, json_read_string, json_read. rewrite !K by (cbn; tauto). reflexivity.
  - apply java_back in Hr. apply java_reads in Hr. change (sr_stacktrace_from_json 4 ?j) with (to_option SJava (java_stacktrace_from_json j)).
    replace (java_stacktrace_from_json (JObj (pre ++ java_members s))) with (java_stacktrace_from_json (JObj (java_members s))); [rewrite Hr; reflexivity|].
    unfold java_stacktrace_from_json, read_array. rewrite !K by (cbn; tauto). reflexivity.
  - apply ruby_back in Hr. apply ruby_reads in Hr. change (sr_stacktrace_from_json 6 ?j) with (to_option SRuby (ruby_stacktrace_from_json j)).
    replace (ruby_stacktrace_from_json (JObj (pre ++ ruby_members s))) with (ruby_stacktrace_from_json (JObj (ruby_members s))); [rewrite Hr; reflexivity|].
    unfold ruby_stacktrace_from_json, read_array, json_read_string, json_read. rewrite !K by (cbn; tauto). reflexivity.
Qed.
(** The members of a stack trace are not those of the problem. *)
Lemma stacktrace_members_none s k : In k [L "type"; L "component"; L "user"; L "serial"] -> jget k (stacktrace_members s) = None.
Proof.
  intros Hk. destruct s as [s|s|s|s|s|s|s]; cbn [stacktrace_members];
  destruct Hk as [<-|[<-|[<-|[<-|[]]]]]; try reflexivity;
  unfold core_members, python_members, koops_members, java_members, ruby_members, js_members; try destruct (ks_modules s); lookup; reflexivity.
Qed.
