(** * Proofs about reports. *)
From Verif Require Import Base UtilsModel UtilsProofs JsonSpec JsonModel JsonProofs JsonScan Types JsonTypesModel JsonTypesSpec JsonReaders JsonWriters JsonRoundtrip JsonRoundtrip2 JsonRoundtrip3 TextModel SystemModel ReportModel ReportSpec ReportProofs ReportProofs2 ReportProofs3.
Open Scope Z_scope.

(** ** The text in one piece *)
Definition user_text (root local : bool) : str :=
  L "{   ""root"": " ++ json_bool root ++ nl :: L "            ,   ""local"": " ++ json_bool local ++ nl :: L "            }".
Definition problem_fields (r : report) (type : str) : str :=
  fld (L "type") (json_quoted type) ++ fld_str (L "component") (rep_component r) ++
  (if Nat.eqb (rep_type r) REPORT_KERNELOOPS then [] else fld (L "user") (user_text (rep_user_root r) (rep_user_local r))) ++
  fld (L "serial") (dec (rep_serial r)).
Definition reporter_text (name version : str) : str :=
  close_object (fld (L "name") (dquote :: name ++ [dquote]) ++ fld (L "version") (dquote :: version ++ [dquote])).
Definition head_fields (r : report) (reason name version : str) : str :=
  fld (L "ureport_version") (dec (rep_version r)) ++ fld (L "reason") (json_quoted reason) ++
  fld (L "reporter") (sr_indent_except_first_line (reporter_text name version) 16) ++
  (match rep_os r with
   | None => []
   | Some os => fld (L "os") (sr_indent_except_first_line (sr_operating_system_to_json os) 10)
   end).
Definition packages_field (r : report) : str :=
  match rep_packages r with
  | [] => fld (L "packages") (L "[]")
  | l => fld (L "packages") (sr_indent_except_first_line (rpm_packages_to_json l) 16)
  end.
Definition report_text (r : report) (type reason name version st : str) : str :=
  close_object (head_fields r reason name version ++
    fld (L "problem") (sr_indent_except_first_line (close_object (problem_fields r type ++ st)) 15) ++
    packages_field r ++ auth_object (rep_auth r)).
Lemma problem_text r type st : match rep_stacktrace r with None => Ok [] | Some s => dismantle_object (sr_stacktrace_to_json s) end = Ok st ->
  problem_object_string r type = Ok (close_object (problem_fields r type ++ st)).
Proof.
  intros E. unfold problem_object_string. rewrite E. cbn [bind]. f_equal. unfold problem_fields. rewrite <- !app_assoc, close_fld.
  destruct (Nat.eqb (rep_type r) REPORT_KERNELOOPS).
  - rewrite <- !app_assoc. reflexivity.
  - unfold user_text, fld. rewrite <- !app_assoc. cbn [app]. rewrite <- !app_assoc. cbn [app]. rewrite <- !app_assoc. reflexivity.
Qed.
Lemma reporter_text_eq name version :
  L "{   ""name"": """ ++ name ++ L """" ++ nl :: L ",   ""version"": """ ++ version ++ L """" ++ nl :: L "}" = reporter_text name version.
Proof.
  unfold reporter_text. rewrite close_fld. unfold fld. cbn [app]. rewrite <- !app_assoc. cbn [app]. rewrite <- !app_assoc. reflexivity.
Qed.
Lemma to_json_text r type reason name version st :
  type_and_reason r = Ok (type, reason) -> rep_reporter_name r = Some name -> rep_reporter_version r = Some version ->
  match rep_stacktrace r with None => Ok [] | Some s => dismantle_object (sr_stacktrace_to_json s) end = Ok st ->
  sr_report_to_json r = Ok (report_text r type reason name version st).
Proof.
  intros E1 E2 E3 E4. unfold sr_report_to_json. rewrite E1, E2, E3. cbn [bind percent_s fst snd]. rewrite (problem_text r type st E4). cbn [bind].
  cbv zeta. rewrite reporter_text_eq.
  change (length (L ",   ""reporter"": ")) with 16%nat. change (length (L ",   ""os"": ")) with 10%nat.
  change (length (L ",   ""problem"": ")) with 15%nat. change (length (L ",   ""packages"": ")) with 16%nat.
  f_equal. unfold report_text, head_fields, packages_field. rewrite <- !app_assoc, close_fld.
  set (X := fld (L "reason") _). set (Y := fld (L "reporter") _). set (Z := match rep_os r with None => _ | _ => _ end).
  set (P := fld (L "problem") _). set (Q := match rep_packages r with [] => _ | _ => _ end). set (A := auth_object _).
  rewrite <- !app_assoc. reflexivity.
Qed.
Lemma type_and_reason_iff r type reason : type_and_reason r = Ok (type, reason) <-> report_reason r reason /\ type = type_name (rep_type r).
Proof.
  unfold type_and_reason, report_reason.
  change [REPORT_CORE; REPORT_PYTHON; REPORT_KERNELOOPS; REPORT_JAVA; REPORT_RUBY; REPORT_JAVASCRIPT] with [1; 2; 3; 4; 6; 7]%nat.
  destruct (existsb (Nat.eqb (rep_type r)) [1; 2; 3; 4; 6; 7]%nat) eqn:E.
  - assert (T : sr_report_type_to_string (rep_type r) = type_name (rep_type r)).
    { apply existsb_exists in E as (n & Hin & En). apply Nat.eqb_eq in En. rewrite En.
      destruct Hin as [<-|[<-|[<-|[<-|[<-|[<-|[]]]]]]]; reflexivity. }
    split.
    + destruct (rep_stacktrace r) as [s|]; [|discriminate]. destruct (sr_stacktrace_get_reason s) as [[t|]| |] eqn:Er; try discriminate.
      cbn [bind percent_s]. intros H. injection H as <- <-. split; [|exact T]. exists s. split; [reflexivity|]. apply reason_iff. exact Er.
    + intros [(s & -> & Hs) ->]. apply reason_iff in Hs. rewrite Hs. cbn [bind percent_s]. rewrite T. reflexivity.
  - assert (T : type_name (rep_type r) = L "invalid").
    { destruct (rep_type r) as [|[|[|[|[|[|[|[|]]]]]]]]; try discriminate E; reflexivity. }
    rewrite T. split; [intros H; injection H as <- <-; auto|intros [-> ->]; reflexivity].
Qed.
Lemma report_reason_unique r a b : report_reason r a -> report_reason r b -> a = b.
Proof.
  unfold report_reason. destruct (existsb _ _); [|congruence].
  intros (s & E & _ & H) (s' & E' & _ & H'). rewrite E in E'. injection E' as <-. eapply reason_says_unique; eauto.
Qed.
Lemma type_and_reason_UB r : (forall reason, ~ report_reason r reason) -> type_and_reason r = UB.
Proof.
  intros H. destruct (type_and_reason r) as [[t s]| |] eqn:E; [|exfalso|reflexivity].
  - apply type_and_reason_iff in E as [E _]. exfalso. eapply H; eauto.
  - unfold type_and_reason in E. destruct (existsb _ _); [|discriminate]. destruct (rep_stacktrace r) as [s|]; [|discriminate].
    destruct (sr_stacktrace_get_reason s) as [[t|]| |] eqn:Er; try discriminate.
    destruct (reason_defined_dec s) as [D|D]; [|apply reason_undefined in D; congruence].
    assert (G : forall g, s <> SGdb g) by (intros g ->; discriminate Er). destruct (reason_exists s G D) as (? & ? & _). congruence.
Qed.

(** When the text is produced at all. *)
Definition not_gdb (r : report) : Prop := forall g, rep_stacktrace r <> Some (SGdb g).
Lemma stacktrace_part r : not_gdb r -> exists st,
  match rep_stacktrace r with None => Ok [] | Some s => dismantle_object (sr_stacktrace_to_json s) end = Ok st /\
  ((rep_stacktrace r = None /\ st = []) \/
   exists s m, rep_stacktrace r = Some s /\ sr_stacktrace_to_json s = Some ("{"%char :: m ++ L "}") /\ st = ","%char :: m).
Proof.
  intros H. unfold not_gdb in H. destruct (rep_stacktrace r) as [s|]; [|eexists; split; [reflexivity|left; auto]].
  assert (exists t, sr_stacktrace_to_json s = Some t) as (t & E) by (destruct s; cbn; eauto; exfalso; eapply H; reflexivity).
  destruct (stacktrace_shape s t E) as (m & ->). rewrite E, dismantle_shape. eexists. split; [reflexivity|]. right. exists s, m. auto.
Qed.
Lemma report_defined_iff r : (exists t, sr_report_to_json r = Ok t) <->
  rep_reporter_name r <> None /\ rep_reporter_version r <> None /\ not_gdb r /\ exists reason, report_reason r reason.
Proof.
  split.
  - intros (t & E). unfold sr_report_to_json in E. destruct (type_and_reason r) as [[ty re]| |] eqn:E1; try discriminate. cbn [bind] in E.
    destruct (rep_reporter_name r); [|discriminate]. destruct (rep_reporter_version r); [|discriminate]. cbn [percent_s bind] in E.
    split; [discriminate|]. split; [discriminate|]. split.
    + intros g Eg. unfold problem_object_string in E. rewrite Eg in E. discriminate.
    + apply type_and_reason_iff in E1 as [E1 _]. eauto.
  - intros (H1 & H2 & H3 & reason & H4). destruct (rep_reporter_name r) as [n|] eqn:E1; [|congruence].
    destruct (rep_reporter_version r) as [v|] eqn:E2; [|congruence]. destruct (stacktrace_part r H3) as (st & Est & _).
    eexists. eapply to_json_text; eauto. apply type_and_reason_iff. eauto.
Qed.
Lemma report_not_Fail r : sr_report_to_json r <> Fail.
Proof.
  unfold sr_report_to_json. destruct (type_and_reason r) as [[ty re]| |] eqn:E1; [|exfalso|discriminate].
  - cbn [bind]. destruct (rep_reporter_name r); [|discriminate]. destruct (rep_reporter_version r); [|discriminate]. cbn [percent_s bind].
    unfold problem_object_string. destruct (rep_stacktrace r) as [s|]; [|discriminate]. unfold dismantle_object.
    destruct (sr_stacktrace_to_json s) as [[|c t]|]; try discriminate. destruct (_ && _); discriminate.
  - assert (type_and_reason r = UB); [|congruence]. apply type_and_reason_UB. intros reason H.
    rewrite (proj2 (type_and_reason_iff r _ reason) (conj H eq_refl)) in E1. discriminate.
Qed.

(** ** The value *)
Lemma json_bool_jval b : jval (JBool b) (json_bool b).
Proof. destruct b; constructor. Qed.
Lemma plain_jchars s : plain s -> jchars s s.
Proof. induction 1 as [|c s (H1 & H2 & H3) H IH]; constructor; auto. Qed.
Lemma user_jval root local : jval (JObj [(L "root", JBool root); (L "local", JBool local)]) (user_text root local).
Proof.
  unfold user_text.
  set (w := nl :: spaces 12).
  replace (L "{   ""root"": " ++ json_bool root ++ nl :: L "            ,   ""local"": " ++ json_bool local ++ nl :: L "            }")
    with ("{"%char :: (spaces 3 ++ dquote :: L "root" ++ dquote :: [] ++ ":"%char :: [sp] ++ json_bool root ++ w ++ ","%char ::
            (spaces 3 ++ dquote :: L "local" ++ dquote :: [] ++ ":"%char :: [sp] ++ json_bool local ++ w)) ++ L "}").
  - assert (Hw : ws w) by (constructor; [right; right; left; reflexivity|apply (ws_spaces 12)]).
    assert (Hs : ws [sp]) by apply (ws_spaces 1).
    apply jv_obj. apply jm_more; auto using (ws_spaces 3), ws_nil, json_bool_jval; [apply plain_key_jchars; reflexivity|].
    apply jm_one; auto using (ws_spaces 3), ws_nil, json_bool_jval. apply plain_key_jchars; reflexivity.
  - destruct root, local; reflexivity.
Qed.
Ltac assoc := repeat (rewrite <- app_assoc; cbn [app]); reflexivity.
Lemma auth_members l : forall k v w, ws w -> json_safe k -> json_safe v -> Forall (fun e => json_safe (fst e) /\ json_safe (snd e)) l ->
  jmembers (map (fun e => (fst e, JStr (snd e))) ((k, v) :: l))
    (w ++ json_quoted k ++ L ": " ++ json_quoted v ++ nl :: auth_items l ++ L "            ").
Proof.
  induction l as [|[k2 v2] l IH]; intros k v w Hw Hk Hv Hl; cbn [map fst snd auth_items].
  - replace (w ++ json_quoted k ++ L ": " ++ json_quoted v ++ nl :: [] ++ L "            ")
      with (w ++ dquote :: sr_json_escape k ++ dquote :: [] ++ ":"%char :: [sp] ++ json_quoted v ++ (nl :: spaces 12)).
    + apply jm_one; auto using ws_nil, (ws_spaces 1), json_escape_correct, jv_quoted.
      constructor; [right; right; left; reflexivity|apply (ws_spaces 12)].
    + unfold json_quoted. f_equal. cbn [app]. assoc.
  - inversion Hl as [|? ? [Hk2 Hv2] Hl']; subst. cbn [fst snd] in *.
    replace (w ++ json_quoted k ++ L ": " ++ json_quoted v ++ nl :: (L "            ,   " ++ json_quoted k2 ++ L ": " ++ json_quoted v2 ++ nl :: auth_items l) ++ L "            ")
      with (w ++ dquote :: sr_json_escape k ++ dquote :: [] ++ ":"%char :: [sp] ++ json_quoted v ++ (nl :: spaces 12) ++ ","%char ::
             (spaces 3 ++ json_quoted k2 ++ L ": " ++ json_quoted v2 ++ nl :: auth_items l ++ L "            ")).
    + apply jm_more; auto using ws_nil, (ws_spaces 1), json_escape_correct, jv_quoted.
      * constructor; [right; right; left; reflexivity|apply (ws_spaces 12)].
      * apply IH; auto. apply (ws_spaces 3).
    + set (A := auth_items l). unfold json_quoted. f_equal. cbn [app]. assoc.
Qed.
Lemma auth_fields l : Forall (fun e => json_safe (fst e) /\ json_safe (snd e)) l ->
  jfields (match l with [] => [] | l => [(L "auth", JObj (map (fun e => (fst e, JStr (snd e))) l))] end) (auth_object l).
Proof.
  destruct l as [|[k v] l]; intros H; [constructor|]. inversion H as [|? ? [Hk Hv] Hl]; subst. cbn [fst snd] in *.
  replace (auth_object ((k, v) :: l))
    with (","%char :: spaces 3 ++ dquote :: L "auth" ++ dquote :: [] ++ ":"%char :: [sp] ++
           ("{"%char :: (spaces 3 ++ json_quoted k ++ L ": " ++ json_quoted v ++ nl :: auth_items l ++ L "            ") ++ L "}") ++ [sp] ++ []).
  - apply jf_cons; auto using (ws_spaces 3), ws_nil, (ws_spaces 1); [apply plain_key_jchars; reflexivity| |constructor].
    apply jv_obj. apply auth_members; auto. apply (ws_spaces 3).
  - unfold auth_object. set (A := auth_items l). unfold json_quoted. cbn [app]. assoc.
Qed.
Lemma type_name_safe t : json_safe (type_name t).
Proof.
  apply unsafe_safe. destruct t as [|[|[|[|[|[|[|[|]]]]]]]]; reflexivity.
Qed.
Lemma reporter_jval n v : plain n -> plain v -> jval (JObj [(L "name", JStr n); (L "version", JStr v)]) (reporter_text n v).
Proof.
  intros Hn Hv. unfold reporter_text. apply close_object_jval.
  apply (jfields_app [(L "name", JStr n)]); apply jfields_fld; try reflexivity; constructor; apply plain_jchars; assumption.
Qed.
Definition problem_members (r : report) : list (str * json) :=
  [(L "type", JStr (type_name (rep_type r)))] ++ opt_member (L "component") (rep_component r) ++
  (if Nat.eqb (rep_type r) 3 then []
   else [(L "user", JObj [(L "root", JBool (rep_user_root r)); (L "local", JBool (rep_user_local r))])]) ++
  [(L "serial", JInt (rep_serial r))].
Lemma problem_fields_ok r : opt_safe (rep_component r) -> 0 <= rep_serial r -> jfields (problem_members r) (problem_fields r (type_name (rep_type r))).
Proof.
  intros Hc Hs. unfold problem_members, problem_fields. repeat apply jfields_app.
  - apply jfields_fld; [reflexivity|]. apply jv_quoted, type_name_safe.
  - apply jfields_str; [reflexivity|exact Hc].
  - change REPORT_KERNELOOPS with 3%nat. destruct (Nat.eqb (rep_type r) 3); [constructor|]. apply jfields_fld; [reflexivity|apply user_jval].
  - apply jfields_fld; [reflexivity|]. rewrite dec_print by exact Hs. apply jv_print_Z.
Qed.
Lemma report_text_jval r reason n v members st :
  rep_reporter_name r = Some n -> rep_reporter_version r = Some v -> plain n -> plain v ->
  report_range r -> report_safe r -> json_safe reason -> jfields members st ->
  jval (report_value r reason members) (report_text r (type_name (rep_type r)) reason n v st).
Proof.
  intros En Ev Hn Hv ([Rv _] & [Rs _] & Ro & Rp & _) (So & Sc & Sp & Sa) Hr Hm. unfold report_value, report_text, head_fields. apply close_object_jval.
  rewrite En, Ev. cbn [opt_member app].
  change ((L "ureport_version", JInt (rep_version r)) :: ?b :: ?c :: ?x) with ([(L "ureport_version", JInt (rep_version r))] ++ [b] ++ [c] ++ x).
  rewrite <- !app_assoc.
  apply jfields_app; [apply jfields_fld; [reflexivity|rewrite dec_print by exact Rv; apply jv_print_Z]|].
  apply jfields_app; [apply jfields_fld; [reflexivity|apply jv_quoted, Hr]|].
  apply jfields_app; [apply jfields_fld; [reflexivity|apply jval_indent, reporter_jval; assumption]|].
  apply jfields_app.
  { destruct (rep_os r) as [os|]; [|constructor]. apply jfields_fld; [reflexivity|]. apply jval_indent, os_jval; [apply So; reflexivity|apply Ro; reflexivity]. }
  change (?b :: (L "packages", ?p) :: ?x) with ([b] ++ [(L "packages", p)] ++ x).
  apply jfields_app.
  { apply jfields_fld; [reflexivity|]. apply jval_indent, close_object_jval.
    change ((L "type", JStr (type_name (rep_type r))) :: ?x) with ([(L "type", JStr (type_name (rep_type r)))] ++ x).
    match goal with |- jfields ?l _ => replace l with (problem_members r ++ members) by (unfold problem_members; rewrite <- !app_assoc; reflexivity) end.
    apply jfields_app; [apply problem_fields_ok; assumption|exact Hm]. }
  apply jfields_app; [|pose proof (auth_fields _ Sa) as Q; destruct (rep_auth r); exact Q].
  unfold packages_field. destruct (rep_packages r) as [|p ps] eqn:Ep.
  - apply jfields_fld; [reflexivity|]. apply (jv_arr0 []). constructor.
  - apply jfields_fld; [reflexivity|]. apply jval_indent. apply packages_jval; [discriminate|exact Sp|exact Rp].
Qed.

(** ** Well-formedness *)
Lemma eff_fld_any k t x y b : plain_key k = true -> eff t x y b -> eff (fld k t) x y b.
Proof. apply eff_fld. Qed.
Definition os_part (r : report) : bool := match rep_os r with Some os => os_unsafe os | None => false end.
Definition auth_unsafe (l : list (str * str)) : bool := existsb (fun e => unsafe (fst e) || unsafe (snd e)) l.
Lemma auth_items_eff l : eff (auth_items l) 0 0 (auth_unsafe l).
Proof.
  induction l as [|[k v] l IH]; [apply neutral_nil|]. cbn [auth_items auth_unsafe existsb fst snd].
  eapply eff_eq.
  - apply (eff_app _ _ 0 0 0 0); [apply neutral_plain; reflexivity|].
    apply (eff_app _ _ 0 0 0 0); [apply eff_quoted|].
    apply (eff_app _ _ 0 0 0 0); [apply neutral_plain; reflexivity|].
    apply (eff_app _ _ 0 0 0 0); [apply eff_quoted|].
    apply (eff_app [nl] _ 0 0 0 0); [apply neutral_plain; reflexivity|]. exact IH.
  - reflexivity.
  - reflexivity.
  - fold (auth_unsafe l). destruct (unsafe k), (unsafe v), (auth_unsafe l); reflexivity.
Qed.
Ltac open_brace := let br := fresh in let bk := fresh in let bad := fresh in intros br bk bad;
  match goal with |- ?a = _ => let b := eval cbv -[Z.add Z.sub] in a in change a with b end; f_equal; first [lia|destruct bad; reflexivity].
Lemma auth_eff l : eff (auth_object l) 0 0 (auth_unsafe l).
Proof.
  destruct l as [|[k v] l]; [apply neutral_nil|]. cbn [auth_object auth_unsafe existsb fst snd].
  eapply eff_eq.
  - eapply (eff_app (L ",   ""auth"": {   ") _ 1 0 _ _ false); [open_brace|].
    apply (eff_app _ _ 0 0); [apply eff_quoted|].
    apply (eff_app _ _ 0 0); [apply neutral_plain; reflexivity|].
    apply (eff_app _ _ 0 0); [apply eff_quoted|].
    apply (eff_app [nl] _ 0 0); [apply neutral_plain; reflexivity|].
    apply (eff_app _ _ 0 0); [apply auth_items_eff|].
    instantiate (1 := false). instantiate (1 := 0). instantiate (1 := -1).
    open_brace.
  - reflexivity.
  - reflexivity.
  - fold (auth_unsafe l). destruct (unsafe k), (unsafe v), (auth_unsafe l); reflexivity.
Qed.
Lemma auth_unsafe_iff l : auth_unsafe l = false <-> Forall (fun e => json_safe (fst e) /\ json_safe (snd e)) l.
Proof.
  unfold auth_unsafe. rewrite existsb_false. split; intros H; (eapply Forall_impl; [|exact H]); intros e He; cbv beta in *;
    rewrite orb_false_iff, !unsafe_safe in *; exact He.
Qed.
Lemma head_eff r reason n v : plain n -> plain v -> eff (head_fields r reason n v) 0 0 (unsafe reason || os_part r).
Proof.
  intros Hn Hv. unfold head_fields. eapply eff_eq.
  - apply (eff_app _ _ 0 0 0 0); [apply eff_fld_any; [reflexivity|apply neutral_dec]|].
    apply (eff_app _ _ 0 0 0 0); [apply eff_fld_any; [reflexivity|apply eff_quoted]|].
    apply (eff_app _ _ 0 0 0 0); [apply eff_fld_any; [reflexivity|apply eff_indent; eapply neutral_jval, reporter_jval; assumption]|].
    instantiate (1 := os_part r). unfold os_part. destruct (rep_os r); [|apply neutral_nil].
    apply eff_fld_any; [reflexivity|]. apply eff_indent, os_eff.
  - reflexivity.
  - reflexivity.
  - destruct (unsafe reason), (os_part r); reflexivity.
Qed.
Lemma problem_eff r type : unsafe type = false -> eff (problem_fields r type) 0 0 (ounsafe (rep_component r)).
Proof.
  intros Ht. unfold problem_fields. eapply eff_eq.
  - apply (eff_app _ _ 0 0 0 0); [apply eff_fld_any; [reflexivity|apply eff_quoted]|].
    apply (eff_app _ _ 0 0 0 0); [apply eff_fld_str; reflexivity|].
    apply (eff_app _ _ 0 0 0 0 false).
    + destruct (Nat.eqb (rep_type r) REPORT_KERNELOOPS); [apply neutral_nil|]. apply eff_fld_any; [reflexivity|]. eapply neutral_jval, user_jval.
    + apply eff_fld_any; [reflexivity|apply neutral_dec].
  - reflexivity.
  - reflexivity.
  - rewrite Ht. destruct (ounsafe (rep_component r)); reflexivity.
Qed.
Lemma packages_field_eff r : eff (packages_field r) 0 0 (existsb package_unsafe (rep_packages r)).
Proof.
  unfold packages_field. destruct (rep_packages r) as [|p l] eqn:E.
  - apply eff_fld_any; [reflexivity|]. apply (neutral_brackets []). apply neutral_nil.
  - apply eff_fld_any; [reflexivity|]. apply eff_indent. apply (packages_eff (p :: l)).
Qed.
Lemma head_starts r reason n v X : comma_start (head_fields r reason n v ++ X).
Proof. unfold head_fields. rewrite <- !app_assoc. right. eexists. reflexivity. Qed.
Lemma report_eff r reason n v st x y b : plain n -> plain v -> eff st x y b ->
  eff (report_text r (type_name (rep_type r)) reason n v st) x y
    ((unsafe reason || os_part r) || ((ounsafe (rep_component r) || b) || (existsb package_unsafe (rep_packages r) || auth_unsafe (rep_auth r)))).
Proof.
  intros Hn Hv Hst. unfold report_text. apply eff_close_object; [apply head_starts|].
  eapply eff_eq.
  - apply eff_app; [apply head_eff; assumption|].
    apply eff_app; [apply eff_fld_any; [reflexivity|]; apply eff_indent, eff_close_object|].
    + unfold problem_fields. rewrite <- !app_assoc. right. eexists. reflexivity.
    + apply eff_app; [apply problem_eff; apply unsafe_safe, type_name_safe|exact Hst].
    + apply eff_app; [apply packages_field_eff|apply auth_eff].
  - lia.
  - lia.
  - reflexivity.
Qed.
Lemma indent_tail a b n : forallb (fun c => negb (Ascii.eqb c nl)) b = true -> b <> [] -> exists a', sr_indent_except_first_line (a ++ b) n = a' ++ b.
Proof.
  intros Hb Hne. induction a as [|c a (a' & IH)].
  - exists []. cbn [app]. clear Hne. induction b as [|c b IH]; [reflexivity|]. cbn [forallb] in Hb. apply andb_true_iff in Hb as [H1 H2].
    cbn [sr_indent_except_first_line]. apply negb_true_iff in H1. rewrite H1, IH by exact H2. reflexivity.
  - cbn [app sr_indent_except_first_line]. destruct (Ascii.eqb c nl).
    + destruct (a ++ b) as [|d t] eqn:E; [destruct a; [cbn in E; congruence|discriminate]|]. rewrite IH.
      exists (nl :: spaces n ++ a'). cbn [app]. rewrite <- app_assoc. reflexivity.
    + rewrite IH. exists (c :: a'). reflexivity.
Qed.
Lemma out_before_comma_brace s : ss_mode (scan (L ",}") s) = OutStr -> ss_mode s = OutStr.
Proof. destruct s as [[] br bk bad]; cbv; congruence. Qed.
Lemma empty_stacktrace_invalid r reason n v : plain n -> plain v ->
  ~ valid_json (report_text r (type_name (rep_type r)) reason n v (L ",")).
Proof.
  intros Hn Hv. unfold report_text.
  set (A := problem_fields r (type_name (rep_type r))).
  assert (EA : exists A0, A = ","%char :: A0) by (unfold A, problem_fields; eexists; reflexivity). destruct EA as (A0 & EA).
  assert (EP : close_object (A ++ L ",") = ("{"%char :: A0) ++ L ",}") by (rewrite EA; cbn [app close_object]; rewrite <- app_assoc; reflexivity).
  rewrite EP. destruct (indent_tail ("{"%char :: A0) (L ",}") 15 eq_refl) as (A' & EI); [discriminate|]. rewrite EI.
  set (H0 := head_fields r reason n v). assert (EH : exists H1, H0 = ","%char :: H1) by (unfold H0, head_fields; eexists; reflexivity). destruct EH as (H1 & EH).
  set (P := packages_field r). set (U := auth_object (rep_auth r)).
  assert (ET : close_object (H0 ++ fld (L "problem") (A' ++ L ",}") ++ P ++ U) =
            ("{"%char :: H1 ++ L ",   ""problem"": " ++ A') ++ L ",}" ++ nl :: P ++ U ++ L "}").
  { rewrite EH. unfold fld. cbn [app close_object]. repeat (rewrite <- app_assoc; cbn [app]). reflexivity. }
  rewrite ET. apply comma_brace_invalid.
  rewrite scan_cons, !scan_app.
  assert (HE : eff H0 0 0 (unsafe reason || os_part r)) by (apply head_eff; assumption).
  assert (HH : forall br bk bad, ss_mode (scan H1 (mk_ss OutStr br bk bad)) = OutStr).
  { intros br bk bad. specialize (HE br bk bad). rewrite EH, scan_cons in HE.
    change (step (mk_ss OutStr br bk bad) ","%char) with (mk_ss OutStr br bk bad) in HE. rewrite HE. reflexivity. }
  change (step (mk_ss OutStr 0 0 false) "{"%char) with (mk_ss OutStr (0 + 1) 0 false).
  specialize (HH (0 + 1) 0 false). destruct (scan H1 (mk_ss OutStr (0 + 1) 0 false)) as [md br bk bad]. cbn [ss_mode] in HH. subst md.
  assert (HK : scan (L ",   ""problem"": ") (mk_ss OutStr br bk bad) = mk_ss OutStr br bk bad) by (destruct bad; reflexivity). rewrite HK.
  apply out_before_comma_brace. rewrite <- scan_app, <- EI, scan_indent.
  assert (PE : eff A 0 0 (ounsafe (rep_component r))) by (apply problem_eff; apply unsafe_safe, type_name_safe).
  specialize (PE (br + 1) bk bad). rewrite EA, scan_cons in PE.
  change (step (mk_ss OutStr (br + 1) bk bad) ","%char) with (mk_ss OutStr (br + 1) bk bad) in PE.
  rewrite scan_app, scan_cons. change (step (mk_ss OutStr br bk bad) "{"%char) with (mk_ss OutStr (br + 1) bk bad). rewrite PE. reflexivity.
Qed.
Lemma report_valid_iff r reason t : plain_reporter r -> report_range r -> report_reason r reason -> sr_report_to_json r = Ok t ->
  valid_json t <->
  report_safe r /\ json_safe reason /\ (forall s u, rep_stacktrace r = Some s -> sr_stacktrace_to_json s = Some u -> valid_json u /\ u <> L "{}").
Proof.
  intros (n & v & En & Ev & Hn & Hv) Hr Hre Ht.
  assert (Hg : not_gdb r) by (apply report_defined_iff; eauto).
  destruct (stacktrace_part r Hg) as (st & Est & Hst).
  assert (E : t = report_text r (type_name (rep_type r)) reason n v st).
  { erewrite (to_json_text r _ reason n v st) in Ht; eauto; [injection Ht as <-; reflexivity|]. apply type_and_reason_iff. auto. }
  subst t. split.
  - intros H.
    assert (HX : exists x y b, eff st x y b).
    { destruct Hst as [[_ ->]|(s & m & Es & Ej & ->)]; [exists 0, 0, false; apply neutral_nil|].
      destruct (stacktrace_eff _ _ Ej) as (x & y & b & He). apply eff_inner in He. exists x, y, b.
      apply (eff_app [","%char] m 0 0 x y false b); [apply neutral_plain; reflexivity|exact He]. }
    destruct HX as (x & y & b & He). pose proof (report_eff r reason n v st x y b Hn Hv He) as Hf.
    apply (eff_not_json _ _ _ _ Hf) in H as HZ. destruct HZ as (-> & -> & HZ). rewrite !orb_false_iff in HZ.
    destruct HZ as ((Z1 & Z2) & (Z3 & ->) & Z4 & Z5).
    split; [|split].
    + split; [|split; [|split]].
      * intros os Eo. unfold os_part in Z2. rewrite Eo in Z2. apply os_unsafe_iff. exact Z2.
      * apply ounsafe_safe. exact Z3.
      * apply packages_unsafe_iff. exact Z4.
      * apply auth_unsafe_iff. exact Z5.
    + apply unsafe_safe. exact Z1.
    + intros s u Es Eu. destruct Hst as [[E0 _]|(s' & m & Es' & Ej & ->)]; [congruence|].
      rewrite Es in Es'. injection Es' as <-. rewrite Eu in Ej. injection Ej as ->. split.
      * apply (stacktrace_neutral s _ Eu). apply neutral_braces.
        assert (Hc : neutral [","%char]) by (apply neutral_plain; reflexivity).
        intros br bk bad. specialize (He br bk bad). rewrite scan_cons in He.
        change (step (mk_ss OutStr br bk bad) ","%char) with (mk_ss OutStr br bk bad) in He. exact He.
      * intros E0. assert (m = []) by (destruct m as [|c [|]]; [reflexivity|discriminate E0|discriminate E0]). subst m.
        exact (empty_stacktrace_invalid r reason n v Hn Hv H).
  - intros (Hs & Hsr & Hss). destruct Hst as [[E0 ->]|(s & m & Es & Ej & ->)].
    + eexists. apply jval_text. apply (report_text_jval r reason n v [] []); auto. constructor.
    + destruct (Hss _ _ Es Ej) as [Hu Hne]. eexists. apply jval_text.
      apply (report_text_jval r reason n v (stacktrace_members s)); auto.
      apply object_fields; [eapply stacktrace_nonempty; eauto|]. apply stacktrace_jval; assumption.
Qed.
Lemma report_value_ok r reason members : plain_reporter r -> report_range r -> report_reason r reason -> report_safe r -> json_safe reason ->
  match rep_stacktrace r with None => members = [] | Some s => stacktrace_written s members end ->
  exists t, sr_report_to_json r = Ok t /\ json_text (report_value r reason members) t.
Proof.
  intros (n & v & En & Ev & Hn & Hv) Hr Hre Hs Hsr Hm.
  assert (Hg : not_gdb r).
  { intros g Eg. rewrite Eg in Hm. destruct Hm as (_ & t & Et & _). discriminate. }
  destruct (stacktrace_part r Hg) as (st & Est & Hst).
  eexists. split; [apply (to_json_text r (type_name (rep_type r)) reason n v st); auto; apply type_and_reason_iff; auto|].
  apply jval_text. apply report_text_jval; auto.
  destruct Hst as [[E0 ->]|(s & m & Es & Ej & ->)].
  - rewrite E0 in Hm. subst. constructor.
  - rewrite Es in Hm. destruct Hm as (Hne & t & Et & Htx). rewrite Ej in Et. injection Et as <-.
    assert (Hvj : valid_json ("{"%char :: m ++ L "}")) by (eexists; exact Htx).
    pose proof (stacktrace_jval _ _ Ej Hvj) as Hj. apply jval_text in Hj as Hj'.
    pose proof (json_text_unique _ _ _ Htx Hj') as E. injection E as ->. apply object_fields; assumption.
Qed.
