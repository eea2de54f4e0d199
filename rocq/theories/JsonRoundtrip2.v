(** * Round trips through JSON: Java, kernel oops, core. *)
From Verif Require Import Base UtilsModel JsonSpec JsonModel JsonProofs JsonScan Types JsonTypesModel JsonTypesSpec JsonReaders JsonWriters JsonRoundtrip.
Open Scope Z_scope.

Lemma Forall_concat {A B} (P : B -> Prop) (f : A -> list B) l :
  Forall P (concat (map f l)) <-> Forall (fun a => Forall P (f a)) l.
Proof.
  induction l as [|a l IH]; simpl; [split; constructor|]. rewrite Forall_app, IH.
  split; [intros [H1 H2]; constructor; auto | intros H; inversion H; auto].
Qed.

(** ** Java *)
Definition java_line_members (f : java_frame) : list (str * json) :=
  match vf_file_name f with Some _ => [(L "file_line", JInt (vf_file_line f))] | None => [] end.
Definition java_frame_members (f : java_frame) : list (str * json) :=
  mem_str (L "name") (vf_name f) ++ mem_str (L "file_name") (vf_file_name f) ++ java_line_members f ++
  mem_str (L "class_path") (vf_class_path f) ++ [(L "is_native", JBool (vf_is_native f))] ++
  [(L "is_exception", JBool (vf_is_exception f))] ++ mem_str (L "message") (vf_message f).
Definition java_frame_json (f : java_frame) : json := JObj (java_frame_members f).
Lemma java_frame_text f : java_frame_to_json f = close_object_unchecked (
    fld_str (L "name") (vf_name f) ++ fld_str (L "file_name") (vf_file_name f) ++
    (match vf_file_name f with Some _ => fld (L "file_line") (print_Z (vf_file_line f)) | None => [] end) ++
    fld_str (L "class_path") (vf_class_path f) ++
    fld (L "is_native") (json_bool (vf_is_native f)) ++
    fld (L "is_exception") (json_bool (vf_is_exception f)) ++
    fld_str (L "message") (vf_message f)).
Proof. unfold java_frame_to_json, fld_str. destruct (vf_file_name f); [rewrite <- app_assoc|]; reflexivity. Qed.
Lemma java_frame_jval f : java_frame_safe f -> jval (java_frame_json f) (java_frame_to_json f).
Proof.
  intros (H1 & H2 & H3 & H4). unfold java_frame_json. rewrite java_frame_text.
  apply close_object_unchecked_jval.
  - unfold java_frame_members, java_line_members. repeat apply jfields_app; try (apply jfields_str; auto; reflexivity).
    + destruct (vf_file_name f); [apply jfields_fld; [reflexivity | apply jv_print_Z] | constructor].
    + apply jfields_fld; [reflexivity | apply jval_bool].
    + apply jfields_fld; [reflexivity | apply jval_bool].
  - intros E. apply (f_equal (jget (L "is_native"))) in E. revert E. unfold java_frame_members, java_line_members.
    destruct (vf_file_name f); lookup; destruct (vf_message f); discriminate.
Qed.
Lemma java_frame_back f : u32 (vf_file_line f) -> reads_java_frame (java_frame_json f) (java_frame_as_read f).
Proof.
  intros [Hl _]. exists (java_frame_members f). split; [reflexivity|]. unfold java_frame_members, java_line_members.
  repeat (split; [|]); cbn [java_frame_as_read vf_name vf_file_name vf_file_line vf_class_path vf_is_native vf_is_exception vf_message].
  - apply reads_string_of; destruct (vf_file_name f); lookup; opt_done.
  - apply reads_string_of; destruct (vf_file_name f); lookup; opt_done.
  - destruct (vf_file_name f).
    + apply reads_u32_some; [exact Hl|]. lookup; opt_done.
    + left. split; [lookup; opt_done | reflexivity].
  - apply reads_string_of; destruct (vf_file_name f); lookup; opt_done.
  - right; destruct (vf_file_name f); lookup; opt_done.
  - right; destruct (vf_file_name f); lookup; opt_done.
  - apply reads_string_of; destruct (vf_file_name f); lookup; opt_done.
Qed.
Definition java_frame_unsafe (f : java_frame) : bool :=
  ounsafe (vf_name f) || (ounsafe (vf_file_name f) || (ounsafe (vf_class_path f) || ounsafe (vf_message f))).
Lemma java_frame_unsafe_iff f : java_frame_unsafe f = false <-> java_frame_safe f.
Proof. unfold java_frame_unsafe, java_frame_safe. dec_false. tauto. Qed.
Lemma java_frame_eff f : eff (java_frame_to_json f) 0 0 (java_frame_unsafe f).
Proof.
  rewrite java_frame_text. eapply eff_eq.
  - apply eff_close_object_unchecked; [starts; destruct (vf_file_name f); starts|].
    apply eff_app; [apply eff_fld_str; reflexivity|].
    apply eff_app; [apply eff_fld_str; reflexivity|].
    apply eff_app.
    { assert (G : neutral (match vf_file_name f with Some _ => fld (L "file_line") (print_Z (vf_file_line f)) | None => [] end)); [|exact G].
      destruct (vf_file_name f); [eapply neutral_fld_jval; [reflexivity | apply jv_print_Z] | apply neutral_nil]. }
    apply eff_app; [apply eff_fld_str; reflexivity|].
    apply eff_app; [eapply neutral_fld_jval; [reflexivity | apply jval_bool]|].
    apply eff_app; [eapply neutral_fld_jval; [reflexivity | apply jval_bool]|].
    apply eff_fld_str; reflexivity.
  - destruct (vf_name f), (vf_file_name f), (vf_class_path f); reflexivity.
  - reflexivity.
  - reflexivity.
Qed.
Definition java_thread_members (t : java_thread) : list (str * json) :=
  mem_str (L "name") (vt_name t) ++ mem_arr (L "frames") (map java_frame_json (vt_frames t)).
Definition java_thread_json (t : java_thread) : json := JObj (java_thread_members t).
Lemma java_thread_jval t : opt_safe (vt_name t) -> Forall java_frame_safe (vt_frames t) ->
  jval (java_thread_json t) (java_thread_to_json t).
Proof.
  intros He Hf. unfold java_thread_to_json, java_thread_json, java_thread_members. apply close_object_jval. apply jfields_app.
  - apply jfields_str; [reflexivity | exact He].
  - apply (jfields_frames (L "frames") java_frame_json java_frame_to_json (vt_frames t) 8); [reflexivity|].
    rewrite Forall_forall in Hf. intros f Hin. apply java_frame_jval; auto.
Qed.
Lemma java_thread_back t : Forall (fun f => u32 (vf_file_line f)) (vt_frames t) ->
  reads_java_thread (java_thread_json t) (mk_java_thread (vt_name t) (map java_frame_as_read (vt_frames t))).
Proof.
  intros Hr. exists (java_thread_members t). split; [reflexivity|]. unfold java_thread_members. split.
  - apply reads_string_of. lookup. cbn [vt_name]. arr_done.
  - apply (reads_list_arr _ _ java_frame_json).
    + intros f Hin. rewrite Forall_forall in Hr. apply java_frame_back; auto.
    + lookup. arr_done.
Qed.
Definition java_thread_unsafe (t : java_thread) : bool := ounsafe (vt_name t) || existsb java_frame_unsafe (vt_frames t).
Lemma sum_const0 {A} (l : list A) : fold_right (fun _ s => 0 + s) 0 l = 0.
Proof. induction l; simpl; lia. Qed.
Lemma java_thread_eff t : eff (java_thread_to_json t) 0 0 (java_thread_unsafe t).
Proof.
  unfold java_thread_to_json. apply eff_close_object.
  - apply comma_start_app; [starts|]. destruct (vt_frames t); [apply comma_start_nil | apply comma_start_cons].
  - apply (eff_app _ _ 0 0 0 0).
    + apply eff_fld_str; reflexivity.
    + pose proof (eff_frames (L "frames") java_frame_to_json (fun _ => 0) java_frame_unsafe 8 (vt_frames t) eq_refl
        (fun f _ => java_frame_eff f)) as E. cbv beta in E. rewrite sum_const0 in E. exact E.
Qed.
Definition java_members (s : java_stacktrace) : list (str * json) :=
  [(L "threads", JArr (map java_thread_json (vs_threads s)))].
Lemma java_text s : vs_threads s <> [] ->
  java_stacktrace_to_json s = close_object (L ",   """ ++ L "threads" ++ L """:" ++ nl ::
    array_loop (map (fun t => sr_indent_except_first_line (java_thread_to_json t) 8) (vs_threads s))).
Proof. intros H. unfold java_stacktrace_to_json. destruct (vs_threads s); [congruence | reflexivity]. Qed.
Lemma java_jval s : java_safe s -> jval (JObj (java_members s)) (java_stacktrace_to_json s).
Proof.
  intros [Ht Hf]. unfold java_frames in Hf. rewrite Forall_concat in Hf.
  destruct (vs_threads s) as [|t ts] eqn:E.
  - unfold java_members, java_stacktrace_to_json. rewrite E.
    apply (jv_obj [(L "threads", JArr [])] (L "   ""threads"": [ ]" ++ [nl])). apply (jm_one (L "threads") (L "threads") (JArr []) (L "   ") [] [sp] (L "[ ]") [nl]).
    + apply ws_3.
    + apply plain_key_jchars; reflexivity.
    + apply ws_nil.
    + apply (ws_spaces 1).
    + apply (jv_arr0 [sp]). apply (ws_spaces 1).
    + apply ws_1.
  - rewrite java_text by (rewrite E; discriminate). apply close_object_jval. unfold java_members.
    apply jfields_array; [reflexivity | | rewrite E; discriminate].
    apply Forall2_map_jval. rewrite E. intros x Hx. rewrite Forall_forall in *. apply java_thread_jval; auto.
Qed.
Lemma java_back s : java_range s -> reads_java (JObj (java_members s)) (java_as_read s).
Proof.
  intros Hr. unfold java_range, java_frames in Hr. rewrite Forall_concat in Hr.
  exists (java_members s). split; [reflexivity|]. unfold java_as_read. cbn [vs_threads].
  right. exists (map java_thread_json (vs_threads s)). split; [reflexivity|].
  induction (vs_threads s) as [|t ts IH]; simpl; constructor; inversion Hr; subst; auto.
  apply java_thread_back; assumption.
Qed.
Lemma java_neutral s : neutral (java_stacktrace_to_json s) -> java_safe s.
Proof.
  intros H. unfold java_safe, java_frames. rewrite Forall_concat.
  destruct (vs_threads s) as [|t ts] eqn:E; [split; constructor|].
  rewrite java_text in H by (rewrite E; discriminate).
  pose proof (eff_frames (L "threads") java_thread_to_json (fun _ => 0) java_thread_unsafe 8 (vs_threads s) eq_refl
      (fun t _ => java_thread_eff t)) as G. rewrite E in G, H. cbv iota in G.
  apply eff_close_object in G; [|apply comma_start_cons].
  apply (eff_fun _ _ _ _ _ _ _ G) in H as (_ & _ & Hu). apply existsb_false in Hu.
  rewrite Forall_forall in Hu.
  split; rewrite Forall_forall; intros x Hx; specialize (Hu x Hx); unfold java_thread_unsafe in Hu;
    rewrite orb_false_iff, ounsafe_safe, existsb_false in Hu; destruct Hu as [H1 H2]; auto.
  rewrite Forall_forall in *. intros f Hin. apply java_frame_unsafe_iff; auto.
Qed.
Lemma java_valid_iff s : valid_json (java_stacktrace_to_json s) <->
  java_safe s.
Proof.
  split.
  - intros H. apply java_neutral, valid_json_neutral, H.
  - intros H. eexists. apply jval_text. apply java_jval; exact H.
Qed.
Lemma java_survives s : java_range s -> java_safe s ->
  survives (java_stacktrace_to_json s) java_stacktrace_from_json (java_as_read s).
Proof.
  intros Hr Hv. eapply survives_of_jval; [apply java_jval; assumption | apply java_reads, java_back; exact Hr].
Qed.
Lemma java_ok_survives s : java_ok s -> survives (java_stacktrace_to_json s) java_stacktrace_from_json s.
Proof.
  intros [Hs Hf]. assert (E : java_as_read s = s).
  { unfold java_as_read. rewrite map_id_in; [destruct s; reflexivity|]. intros t Hin.
    rewrite map_id_in; [destruct t; reflexivity|]. intros f Hf'.
    unfold java_frames in Hf. rewrite Forall_concat, Forall_forall in Hf. specialize (Hf t Hin).
    rewrite Forall_forall in Hf. destruct (Hf f Hf') as (Hl & H1).
    unfold java_frame_as_read. replace (match vf_file_name f with Some _ => clip32 (vf_file_line f) | None => 0 end) with (vf_file_line f).
    - destruct f; reflexivity.
    - destruct (vf_file_name f); [rewrite clip32_id by assumption; reflexivity | auto]. }
  rewrite <- E at 2. apply java_survives; [|exact Hs].
  unfold java_range. eapply Forall_impl; [|exact Hf]. intros f (Hl & _). unfold u32, two32. lia.
Qed.

(** ** Kernel oops *)
Definition koops_frame_members (f : koops_frame) : list (str * json) :=
  mem_nz (L "address") (kf_address f) ++ [(L "reliable", JBool (kf_reliable f))] ++
  mem_str (L "function_name") (kf_function_name f) ++
  [(L "function_offset", JInt (kf_function_offset f))] ++ [(L "function_length", JInt (kf_function_length f))] ++
  mem_str (L "module_name") (kf_module_name f) ++ mem_nz (L "from_address") (kf_from_address f) ++
  mem_str (L "from_function_name") (kf_from_function_name f) ++
  [(L "from_function_offset", JInt (kf_from_function_offset f))] ++
  [(L "from_function_length", JInt (kf_from_function_length f))] ++
  mem_str (L "from_module_name") (kf_from_module_name f) ++ mem_str (L "special_stack") (kf_special_stack f).
Definition koops_frame_json (f : koops_frame) : json := JObj (koops_frame_members f).
Lemma close_fld k t X : close_object (fld k t ++ X) = L "{   """ ++ k ++ L """: " ++ t ++ nl :: X ++ L "}".
Proof.
  unfold fld. simpl. repeat (rewrite <- app_assoc; simpl). reflexivity.
Qed.
Lemma koops_frame_text f : koops_frame_to_json f = close_object (
  fld_nz (L "address") (kf_address f) ++ fld (L "reliable") (json_bool (kf_reliable f)) ++
  fld_str (L "function_name") (kf_function_name f) ++
  fld (L "function_offset") (print_Z (kf_function_offset f)) ++
  fld (L "function_length") (print_Z (kf_function_length f)) ++
  fld_str (L "module_name") (kf_module_name f) ++
  fld_nz (L "from_address") (kf_from_address f) ++
  fld_str (L "from_function_name") (kf_from_function_name f) ++
  fld (L "from_function_offset") (print_Z (kf_from_function_offset f)) ++
  fld (L "from_function_length") (print_Z (kf_from_function_length f)) ++
  fld_str (L "from_module_name") (kf_from_module_name f) ++
  fld_str (L "special_stack") (kf_special_stack f)).
Proof.
  unfold koops_frame_to_json.
  set (X := fld_str (L "function_name") _ ++ _).
  match goal with |- _ = close_object (_ ++ _ ++ ?R) => set (Y := R) end.
  assert (E : X = Y ++ L "}") by (unfold X, Y; rewrite <- !app_assoc; reflexivity).
  rewrite E. unfold fld_nz. destruct (kf_address f =? 0).
  - cbn [app]. rewrite close_fld. reflexivity.
  - rewrite close_fld. unfold fld. repeat (rewrite <- app_assoc; cbn [app]). reflexivity.
Qed.
Lemma koops_frame_jval f : koops_frame_safe f -> jval (koops_frame_json f) (koops_frame_to_json f).
Proof.
  intros (H1 & H2 & H3 & H4 & H5). unfold koops_frame_json. rewrite koops_frame_text.
  apply close_object_jval. unfold koops_frame_members.
  repeat apply jfields_app;
    first [ apply jfields_str; [reflexivity | assumption] | apply jfields_nz; reflexivity
          | apply jfields_fld; [reflexivity | first [apply jval_bool | apply jv_print_Z]] ].
Qed.
Lemma koops_frame_back f : koops_frame_range f -> reads_koops_frame (koops_frame_json f) (koops_frame_as_read f).
Proof.
  intros ([Ha _] & [Ho _] & [Hl _] & [Hfa _] & [Hfo _] & [Hfl _]).
  exists (koops_frame_members f). split; [reflexivity|]. unfold koops_frame_members.
  repeat (split; [|]); cbn [koops_frame_as_read kf_address kf_reliable kf_function_name kf_function_offset kf_function_length kf_module_name
    kf_from_address kf_from_function_name kf_from_function_offset kf_from_function_length kf_from_module_name kf_special_stack].
  - apply reads_u64_nz; [exact Ha | lookup; zero_done | reflexivity].
  - right; lookup; zero_done.
  - apply reads_string_of; lookup; zero_done.
  - apply reads_u64_some; [exact Ho | lookup; zero_done].
  - apply reads_u64_some; [exact Hl | lookup; zero_done].
  - apply reads_string_of; lookup; zero_done.
  - apply reads_u64_nz; [exact Hfa | lookup; zero_done | reflexivity].
  - apply reads_string_of; lookup; zero_done.
  - apply reads_u64_some; [exact Hfo | lookup; zero_done].
  - apply reads_u64_some; [exact Hfl | lookup; zero_done].
  - apply reads_string_of; lookup; zero_done.
  - apply reads_string_of; lookup; zero_done.
Qed.
Definition koops_frame_unsafe (f : koops_frame) : bool :=
  ounsafe (kf_function_name f) || (ounsafe (kf_module_name f) || (ounsafe (kf_from_function_name f) ||
    (ounsafe (kf_from_module_name f) || ounsafe (kf_special_stack f)))).
Lemma koops_frame_unsafe_iff f : koops_frame_unsafe f = false <-> koops_frame_safe f.
Proof. unfold koops_frame_unsafe, koops_frame_safe. dec_false. tauto. Qed.
Lemma koops_frame_eff f : eff (koops_frame_to_json f) 0 0 (koops_frame_unsafe f).
Proof.
  rewrite koops_frame_text. apply eff_close_object; [starts|]. eapply eff_eq.
  - repeat (apply eff_app;
      [first [ apply eff_fld_str; reflexivity | apply neutral_fld_nz; reflexivity
             | eapply neutral_fld_jval; [reflexivity | first [apply jv_print_Z | apply jval_bool]] ]|]).
    apply eff_fld_str; reflexivity.
  - reflexivity.
  - reflexivity.
  - reflexivity.
Qed.

Lemma taint_item_plain n : plain_key n = true -> jval (JStr n) (L """" ++ n ++ L """").
Proof. intros H. apply (jv_str n n). apply plain_key_jchars; exact H. Qed.
Lemma taint_concat names : Forall (fun n => plain_key n = true) names -> names <> [] ->
  exists X, concat (map (fun n => L ", """ ++ n ++ L """" ++ [nl]) names) = X ++ [nl] /\ jitems (map JStr names) X.
Proof.
  induction names as [|n names IH]; intros Hf Hne; [congruence|]. inversion Hf; subst.
  destruct names as [|m names].
  - exists (","%char :: [sp] ++ (L """" ++ n ++ L """") ++ [] ++ []). split.
    + simpl. rewrite app_nil_r, <- !app_assoc. reflexivity.
    + apply ji_cons; [apply (ws_spaces 1) | apply taint_item_plain; assumption | apply ws_nil | constructor].
  - destruct IH as (X & HX & HJ); [assumption | discriminate |].
    exists (","%char :: [sp] ++ (L """" ++ n ++ L """") ++ [nl] ++ X). split.
    + change (concat (map (fun n0 => L ", """ ++ n0 ++ L """" ++ [nl]) (n :: m :: names)))
        with ((L ", """ ++ n ++ L """" ++ [nl]) ++ concat (map (fun n0 => L ", """ ++ n0 ++ L """" ++ [nl]) (m :: names))).
      rewrite HX. simpl. rewrite <- !app_assoc. simpl. reflexivity.
    + apply ji_cons; [apply (ws_spaces 1) | apply taint_item_plain; assumption | apply ws_1 | exact HJ].
Qed.
Lemma taint_names_plain flags : Forall (fun n => plain_key n = true) (map snd flags) ->
  forall vals, Forall (fun n => plain_key n = true) (taint_names flags vals).
Proof.
  induction flags as [|[c n] fs IH]; intros H vals; [constructor|]. simpl in H. inversion H; subst.
  destruct vals as [|[] vals]; simpl; auto.
Qed.
Lemma taint_plain : Forall (fun n => plain_key n = true) (map snd taint_flags).
Proof. repeat constructor. Qed.
Lemma taint_jval vals : jval (JArr (map JStr (taint_names taint_flags vals))) (taint_flags_to_json vals).
Proof.
  unfold taint_flags_to_json. pose proof (taint_names_plain _ taint_plain vals) as Hp.
  destruct (taint_names taint_flags vals) as [|n names].
  - apply (jv_arr0 []). apply ws_nil.
  - destruct (taint_concat _ Hp) as (X & -> & HJ); [discriminate|].
    destruct (jitems_elems _ _ HJ) as (r & -> & _); [discriminate|]. cbn [app].
    pose proof (jitems_array _ _ [sp] HJ ltac:(discriminate) (ws_spaces 1)) as G. cbn [skipn] in G.
    rewrite removelast_last. exact G.
Qed.
Lemma taint_names_in flags vals n : In n (taint_names flags vals) -> In n (map snd flags).
Proof.
  revert vals; induction flags as [|[c m] fs IH]; intros vals H; [contradiction|].
  destruct vals as [|[] vals]; simpl in *; [contradiction | destruct H; eauto | eauto].
Qed.
Lemma str_eqb_refl a : str_eqb a a = true. Proof. apply str_eqb_eq; reflexivity. Qed.
Lemma taint_back flags : NoDup (map snd flags) -> forall vals, length vals = length flags ->
  map (fun f => existsb (str_eqb (snd f)) (taint_names flags vals)) flags = vals.
Proof.
  induction flags as [|[c n] fs IH]; intros Hd vals Hl; destruct vals as [|v vals]; try discriminate; auto.
  simpl in Hd, Hl. inversion Hd as [|? ? Hni Hd']; subst. injection Hl as Hl. cbn [map taint_names snd].
  assert (E0 : existsb (str_eqb n) (taint_names fs vals) = false).
  { rewrite existsb_false, Forall_forall. intros m Hm. destruct (str_eqb n m) eqn:E; auto.
    apply str_eqb_eq in E; subst. exfalso; apply Hni. eapply taint_names_in; eauto. }
  f_equal.
  - destruct v; simpl; [rewrite str_eqb_refl; reflexivity | exact E0].
  - transitivity (map (fun f => existsb (str_eqb (snd f)) (taint_names fs vals)) fs); [|apply IH; auto].
    apply map_ext_in. intros [c' m] Hin. simpl.
    destruct v; simpl; [|reflexivity]. destruct (str_eqb m n) eqn:E; [|reflexivity].
    apply str_eqb_eq in E; subst. exfalso. apply Hni. apply (in_map snd _ _ Hin).
Qed.

Definition koops_members (s : koops_stacktrace) : list (str * json) :=
  mem_str (L "raw_oops") (ks_raw_oops s) ++ mem_str (L "version") (ks_version s) ++
  [(L "taint_flags", JArr (map JStr (taint_names taint_flags (ks_taint s))))] ++
  (match ks_modules s with Some l => [(L "modules", JArr (map JStr l))] | None => [] end) ++
  mem_arr (L "frames") (map koops_frame_json (ks_frames s)).
Lemma indent0 t : sr_indent_except_first_line t 0 = t.
Proof.
  induction t as [|c t IH]; [reflexivity|]. simpl. destruct (Ascii.eqb c nl) eqn:E.
  - apply Ascii.eqb_eq in E; subst. rewrite IH. destruct t; reflexivity.
  - rewrite IH; reflexivity.
Qed.
Lemma koops_modules_false ms : koops_module_items false ms = array_items false (map json_quoted ms).
Proof.
  induction ms as [|m ms IH]; [reflexivity|]. cbn [koops_module_items map array_items]. rewrite IH.
  destruct ms; reflexivity.
Qed.
Lemma koops_modules_loop ms : ms <> [] ->
  L "      [ " ++ koops_module_items true ms ++ L " ]" ++ [nl] = array_loop (map json_quoted ms).
Proof.
  destruct ms as [|m ms]; [congruence|]. intros _. cbn [koops_module_items map]. unfold array_loop.
  cbn [array_items]. rewrite koops_modules_false. rewrite <- !app_assoc. destruct ms; reflexivity.
Qed.
Lemma koops_modules_jfields ms : Forall json_safe ms ->
  jfields [(L "modules", JArr (map JStr ms))]
    (L ",   ""modules"":" ++ nl :: L "      [ " ++ koops_module_items true ms ++ L " ]" ++ [nl]).
Proof.
  intros H. destruct ms as [|m ms].
  - apply (jf_cons (L "modules") (L "modules") (JArr []) (L "   ") [] (nl :: L "      ") (L "[  ]") [nl] [] []).
    + apply ws_3.
    + apply plain_key_jchars; reflexivity.
    + apply ws_nil.
    + constructor; [unfold ws_char; auto | apply (ws_spaces 6)].
    + apply (jv_arr0 (L "  ")). apply (ws_spaces 2).
    + apply ws_1.
    + constructor.
  - rewrite koops_modules_loop by discriminate.
    apply (jfields_array (L "modules")); [reflexivity | | discriminate].
    induction H; cbn [map]; constructor; auto. apply jv_quoted; assumption.
Qed.
Lemma koops_jval s : koops_safe s -> jval (JObj (koops_members s)) (koops_stacktrace_to_json s).
Proof.
  intros (H1 & H2 & H3 & H4). unfold koops_stacktrace_to_json, koops_members. apply close_object_jval.
  repeat apply jfields_app.
  - apply jfields_str; [reflexivity | assumption].
  - apply jfields_str; [reflexivity | assumption].
  - apply jfields_fld; [reflexivity|]. apply jval_indent. apply taint_jval.
  - destruct (ks_modules s) as [ms|]; [apply koops_modules_jfields; exact H3 | constructor].
  - apply (jfields_frames (L "frames") koops_frame_json koops_frame_to_json (ks_frames s) 8); [reflexivity|].
    rewrite Forall_forall in H4. intros f Hin. apply koops_frame_jval; auto.
Qed.
Lemma koops_back s : koops_range s -> reads_koops (JObj (koops_members s)) (koops_as_read s).
Proof.
  intros [Ht Hf]. exists (koops_members s). split; [reflexivity|]. unfold koops_members.
  cbn [koops_as_read ks_version ks_taint ks_modules ks_raw_oops ks_frames ks_reason].
  repeat (split; [|]).
  - apply reads_string_of. destruct (ks_modules s); lookup; arr_done.
  - apply reads_string_of. destruct (ks_modules s); lookup; arr_done.
  - right. exists (taint_names taint_flags (ks_taint s)). split; [destruct (ks_modules s); lookup; arr_done|].
    symmetry. apply taint_back; [apply taint_nodup | exact Ht].
  - destruct (ks_modules s) as [ms|].
    + right. exists ms. split; [lookup; arr_done | reflexivity].
    + left. split; [lookup; arr_done | reflexivity].
  - apply (reads_list_arr _ _ koops_frame_json).
    + intros f Hin. rewrite Forall_forall in Hf. apply koops_frame_back; auto.
    + destruct (ks_modules s); lookup; arr_done.
  - reflexivity.
Qed.
Definition koops_unsafe (s : koops_stacktrace) : bool :=
  ounsafe (ks_raw_oops s) || (ounsafe (ks_version s) || ((match ks_modules s with Some ms => existsb unsafe ms | None => false end) ||
   existsb koops_frame_unsafe (ks_frames s))).
Lemma koops_modules_eff ms :
  eff (L ",   ""modules"":" ++ nl :: L "      [ " ++ koops_module_items true ms ++ L " ]" ++ [nl]) 0 0 (existsb unsafe ms).
Proof.
  destruct ms as [|m ms].
  - intros br bk bad. cbv -[Z.add Z.sub orb]. rewrite !orb_false_r. f_equal; lia.
  - rewrite koops_modules_loop by discriminate.
    pose proof (eff_frames (L "modules") json_quoted (fun _ => 0) unsafe 0 (m :: ms) eq_refl) as G.
    cbv beta iota in G. rewrite sum_const0 in G.
    replace (map (fun a => sr_indent_except_first_line (json_quoted a) 0) (m :: ms)) with (map json_quoted (m :: ms)) in G
      by (apply map_ext; intros; rewrite indent0; reflexivity).
    apply G. intros a _. apply eff_quoted.
Qed.
Lemma koops_eff s : eff (koops_stacktrace_to_json s) 0 0 (koops_unsafe s).
Proof.
  unfold koops_stacktrace_to_json. apply eff_close_object.
  - do 3 (apply comma_start_app; [starts|]). apply comma_start_app.
    + destruct (ks_modules s); [apply comma_start_cons | apply comma_start_nil].
    + destruct (ks_frames s); [apply comma_start_nil | apply comma_start_cons].
  - eapply eff_eq.
    + apply eff_app; [apply eff_fld_str; reflexivity|].
      apply eff_app; [apply eff_fld_str; reflexivity|].
      apply eff_app; [eapply neutral_fld_jval; [reflexivity | apply jval_indent; apply taint_jval]|].
      apply eff_app.
      * assert (G : eff (match ks_modules s with None => [] | Some ms => L ",   ""modules"":" ++ nl :: L "      [ " ++ koops_module_items true ms ++ L " ]" ++ [nl] end)
           0 0 (match ks_modules s with Some ms => existsb unsafe ms | None => false end)); [|exact G].
        destruct (ks_modules s); [apply koops_modules_eff | apply neutral_nil].
      * apply (eff_frames (L "frames") koops_frame_to_json (fun _ => 0) koops_frame_unsafe 8 (ks_frames s) eq_refl).
        intros f _. apply koops_frame_eff.
    + rewrite sum_const0. reflexivity.
    + reflexivity.
    + unfold koops_unsafe. reflexivity.
Qed.
Lemma koops_neutral s : neutral (koops_stacktrace_to_json s) -> koops_safe s.
Proof.
  intros H. apply (eff_fun _ _ _ _ _ _ _ (koops_eff s)) in H as (_ & _ & Hu). unfold koops_unsafe in Hu.
  rewrite !orb_false_iff, !ounsafe_safe, existsb_false in Hu. destruct Hu as (H1 & H2 & H3 & H4).
  unfold koops_safe. split; [exact H2|]. split; [exact H1|]. split.
  + destruct (ks_modules s); [|exact I]. rewrite existsb_false in H3. eapply Forall_impl; [|exact H3].
    intros a Ha. apply unsafe_safe; exact Ha.
  + eapply Forall_impl; [|exact H4]. intros a Ha. apply koops_frame_unsafe_iff; exact Ha.
Qed.
Lemma koops_valid_iff s : valid_json (koops_stacktrace_to_json s) <->
  koops_safe s.
Proof.
  split.
  - intros H. apply koops_neutral, valid_json_neutral, H.
  - intros H. eexists. apply jval_text. apply koops_jval; exact H.
Qed.
Lemma koops_survives s : koops_range s -> koops_safe s -> koops_modules_fit s ->
  survives (koops_stacktrace_to_json s) koops_stacktrace_from_json (koops_as_read s).
Proof.
  intros Hr Hv Hm. eapply survives_of_jval; [apply koops_jval; assumption|].
  apply koops_reads. split; [apply koops_back; exact Hr|]. exact Hm.
Qed.
(** More modules than that: reading the library's own output is undefined behaviour. *)
Lemma koops_read_modules_overflow ms : forall i, (i <= 127 < i + length ms)%nat -> koops_read_modules (map JStr ms) i = UB.
Proof.
  induction ms as [|m ms IH]; intros i H; simpl in H; [lia|]. cbn [map koops_read_modules].
  destruct (127 <=? i)%nat eqn:E; [reflexivity|]. apply Nat.leb_gt in E. rewrite IH by lia. reflexivity.
Qed.
Lemma koops_many_modules s ms : koops_range s -> koops_safe s -> ks_modules s = Some ms -> (127 < length ms)%nat ->
  forall v, json_text v (koops_stacktrace_to_json s) -> koops_stacktrace_from_json v = UB.
Proof.
  intros Hr Hs Hm Hl v Hv.
  rewrite (json_text_unique v _ _ Hv (jval_text _ _ (koops_jval s Hs))).
  destruct (koops_back s Hr) as (o & E & H1 & H2 & H3 & H4 & _). injection E as <-.
  cbn [koops_stacktrace_from_json].
  apply read_string_iff in H1. apply read_string_iff in H2. rewrite H1, H2. cbn [bind].
  destruct H4 as [[_ H4]|(l & H4 & E4)]; cbn [koops_as_read ks_modules] in *; [congruence|].
  rewrite Hm in E4. injection E4 as <-. rewrite H4, koops_read_modules_overflow by lia.
  destruct H3 as [[H3 _]|(tl & H3 & E3)]; rewrite H3; [reflexivity|].
  assert (G : koops_read_taint (map JStr tl) no_taint = Ok (or_flags taint_flags no_taint (fun n => existsb (str_eqb n) tl))).
  { apply koops_read_taint_iff; [reflexivity|]. exists tl. auto. }
  rewrite G. reflexivity.
Qed.
Lemma koops_ok_survives s : koops_ok s -> survives (koops_stacktrace_to_json s) koops_stacktrace_from_json s.
Proof.
  intros (Ht & Hs & Hm & Hf & Hr). assert (E : koops_as_read s = s).
  { unfold koops_as_read. rewrite map_id_in; [rewrite <- Hr; destruct s; reflexivity|]. intros f Hin.
    rewrite Forall_forall in Hf. destruct (Hf f Hin) as (A1 & A2 & A3 & A4 & A5 & A6 & _).
    unfold koops_frame_as_read. rewrite !clip64_id by assumption. destruct f; reflexivity. }
  rewrite <- E at 2. apply koops_survives; [|exact Hs | exact Hm]. split; [exact Ht|].
  eapply Forall_impl; [|exact Hf]. intros f (A1 & A2 & A3 & A4 & A5 & A6 & _).
  unfold koops_frame_range, u64, two64, below63 in *. repeat split; lia.
Qed.
