(** * Round trips of the stack trace types through JSON. *)
From Verif Require Import Base UtilsModel JsonSpec JsonModel JsonProofs JsonScan Types JsonTypesModel JsonTypesSpec JsonReaders JsonWriters.
Open Scope Z_scope.

Lemma sum_zero {A} (x : A -> Z) (l : list A) : (forall a, In a l -> x a <= 0) ->
  fold_right (fun a s => x a + s) 0 l = 0 -> forall a, In a l -> x a = 0.
Proof.
  intros H E. assert (Hle : forall l', incl l' l -> fold_right (fun a s => x a + s) 0 l' <= 0).
  { induction l' as [|b l' IH]; intros Hi; simpl; [lia|]. specialize (H b (Hi b (or_introl eq_refl))).
    specialize (IH (fun y Hy => Hi y (or_intror Hy))). lia. }
  assert (G : forall l', incl l' l -> fold_right (fun a s => x a + s) 0 l' = 0 -> forall a, In a l' -> x a = 0).
  { induction l' as [|b l' IH]; intros Hi E' a Ha; [contradiction|]. simpl in E'.
    pose proof (H b (Hi b (or_introl eq_refl))) as Hb.
    assert (Hi' : incl l' l) by (intros y Hy; apply Hi; right; exact Hy).
    pose proof (Hle l' Hi') as Hl. destruct Ha as [->|Ha]; [lia|]. apply IH; auto. lia. }
  apply G; auto. apply incl_refl.
Qed.
Lemma existsb_false {A} (b : A -> bool) l : existsb b l = false <-> Forall (fun a => b a = false) l.
Proof.
  induction l as [|a l IH]; simpl; [split; auto|]. rewrite orb_false_iff, IH.
  split; [intros [H1 H2]; constructor; auto | intros H; inversion H; auto].
Qed.
Ltac arr_done := repeat match goal with |- context [match map ?f ?l with _ => _ end] => destruct (map f l) end; try reflexivity;
  repeat match goal with |- context [option_map JStr ?x] => destruct x; cbn [option_map] end; try reflexivity.
(** effect of the concatenation of fields *)
Ltac effs :=
  repeat first
   [ apply eff_fld_str; reflexivity
   | apply neutral_fld_nz; reflexivity
   | (eapply neutral_fld_jval; [reflexivity | first [apply jv_print_Z | apply jval_bool]])
   | apply eff_app ].
Ltac starts :=
  repeat first [ apply comma_start_str | apply comma_start_nz | apply comma_start_fld | apply comma_start_nil
               | apply comma_start_cons | apply comma_start_app ].
Ltac dec_false := rewrite ?orb_false_iff, ?ounsafe_safe, ?orb_false_r.

(** ** Python *)
Definition python_frame_members (f : python_frame) : list (str * json) :=
  mem_str (if pf_special_file f then L "special_file" else L "file_name") (pf_file_name f) ++
  mem_nz (L "file_line") (pf_file_line f) ++
  mem_str (if pf_special_function f then L "special_function" else L "function_name") (pf_function_name f) ++
  mem_str (L "line_contents") (pf_line_contents f).
Definition python_frame_json (f : python_frame) : json := JObj (python_frame_members f).

Lemma python_frame_jval f : ~ python_frame_empty f -> python_frame_safe f -> jval (python_frame_json f) (python_frame_to_json f).
Proof.
  intros Hne (H1 & H2 & H3). unfold python_frame_json, python_frame_to_json.
  apply close_object_unchecked_jval.
  - unfold python_frame_members. repeat apply jfields_app; try (apply jfields_nz; reflexivity);
      apply jfields_str; auto; [destruct (pf_special_file f) | destruct (pf_special_function f)]; reflexivity.
  - intros E. apply Hne. unfold python_frame_members, mem_nz in E. unfold python_frame_empty.
    destruct (pf_file_name f), (pf_file_line f =? 0) eqn:El, (pf_function_name f), (pf_line_contents f); try discriminate.
    apply Z.eqb_eq in El; auto.
Qed.
Lemma reads_name_of o k sk x (b : bool) :
  jget k o = (if b then None else option_map JStr x) -> jget sk o = (if b then option_map JStr x else None) ->
  reads_name o k sk x (with_name x b).
Proof.
  intros H1 H2. unfold reads_name. destruct x as [s|], b; simpl in *.
  - right; left; eauto.
  - left; eauto.
  - right; right; auto.
  - right; right; auto.
Qed.
Ltac opt_done := repeat match goal with |- context [option_map JStr ?x] => destruct x; cbn [option_map] end; try reflexivity.
Lemma python_frame_back f : u32 (pf_file_line f) -> reads_python_frame (python_frame_json f) (python_frame_as_read f).
Proof.
  intros [Hl _]. exists (python_frame_members f). split; [reflexivity|]. unfold python_frame_members.
  split; [|split; [|split]]; cbn [python_frame_as_read pf_special_file pf_file_name pf_file_line pf_special_function pf_function_name pf_line_contents].
  - apply reads_name_of; destruct (pf_special_file f), (pf_special_function f); lookup; destruct (pf_file_line f =? 0); opt_done.
  - apply reads_name_of; destruct (pf_special_file f), (pf_special_function f); lookup; destruct (pf_file_line f =? 0); opt_done.
  - apply reads_string_of; destruct (pf_special_file f), (pf_special_function f); lookup; destruct (pf_file_line f =? 0); opt_done.
  - apply reads_u32_nz; [exact Hl|]; destruct (pf_special_file f), (pf_special_function f); lookup; destruct (pf_file_line f =? 0); opt_done.
Qed.
Definition python_frame_unsafe (f : python_frame) : bool :=
  ounsafe (pf_file_name f) || (ounsafe (pf_function_name f) || ounsafe (pf_line_contents f)).
Lemma python_frame_unsafe_iff f : python_frame_unsafe f = false <-> python_frame_safe f.
Proof. unfold python_frame_unsafe, python_frame_safe. dec_false. tauto. Qed.
Definition python_frame_weight (f : python_frame) : Z :=
  match pf_file_name f, pf_file_line f =? 0, pf_function_name f, pf_line_contents f with
  | None, true, None, None => -1 | _, _, _, _ => 0 end.
Lemma python_frame_weight_iff f : python_frame_weight f = 0 <-> ~ python_frame_empty f.
Proof.
  unfold python_frame_weight, python_frame_empty.
  destruct (pf_file_name f), (pf_file_line f =? 0) eqn:E, (pf_function_name f), (pf_line_contents f); split; intros H; try lia;
    try (intros (? & ? & ? & ?); congruence); try lia.
  apply Z.eqb_eq in E. exfalso; auto.
Qed.
Lemma python_frame_eff f : eff (python_frame_to_json f) (python_frame_weight f) 0 (python_frame_unsafe f).
Proof.
  unfold python_frame_to_json.
  eapply eff_eq.
  - apply eff_close_object_unchecked; [starts|].
    apply eff_app; [apply eff_fld_str; destruct (pf_special_file f); reflexivity|].
    apply eff_app; [apply neutral_fld_nz; reflexivity|].
    apply eff_app; [apply eff_fld_str; destruct (pf_special_function f); reflexivity|].
    apply eff_fld_str; reflexivity.
  - unfold python_frame_weight, fld_nz.
    destruct (pf_file_name f), (pf_file_line f =? 0), (pf_function_name f), (pf_line_contents f); reflexivity.
  - reflexivity.
  - unfold python_frame_unsafe. reflexivity.
Qed.

Definition python_members (s : python_stacktrace) : list (str * json) :=
  mem_str (L "exception_name") (ps_exception_name s) ++ mem_arr (L "stacktrace") (map python_frame_json (ps_frames s)).
Lemma python_jval s : opt_safe (ps_exception_name s) ->
  Forall (fun f => ~ python_frame_empty f /\ python_frame_safe f) (ps_frames s) ->
  jval (JObj (python_members s)) (python_stacktrace_to_json s).
Proof.
  intros He Hf. unfold python_stacktrace_to_json, python_members. apply close_object_jval. apply jfields_app.
  - apply jfields_str; [reflexivity | exact He].
  - apply (jfields_frames (L "stacktrace") python_frame_json python_frame_to_json (ps_frames s) 8); [reflexivity|].
    rewrite Forall_forall in Hf. intros f Hin. destruct (Hf f Hin). apply python_frame_jval; assumption.
Qed.
Lemma python_back s : python_range s -> reads_python (JObj (python_members s)) (python_as_read s).
Proof.
  intros Hr. exists (python_members s). split; [reflexivity|]. unfold python_members. split.
  - apply reads_string_of. lookup. cbn [python_as_read ps_exception_name]. arr_done.
  - apply (reads_list_arr _ _ python_frame_json).
    + intros f Hin. apply python_frame_back. unfold python_range in Hr. rewrite Forall_forall in Hr. auto.
    + lookup. arr_done.
Qed.
Lemma python_eff s : eff (python_stacktrace_to_json s)
  (fold_right (fun a s => python_frame_weight a + s) 0 (ps_frames s)) 0
  (ounsafe (ps_exception_name s) || existsb python_frame_unsafe (ps_frames s)).
Proof.
  unfold python_stacktrace_to_json. apply eff_close_object.
  - apply comma_start_app; [starts|]. destruct (ps_frames s); [apply comma_start_nil | apply comma_start_cons].
  - apply (eff_app _ _ 0 0).
    + apply eff_fld_str; reflexivity.
    + apply (eff_frames (L "stacktrace")); [reflexivity|]. intros f _. apply python_frame_eff.
Qed.
Lemma python_neutral s : neutral (python_stacktrace_to_json s) -> opt_safe (ps_exception_name s) /\ Forall (fun f => ~ python_frame_empty f /\ python_frame_safe f) (ps_frames s).
Proof.
  intros H. apply (eff_fun _ _ _ _ _ _ _ (python_eff s)) in H as (Hw & _ & Hu).
  rewrite orb_false_iff, ounsafe_safe, existsb_false in Hu. destruct Hu as [Hu Hf]. split; [exact Hu|].
  rewrite Forall_forall in *. intros f Hin. split; [|apply python_frame_unsafe_iff; auto].
  apply python_frame_weight_iff. apply (sum_zero python_frame_weight (ps_frames s)); auto.
  intros a _. unfold python_frame_weight. destruct (pf_file_name a), (pf_file_line a =? 0), (pf_function_name a), (pf_line_contents a); lia.
Qed.
Lemma python_valid_iff s : valid_json (python_stacktrace_to_json s) <->
  opt_safe (ps_exception_name s) /\ Forall (fun f => ~ python_frame_empty f /\ python_frame_safe f) (ps_frames s).
Proof.
  split.
  - intros H. apply python_neutral, valid_json_neutral, H.
  - intros [H1 H2]. eexists. apply jval_text. apply python_jval; assumption.
Qed.
Lemma python_survives s : python_range s -> valid_json (python_stacktrace_to_json s) ->
  survives (python_stacktrace_to_json s) python_stacktrace_from_json (python_as_read s).
Proof.
  intros Hr Hv. apply python_valid_iff in Hv as [H1 H2].
  eapply survives_of_jval; [apply python_jval; assumption | apply python_reads, python_back; exact Hr].
Qed.
Lemma map_id_in {A} (f : A -> A) l : (forall x, In x l -> f x = x) -> map f l = l.
Proof. induction l as [|x l IH]; intros H; simpl; [reflexivity|]. rewrite H, IH; auto; [intros; apply H; right; auto | left; auto]. Qed.
Lemma clip32_id z : 0 <= z < 2 ^ 31 -> clip32 z = z.
Proof. unfold clip32; lia. Qed.
Lemma clip64_id z : 0 <= z < 2 ^ 63 -> clip64 z = z.
Proof. unfold clip64; lia. Qed.
Lemma with_name_id o (b : bool) : (o = None -> b = false) -> with_name o b = b.
Proof. destruct o; simpl; auto. intros H; rewrite H; auto. Qed.
Lemma python_ok_survives s : python_ok s -> survives (python_stacktrace_to_json s) python_stacktrace_from_json s.
Proof.
  intros [He Hf]. assert (E : python_as_read s = s).
  { unfold python_as_read. rewrite map_id_in; [destruct s; reflexivity|]. intros f Hin.
    rewrite Forall_forall in Hf. destruct (Hf f Hin) as (Hl & _ & _ & H1 & H2).
    unfold python_frame_as_read. rewrite clip32_id, !with_name_id by assumption. destruct f; reflexivity. }
  rewrite <- E at 2. apply python_survives.
  - unfold python_range. rewrite Forall_forall in *. intros f Hin. destruct (Hf f Hin) as (Hl & _). unfold u32, two32. lia.
  - apply python_valid_iff. split; [exact He|]. rewrite Forall_forall in *. intros f Hin. destruct (Hf f Hin) as (_ & H1 & H2 & _); auto.
Qed.

(** ** Ruby *)
Definition ruby_frame_members (f : ruby_frame) : list (str * json) :=
  mem_str (L "file_name") (rf_file_name f) ++
  mem_nz (L "file_line") (rf_file_line f) ++
  mem_str (if rf_special_function f then L "special_function" else L "function_name") (rf_function_name f) ++
  mem_nz (L "block_level") (rf_block_level f) ++
  mem_nz (L "rescue_level") (rf_rescue_level f).
Definition ruby_frame_json (f : ruby_frame) : json := JObj (ruby_frame_members f).
Ltac zero_done := repeat match goal with |- context [?z =? 0] => destruct (z =? 0) end; opt_done.

Lemma ruby_frame_jval f : ~ ruby_frame_empty f -> ruby_frame_safe f -> jval (ruby_frame_json f) (ruby_frame_to_json f).
Proof.
  intros Hne (H1 & H2). unfold ruby_frame_json, ruby_frame_to_json.
  apply close_object_unchecked_jval.
  - unfold ruby_frame_members. repeat apply jfields_app; try (apply jfields_nz; reflexivity);
      apply jfields_str; auto; destruct (rf_special_function f); reflexivity.
  - intros E. apply Hne. unfold ruby_frame_members, mem_nz in E. unfold ruby_frame_empty.
    destruct (rf_file_name f), (rf_file_line f =? 0) eqn:E1, (rf_function_name f), (rf_block_level f =? 0) eqn:E2,
      (rf_rescue_level f =? 0) eqn:E3; try discriminate.
    rewrite Z.eqb_eq in *. auto.
Qed.
Lemma ruby_frame_back f : u32 (rf_file_line f) -> u32 (rf_block_level f) -> u32 (rf_rescue_level f) ->
  reads_ruby_frame (ruby_frame_json f) (ruby_frame_as_read f).
Proof.
  intros [Hl _] [Hb _] [Hr _]. exists (ruby_frame_members f). split; [reflexivity|]. unfold ruby_frame_members.
  split; [|split; [|split; [|split]]]; cbn [ruby_frame_as_read rf_file_name rf_file_line rf_special_function rf_function_name rf_block_level rf_rescue_level].
  - apply reads_string_of; destruct (rf_special_function f); lookup; zero_done.
  - apply reads_name_of; destruct (rf_special_function f); lookup; zero_done.
  - apply reads_u32_nz; [exact Hl|]; destruct (rf_special_function f); lookup; zero_done.
  - apply reads_u32_nz; [exact Hb|]; destruct (rf_special_function f); lookup; zero_done.
  - apply reads_u32_nz; [exact Hr|]; destruct (rf_special_function f); lookup; zero_done.
Qed.
Definition ruby_frame_unsafe (f : ruby_frame) : bool :=
  ounsafe (rf_file_name f) || ounsafe (rf_function_name f).
Lemma ruby_frame_unsafe_iff f : ruby_frame_unsafe f = false <-> ruby_frame_safe f.
Proof. unfold ruby_frame_unsafe, ruby_frame_safe. dec_false. tauto. Qed.
Definition ruby_frame_weight (f : ruby_frame) : Z :=
  match rf_file_name f, rf_file_line f =? 0, rf_function_name f, rf_block_level f =? 0, rf_rescue_level f =? 0 with
  | None, true, None, true, true => -1 | _, _, _, _, _ => 0 end.
Lemma ruby_frame_weight_iff f : ruby_frame_weight f = 0 <-> ~ ruby_frame_empty f.
Proof.
  unfold ruby_frame_weight, ruby_frame_empty.
  destruct (rf_file_name f), (rf_file_line f =? 0) eqn:E1, (rf_function_name f), (rf_block_level f =? 0) eqn:E2,
    (rf_rescue_level f =? 0) eqn:E3; split; intros H; try lia;
    try (intros (? & ? & ? & ? & ?); try congruence; lia).
  rewrite Z.eqb_eq in *. exfalso; auto 10.
Qed.
Lemma ruby_frame_eff f : eff (ruby_frame_to_json f) (ruby_frame_weight f) 0 (ruby_frame_unsafe f).
Proof.
  unfold ruby_frame_to_json.
  eapply eff_eq.
  - apply eff_close_object_unchecked; [starts|].
    apply eff_app; [apply eff_fld_str; reflexivity|].
    apply eff_app; [apply neutral_fld_nz; reflexivity|].
    apply eff_app; [apply eff_fld_str; destruct (rf_special_function f); reflexivity|].
    apply eff_app; apply neutral_fld_nz; reflexivity.
  - unfold ruby_frame_weight, fld_nz.
    destruct (rf_file_name f), (rf_file_line f =? 0), (rf_function_name f), (rf_block_level f =? 0), (rf_rescue_level f =? 0); reflexivity.
  - reflexivity.
  - unfold ruby_frame_unsafe. simpl. rewrite orb_false_r. reflexivity.
Qed.
Definition ruby_members (s : ruby_stacktrace) : list (str * json) :=
  mem_str (L "exception_name") (rs_exception_name s) ++ mem_arr (L "stacktrace") (map ruby_frame_json (rs_frames s)).
Lemma ruby_jval s : opt_safe (rs_exception_name s) ->
  Forall (fun f => ~ ruby_frame_empty f /\ ruby_frame_safe f) (rs_frames s) ->
  jval (JObj (ruby_members s)) (ruby_stacktrace_to_json s).
Proof.
  intros He Hf. unfold ruby_stacktrace_to_json, ruby_members. apply close_object_jval. apply jfields_app.
  - apply jfields_str; [reflexivity | exact He].
  - apply (jfields_frames (L "stacktrace") ruby_frame_json ruby_frame_to_json (rs_frames s) 8); [reflexivity|].
    rewrite Forall_forall in Hf. intros f Hin. destruct (Hf f Hin). apply ruby_frame_jval; assumption.
Qed.
Lemma ruby_back s : ruby_range s -> reads_ruby (JObj (ruby_members s)) (ruby_as_read s).
Proof.
  intros Hr. exists (ruby_members s). split; [reflexivity|]. unfold ruby_members. split.
  - apply reads_string_of. lookup. cbn [ruby_as_read rs_exception_name]. arr_done.
  - apply (reads_list_arr _ _ ruby_frame_json).
    + intros f Hin. unfold ruby_range in Hr. rewrite Forall_forall in Hr. destruct (Hr f Hin) as (? & ? & ?).
      apply ruby_frame_back; assumption.
    + lookup. arr_done.
Qed.
Lemma ruby_eff s : eff (ruby_stacktrace_to_json s)
  (fold_right (fun a s => ruby_frame_weight a + s) 0 (rs_frames s)) 0
  (ounsafe (rs_exception_name s) || existsb ruby_frame_unsafe (rs_frames s)).
Proof.
  unfold ruby_stacktrace_to_json. apply eff_close_object.
  - apply comma_start_app; [starts|]. destruct (rs_frames s); [apply comma_start_nil | apply comma_start_cons].
  - apply (eff_app _ _ 0 0).
    + apply eff_fld_str; reflexivity.
    + apply (eff_frames (L "stacktrace")); [reflexivity|]. intros f _. apply ruby_frame_eff.
Qed.
Lemma ruby_neutral s : neutral (ruby_stacktrace_to_json s) -> opt_safe (rs_exception_name s) /\ Forall (fun f => ~ ruby_frame_empty f /\ ruby_frame_safe f) (rs_frames s).
Proof.
  intros H. apply (eff_fun _ _ _ _ _ _ _ (ruby_eff s)) in H as (Hw & _ & Hu).
  rewrite orb_false_iff, ounsafe_safe, existsb_false in Hu. destruct Hu as [Hu Hf]. split; [exact Hu|].
  rewrite Forall_forall in *. intros f Hin. split; [|apply ruby_frame_unsafe_iff; auto].
  apply ruby_frame_weight_iff. apply (sum_zero ruby_frame_weight (rs_frames s)); auto.
  intros a _. unfold ruby_frame_weight.
  destruct (rf_file_name a), (rf_file_line a =? 0), (rf_function_name a), (rf_block_level a =? 0), (rf_rescue_level a =? 0); lia.
Qed.
Lemma ruby_valid_iff s : valid_json (ruby_stacktrace_to_json s) <->
  opt_safe (rs_exception_name s) /\ Forall (fun f => ~ ruby_frame_empty f /\ ruby_frame_safe f) (rs_frames s).
Proof.
  split.
  - intros H. apply ruby_neutral, valid_json_neutral, H.
  - intros [H1 H2]. eexists. apply jval_text. apply ruby_jval; assumption.
Qed.
Lemma ruby_survives s : ruby_range s -> valid_json (ruby_stacktrace_to_json s) ->
  survives (ruby_stacktrace_to_json s) ruby_stacktrace_from_json (ruby_as_read s).
Proof.
  intros Hr Hv. apply ruby_valid_iff in Hv as [H1 H2].
  eapply survives_of_jval; [apply ruby_jval; assumption | apply ruby_reads, ruby_back; exact Hr].
Qed.
Lemma ruby_ok_survives s : ruby_ok s -> survives (ruby_stacktrace_to_json s) ruby_stacktrace_from_json s.
Proof.
  intros [He Hf]. assert (E : ruby_as_read s = s).
  { unfold ruby_as_read. rewrite map_id_in; [destruct s; reflexivity|]. intros f Hin.
    rewrite Forall_forall in Hf. destruct (Hf f Hin) as (Hl & Hb & Hr & _ & _ & H1).
    unfold ruby_frame_as_read. rewrite !clip32_id, !with_name_id by assumption. destruct f; reflexivity. }
  rewrite <- E at 2. apply ruby_survives.
  - unfold ruby_range. rewrite Forall_forall in *. intros f Hin. destruct (Hf f Hin) as (Hl & Hb & Hr & _). unfold u32, two32. lia.
  - apply ruby_valid_iff. split; [exact He|]. rewrite Forall_forall in *. intros f Hin. destruct (Hf f Hin) as (_ & _ & _ & H1 & H2 & _); auto.
Qed.

(** ** JavaScript *)
Definition js_frame_members (f : js_frame) : list (str * json) :=
  mem_str (L "file_name") (jf_file_name f) ++ mem_nz (L "file_line") (jf_file_line f) ++
  mem_nz (L "line_column") (jf_line_column f) ++ mem_str (L "function_name") (jf_function_name f).
Definition js_frame_json (f : js_frame) : json := JObj (js_frame_members f).
Lemma js_frame_jval f : ~ js_frame_empty f -> js_frame_safe f -> jval (js_frame_json f) (js_frame_to_json f).
Proof.
  intros Hne (H1 & H2). unfold js_frame_json, js_frame_to_json.
  apply close_object_unchecked_jval.
  - unfold js_frame_members. repeat apply jfields_app; try (apply jfields_nz; reflexivity);
      apply jfields_str; auto.
  - intros E. apply Hne. unfold js_frame_members, mem_nz in E. unfold js_frame_empty.
    destruct (jf_file_name f), (jf_file_line f =? 0) eqn:E1, (jf_line_column f =? 0) eqn:E2, (jf_function_name f); try discriminate.
    rewrite Z.eqb_eq in *. auto.
Qed.
Lemma js_frame_back f : u32 (jf_file_line f) -> u32 (jf_line_column f) ->
  reads_js_frame (js_frame_json f) (js_frame_as_read f).
Proof.
  intros [Hl _] [Hc _]. exists (js_frame_members f). split; [reflexivity|]. unfold js_frame_members.
  split; [|split; [|split]]; cbn [js_frame_as_read jf_file_name jf_file_line jf_line_column jf_function_name].
  - apply reads_string_of; lookup; zero_done.
  - apply reads_string_of; lookup; zero_done.
  - apply reads_u32_nz; [exact Hl|]; lookup; zero_done.
  - apply reads_u32_nz; [exact Hc|]; lookup; zero_done.
Qed.
Definition js_frame_unsafe (f : js_frame) : bool :=
  ounsafe (jf_file_name f) || ounsafe (jf_function_name f).
Lemma js_frame_unsafe_iff f : js_frame_unsafe f = false <-> js_frame_safe f.
Proof. unfold js_frame_unsafe, js_frame_safe. dec_false. tauto. Qed.
Definition js_frame_weight (f : js_frame) : Z :=
  match jf_file_name f, jf_file_line f =? 0, jf_line_column f =? 0, jf_function_name f with
  | None, true, true, None => -1 | _, _, _, _ => 0 end.
Lemma js_frame_weight_iff f : js_frame_weight f = 0 <-> ~ js_frame_empty f.
Proof.
  unfold js_frame_weight, js_frame_empty.
  destruct (jf_file_name f), (jf_file_line f =? 0) eqn:E1, (jf_line_column f =? 0) eqn:E2, (jf_function_name f);
    split; intros H; try lia; try (intros (? & ? & ? & ?); try congruence; lia).
  rewrite Z.eqb_eq in *. exfalso; auto 10.
Qed.
Lemma js_frame_eff f : eff (js_frame_to_json f) (js_frame_weight f) 0 (js_frame_unsafe f).
Proof.
  unfold js_frame_to_json.
  eapply eff_eq.
  - apply eff_close_object_unchecked; [starts|].
    apply eff_app; [apply eff_fld_str; reflexivity|].
    apply eff_app; [apply neutral_fld_nz; reflexivity|].
    apply eff_app; [apply neutral_fld_nz; reflexivity|].
    apply eff_fld_str; reflexivity.
  - unfold js_frame_weight, fld_nz.
    destruct (jf_file_name f), (jf_file_line f =? 0), (jf_line_column f =? 0), (jf_function_name f); reflexivity.
  - reflexivity.
  - reflexivity.
Qed.
Definition js_platform_members (p : Z) : list (str * json) :=
  [(L "engine", JStr (or_unknown (js_engine_to_string (js_platform_engine p))));
   (L "runtime", JStr (or_unknown (js_runtime_to_string (js_platform_runtime p))))].
Lemma js_platform_text p : json_text (JObj (js_platform_members p)) (js_platform_to_json p).
Proof.
  unfold js_platform_to_json, js_platform_members.
  set (e := or_unknown (js_engine_to_string (js_platform_engine p))).
  set (r := or_unknown (js_runtime_to_string (js_platform_runtime p))).
  assert (He : jchars e e).
  { unfold e, js_engine_to_string. destruct (_ =? 1); apply plain_key_jchars; reflexivity. }
  assert (Hr : jchars r r).
  { unfold r, js_runtime_to_string. destruct (_ =? 1); apply plain_key_jchars; reflexivity. }
  exists [], ("{"%char :: (L "    " ++ dquote :: L "engine" ++ dquote :: [] ++ ":"%char :: [sp] ++ (dquote :: e ++ [dquote]) ++ [nl] ++ ","%char ::
      (L "    " ++ dquote :: L "runtime" ++ dquote :: [] ++ ":"%char :: [sp] ++ (dquote :: r ++ [dquote]) ++ [nl])) ++ L "}"), [nl].
  split; [apply ws_nil|]. split; [|split; [apply ws_1|]].
  - apply jv_obj. apply jm_more; auto using ws_nil, ws_1.
    + apply (ws_spaces 4).
    + apply plain_key_jchars; reflexivity.
    + apply (ws_spaces 1).
    + apply jv_str; exact He.
    + apply jm_one; auto using ws_nil, ws_1.
      * apply (ws_spaces 4).
      * apply plain_key_jchars; reflexivity.
      * apply (ws_spaces 1).
      * apply jv_str; exact Hr.
  - simpl. repeat (rewrite <- app_assoc; simpl). reflexivity.
Qed.
Definition js_members (s : js_stacktrace) : list (str * json) :=
  mem_str (L "exception_name") (js_exception_name s) ++ mem_arr (L "stacktrace") (map js_frame_json (js_frames s)) ++
  mem_unless (js_platform s =? 0) (L "platform") (JObj (js_platform_members (js_platform s))).
Lemma js_jval s : opt_safe (js_exception_name s) ->
  Forall (fun f => ~ js_frame_empty f /\ js_frame_safe f) (js_frames s) ->
  jval (JObj (js_members s)) (js_stacktrace_to_json s).
Proof.
  intros He Hf. unfold js_stacktrace_to_json, js_members. apply close_object_jval. apply jfields_app; [|apply jfields_app].
  - apply jfields_str; [reflexivity | exact He].
  - apply (jfields_frames (L "stacktrace") js_frame_json js_frame_to_json (js_frames s) 8); [reflexivity|].
    rewrite Forall_forall in Hf. intros f Hin. destruct (Hf f Hin). apply js_frame_jval; assumption.
  - destruct (js_platform s =? 0); [constructor|]. cbn [mem_unless].
    destruct (json_text_indent_efl _ _ 8 (js_platform_text (js_platform s))) as (w1 & t & w2 & H1 & Ht & H2 & ->).
    replace (L ",   ""platform"":" ++ nl :: L "        " ++ w1 ++ t ++ w2)
      with (","%char :: L "   " ++ dquote :: L "platform" ++ dquote :: [] ++ ":"%char :: (nl :: L "        " ++ w1) ++ t ++ w2 ++ [])
      by (simpl; rewrite app_nil_r; reflexivity).
    apply jf_cons; auto using ws_3, ws_nil, jf_nil.
    + apply plain_key_jchars; reflexivity.
    + constructor; [unfold ws_char; auto|]. apply ws_app; [apply (ws_spaces 8) | exact H1].
Qed.
Lemma js_back s : js_range s -> reads_js (JObj (js_members s)) (js_as_read s).
Proof.
  intros [Hp Hr]. exists (js_members s). split; [reflexivity|]. unfold js_members. split; [|split].
  - apply reads_string_of. lookup. destruct (js_platform s =? 0); cbn [js_as_read js_exception_name]; arr_done.
  - apply (reads_list_arr _ _ js_frame_json).
    + intros f Hin. rewrite Forall_forall in Hr. destruct (Hr f Hin) as (? & ?). apply js_frame_back; assumption.
    + lookup. destruct (js_platform s =? 0); arr_done.
  - cbn [js_as_read js_platform]. unfold js_platform_as_read. destruct (js_platform s =? 0) eqn:E.
    + left. split; [|reflexivity]. lookup. arr_done.
    + right. do 3 eexists. split; [lookup; reflexivity|]. split; [reflexivity|]. split; [reflexivity|].
      unfold js_engine_to_string, js_runtime_to_string, js_platform_engine, js_platform_runtime, known1.
      change 15 with (Z.ones 4). rewrite Z.land_ones, Z.shiftr_div_pow2 by lia. change (2 ^ 4) with 16.
      destruct (js_platform s mod 16 =? 1), (js_platform s / 16 =? 1); cbn; auto.
Qed.
Lemma js_eff s : eff (js_stacktrace_to_json s)
  (fold_right (fun a s => js_frame_weight a + s) 0 (js_frames s)) 0
  (ounsafe (js_exception_name s) || existsb js_frame_unsafe (js_frames s)).
Proof.
  unfold js_stacktrace_to_json. apply eff_close_object.
  - apply comma_start_app; [starts|]. apply comma_start_app.
    + destruct (js_frames s); [apply comma_start_nil | apply comma_start_cons].
    + destruct (js_platform s =? 0); [apply comma_start_nil | apply comma_start_cons].
  - eapply eff_eq.
    + apply eff_app; [apply eff_fld_str; reflexivity|]. apply eff_app.
      * apply (eff_frames (L "stacktrace")); [reflexivity|]. intros f _. apply js_frame_eff.
      * assert (G : neutral (if js_platform s =? 0 then [] else L ",   ""platform"":" ++ nl :: L "        " ++
            sr_indent_except_first_line (js_platform_to_json (js_platform s)) 8)); [|exact G].
        destruct (js_platform s =? 0); [apply neutral_nil|].
        apply (neutral_app (L ",   ""platform"":" ++ nl :: L "        ")).
        -- intros br bk bad. cbv -[Z.add orb]. rewrite !orb_false_r. f_equal; lia.
        -- apply eff_indent. apply valid_json_neutral. eexists. apply js_platform_text.
    + cbv beta; lia.
    + reflexivity.
    + rewrite orb_false_r. reflexivity.
Qed.
Lemma js_neutral s : neutral (js_stacktrace_to_json s) -> opt_safe (js_exception_name s) /\ Forall (fun f => ~ js_frame_empty f /\ js_frame_safe f) (js_frames s).
Proof.
  intros H. apply (eff_fun _ _ _ _ _ _ _ (js_eff s)) in H as (Hw & _ & Hu).
  rewrite orb_false_iff, ounsafe_safe, existsb_false in Hu. destruct Hu as [Hu Hf]. split; [exact Hu|].
  rewrite Forall_forall in *. intros f Hin. split; [|apply js_frame_unsafe_iff; auto].
  apply js_frame_weight_iff. apply (sum_zero js_frame_weight (js_frames s)); auto.
  intros a _. unfold js_frame_weight.
  destruct (jf_file_name a), (jf_file_line a =? 0), (jf_line_column a =? 0), (jf_function_name a); lia.
Qed.
Lemma js_valid_iff s : valid_json (js_stacktrace_to_json s) <->
  opt_safe (js_exception_name s) /\ Forall (fun f => ~ js_frame_empty f /\ js_frame_safe f) (js_frames s).
Proof.
  split.
  - intros H. apply js_neutral, valid_json_neutral, H.
  - intros [H1 H2]. eexists. apply jval_text. apply js_jval; assumption.
Qed.
Lemma js_survives s : js_range s -> valid_json (js_stacktrace_to_json s) ->
  survives (js_stacktrace_to_json s) js_stacktrace_from_json (js_as_read s).
Proof.
  intros Hr Hv. apply js_valid_iff in Hv as [H1 H2].
  eapply survives_of_jval; [apply js_jval; assumption | apply js_reads, js_back; exact Hr].
Qed.
Lemma js_ok_survives s : js_ok s -> survives (js_stacktrace_to_json s) js_stacktrace_from_json s.
Proof.
  intros (He & Hf & Hp). assert (E : js_as_read s = s).
  { unfold js_as_read. rewrite map_id_in.
    - replace (js_platform_as_read (js_platform s)) with (js_platform s); [destruct s; reflexivity|].
      destruct Hp as [->| ->]; reflexivity.
    - intros f Hin. rewrite Forall_forall in Hf. destruct (Hf f Hin) as (Hl & Hc & _).
      unfold js_frame_as_read. rewrite !clip32_id by assumption. destruct f; reflexivity. }
  rewrite <- E at 2. apply js_survives.
  - split; [destruct Hp as [->| ->]; unfold u32, two32; lia|].
    rewrite Forall_forall in *. intros f Hin. destruct (Hf f Hin) as (Hl & Hc & _). unfold u32, two32. lia.
  - apply js_valid_iff. split; [exact He|]. rewrite Forall_forall in *. intros f Hin. destruct (Hf f Hin) as (_ & _ & H1 & H2); auto.
Qed.
