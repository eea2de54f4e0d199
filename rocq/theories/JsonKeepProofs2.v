(** * Hashes, short texts, reasons and crash threads of what is received. *)
From Verif Require Import Base JsonSpec Types UtilsModel JsonTypesModel JsonTypesSpec NormModel NormSpec NormProofs CrashModel CrashSpec CrashProofs TextModel TextSpec TextProofs SystemModel ReportModel ReportSpec
  JsonKeepSpec JsonKeepProofs.
Open Scope Z_scope.

(** ** Duplicate hash *)
Lemma dup_text_read flags f : dup_fits f -> frame_duphash_text flags (frame_read f) = frame_duphash_text flags f.
Proof.
  destruct f as [f|f|f|f|f|f|f]; cbn [dup_fits frame_read frame_duphash_text]; intros H; try tauto.
  - unfold core_duphash_text. cbn [core_frame_as_read cf_build_id cf_function_name cf_fingerprint cf_build_id_offset cf_address].
    destruct (cf_build_id f); [apply clip_address_fits in H; now rewrite H|].
    destruct (cf_function_name f); [reflexivity|].
    destruct (cf_fingerprint f); apply clip_address_fits in H; now rewrite H.
  - cbn [python_frame_as_read pf_file_name pf_file_line]. apply clip32_fits in H. now rewrite H.
  - unfold koops_duphash_text. cbn [koops_frame_as_read kf_reliable kf_function_name kf_address].
    destruct (flag_koops_compat flags && negb (kf_reliable f)); [reflexivity|]. destruct (kf_function_name f); [reflexivity|].
    specialize (H eq_refl). apply clip64_fits in H. now rewrite H.
  - unfold java_duphash_text. cbn [java_frame_as_read vf_name vf_class_path vf_file_name vf_file_line].
    destruct (vf_name f); [reflexivity|]. destruct (H eq_refl) as [H1 H2].
    destruct (vf_file_name f); [apply clip32_fits in H1; now rewrite H1|]. now rewrite (H2 eq_refl).
  - cbn [ruby_frame_as_read rf_file_name rf_file_line]. apply clip32_fits in H. now rewrite H.
  - cbn [js_frame_as_read jf_file_name jf_file_line]. apply clip32_fits in H. now rewrite H.
Qed.
(** the number shown is all that can change *)
Lemma file_line_inj a x y : 0 <= x -> 0 <= y -> file_line_text a x = file_line_text a y -> x = y.
Proof.
  intros Hx Hy E. unfold file_line_text in E. apply app_inv_head in E. apply app_inv_head in E. apply app_inv_tail in E. now apply dec_inj in E.
Qed.
Lemma hex_line_inj a x y : 0 <= x -> 0 <= y -> a ++ L "+0x" ++ hex x ++ [nl] = a ++ L "+0x" ++ hex y ++ [nl] -> x = y.
Proof. intros Hx Hy E. apply app_inv_head in E. apply app_inv_head in E. apply app_inv_tail in E. now apply hex_inj in E. Qed.
Lemma hex_bare_inj x y : 0 <= x -> 0 <= y -> L "0x" ++ hex x ++ [nl] = L "0x" ++ hex y ++ [nl] -> x = y.
Proof. intros Hx Hy E. apply app_inv_head in E. apply app_inv_tail in E. now apply hex_inj in E. Qed.
Lemma dup_text_iff f : frame_unsigned f -> (forall g, f <> FGdb g) ->
  (frame_duphash_text 0 (frame_read f) = frame_duphash_text 0 f <-> dup_fits f).
Proof.
  intros U G. split; [|apply dup_text_read].
  destruct f as [f|f|f|f|f|f|f]; cbn [dup_fits frame_read frame_duphash_text frame_unsigned] in *.
  - destruct U as [U1 U2]. unfold core_duphash_text. cbn [core_frame_as_read cf_build_id cf_function_name cf_fingerprint cf_build_id_offset cf_address].
    destruct (cf_build_id f); [intros E; apply hex_line_inj in E; [now apply clip_address_fits|now apply clip_address_pos|assumption]|].
    destruct (cf_function_name f); [tauto|].
    destruct (cf_fingerprint f); intros E.
    + apply hex_line_inj in E; [now apply clip_address_fits|now apply clip_address_pos|assumption].
    + apply hex_bare_inj in E; [now apply clip_address_fits|now apply clip_address_pos|assumption].
  - intros E. cbn [python_frame_as_read pf_file_name pf_file_line] in E. apply file_line_inj in E; [now apply clip32_fits|apply clip32_pos; tauto|tauto].
  - unfold koops_duphash_text. cbn [koops_frame_as_read kf_reliable kf_function_name kf_address flag_koops_compat N.testbit andb].
    intros E N. rewrite N in E. apply hex_bare_inj in E; [now apply clip64_fits|apply clip64_pos; tauto|tauto].
  - unfold java_duphash_text. cbn [java_frame_as_read vf_name vf_class_path vf_file_name vf_file_line]. intros E N. rewrite N in E.
    do 3 apply app_inv_head in E. apply app_inv_head in E. apply app_inv_tail in E.
    destruct (vf_file_name f); apply dec_inj in E; try lia; try (apply clip32_pos; lia).
    + split; [now apply clip32_fits|discriminate].
    + split; [unfold fits32; lia|auto].
  - destruct (G f eq_refl).
  - intros E. cbn [ruby_frame_as_read rf_file_name rf_file_line] in E. apply file_line_inj in E; [now apply clip32_fits|apply clip32_pos; tauto|tauto].
  - intros E. cbn [js_frame_as_read jf_file_name jf_file_line] in E. apply file_line_inj in E; [now apply clip32_fits|apply clip32_pos; tauto|tauto].
Qed.
Lemma duphash_loop_read flags : forall l n b, Forall dup_fits l -> duphash_loop flags (map frame_read l) n b = duphash_loop flags l n b.
Proof.
  intros l. induction l as [|f l IH]; intros n b H; cbn [map duphash_loop]; [reflexivity|]. inversion H; subst.
  rewrite dup_text_read by assumption. destruct (0 <? n); [|reflexivity]. now apply IH.
Qed.
Lemma duphash_read sha1 t n prefix flags : Forall dup_fits (sr_thread_frames t) ->
  sr_thread_get_duphash sha1 (thread_read t) n prefix flags = sr_thread_get_duphash sha1 t n prefix flags.
Proof.
  intros H. unfold sr_thread_get_duphash. rewrite normalize_read.
  set (norm := if flag_nonormalize flags then Ok t else sr_thread_normalize t).
  assert (E : (if flag_nonormalize flags then Ok (thread_read t) else match sr_thread_normalize t with Ok u => Ok (thread_read u) | Fail => Fail | UB => UB end)
    = match norm with Ok u => Ok (thread_read u) | Fail => Fail | UB => UB end) by (unfold norm; now destruct (flag_nonormalize flags)).
  rewrite E. assert (K : forall u, norm = Ok u -> Forall dup_fits (sr_thread_frames u)).
  { unfold norm. intros u Eu. destruct (flag_nonormalize flags); [injection Eu as <-; exact H|]. now apply normalize_keeps in Eu. }
  destruct norm as [u| |]; cbn [bind]; try reflexivity. rewrite frames_read, duphash_loop_read by (apply K; reflexivity). reflexivity.
Qed.

(** ** Backtrace hash *)
Lemma with_name_fits o b : (b = true -> o <> None) -> with_name o b = b.
Proof. intros H. destruct o; [reflexivity|]. destruct b; [|reflexivity]. now destruct (H eq_refl). Qed.
Lemma bt_text_read f : bt_fits f -> frame_bthash_text (frame_read f) = frame_bthash_text f.
Proof.
  destruct f as [f|f|f|f|f|f|f]; cbn [bt_fits frame_read frame_bthash_text]; intros H; try tauto.
  - destruct H as [H1 H2]. apply clip_address_fits in H1, H2. unfold core_bthash_text.
    cbn [core_frame_as_read cf_build_id cf_file_name cf_fingerprint cf_build_id_offset cf_address]. now rewrite H1, H2.
  - destruct H as (H1 & H2 & H3). apply clip32_fits in H1. apply with_name_fits in H2, H3. unfold python_bthash_text.
    cbn [python_frame_as_read pf_file_name pf_special_file pf_file_line pf_function_name pf_special_function pf_line_contents]. now rewrite H1, H2, H3.
  - destruct H as (H1 & H2 & H3 & H4 & H5 & H6). apply clip64_fits in H1, H2, H3, H4, H5, H6. unfold koops_bthash_text.
    cbn [koops_frame_as_read kf_address kf_reliable kf_function_name kf_function_offset kf_function_length kf_module_name kf_from_address kf_from_function_name
         kf_from_function_offset kf_from_function_length kf_from_module_name]. now rewrite H1, H2, H3, H4, H5, H6.
  - destruct H as [H1 H2]. unfold java_bthash_text. cbn [java_frame_as_read vf_name vf_file_name vf_file_line vf_class_path vf_is_native vf_is_exception vf_message].
    destruct (vf_file_name f); [apply clip32_fits in H1; now rewrite H1|]. now rewrite (H2 eq_refl).
  - destruct H as (H1 & H2 & H3 & H4). apply clip32_fits in H1, H2, H3. apply with_name_fits in H4. unfold ruby_bthash_text.
    cbn [ruby_frame_as_read rf_file_name rf_file_line rf_function_name rf_special_function rf_block_level rf_rescue_level]. now rewrite H1, H2, H3, H4.
  - apply clip32_fits in H. unfold js_bthash_text. cbn [js_frame_as_read jf_file_name jf_file_line jf_function_name]. now rewrite H.
Qed.
Lemma bthash_threads_read l : Forall (fun t => Forall bt_fits (sr_thread_frames t)) l -> bthash_threads (map thread_read l) = bthash_threads l.
Proof.
  induction 1 as [|t l Ht Hl IH]; [reflexivity|]. cbn [map bthash_threads]. rewrite IH, frames_read.
  assert (E1 : thread_bthash_text (thread_read t) = thread_bthash_text t) by (destruct t; reflexivity).
  assert (E2 : map frame_bthash_text (map frame_read (sr_thread_frames t)) = map frame_bthash_text (sr_thread_frames t)).
  { rewrite map_map. apply map_ext_Forall. revert Ht. apply Forall_impl. intros f. apply bt_text_read. }
  rewrite E1, E2. now destruct l.
Qed.
Lemma bthash_read sha1 s flags : Forall (fun t => Forall bt_fits (sr_thread_frames t)) (sr_stacktrace_threads s) ->
  sr_stacktrace_get_bthash sha1 (as_read s) flags = sr_stacktrace_get_bthash sha1 s flags.
Proof.
  intros H. unfold sr_stacktrace_get_bthash. rewrite threads_read, bthash_threads_read by exact H.
  assert (E : stacktrace_bthash_text (as_read s) = stacktrace_bthash_text s) by (destruct s; reflexivity). now rewrite E.
Qed.

(** ** The crash thread of a core dump *)
Definition aborting (t : core_thread) : bool := match sr_core_thread_find_exit_frame t with Some _ => true | None => false end.
Definition ct_read (t : core_thread) : core_thread := mk_core_thread (map core_frame_as_read (ct_frames t)).
Lemma aborting_read t : aborting (ct_read t) = aborting t.
Proof. unfold aborting, sr_core_thread_find_exit_frame. cbn [ct_read ct_frames]. now rewrite find_exit_map by reflexivity. Qed.
Lemma find_index_map {A B} (p : B -> bool) (g : A -> B) : forall l i, find_index p i (map g l) = find_index (fun x => p (g x)) i l.
Proof. intros l. induction l as [|x l IH]; intros i; cbn; [reflexivity|]. now rewrite IH. Qed.
Lemma find_index_ext {A} (p q : A -> bool) : (forall x, p x = q x) -> forall l i, find_index p i l = find_index q i l.
Proof. intros H l. induction l as [|x l IH]; intros i; cbn; [reflexivity|]. now rewrite H, IH. Qed.
Lemma find_index_hit {A} (p : A -> bool) : forall l i k, find_index p i l = Some k -> (i <= k)%nat /\ exists x, nth_error l (k - i) = Some x /\ p x = true.
Proof.
  intros l. induction l as [|x l IH]; intros i k; cbn; [discriminate|]. destruct (p x) eqn:E.
  - intros H. injection H as <-. rewrite Nat.sub_diag. split; [lia|]. exists x. auto.
  - intros H. destruct (IH _ _ H) as (H1 & y & H2 & H3). split; [lia|]. exists y. split; [|exact H3].
    replace (k - i)%nat with (Datatypes.S (k - Datatypes.S i)) by lia. exact H2.
Qed.
Lemma core_find_eq s : sr_core_stacktrace_find_crash_thread s =
  match cs_crash_thread s with
  | Some i => Some i
  | None => match cs_threads s with [] => None | [_] => Some 0%nat | _ => find_index aborting 0 (cs_threads s) end
  end.
Proof. reflexivity. Qed.
Lemma core_crash_iff s : cs_threads s <> [] -> (forall i, cs_crash_thread s = Some i -> (i < length (cs_threads s))%nat) ->
  (sr_core_stacktrace_find_crash_thread (core_as_read s) = sr_core_stacktrace_find_crash_thread s <-> crash_fits s).
Proof.
  intros NE V. rewrite !core_find_eq. unfold crash_fits. cbn [core_as_read cs_crash_thread cs_threads].
  change (fun t => mk_core_thread (map core_frame_as_read (ct_frames t))) with ct_read.
  assert (FI : find_index aborting 0 (map ct_read (cs_threads s)) = find_index aborting 0 (cs_threads s)).
  { rewrite find_index_map. apply find_index_ext. exact aborting_read. }
  unfold core_crash_as_read. destruct (cs_crash_thread s) as [i|] eqn:C.
  - specialize (V i eq_refl). destruct (nth_error (cs_threads s) i) as [t|] eqn:N.
    2: { apply nth_error_None in N. lia. }
    destruct (ct_frames t) as [|f fs] eqn:F.
    + split.
      * intros E. exists t. split; [reflexivity|]. right. destruct (cs_threads s) as [|a [|b r]]; [congruence|reflexivity|].
        change (map ct_read (a :: b :: r)) with (ct_read a :: ct_read b :: map ct_read r) in E. cbn iota in E.
        change (find_index aborting 0 (map ct_read (a :: b :: r)) = Some i) in E. rewrite FI in E.
        destruct (find_index_hit _ _ _ _ E) as (_ & x & X & A). rewrite Nat.sub_0_r, N in X. injection X as <-.
        unfold aborting, sr_core_thread_find_exit_frame in A. rewrite F in A. discriminate A.
      * intros (u & U & [Q|Q]); [congruence|]. destruct (cs_threads s) as [|a [|b r]]; try discriminate Q. cbn in V. now replace i with 0%nat by lia.
    + split; [|reflexivity]. intros _. exists t. split; [reflexivity|]. left. congruence.
  - destruct (cs_threads s) as [|a r] eqn:T; [congruence|]. cbn [nth_error].
    destruct (ct_frames a) as [|f fs] eqn:F.
    + split; [|].
      * intros _ t q E. injection E as <- <-. auto.
      * intros _. destruct r as [|b r]; [reflexivity|]. cbn [map]. exact FI.
    + destruct r as [|b r].
      * split; [|reflexivity]. intros _ t q E. injection E as <- <-. auto.
      * split.
        -- intros E t q Q. injection Q as <- <-. right; right. apply core_aborts_iff. fold (aborting a).
           symmetry in E. destruct (find_index_hit _ _ _ _ E) as (_ & x & X & A). injection X as <-. exact A.
        -- intros H. destruct (H a (b :: r) eq_refl) as [Q|[Q|Q]]; [discriminate Q|congruence|].
           apply core_aborts_iff in Q. fold (aborting a) in Q. cbn [find_index]. now rewrite Q.
Qed.

(** ** Short text *)
Lemma short_frame_read f : short_fits f -> sr_frame_append_to_str (frame_read f) = sr_frame_append_to_str f.
Proof.
  destruct f as [f|f|f|f|f|f|f]; cbn [short_fits frame_read sr_frame_append_to_str]; intros H; try tauto.
  - unfold sr_core_frame_append_to_str. cbn [core_frame_as_read cf_build_id cf_file_name cf_function_name cf_build_id_offset].
    destruct (cf_function_name f); [reflexivity|]. specialize (H eq_refl). apply clip_address_fits in H. now rewrite H.
  - destruct H as (H1 & H2). apply with_name_fits in H2. unfold sr_python_frame_append_to_str.
    cbn [python_frame_as_read pf_file_name pf_special_file pf_file_line pf_function_name pf_special_function]. rewrite H2.
    destruct (pf_file_name f) as [n|]; [|reflexivity]. cbn [with_name]. assert (K : fits32 (pf_file_line f)) by (apply H1; discriminate).
    apply clip32_fits in K. now rewrite K.
  - unfold sr_java_frame_append_to_str. cbn [java_frame_as_read vf_name vf_file_name vf_file_line vf_class_path vf_is_native vf_is_exception vf_message].
    destruct (vf_is_exception f); [reflexivity|]. destruct (H eq_refl) as [H1 H2].
    destruct (vf_file_name f); [apply clip32_fits in H1; now rewrite H1|]. now rewrite (H2 eq_refl).
  - destruct H as (H1 & H2 & H3 & H4). apply clip32_fits in H2, H3. apply with_name_fits in H4. unfold sr_ruby_frame_append_to_str.
    cbn [ruby_frame_as_read rf_file_name rf_file_line rf_function_name rf_special_function rf_block_level rf_rescue_level]. rewrite H2, H3, H4.
    destruct (rf_file_name f) as [n|]; [|reflexivity]. assert (K : fits32 (rf_file_line f)) by (apply H1; discriminate).
    apply clip32_fits in K. now rewrite K.
  - destruct H as (H1 & H2). apply clip32_fits in H1, H2. unfold sr_js_frame_append_to_str.
    cbn [js_frame_as_read jf_file_name jf_file_line jf_line_column jf_function_name]. now rewrite H1, H2.
Qed.
Lemma short_loop_read m : forall l i, Forall short_fits l -> short_text_loop (map frame_read l) i m = short_text_loop l i m.
Proof.
  intros l. induction l as [|f l IH]; intros i H; cbn [map short_text_loop]; [reflexivity|]. inversion H; subst.
  rewrite short_frame_read, IH by assumption. reflexivity.
Qed.
Lemma crash_thread_read s : (forall c, s = SCore c -> sr_core_stacktrace_find_crash_thread (core_as_read c) = sr_core_stacktrace_find_crash_thread c) ->
  (forall g, s <> SGdb g) -> sr_stacktrace_find_crash_thread (as_read s) = option_map thread_read (sr_stacktrace_find_crash_thread s).
Proof.
  intros H G. destruct s as [s|s|s|s|s|s|s]; cbn [as_read sr_stacktrace_find_crash_thread]; try reflexivity.
  - rewrite (H s eq_refl). destruct (sr_core_stacktrace_find_crash_thread s) as [i|]; [|reflexivity].
    cbn [core_as_read cs_threads]. rewrite nth_error_map. now destruct (nth_error (cs_threads s) i).
  - unfold sr_java_find_crash_thread. cbn [java_as_read vs_threads]. now destruct (vs_threads s).
  - destruct (G s eq_refl).
Qed.
Lemma short_text_read s n : (forall c, s = SCore c -> sr_core_stacktrace_find_crash_thread (core_as_read c) = sr_core_stacktrace_find_crash_thread c) ->
  (forall g, s <> SGdb g) -> (forall t, sr_stacktrace_find_crash_thread s = Some t -> Forall short_fits (sr_thread_frames t)) ->
  sr_stacktrace_to_short_text (as_read s) n = sr_stacktrace_to_short_text s n.
Proof.
  intros H G F. assert (E : stacktrace_to_short_text (as_read s) n = stacktrace_to_short_text s n).
  { unfold stacktrace_to_short_text. rewrite (crash_thread_read s H G). destruct (sr_stacktrace_find_crash_thread s) as [t|]; [|reflexivity].
    cbn [option_map]. rewrite frames_read, short_loop_read by (apply F; reflexivity). reflexivity. }
  destruct s; cbn [as_read sr_stacktrace_to_short_text] in *; try exact E. destruct (G s eq_refl).
Qed.

(** ** Reason *)
Lemma last_of_map {A B} (g : A -> B) l : last_of (map g l) = option_map g (last_of l).
Proof. induction l as [|x [|y l] IH]; [reflexivity|reflexivity|]. exact IH. Qed.
Lemma last_of_app {A} (l : list A) x : last_of l = Some x -> exists r, l = r ++ [x].
Proof.
  induction l as [|y [|z l] IH]; [discriminate| |].
  - intros E. injection E as ->. now exists [].
  - intros E. destruct (IH E) as (r & R). exists (y :: r). cbn. now rewrite <- R.
Qed.
Lemma java_loop_read l : forall e b, (forall r f, l = r ++ [f] -> vf_file_name f <> None -> fits32 (vf_file_line f)) ->
  java_reason_loop (map java_frame_as_read l) e b = java_reason_loop l e b.
Proof.
  induction l as [|f l IH]; intros e b H; [reflexivity|].
  assert (H' : forall r g, l = r ++ [g] -> vf_file_name g <> None -> fits32 (vf_file_line g)).
  { intros r g E. apply (H (f :: r)). now rewrite E. }
  cbn [map java_reason_loop]. cbn [java_frame_as_read vf_name vf_is_exception vf_file_name vf_file_line].
  destruct (match vf_name f with Some n => if vf_is_exception f && negb b then (n, true) else (e, b) | None => (e, b) end) as [e' b'].
  destruct l as [|g l].
  - cbn [map]. destruct (vf_file_name f) as [n|] eqn:N; [|reflexivity].
    assert (K : fits32 (vf_file_line f)) by (apply (H [] f eq_refl); congruence). apply clip32_fits in K. now rewrite K.
  - cbn [map]. exact (IH e' b' H').
Qed.
Lemma reason_read s : reason_fits s -> sr_stacktrace_get_reason (as_read s) = sr_stacktrace_get_reason s.
Proof.
  destruct s as [s|s|s|s|s|s|s]; cbn [reason_fits as_read sr_stacktrace_get_reason]; intros H; try tauto.
  - unfold python_reason. cbn [python_as_read ps_frames ps_exception_name]. rewrite last_of_map.
    destruct (last_of (ps_frames s)) as [f|] eqn:E; [|reflexivity]. cbn [option_map python_frame_as_read pf_file_name pf_file_line].
    destruct (last_of_app _ _ E) as (r & R). apply H in R. apply clip32_fits in R. now rewrite R.
  - unfold koops_reason. cbn [koops_as_read ks_frames ks_reason]. rewrite koops_normalize_read, H.
    destruct (sr_normalize_koops_frames (ks_frames s)) as [[|f l]| |]; reflexivity.
  - unfold java_reason. cbn [java_as_read vs_threads]. destruct (vs_threads s) as [|t r] eqn:T; [reflexivity|]. cbn [map vt_frames].
    rewrite java_loop_read; [reflexivity|]. intros l f. exact (H t r l f eq_refl).
  - unfold ruby_reason. cbn [ruby_as_read rs_frames rs_exception_name]. destruct (rs_frames s) as [|f l]; [reflexivity|].
    cbn [map ruby_frame_as_read rf_file_name rf_file_line]. specialize (H f l eq_refl). apply clip32_fits in H. now rewrite H.
  - unfold js_reason. cbn [js_as_read js_frames js_exception_name]. destruct (js_frames s) as [|f l]; [reflexivity|].
    cbn [map js_frame_as_read jf_file_name jf_file_line jf_line_column]. destruct (H f l eq_refl) as [H1 H2]. apply clip32_fits in H1, H2. now rewrite H1, H2.
Qed.

(** ** The condition on the duplicate hash is exact *)
Lemma in_range_unsigned s t f : members_in_range s -> In t (sr_stacktrace_threads s) -> In f (sr_thread_frames t) -> frame_unsigned f.
Proof.
  intros R T F. destruct s as [s|s|s|s|s|s|s]; cbn [members_in_range sr_stacktrace_threads] in *; try tauto.
  - apply in_map_iff in T. destruct T as (u & <- & U). cbn [sr_thread_frames] in F. apply in_map_iff in F. destruct F as (g & <- & G).
    destruct R as [_ R]. rewrite Forall_forall in R. assert (K : In g (core_frames s)). { apply in_concat. exists (ct_frames u). split; [|exact G]. now apply in_map. }
    destruct (R g K) as [[? _] [? _]]. split; assumption.
  - destruct T as [<-|[]]. cbn [sr_thread_frames] in F. apply in_map_iff in F. destruct F as (g & <- & G). unfold python_range in R. rewrite Forall_forall in R. exact (proj1 (R g G)).
  - destruct T as [<-|[]]. cbn [sr_thread_frames] in F. apply in_map_iff in F. destruct F as (g & <- & G). destruct R as [[_ R] _]. rewrite Forall_forall in R.
    destruct (R g G) as ([? _] & [? _] & [? _] & [? _] & [? _] & [? _]). cbn. tauto.
  - apply in_map_iff in T. destruct T as (u & <- & U). cbn [sr_thread_frames] in F. apply in_map_iff in F. destruct F as (g & <- & G).
    unfold java_range in R. rewrite Forall_forall in R. assert (K : In g (java_frames s)). { apply in_concat. exists (vt_frames u). split; [|exact G]. now apply in_map. }
    exact (proj1 (R g K)).
  - destruct T as [<-|[]]. cbn [sr_thread_frames] in F. apply in_map_iff in F. destruct F as (g & <- & G). unfold ruby_range in R. rewrite Forall_forall in R.
    destruct (R g G) as ([? _] & [? _] & [? _]). cbn. tauto.
  - destruct T as [<-|[]]. cbn [sr_thread_frames] in F. apply in_map_iff in F. destruct F as (g & <- & G). destruct R as [_ R]. rewrite Forall_forall in R.
    destruct (R g G) as ([? _] & [? _]). cbn. tauto.
Qed.
Lemma in_range_no_gdb s t f : members_in_range s -> In t (sr_stacktrace_threads s) -> In f (sr_thread_frames t) -> forall g, f <> FGdb g.
Proof.
  intros R T F g ->. destruct s as [s|s|s|s|s|s|s]; cbn [members_in_range sr_stacktrace_threads] in *; try tauto;
    try (apply in_map_iff in T; destruct T as (u & <- & U)); try (destruct T as [<-|[]]); cbn [sr_thread_frames] in F; apply in_map_iff in F;
    destruct F as (h & E & _); discriminate E.
Qed.
Lemma one_line sha1 t f prefix : sr_thread_frames t = [f] ->
  sr_thread_get_duphash sha1 t 0 prefix 6 = Ok (Some (match prefix with Some p => p | None => [] end ++ L "Thread" ++ [nl] ++ frame_duphash_text 0 f)).
Proof.
  intros E. unfold sr_thread_get_duphash. change (flag_nonormalize 6) with true. change (flag_koops_compat 6) with false. change (flag_nohash 6) with true.
  cbn iota. cbn [bind andb]. rewrite E. cbn [duphash_loop]. change (0 =? 0) with true. change (0 <? int_max) with true. cbn iota.
  assert (K : frame_duphash_text 6 f = frame_duphash_text 0 f) by (destruct f; reflexivity). rewrite K, <- !app_assoc. reflexivity.
Qed.
Lemma duphash_exact s t f : members_in_range s -> In t (sr_stacktrace_threads s) -> sr_thread_frames t = [f] -> forall sha1 prefix,
  sr_thread_get_duphash sha1 (thread_read t) 0 prefix 6 = sr_thread_get_duphash sha1 t 0 prefix 6 <-> dup_fits f.
Proof.
  intros R T E sha1 prefix. assert (F : In f (sr_thread_frames t)) by (rewrite E; left; reflexivity).
  rewrite <- (dup_text_iff f (in_range_unsigned s t f R T F) (in_range_no_gdb s t f R T F)).
  rewrite (one_line sha1 t f prefix E), (one_line sha1 (thread_read t) (frame_read f) prefix) by (rewrite frames_read, E; reflexivity).
  split.
  - intros H. assert (K : forall (x y : str), Ok (Some x) = Ok (Some y) -> x = y) by congruence. apply K in H.
    apply app_inv_head in H. apply app_inv_head in H. apply app_inv_head in H. exact H.
  - now intros ->.
Qed.
