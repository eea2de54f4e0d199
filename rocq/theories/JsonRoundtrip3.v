(** * Round trips through JSON: core stack traces. *)
From Verif Require Import Base UtilsModel JsonSpec JsonModel JsonProofs JsonScan Types JsonTypesModel JsonTypesSpec JsonReaders JsonWriters JsonRoundtrip JsonRoundtrip2.
Open Scope Z_scope.

Definition unhashed (f : core_frame) : bool :=
  match cf_fingerprint f with Some _ => cf_fingerprint_hashed f | None => true end.
Definition core_frame_members (f : core_frame) : list (str * json) :=
  mem_unless (cf_address f =? ulong_max) (L "address") (JInt (cf_address f)) ++
  mem_str (L "build_id") (cf_build_id f) ++
  mem_unless (cf_build_id_offset f =? ulong_max) (L "build_id_offset") (JInt (cf_build_id_offset f)) ++
  mem_str (L "function_name") (cf_function_name f) ++ mem_str (L "file_name") (cf_file_name f) ++
  mem_str (L "fingerprint") (cf_fingerprint f) ++
  mem_unless (unhashed f) (L "fingerprint_hashed") (JBool false).
Definition core_frame_json (f : core_frame) : json := JObj (core_frame_members f).
Definition fld_unless (b : bool) (k t : str) : str := if b then [] else fld k t.
Lemma core_frame_text f : core_frame_to_json f = close_object (
  fld_unless (cf_address f =? ulong_max) (L "address") (print_Z (cf_address f)) ++
  fld_str (L "build_id") (cf_build_id f) ++
  fld_unless (cf_build_id_offset f =? ulong_max) (L "build_id_offset") (print_Z (cf_build_id_offset f)) ++
  fld_str (L "function_name") (cf_function_name f) ++ fld_str (L "file_name") (cf_file_name f) ++
  fld_str (L "fingerprint") (cf_fingerprint f) ++
  fld_unless (unhashed f) (L "fingerprint_hashed") (L "false")).
Proof.
  unfold core_frame_to_json, unhashed, fld_unless. destruct (cf_fingerprint f); reflexivity.
Qed.
Lemma jfields_unless b k v t : plain_key k = true -> jval v t -> jfields (mem_unless b k v) (fld_unless b k t).
Proof. intros. unfold mem_unless, fld_unless. destruct b; [constructor | apply jfields_fld; assumption]. Qed.
Lemma neutral_unless b k v t : plain_key k = true -> jval v t -> neutral (fld_unless b k t).
Proof. intros. unfold fld_unless. destruct b; [apply neutral_nil | eapply neutral_fld_jval; eassumption]. Qed.
Lemma comma_start_unless b k t : comma_start (fld_unless b k t).
Proof. unfold fld_unless; destruct b; [apply comma_start_nil | apply comma_start_fld]. Qed.
Lemma core_frame_jval f : core_frame_safe f -> jval (core_frame_json f) (core_frame_to_json f).
Proof.
  intros (H1 & H2 & H3 & H4). unfold core_frame_json. rewrite core_frame_text. apply close_object_jval.
  unfold core_frame_members. repeat apply jfields_app;
    first [ apply jfields_str; [reflexivity | assumption]
          | apply jfields_unless; [reflexivity | first [apply jv_print_Z | constructor]] ].
Qed.
Lemma core_frame_back f : core_frame_range f -> reads_core_frame (core_frame_json f) (core_frame_as_read f).
Proof.
  intros ([Ha _] & [Ho _]). exists (core_frame_members f). split; [reflexivity|]. unfold core_frame_members.
  cbn [core_frame_as_read cf_address cf_build_id cf_build_id_offset cf_function_name cf_file_name cf_fingerprint cf_fingerprint_hashed].
  assert (Hh : forall o k, jget k o = (if unhashed f then None else Some (JBool false)) -> reads_bool o k true (unhashed f)).
  { intros o k H. unfold reads_bool. destruct (unhashed f); auto. }
  repeat (split; [|]).
  - apply reads_address; [exact Ha|]. lookup. destruct (unhashed f), (cf_build_id_offset f =? ulong_max), (cf_address f =? ulong_max); opt_done.
  - apply reads_string_of. lookup. destruct (unhashed f), (cf_build_id_offset f =? ulong_max); opt_done.
  - apply reads_address; [exact Ho|]. lookup. destruct (unhashed f), (cf_build_id_offset f =? ulong_max); opt_done.
  - apply reads_string_of. lookup. destruct (unhashed f); opt_done.
  - apply reads_string_of. lookup. destruct (unhashed f); opt_done.
  - apply reads_string_of. lookup. destruct (unhashed f); opt_done.
  - apply Hh. lookup. destruct (unhashed f); opt_done.
Qed.
Definition core_frame_unsafe (f : core_frame) : bool :=
  ounsafe (cf_build_id f) || (ounsafe (cf_function_name f) || (ounsafe (cf_file_name f) || ounsafe (cf_fingerprint f))).
Lemma core_frame_unsafe_iff f : core_frame_unsafe f = false <-> core_frame_safe f.
Proof. unfold core_frame_unsafe, core_frame_safe. dec_false. tauto. Qed.
Lemma core_frame_eff f : eff (core_frame_to_json f) 0 0 (core_frame_unsafe f).
Proof.
  rewrite core_frame_text. apply eff_close_object.
  - repeat first [ apply comma_start_str | apply comma_start_unless | apply comma_start_app ].
  - eapply eff_eq.
    + apply eff_app; [eapply neutral_unless; [reflexivity | apply jv_print_Z]|].
      apply eff_app; [apply eff_fld_str; reflexivity|].
      apply eff_app; [eapply neutral_unless; [reflexivity | apply jv_print_Z]|].
      apply eff_app; [apply eff_fld_str; reflexivity|].
      apply eff_app; [apply eff_fld_str; reflexivity|].
      apply eff_app; [apply eff_fld_str; reflexivity|].
      eapply neutral_unless; [reflexivity | apply jv_false].
    + reflexivity.
    + reflexivity.
    + unfold core_frame_unsafe. simpl. rewrite orb_false_r. reflexivity.
Qed.

(** Threads *)
Definition core_thread_json (t : core_thread) (crash : bool) : json :=
  match ct_frames t with
  | [] => JObj []
  | fs => JObj (mem_unless (negb crash) (L "crash_thread") (JBool true) ++ [(L "frames", JArr (map core_frame_json fs))])
  end.
Lemma core_thread_text t crash : ct_frames t <> [] -> core_thread_to_json t crash = close_object (
  fld_unless (negb crash) (L "crash_thread") (L "true") ++
  L ",   """ ++ L "frames" ++ L """:" ++ nl ::
  array_loop (map (fun f => sr_indent_except_first_line (core_frame_to_json f) 8) (ct_frames t))).
Proof.
  intros H. unfold core_thread_to_json. destruct (ct_frames t) as [|f fs]; [congruence|].
  destruct crash; cbn [negb fld_unless].
  - rewrite close_fld. reflexivity.
  - reflexivity.
Qed.
Lemma core_thread_jval t crash : Forall core_frame_safe (ct_frames t) -> jval (core_thread_json t crash) (core_thread_to_json t crash).
Proof.
  intros Hf. destruct (ct_frames t) as [|f fs] eqn:E.
  - unfold core_thread_json, core_thread_to_json. rewrite E. apply (jv_obj0 []). apply ws_nil.
  - rewrite core_thread_text by (rewrite E; discriminate). unfold core_thread_json. rewrite E.
    apply close_object_jval. apply jfields_app.
    + apply jfields_unless; [reflexivity | constructor].
    + apply jfields_array; [reflexivity | | discriminate]. rewrite <- E in *.
      apply Forall2_map_jval. rewrite Forall_forall in Hf. intros x Hx. apply core_frame_jval; auto.
Qed.
Lemma core_thread_back t crash : Forall core_frame_range (ct_frames t) ->
  reads_core_thread (core_thread_json t crash) (mk_core_thread (map core_frame_as_read (ct_frames t))) /\
  marked (core_thread_json t crash) = Some (match ct_frames t with [] => false | _ => crash end).
Proof.
  intros Hf. unfold core_thread_json. destruct (ct_frames t) as [|f fs] eqn:E.
  - split; [|reflexivity]. exists []. split; [reflexivity|]. left; auto.
  - split.
    + eexists. split; [reflexivity|]. right. eexists. split; [lookup; reflexivity|].
      cbn [ct_frames]. clear E. induction (f :: fs) as [|g gs IH]; cbn [map]; constructor; inversion Hf; subst; auto.
      apply core_frame_back; assumption.
    + unfold marked. lookup. destruct crash; reflexivity.
Qed.
Definition core_thread_unsafe (t : core_thread) : bool := existsb core_frame_unsafe (ct_frames t).
Lemma core_thread_eff t crash : eff (core_thread_to_json t crash) 0 0 (core_thread_unsafe t).
Proof.
  destruct (ct_frames t) as [|f fs] eqn:E.
  - unfold core_thread_to_json, core_thread_unsafe. rewrite E. apply (neutral_jval (JObj [])). apply (jv_obj0 []). apply ws_nil.
  - rewrite core_thread_text by (rewrite E; discriminate). apply eff_close_object.
    + apply comma_start_app; [apply comma_start_unless | apply comma_start_cons].
    + eapply eff_eq.
      * apply eff_app; [eapply neutral_unless; [reflexivity | constructor]|].
        pose proof (eff_frames (L "frames") core_frame_to_json (fun _ => 0) core_frame_unsafe 8 (ct_frames t) eq_refl
          (fun x _ => core_frame_eff x)) as G. rewrite E in *. exact G.
      * rewrite sum_const0. reflexivity.
      * reflexivity.
      * unfold core_thread_unsafe. rewrite E. reflexivity.
Qed.

(** Stack traces *)
Definition indexed {A} (i : nat) (l : list A) : list (nat * A) := combine (seq i (length l)) l.
Lemma core_threads_json_map s l : forall i, core_threads_json s i l =
  map (fun p => sr_indent_except_first_line (core_thread_to_json (snd p) (core_crash_flag s (fst p))) 8) (indexed i l).
Proof. induction l as [|t l IH]; intros i; [reflexivity|]. cbn. f_equal. apply IH. Qed.
Definition core_thread_vals (s : core_stacktrace) : list json :=
  map (fun p => core_thread_json (snd p) (core_crash_flag s (fst p))) (indexed 0 (cs_threads s)).
Definition core_members (s : core_stacktrace) : list (str * json) :=
  [(L "signal", JInt (cs_signal s))] ++ mem_str (L "executable") (cs_executable s) ++
  mem_unless (negb (cs_only_crash_thread s)) (L "only_crash_thread") (JBool true) ++
  [(L "stacktrace", JArr (core_thread_vals s))].
Lemma core_text s : core_stacktrace_to_json s = close_object (
  fld (L "signal") (print_Z (cs_signal s)) ++ fld_str (L "executable") (cs_executable s) ++
  fld_unless (negb (cs_only_crash_thread s)) (L "only_crash_thread") (L "true") ++
  L ",   """ ++ L "stacktrace" ++ L """:" ++ nl ::
  array_loop (map (fun p => sr_indent_except_first_line (core_thread_to_json (snd p) (core_crash_flag s (fst p))) 8) (indexed 0 (cs_threads s)))).
Proof.
  rewrite close_fld. unfold core_stacktrace_to_json. rewrite core_threads_json_map.
  set (A := array_loop _). unfold fld_unless. destruct (cs_only_crash_thread s); cbn [negb];
    rewrite <- !app_assoc; reflexivity.
Qed.
Lemma indexed_nth {A} (l : list A) : forall i k, nth_error (indexed i l) k = option_map (fun a => ((i + k)%nat, a)) (nth_error l k).
Proof.
  induction l as [|a l IH]; intros i [|k]; try reflexivity.
  - cbn. rewrite Nat.add_0_r. reflexivity.
  - change (nth_error (indexed (S i) l) k = option_map (fun a0 => ((i + S k)%nat, a0)) (nth_error l k)).
    rewrite IH, Nat.add_succ_comm. reflexivity.
Qed.
Lemma indexed_in {A} (l : list A) i p : In p (indexed i l) -> In (snd p) l.
Proof. intros H. destruct p as [n a]. apply in_combine_r in H. exact H. Qed.
Lemma indexed_length {A} (l : list A) i : length (indexed i l) = length l.
Proof. unfold indexed. rewrite combine_length, seq_length. lia. Qed.
Lemma core_jval s : core_safe s -> cs_threads s <> [] -> jval (JObj (core_members s)) (core_stacktrace_to_json s).
Proof.
  intros [He Hf] Hne. rewrite core_text. apply close_object_jval. unfold core_members.
  unfold core_frames in Hf. rewrite Forall_concat in Hf.
  apply jfields_app; [apply jfields_fld; [reflexivity | apply jv_print_Z]|].
  apply jfields_app; [apply jfields_str; [reflexivity | exact He]|].
  apply jfields_app; [apply jfields_unless; [reflexivity | constructor]|].
  apply jfields_array; [reflexivity| |].
  - unfold core_thread_vals. apply Forall2_map_jval. intros p Hp. apply core_thread_jval.
    rewrite Forall_forall in Hf. apply Hf. eapply indexed_in; eauto.
  - unfold core_thread_vals. destruct (cs_threads s); [congruence | discriminate].
Qed.
Lemma nth_error_map' {A B} (f : A -> B) l k : nth_error (map f l) k = option_map f (nth_error l k).
Proof. revert k; induction l as [|a l IH]; intros [|k]; simpl; auto. Qed.
Lemma core_back s : core_range s -> reads_core (JObj (core_members s)) (core_as_read s).
Proof.
  intros [Hs Hf]. unfold core_frames in Hf. rewrite Forall_concat in Hf.
  exists (core_members s). split; [reflexivity|]. unfold core_members.
  cbn [core_as_read cs_signal cs_executable cs_crash_thread cs_threads cs_only_crash_thread].
  assert (HT : forall p, In p (indexed 0 (cs_threads s)) ->
     reads_core_thread (core_thread_json (snd p) (core_crash_flag s (fst p))) (mk_core_thread (map core_frame_as_read (ct_frames (snd p)))) /\
     marked (core_thread_json (snd p) (core_crash_flag s (fst p))) = Some (match ct_frames (snd p) with [] => false | _ => core_crash_flag s (fst p) end)).
  { intros p Hp. apply core_thread_back. rewrite Forall_forall in Hf. apply Hf. eapply indexed_in; eauto. }
  split; [|split; [|split]].
  - right. exists (cs_signal s). split; [lookup; destruct (negb (cs_only_crash_thread s)); opt_done|].
    unfold clip_between, two16, u16 in *. unfold two16 in Hs.
    destruct (cs_signal s <? - 2 ^ 31) eqn:E1; [lia|]. destruct (2 ^ 31 - 1 <? cs_signal s) eqn:E2; [lia|].
    rewrite Z.mod_small; lia.
  - apply reads_string_of. lookup. destruct (negb (cs_only_crash_thread s)); opt_done.
  - unfold reads_bool. destruct (cs_only_crash_thread s); [right | left; split; [|reflexivity]]; lookup; opt_done.
  - right. exists (core_thread_vals s). split; [lookup; reflexivity|]. split; [|split].
    + unfold core_thread_vals. clear Hf Hs.
      assert (G : forall (ts : list core_thread) i, (forall p, In p (indexed i ts) ->
         reads_core_thread (core_thread_json (snd p) (core_crash_flag s (fst p))) (mk_core_thread (map core_frame_as_read (ct_frames (snd p))))) ->
         Forall2 reads_core_thread (map (fun p => core_thread_json (snd p) (core_crash_flag s (fst p))) (indexed i ts))
           (map (fun t => mk_core_thread (map core_frame_as_read (ct_frames t))) ts)).
      { induction ts as [|t ts IH]; intros i H; [constructor|].
        change (indexed i (t :: ts)) with ((i, t) :: indexed (S i) ts) in *. cbn [map]. constructor.
        - apply (H (i, t)). left; reflexivity.
        - apply IH. intros p Hp. apply H. right; exact Hp. }
      apply G. intros p Hp. apply HT; exact Hp.
    + unfold core_thread_vals. rewrite Forall_forall. intros j Hj. apply in_map_iff in Hj as (p & <- & Hp).
      rewrite (proj2 (HT p Hp)). discriminate.
    + assert (HM : forall k j, nth_error (core_thread_vals s) k = Some j ->
        exists t, nth_error (cs_threads s) k = Some t /\
          marked j = Some (match ct_frames t with [] => false | _ => core_crash_flag s k end)).
      { intros k j H. unfold core_thread_vals in H. rewrite nth_error_map' in H.
        destruct (nth_error (indexed 0 (cs_threads s)) k) as [p|] eqn:E; [|discriminate].
        injection H as <-. pose proof (nth_error_In _ _ E) as Hin. rewrite indexed_nth in E.
        destruct (nth_error (cs_threads s) k) as [t|]; [|discriminate]. injection E as <-.
        exists t. split; [reflexivity|]. rewrite (proj2 (HT _ Hin)). reflexivity. }
      unfold core_crash_as_read. set (c := match cs_crash_thread s with Some i => i | None => O end).
      assert (HC : forall k, core_crash_flag s k = Nat.eqb k c).
      { intros k. unfold core_crash_flag, c. destruct (cs_crash_thread s); reflexivity. }
      assert (HN : (forall t, nth_error (cs_threads s) c = Some t -> ct_frames t = []) ->
        Forall (fun j => marked j = Some false) (core_thread_vals s)).
      { intros H. rewrite Forall_forall. intros j Hj. apply In_nth_error in Hj as [k Hk].
        destruct (HM k j Hk) as (t & Ht & ->). rewrite HC.
        destruct (Nat.eqb k c) eqn:Ekc; [|destruct (ct_frames t); reflexivity].
        apply Nat.eqb_eq in Ekc; subst k. rewrite (H t Ht). reflexivity. }
      destruct (nth_error (cs_threads s) c) as [t|] eqn:Ec.
      * destruct (ct_frames t) as [|f fs] eqn:Et.
        -- apply HN. intros t' Ht'. injection Ht' as <-. exact Et.
        -- split.
           ++ exists (core_thread_json t (core_crash_flag s c)).
              assert (Hj : nth_error (core_thread_vals s) c = Some (core_thread_json t (core_crash_flag s c))).
              { unfold core_thread_vals. rewrite nth_error_map', indexed_nth, Ec. reflexivity. }
              split; [exact Hj|]. destruct (HM c _ Hj) as (t' & Ht' & ->). rewrite Ec in Ht'. injection Ht' as <-.
              rewrite Et, HC, Nat.eqb_refl. reflexivity.
           ++ intros i' j Hlt Hj. destruct (HM i' j Hj) as (t' & Ht' & ->). rewrite HC.
              replace (Nat.eqb i' c) with false by (symmetry; apply Nat.eqb_neq; lia). destruct (ct_frames t'); reflexivity.
      * apply HN. intros t' Ht'. discriminate.
Qed.
Lemma existsb_map_snd {A} (b : A -> bool) l : forall i, existsb (fun p => b (snd p)) (indexed i l) = existsb b l.
Proof. induction l as [|a l IH]; intros i; [reflexivity|]. change (indexed i (a :: l)) with ((i, a) :: indexed (S i) l). cbn. rewrite IH. reflexivity. Qed.
Lemma core_eff s : eff (core_stacktrace_to_json s) 0 (match cs_threads s with [] => -1 | _ => 0 end)
  (ounsafe (cs_executable s) || existsb core_thread_unsafe (cs_threads s)).
Proof.
  rewrite core_text. apply eff_close_object; [apply comma_start_cons|].
  pose proof (eff_array_loop (fun p : nat * core_thread => core_thread_to_json (snd p) (core_crash_flag s (fst p))) (fun _ => 0)
     (fun p => core_thread_unsafe (snd p)) 8 (indexed 0 (cs_threads s)) (fun p _ => core_thread_eff (snd p) (core_crash_flag s (fst p)))) as E.
  rewrite sum_const0, existsb_map_snd in E. eapply eff_eq.
  - apply eff_app; [eapply neutral_fld_jval; [reflexivity | apply jv_print_Z]|].
    apply eff_app; [apply eff_fld_str; reflexivity|].
    apply eff_app; [eapply neutral_unless; [reflexivity | constructor]|].
    refine (eff_app (L ",   ""stacktrace"":" ++ [nl]) _ 0 0 _ _ false _ _ E).
    intros br bk bad. cbv -[Z.add orb]. rewrite !orb_false_r. f_equal; lia.
  - reflexivity.
  - destruct (cs_threads s); reflexivity.
  - reflexivity.
Qed.
Lemma core_neutral s : neutral (core_stacktrace_to_json s) -> core_safe s /\ cs_threads s <> [].
Proof.
  intros H. apply (eff_fun _ _ _ _ _ _ _ (core_eff s)) in H as (_ & Hb & Hu).
  rewrite orb_false_iff, ounsafe_safe, existsb_false in Hu. destruct Hu as [H1 H2]. split.
  + split; [exact H1|]. unfold core_frames. rewrite Forall_concat. eapply Forall_impl; [|exact H2].
    intros t Ht. unfold core_thread_unsafe in Ht. rewrite existsb_false in Ht. eapply Forall_impl; [|exact Ht].
    intros f Hf. apply core_frame_unsafe_iff; exact Hf.
  + destruct (cs_threads s); [lia | discriminate].
Qed.
Lemma core_valid_iff s : valid_json (core_stacktrace_to_json s) <->
  core_safe s /\ cs_threads s <> [].
Proof.
  split.
  - intros H. apply core_neutral, valid_json_neutral, H.
  - intros [H1 H2]. eexists. apply jval_text. apply core_jval; assumption.
Qed.
Lemma core_survives s : core_range s -> core_safe s -> cs_threads s <> [] ->
  survives (core_stacktrace_to_json s) core_stacktrace_from_json (core_as_read s).
Proof.
  intros Hr Hv Hm. eapply survives_of_jval; [apply core_jval; assumption|]. apply core_reads, core_back; exact Hr.
Qed.
Lemma clip_address_id z : 0 <= z < 2 ^ 63 \/ z = ulong_max -> clip_address z = z.
Proof.
  unfold clip_address. destruct (z =? ulong_max) eqn:E; [reflexivity|]. intros [H|H]; [apply clip64_id; exact H | lia].
Qed.
Lemma core_frame_as_read_id f : core_frame_ok f -> core_frame_as_read f = f.
Proof.
  intros (H1 & H2 & H3 & _). unfold core_frame_as_read. rewrite !clip_address_id by assumption.
  replace (match cf_fingerprint f with Some _ => cf_fingerprint_hashed f | None => true end) with (cf_fingerprint_hashed f).
  - destruct f; reflexivity.
  - destruct (cf_fingerprint f); [reflexivity | auto].
Qed.
Lemma core_ok_survives s : core_ok s -> survives (core_stacktrace_to_json s) core_stacktrace_from_json s.
Proof.
  intros (Hs & He & Hf & Hne & i & t & Hc & Ht & Htf). assert (E : core_as_read s = s).
  { unfold core_as_read. replace (core_crash_as_read s) with (cs_crash_thread s).
    - rewrite map_id_in; [destruct s; reflexivity|]. intros t' Hin. rewrite map_id_in; [destruct t'; reflexivity|].
      intros f Hf'. apply core_frame_as_read_id. unfold core_frames in Hf. rewrite Forall_concat, Forall_forall in Hf.
      specialize (Hf t' Hin). rewrite Forall_forall in Hf. auto.
    - unfold core_crash_as_read. rewrite Hc, Ht. destruct (ct_frames t); [congruence | reflexivity]. }
  rewrite <- E at 2. apply core_survives; [| | exact Hne].
  - split; [exact Hs|]. eapply Forall_impl; [|exact Hf]. intros f (H1 & H2 & _).
    unfold core_frame_range, u64, two64, ulong_max in *. lia.
  - split; [exact He|]. eapply Forall_impl; [|exact Hf]. intros f (_ & _ & _ & H). exact H.
Qed.
