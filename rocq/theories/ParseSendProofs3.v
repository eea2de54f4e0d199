(** * What the text parsers return, sent and received. *)
From Verif Require Import Base UtilsSpec JsonSpec Types ParseSpec JsonTypesModel JsonTypesSpec JsonRoundtrip JsonRoundtrip2 JsonKeepSpec JsonKeepProofs
  RubyParseSpec JsParseSpec PyParseSpec JavaParseSpec RubyParseModel JsParseModel PyParseModel JavaParseModel KoopsModel KoopsSpec
  RubyParseProofs JsParseProofs AbrtProofs KoopsProofs3 P_Koops P_Ruby P_Js P_Python P_Java TextModel ReportModel CliModel ParseSendSpec ParseSendProofs ParseSendProofs2.
Open Scope Z_scope.

Lemma taint_loop_length s l : length (taint_loop s l) = length l.
Proof.
  revert l. induction s as [|c s IH]; intros l; [reflexivity|]. cbn [taint_loop]. destruct (_ && _); [now rewrite IH, set_flag_length|]. destruct (negb _); [reflexivity|apply IH].
Qed.
Lemma taint_length s : length (snd (parse_taint_flags s no_taint)) = 16%nat.
Proof. unfold parse_taint_flags. destruct (strstr _ s); cbn [snd]; [rewrite taint_loop_length|]; reflexivity. Qed.
Lemma koops_parts s t rest : sr_koops_stacktrace_parse s = Ok (t, rest) -> json_safe s -> koops_range t /\ koops_safe t.
Proof.
  intros H S. apply C46_parse_exact in H. destruct H as (_ & V & R & T & reason & _ & O). destruct (oops_sent _ _ _ _ O S) as (F & L). split.
  - split; [rewrite T; apply taint_length|]. eapply Forall_impl; [|exact F]. intros f (_ & Q). exact Q.
  - unfold koops_safe. rewrite V, R. cbn. split; [constructor|]. split; [exact S|]. split; [exact L|]. eapply Forall_impl; [|exact F]. intros f (Q & _). exact Q.
Qed.
Lemma koops_sendable s t rest : sr_koops_stacktrace_parse s = Ok (t, rest) -> sendable (SKoops t) <-> json_safe s /\ koops_modules_fit t.
Proof.
  intros H. split.
  - apply C46_parse_exact in H. destruct H as (_ & V & R & T & reason & _ & O).
    intros ((_ & M) & text & E & K). split; [|exact M]. injection E as <-. apply koops_valid_iff in K. destruct K as (_ & K & _). rewrite R in K. exact K.
  - intros (S & M). destruct (koops_parts _ _ _ H S) as (A & B). split; [split; assumption|].
    exists (koops_stacktrace_to_json t). split; [reflexivity|]. now apply koops_valid_iff.
Qed.

Lemma read_all_ok {A} (f : A -> stacktrace) r s : read_all f r = Ok s -> exists x rest, r = Ok (x, rest) /\ s = f x.
Proof. unfold read_all. destruct r as [[x rest]| |]; cbn; try discriminate. intros H. injection H as <-. eauto. Qed.
(** the four types but koops *)
Lemma parsed_sendable tokener type text s : In type [2; 4; 6; 7]%nat -> sr_stacktrace_parse tokener type text = Ok s -> json_safe text -> sendable s.
Proof.
  intros T H S. cbn in T. destruct T as [<-|[<-|[<-|[<-|[]]]]]; cbn [sr_stacktrace_parse] in H; apply read_all_ok in H; destruct H as (x & rest & H & ->).
  - apply C42_accepts_exactly in H. exact (py_sendable _ _ _ H S).
  - apply java_iff in H. destruct H as (u & H & E). destruct x as [l]. cbn in E. subst l. exact (java_sendable _ _ _ H S).
  - pose proof (C40_consumes_all _ _ _ H) as ->. apply C40_accepts_exactly in H. exact (ruby_sendable _ _ H S).
  - pose proof (js_end _ _ _ H) as ->. apply js_iff in H. exact (js_sendable _ _ H S).
Qed.

(** ** How it comes back *)
Lemma map_same {A} (f : A -> A) l : map f l = l <-> Forall (fun x => f x = x) l.
Proof.
  induction l as [|x l IH]; cbn; [split; [constructor|reflexivity]|]. split.
  - intros H. injection H as E H. constructor; [exact E|now apply IH].
  - intros H. inversion H as [|? ? E K]. subst. rewrite E. f_equal. now apply IH.
Qed.
Lemma clip32_same z : clip32 z = z <-> fits32 z.
Proof. unfold clip32, fits32. lia. Qed.
Lemma clip64_same z : clip64 z = z <-> fits64 z.
Proof. unfold clip64, fits64. lia. Qed.
Lemma Forall_iff_in {A} (P Q : A -> Prop) l : (forall x, In x l -> P x <-> Q x) -> Forall P l <-> Forall Q l.
Proof. intros H. rewrite !Forall_forall. split; intros K x I; apply (H x I), K, I. Qed.
Lemma some_flag o b : o <> None -> with_name o b = b.
Proof. destruct o; [reflexivity|tauto]. Qed.
Lemma python_same f : pf_file_name f <> None -> pf_function_name f <> None -> python_frame_as_read f = f <-> fits32 (pf_file_line f).
Proof.
  intros N M. unfold python_frame_as_read. rewrite !some_flag by assumption. rewrite <- clip32_same. destruct f. cbn. split; [congruence|intros ->; reflexivity].
Qed.
Lemma ruby_same f : rf_function_name f <> None -> ruby_frame_as_read f = f <-> fits32 (rf_file_line f) /\ fits32 (rf_block_level f) /\ fits32 (rf_rescue_level f).
Proof.
  intros N. unfold ruby_frame_as_read. rewrite some_flag by assumption. rewrite <- !clip32_same. destruct f. cbn.
  split; [intros H; injection H; tauto|intros (-> & -> & ->); reflexivity].
Qed.
Lemma js_same f : js_frame_as_read f = f <-> fits32 (jf_file_line f) /\ fits32 (jf_line_column f).
Proof. unfold js_frame_as_read. rewrite <- !clip32_same. destruct f. cbn. split; [intros H; injection H; tauto|intros (-> & ->); reflexivity]. Qed.
Lemma java_same f : java_frame_as_read f = f <-> match vf_file_name f with Some _ => fits32 (vf_file_line f) | None => vf_file_line f = 0 end.
Proof.
  unfold java_frame_as_read. destruct f as [n [fn|] li cp na ex me]; cbn; rewrite <- ?clip32_same; (split; [congruence|intros ->; reflexivity]).
Qed.
Lemma koops_same f : koops_frame_as_read f = f <-> fits64 (kf_address f) /\ fits64 (kf_function_offset f) /\ fits64 (kf_function_length f) /\
  fits64 (kf_from_address f) /\ fits64 (kf_from_function_offset f) /\ fits64 (kf_from_function_length f).
Proof.
  unfold koops_frame_as_read. rewrite <- !clip64_same. destruct f. cbn. split; [intros H; injection H; tauto|intros (-> & -> & -> & -> & -> & ->); reflexivity].
Qed.
Lemma java_maps (l : list java_thread) : map (fun t => mk_java_thread (vt_name t) (map java_frame_as_read (vt_frames t))) l = l <->
  Forall (fun f => java_frame_as_read f = f) (concat (map vt_frames l)).
Proof.
  rewrite map_same, List.Forall_concat, List.Forall_map. apply Forall_iff_in. intros [n fs] _. cbn. rewrite <- map_same. split; [congruence|intros ->; reflexivity].
Qed.
Lemma parsed_back tokener type text s : text_type type -> sr_stacktrace_parse tokener type text = Ok s -> sendable s ->
  (as_read s = but_for s <-> all_fit s).
Proof.
  intros T H D. cbn in T. destruct T as [<-|[<-|[<-|[<-|[<-|[]]]]]]; cbn [sr_stacktrace_parse] in H; apply read_all_ok in H; destruct H as (x & rest & H & ->);
    cbn [as_read but_for all_fit].
  - apply C42_accepts_exactly in H. unfold python_as_read.
    transitivity (map python_frame_as_read (ps_frames x) = ps_frames x); [destruct x; cbn; split; [congruence|intros ->; reflexivity]|].
    rewrite map_same. apply Forall_iff_in. intros f I.
    assert (K : pf_file_name f <> None /\ pf_function_name f <> None).
    { destruct H as (r & fs & class & after & _ & H & _ & _ & _ & _ & _ & ->). cbn in I. apply in_rev in I. clear - H I.
      induction H as [|s r f' q fs rest _ H _ IH]; [destruct I|]. destruct I as [->|I]; [|exact (IH I)].
      destruct H as (path & inner & shown & ds & line & name & a & b & _ & _ & _ & _ & _ & _ & F & _ & _ & G & _). rewrite F, G. split; discriminate. }
    apply python_same; tauto.
  - unfold koops_as_read.
    transitivity (map koops_frame_as_read (ks_frames x) = ks_frames x); [destruct x; cbn; split; [congruence|intros ->; reflexivity]|].
    rewrite map_same. apply Forall_iff_in. intros f _. apply koops_same.
  - unfold java_as_read, java_frames.
    transitivity (map (fun t => mk_java_thread (vt_name t) (map java_frame_as_read (vt_frames t))) (vs_threads x) = vs_threads x); [destruct x; cbn; split; [congruence|intros ->; reflexivity]|].
    rewrite java_maps. apply Forall_iff_in. intros f _. rewrite java_same. unfold fits32. destruct (vf_file_name f); split; try tauto; intros K; try (split; [|intros]); try tauto; try discriminate; try lia. 
  - pose proof (C40_consumes_all _ _ _ H) as ->. apply C40_accepts_exactly in H. unfold ruby_as_read.
    transitivity (map ruby_frame_as_read (rs_frames x) = rs_frames x); [destruct x; cbn; split; [congruence|intros ->; reflexivity]|].
    rewrite map_same. apply Forall_iff_in. intros f I. apply ruby_same.
    destruct H as (f0 & after & message & class & r & fs & H & _ & _ & _ & _ & _ & _ & Hs & ->). cbn in I.
    assert (K : forall s g q, ruby_frame_text s g q -> rf_function_name g <> None).
    { intros s g q (path & shown & ds & line & q' & nt & name & _ & _ & _ & _ & _ & _ & _ & _ & F). rewrite F. discriminate. }
    destruct I as [<-|I]; [exact (K _ _ _ H)|]. clear - Hs I K. induction Hs as [|s g Hg|s g r fs Hg _ IH]; [destruct I| |].
    + destruct I as [<-|[]]. exact (K _ _ _ Hg).
    + destruct I as [<-|I]; [exact (K _ _ _ Hg)|exact (IH I)].
  - pose proof (js_end _ _ _ H) as ->. apply js_iff in H. destruct H as (class & message & r & fs & _ & _ & _ & _ & _ & ->). unfold js_as_read. cbn.
    transitivity (map js_frame_as_read fs = fs); [split; [congruence|intros ->; reflexivity]|].
    rewrite map_same. apply Forall_iff_in. intros f _. apply js_same.
Qed.
