(** * What the text parsers return can be sent: Ruby, JavaScript and Python. *)
From Verif Require Import Base UtilsSpec JsonSpec Types ParseSpec JsonTypesModel JsonTypesSpec JsonRoundtrip JsonRoundtrip2 JsonKeepSpec
  RubyParseSpec JsParseSpec PyParseSpec JavaParseSpec ReportModel TextModel.
Open Scope Z_scope.

Lemma safe_app a b : json_safe (a ++ b) <-> json_safe a /\ json_safe b.
Proof. apply Forall_app. Qed.
Lemma safe_cons c s : json_safe (c :: s) <-> json_safe_char c /\ json_safe s.
Proof. split; [intros H; inversion H; auto|intros []; now constructor]. Qed.
Definition safeb (c : ascii) : bool := (32 <=? code c)%N.
Lemma safe_literal s : forallb safeb s = true -> json_safe s.
Proof. intros H. apply Forall_forall. intros c I. left. rewrite forallb_forall in H. apply N.leb_le, H, I. Qed.
Lemma safe_anonymized path shown : anonymized path shown -> json_safe path -> json_safe shown.
Proof.
  intros [(u & r & _ & -> & ->)|(_ & ->)] H; [|exact H]. rewrite !safe_app, safe_cons in H. apply safe_app. split; [now apply safe_literal|tauto].
Qed.
Lemma number32_u32 ds v : number32 ds v -> u32 (Z.of_N v).
Proof. intros (_ & H). unfold u32, two32. lia. Qed.

(** ** Ruby *)
Lemma ruby_frame_sent s f rest : ruby_frame_text s f rest -> json_safe s ->
  json_safe rest /\ ruby_frame_safe f /\ (u32 (rf_file_line f) /\ u32 (rf_block_level f) /\ u32 (rf_rescue_level f)) /\ rf_file_name f <> None /\ rf_function_name f <> None.
Proof.
  intros (path & shown & ds & line & q & nt & name & -> & _ & N & A & (n & after & -> & _ & R & B) & (_ & _ & NT) & F & Li & Fn) S.
  rewrite !safe_app in S. destruct S as (Sp & _ & _ & _ & _ & Sa).
  assert (Snt : json_safe nt). { destruct B as [(-> & _)|[(es & v & -> & _)|(-> & _)]]; rewrite ?safe_app in Sa; tauto. }
  assert (Sn : json_safe name /\ json_safe rest). { destruct (rf_special_function f); [subst nt|destruct NT as (-> & _)]; rewrite !safe_app in Snt; tauto. }
  split; [tauto|]. split; [unfold ruby_frame_safe; rewrite F, Fn; cbn; split; [now apply (safe_anonymized path)|tauto]|].
  split; [|rewrite F, Fn; split; discriminate].
  split; [rewrite Li; now apply (number32_u32 ds)|]. split.
  - destruct B as [(_ & ->)|[(es & v & _ & K & ->)|(_ & _ & _ & ->)]]; [unfold u32, two32; lia|now apply (number32_u32 es)|unfold u32, two32; lia].
  - rewrite R. unfold u32, two32. apply Z.mod_pos_bound. reflexivity.
Qed.
Definition ruby_good (f : ruby_frame) : Prop :=
  ruby_frame_safe f /\ (u32 (rf_file_line f) /\ u32 (rf_block_level f) /\ u32 (rf_rescue_level f)) /\ rf_file_name f <> None /\ rf_function_name f <> None.
Lemma ruby_frames_sent s fs : ruby_frames_text s fs -> json_safe s -> Forall ruby_good fs.
Proof.
  induction 1 as [|s f H|s f rest fs H _ IH]; intros S; [constructor| |]; rewrite safe_cons, safe_app in S; destruct S as (_ & _ & S); apply ruby_frame_sent in H; try exact S.
  - constructor; [exact (proj2 H)|constructor].
  - constructor; [exact (proj2 H)|]. apply IH. destruct H as (H & _). apply safe_cons in H. tauto.
Qed.
Lemma ruby_sent s t : ruby_text s t -> json_safe s -> opt_safe (rs_exception_name t) /\ Forall ruby_good (rs_frames t).
Proof.
  intros (f & after & message & class & rest & fs & H & -> & _ & _ & _ & _ & _ & Hs & ->) S. cbn.
  apply ruby_frame_sent in H; [|exact S]. destruct H as (S' & H). rewrite !safe_app, safe_cons in S'.
  split; [tauto|]. constructor; [exact H|]. apply (ruby_frames_sent rest); [exact Hs|tauto].
Qed.
Lemma ruby_sendable s t : ruby_text s t -> json_safe s -> sendable (SRuby t).
Proof.
  intros H S. destruct (ruby_sent _ _ H S) as (E & F). split.
  - eapply Forall_impl; [|exact F]. intros f (_ & R & _). exact R.
  - exists (ruby_stacktrace_to_json t). split; [reflexivity|]. apply ruby_valid_iff. split; [exact E|].
    eapply Forall_impl; [|exact F]. intros f (K & _ & N & _). split; [intros (Q & _); tauto|exact K].
Qed.

(** ** JavaScript *)
Definition js_good (f : js_frame) : Prop := js_frame_safe f /\ (u32 (jf_file_line f) /\ u32 (jf_line_column f)) /\ jf_file_name f <> None.
Lemma js_frame_sent s f rest : js_frame_text s f rest -> json_safe s -> json_safe rest /\ js_good f.
Proof.
  intros (lead & gap & body & trail & w & path & shown & line & column & -> & _ & _ & _ & _ & _ & (ds & es & -> & _ & N & M) & A & F & Li & Co & B) S.
  rewrite !safe_app in S. destruct S as (_ & _ & _ & Sb & _ & Sr). split; [exact Sr|].
  assert (K : json_safe path /\ opt_safe (jf_function_name f)).
  { destruct (jf_function_name f) as [name|]; [destruct B as (ign & -> & _)|destruct B as (-> & _)]; rewrite !safe_app in Sb; cbn; tauto. }
  split; [|split].
  - unfold js_frame_safe. rewrite F. cbn. split; [apply (safe_anonymized path); tauto|tauto].
  - rewrite Li, Co. split; [now apply (number32_u32 ds)|now apply (number32_u32 es)].
  - rewrite F. discriminate.
Qed.
Lemma js_frames_sent s fs : js_frames_text s fs -> json_safe s -> Forall js_good fs.
Proof.
  induction 1 as [|s f H|s f rest fs H _ IH]; intros S; [constructor| |]; apply js_frame_sent in H; try exact S.
  - constructor; [exact (proj2 H)|constructor].
  - constructor; [exact (proj2 H)|]. apply IH. destruct H as (H & _). apply safe_cons in H. tauto.
Qed.
Lemma js_sent s t : js_text s t -> json_safe s -> opt_safe (js_exception_name t) /\ Forall js_good (js_frames t) /\ js_platform t = 1.
Proof.
  intros (class & message & rest & fs & -> & _ & _ & _ & H & ->) S. rewrite !safe_app, safe_cons in S. cbn.
  split; [tauto|]. split; [|reflexivity]. apply (js_frames_sent rest); tauto.
Qed.
Lemma js_sendable s t : js_text s t -> json_safe s -> sendable (SJs t).
Proof.
  intros H S. destruct (js_sent _ _ H S) as (E & F & P). split.
  - split; [rewrite P; unfold u32, two32; lia|]. eapply Forall_impl; [|exact F]. intros f (_ & R & _). exact R.
  - exists (js_stacktrace_to_json t). split; [reflexivity|]. apply js_valid_iff. split; [exact E|].
    eapply Forall_impl; [|exact F]. intros f (K & _ & N). split; [intros (Q & _); tauto|exact K].
Qed.

(** ** Python *)
Definition py_good (f : python_frame) : Prop := python_frame_safe f /\ u32 (pf_file_line f) /\ pf_file_name f <> None /\ pf_function_name f <> None.
Lemma safe_bracketed text name special : bracketed text name special -> json_safe text -> json_safe name.
Proof. unfold bracketed. destruct special; [intros ->; rewrite !safe_app; tauto|intros (-> & _); tauto]. Qed.
Lemma py_frame_sent s f rest : py_frame_text s f rest -> json_safe s -> json_safe rest /\ py_good f.
Proof.
  intros (path & inner & shown & ds & line & name & after & below & -> & _ & _ & N & B & A & F & Li & (r & P & Q) & Fn & C) S.
  rewrite !safe_app in S. destruct S as (_ & Sp & _ & _ & Sa).
  assert (K : json_safe name /\ json_safe r).
  { destruct P as [(text & -> & _ & _ & _ & Bt)|(_ & -> & -> & _)].
    - rewrite !safe_app in Sa. split; [apply (safe_bracketed text _ _ Bt)|]; tauto.
    - split; [now apply safe_literal|exact Sa]. }
  assert (Sb : json_safe below). { destruct Q as [->|(_ & ->)]; [destruct K as (_ & K); apply safe_cons in K; tauto|constructor]. }
  assert (G : json_safe rest /\ opt_safe (pf_line_contents f)).
  { unfold py_source_text in C. destruct (pf_line_contents f) as [l|].
    - destruct C as (_ & _ & [->|(-> & ->)]); rewrite !safe_app, ?safe_cons in Sb; cbn; [tauto|]. split; [constructor|tauto].
    - destruct C as [(-> & _)|(-> & _)]; rewrite ?safe_app in Sb; cbn; tauto. }
  split; [tauto|]. split; [|split; [|split]].
  - unfold python_frame_safe. rewrite F, Fn. cbn. split; [|tauto]. apply (safe_anonymized inner); [exact A|]. exact (safe_bracketed _ _ _ B Sp).
  - rewrite Li. now apply (number32_u32 ds).
  - rewrite F. discriminate.
  - rewrite Fn. discriminate.
Qed.
Lemma py_passed_safe s r : py_passed s r -> json_safe s -> json_safe r.
Proof. intros [(p & -> & _)|(-> & _)] S; [rewrite safe_app, safe_cons in S; tauto|exact S]. Qed.
Lemma py_frames_sent s fs rest : py_frames_text s fs rest -> json_safe s -> json_safe rest /\ Forall py_good fs.
Proof.
  induction 1 as [s r P _|s r f q fs rest P H _ IH]; intros S; apply py_passed_safe in P; try exact S; [split; [exact P|constructor]|].
  apply py_frame_sent in H; [|exact P]. destruct H as (Sq & G). destruct (IH Sq). split; [assumption|]. now constructor.
Qed.
Lemma first_at_safe n s r : first_at n s r -> json_safe s -> json_safe r.
Proof. intros (a & -> & _) S. apply safe_app in S. tauto. Qed.
Lemma py_start_safe s r : py_start s r -> json_safe s -> json_safe r.
Proof.
  intros (s1 & E & H) S.
  assert (S1 : json_safe s1). { destruct E as [->|(-> & _)]; [apply safe_cons in S; tauto|exact S]. }
  destruct H as [H|(_ & q & H & K)].
  - apply first_at_safe in H; [|exact S1]. apply safe_app in H. tauto.
  - apply first_at_safe in H; [|exact S]. exact (first_at_safe _ _ _ K H).
Qed.
Lemma py_sent s t rest : py_text s t rest -> json_safe s -> opt_safe (ps_exception_name t) /\ Forall py_good (ps_frames t).
Proof.
  intros (r & fs & class & after & P & H & _ & -> & _ & _ & _ & ->) S. cbn. apply py_start_safe in P; [|exact S].
  apply py_frames_sent in H; [|exact P]. destruct H as (Sa & G). rewrite safe_app in Sa. split; [tauto|]. now apply Forall_rev.
Qed.
Lemma py_sendable s t rest : py_text s t rest -> json_safe s -> sendable (SPython t).
Proof.
  intros H S. destruct (py_sent _ _ _ H S) as (E & F). split.
  - eapply Forall_impl; [|exact F]. intros f (_ & R & _). exact R.
  - exists (python_stacktrace_to_json t). split; [reflexivity|]. apply python_valid_iff. split; [exact E|].
    eapply Forall_impl; [|exact F]. intros f (K & _ & N & _). split; [intros (Q & _); tauto|exact K].
Qed.
