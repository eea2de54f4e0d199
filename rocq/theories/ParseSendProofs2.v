(** * What the text parsers return can be sent: Java and kernel oopses; and how it comes back. *)
From Verif Require Import Base UtilsSpec JsonSpec Types ParseSpec JsonTypesModel JsonTypesSpec JsonRoundtrip JsonRoundtrip2 JsonKeepSpec JsonKeepProofs
  RubyParseSpec JsParseSpec PyParseSpec JavaParseSpec KoopsModel KoopsSpec TextModel ReportModel ParseSendSpec ParseSendProofs.
Open Scope Z_scope.

(** ** Java *)
Definition java_good (f : java_frame) : Prop := java_frame_safe f /\ u32 (vf_file_line f).
Lemma zero_u32 : u32 0.
Proof. unfold u32, two32. lia. Qed.
Lemma safe_optional text o : optional text o -> json_safe text -> opt_safe o.
Proof. unfold optional. destruct text; intros -> S; [constructor|exact S]. Qed.
Lemma past_blanks_safe s r : past_blanks s r -> json_safe s -> json_safe r.
Proof. intros (ws & -> & _) S. apply safe_app in S. tauto. Qed.
Lemma line_and_rest_safe s l r : line_and_rest s l r -> json_safe s -> json_safe l /\ json_safe r.
Proof.
  intros (_ & [->|(-> & ->)]) S; [rewrite safe_app, safe_cons in S; tauto|]. split; [exact S|constructor].
Qed.
Lemma java_path_safe stop scheme s path : java_path stop scheme s path -> json_safe scheme -> json_safe s -> opt_safe path.
Proof.
  intros (text & r & E & _ & _ & H) A B.
  assert (K : json_safe text).
  { destruct E as [(_ & ->)|(_ & E)]; [apply safe_app in B; tauto|].
    assert (Q : json_safe (text ++ r)). { rewrite <- E. apply safe_app. split; [exact A|]. apply safe_cons. split; [left; vm_compute; discriminate|exact B]. }
    apply safe_app in Q. tauto. }
  destruct text; [subst path; constructor|]. destruct H as (shown & An & ->). exact (safe_anonymized _ _ An K).
Qed.
Lemma java_url_safe line path : java_url line path -> json_safe line -> opt_safe path.
Proof.
  intros [(_ & ->)|(a & b & -> & _ & P)] S; [constructor|]. rewrite safe_app, safe_cons in S. destruct S as (_ & _ & S).
  destruct P as [(_ & ->)|(scheme & r & -> & _ & [(_ & J)|(_ & P)])]; [constructor| |].
  - rewrite safe_app, safe_cons in S. destruct J as [(_ & ->)|(scheme' & r' & -> & _ & P)]; [constructor|].
    rewrite safe_app, safe_cons in S. apply (java_path_safe _ _ _ _ P); tauto.
  - rewrite safe_app, safe_cons in S. apply (java_path_safe _ _ _ _ P); tauto.
Qed.
Lemma java_number_safe s n after : java_number s n after -> json_safe s -> json_safe after /\ u32 n.
Proof.
  intros [(_ & -> & ->)|[(ds & v & -> & N & -> & _)|(-> & -> & _)]] S; rewrite ?safe_app in S.
  - split; [exact S|exact zero_u32].
  - split; [tauto|]. now apply (number32_u32 ds).
  - split; [tauto|exact zero_u32].
Qed.
Lemma java_source_safe line native file n after : java_source line native file n after -> json_safe line ->
  opt_safe file /\ json_safe after /\ u32 n.
Proof.
  intros [(_ & -> & _ & -> & ->)|(src & q & -> & _ & _ & _ & F & N)] S.
  - split; [constructor|]. split; [exact S|exact zero_u32].
  - rewrite !safe_app in S. apply java_number_safe in N; [|tauto]. split; [|exact N].
    destruct F as [(-> & _)|(_ & _ & _ & shown & A & ->)]; [constructor|]. apply (safe_anonymized _ _ A). tauto.
Qed.
Lemma java_line_sent line f : java_line line f -> json_safe line -> java_good f.
Proof.
  intros (name & q & after & -> & _ & _ & O & Sr & U & _ & M) S. rewrite safe_app in S.
  apply java_source_safe in Sr; [|tauto]. destruct Sr as (F & A & N). apply java_url_safe in U; [|exact A].
  apply safe_optional in O; [|tauto]. split; [|exact N]. unfold java_frame_safe. rewrite M. cbn. tauto.
Qed.
Lemma java_frame_sent s f rest : java_frame_text s f rest -> json_safe s -> java_good f /\ json_safe rest.
Proof.
  intros (r & q & line & A & B & C & D) S. apply first_at_safe in A; [|exact S]. apply safe_app in A. apply past_blanks_safe in B; [|tauto].
  apply line_and_rest_safe in C; [|exact B]. split; [now apply (java_line_sent line)|tauto].
Qed.
Lemma java_head_sent s name message body : java_head s name message body -> json_safe s ->
  java_good (java_exception_frame name message) /\ json_safe body.
Proof.
  intros (r & after & P & -> & _ & _ & _ & H) S. apply past_blanks_safe in P; [|exact S]. apply safe_app in P. destruct P as (Sn & Sa).
  assert (K : opt_safe message /\ json_safe body).
  { destruct H as [(q & q' & text & -> & B & C & O)|(_ & junk & C & ->)].
    - apply safe_cons in Sa. apply past_blanks_safe in B; [|tauto]. apply line_and_rest_safe in C; [|exact B]. apply safe_optional in O; tauto.
    - apply line_and_rest_safe in C; [|exact Sa]. split; [constructor|tauto]. }
  split; [|tauto]. split; [|exact zero_u32]. unfold java_frame_safe. cbn. tauto.
Qed.
Lemma java_lines_sent s fs next : java_lines s fs next -> json_safe s ->
  Forall java_good fs /\ match next with no_more => True | elided r | cause r => json_safe r end.
Proof.
  induction 1 as [|s r f q fs next _ P _ _ _ F _ IH|s r _ P _|s r _ P]; intros S; [split; constructor| | |]; apply past_blanks_safe in P; try exact S.
  - apply java_frame_sent in F; [|exact P]. destruct F as (G & Sq). destruct (IH Sq). split; [now constructor|assumption].
  - split; [constructor|exact P].
  - split; [constructor|]. apply safe_app in P. tauto.
Qed.
Lemma next_line_safe s r : next_line_is s r -> json_safe s -> json_safe r.
Proof. intros (l & H) S. apply line_and_rest_safe in H; tauto. Qed.
Lemma past_indented_safe s r : past_indented s r -> json_safe s -> json_safe r.
Proof. induction 1 as [|c s r q _ N _ IH]; intros S; [exact S|]. apply IH. exact (next_line_safe _ _ N S). Qed.
Lemma java_after_safe s r : java_after s r -> json_safe s -> json_safe r.
Proof.
  intros (l & q & N & P & H) S. apply next_line_safe in N; [|exact S]. apply past_blanks_safe in P; [|exact N].
  destruct H as [(_ & ->)|(_ & l2 & N2 & I)]; [exact P|]. apply (past_indented_safe _ _ I). exact (next_line_safe _ _ N2 P).
Qed.
Lemma java_exception_sent s fs rest : java_exception s fs rest -> json_safe s -> Forall java_good fs.
Proof.
  induction 1 as [s name message body fs H J|s name message body fs r q H J _ _|s name message body fs r q inner rest H J A _ IH|s name message body fs r inner rest H J _ IH];
    intros S; apply java_head_sent in H; try exact S; destruct H as (G & Sb); apply java_lines_sent in J; try exact Sb; destruct J as (Gs & Sr).
  - now constructor.
  - now constructor.
  - apply Forall_app. split; [|now constructor]. apply IH. apply java_after_safe in A; [|exact Sr]. apply safe_app in A. tauto.
  - apply Forall_app. split; [|now constructor]. apply IH. exact Sr.
Qed.
Lemma java_thread_sent s t rest : java_thread_text s t rest -> json_safe s -> opt_safe (vt_name t) /\ Forall java_good (vt_frames t).
Proof.
  intros [(name & r & fs & -> & _ & H & ->)|(_ & fs & H & ->)] S; cbn.
  - rewrite !safe_app in S. split; [tauto|]. apply (java_exception_sent r _ rest); tauto.
  - split; [constructor|]. exact (java_exception_sent s _ rest H S).
Qed.
Lemma java_sendable s t rest : java_thread_text s t rest -> json_safe s -> sendable (SJava (mk_java_stacktrace [t])).
Proof.
  intros H S. destruct (java_thread_sent _ _ _ H S) as (E & F). split.
  - cbn. unfold java_range, java_frames. cbn. rewrite app_nil_r. eapply Forall_impl; [|exact F]. intros f (_ & R). exact R.
  - exists (java_stacktrace_to_json (mk_java_stacktrace [t])). split; [reflexivity|]. apply java_valid_iff. split; [constructor; [exact E|constructor]|].
    unfold java_frames. cbn. rewrite app_nil_r. eapply Forall_impl; [|exact F]. intros f (K & _). exact K.
Qed.

(** ** Kernel oopses *)
Definition koops_good (f : koops_frame) : Prop := koops_frame_safe f /\ koops_frame_range f.
Lemma zero_u64 : u64 0.
Proof. unfold u64, two64. lia. Qed.
Lemma gap_safe s r : gap s r -> json_safe s -> json_safe r.
Proof. intros (ws & -> & _) S. apply safe_app in S. tauto. Qed.
Lemma maybe_safe c s b r : maybe c s b r -> json_safe s -> json_safe r.
Proof. intros [(-> & _)|(_ & -> & _)] S; [apply safe_cons in S; tauto|exact S]. Qed.
Lemma closes_safe d c s r : closes d c s r -> json_safe s -> json_safe r.
Proof. unfold closes. destruct d; intros -> S; [apply safe_cons in S; tauto|exact S]. Qed.
Lemma line_end_safe s r : line_end s r -> json_safe s -> json_safe r.
Proof. intros [->|(-> & ->)] S; [apply safe_cons in S; tauto|exact S]. Qed.
Lemma hex_run_safe s v r : hex_run s v r -> json_safe s -> json_safe r /\ u64 (Z.of_N v).
Proof. intros (ds & -> & (_ & V) & _) S. apply safe_app in S. split; [tauto|]. unfold u64, two64. lia. Qed.
Lemma hex_0x_safe s v r : hex_0x s v r -> json_safe s -> json_safe r /\ u64 (Z.of_N v).
Proof. intros (q & -> & H) S. apply safe_app in S. apply (hex_run_safe _ _ _ H). tauto. Qed.
Lemma address_safe s v r : address s v r -> json_safe s -> json_safe r /\ u64 (Z.of_N v).
Proof.
  intros (q & [(-> & H)|(-> & H)]) S; apply safe_app in S; apply hex_run_safe in H; try tauto; destruct H as (H & V); apply safe_app in H; tauto.
Qed.
Lemma address_left_u64 s v : address_left s v -> json_safe s -> u64 v.
Proof.
  intros [(n & (q & r & E & H) & ->)|(_ & ->)] S; [|exact zero_u64].
  assert (K : json_safe q) by (destruct E as [-> | ->]; apply safe_app in S; tauto). exact (proj2 (hex_run_safe _ _ _ H K)).
Qed.
Lemma timestamp_safe s r : timestamp s r -> json_safe s -> json_safe r.
Proof. intros (ws & ds & es & -> & _) S. rewrite !safe_app in S. tauto. Qed.
Lemma module_word_safe s m r : module_word s m r -> json_safe s -> json_safe m /\ json_safe r.
Proof. intros (-> & _) S. rewrite !safe_app in S. tauto. Qed.
Lemma maybe_module_safe s m r : maybe_module s m r -> json_safe s -> opt_safe m /\ json_safe r.
Proof. intros [(w & H & ->)|(_ & -> & ->)] S; [exact (module_word_safe _ _ _ H S)|]. split; [constructor|exact S]. Qed.
Lemma number_safe s v r : number s v r -> json_safe s -> u64 v /\ json_safe r.
Proof. intros [(n & H & ->)|(_ & -> & ->)] S; [apply hex_0x_safe in H; tauto|]. split; [exact zero_u64|exact S]. Qed.
Definition info_good (f : function_info) : Prop :=
  let '(name, offset, len, module) := f in opt_safe name /\ u64 offset /\ u64 len /\ opt_safe module.
Lemma unnamed_good : info_good unnamed.
Proof. cbn. pose proof zero_u64. tauto. Qed.
Lemma function_safe s f r : function s f r -> json_safe s -> info_good f /\ json_safe r.
Proof.
  intros (paren & q & M & H) S. apply maybe_safe in M; [|exact S].
  destruct H as [(n & t & X & C & ->)|(_ & name & offset & len0 & module & t1 & t2 & t3 & t4 & t5 & t6 & -> & _ & N1 & N2 & G1 & MM & G2 & C & ->)].
  - apply hex_0x_safe in X; [|exact M]. split; [exact unnamed_good|]. apply (closes_safe _ _ _ _ C). tauto.
  - rewrite !safe_app in M. apply number_safe in N1; [|tauto]. destruct N1 as (U1 & S2). apply safe_app in S2. apply number_safe in N2; [|tauto].
    apply gap_safe in G1; [|tauto]. apply maybe_module_safe in MM; [|exact G1]. apply gap_safe in G2; [|tauto]. apply closes_safe in C; [|exact G2]. cbn. tauto.
Qed.
Lemma frame_with_good a reliable f b g : u64 a -> info_good f -> u64 b -> info_good g -> koops_good (frame_with a reliable f b g).
Proof.
  destruct f as [[[n o] l] m], g as [[[n' o'] l'] m']. cbn. intros A F B G. unfold koops_good, koops_frame_safe, koops_frame_range. cbn. tauto.
Qed.
Lemma ppc_frame_safe s f rest : ppc_frame s f rest -> json_safe s -> koops_good f /\ json_safe rest.
Proof.
  intros (sp0 & a & fn & t0 & t1 & t2 & t3 & t4 & t5 & t6 & t7 & t8 & dot & unr & G0 & A0 & G1 & A1 & G2 & D & F & G3 & U & (t9 & G4 & LE) & ->) S.
  apply gap_safe in G0; [|exact S]. apply address_safe in A0; [|exact G0]. apply gap_safe in G1; [|tauto]. apply address_safe in A1; [|exact G1].
  apply gap_safe in G2; [|tauto]. apply maybe_safe in D; [|exact G2]. apply function_safe in F; [|exact D]. apply gap_safe in G3; [|tauto].
  assert (S8 : json_safe t8). { destruct U as [(-> & _)|(_ & -> & _)]; [apply safe_app in G3; tauto|exact G3]. }
  apply gap_safe in G4; [|exact S8]. split; [|exact (line_end_safe _ _ LE G4)].
  apply frame_with_good; [tauto|tauto|exact zero_u64|exact unnamed_good].
Qed.
Lemma arm_frame_safe s f rest : arm_frame s f rest -> json_safe s -> koops_good f /\ json_safe rest.
Proof.
  intros (a & b & name & g & t0 & t1 & t2 & t3 & t4 & t5 & t6 & t7 & t8 & t9 & question & G0 & A0 & G1 & M & G2 & -> & _ & G3 & -> & G4 & A1 & (t10 & G5 & F) & ->) S.
  apply gap_safe in G0; [|exact S]. apply address_safe in A0; [|exact G0]. apply gap_safe in G1; [|tauto]. apply maybe_safe in M; [|exact G1].
  apply gap_safe in G2; [|exact M]. rewrite !safe_app in G2. apply gap_safe in G3; [|tauto]. apply safe_app in G3. apply gap_safe in G4; [|tauto].
  apply address_safe in A1; [|exact G4]. apply gap_safe in G5; [|tauto]. apply function_safe in F; [|exact G5]. split; [|tauto].
  pose proof zero_u64. apply frame_with_good; cbn; tauto.
Qed.
Lemma caller_safe s a g r : caller s a g r -> json_safe s -> u64 a /\ info_good g /\ json_safe r.
Proof.
  intros [(_ & -> & -> & ->)|(b & t1 & t2 & t3 & t4 & t5 & -> & G1 & A & G2 & F & G3 & ->)] S.
  - split; [exact zero_u64|]. split; [exact unnamed_good|exact S].
  - apply safe_app in S. apply gap_safe in G1; [|tauto]. apply address_safe in A; [|exact G1]. apply gap_safe in G2; [|tauto].
    apply function_safe in F; [|exact G2]. apply gap_safe in G3; tauto.
Qed.
Lemma late_module_safe s m m' r : late_module s m m' r -> opt_safe m -> json_safe s -> opt_safe m' /\ json_safe r.
Proof.
  unfold late_module. destruct m as [w|]; [intros (-> & ->); tauto|]. intros [(w & q & M & -> & G)|(_ & -> & ->)] _ S.
  - apply module_word_safe in M; [|exact S]. apply gap_safe in G; [|tauto]. cbn. tauto.
  - cbn. tauto.
Qed.
Lemma frame_body_safe paren a s f rest : frame_body paren a s f rest -> u64 a -> json_safe s -> koops_good f /\ json_safe rest.
Proof.
  intros (question & name & offset & len0 & m & m' & b & g & t1 & t2 & t3 & t4 & t5 & t6 & t7 & t8 & t9 & G0 & M & G1 & F & G2 & C & LM & CL & G3 & LE & ->) A S.
  apply gap_safe in G0; [|exact S]. apply maybe_safe in M; [|exact G0]. apply gap_safe in G1; [|exact M]. apply function_safe in F; [|exact G1].
  destruct F as (F & S4). apply gap_safe in G2; [|exact S4]. apply caller_safe in C; [|exact G2]. cbn in F. apply late_module_safe in LM; [|tauto|tauto].
  apply closes_safe in CL; [|tauto]. assert (S9 : json_safe t9). { destruct paren; [exact (gap_safe _ _ G3 CL)|now subst t9]. }
  split; [|exact (line_end_safe _ _ LE S9)]. apply frame_with_good; cbn; tauto.
Qed.
Lemma usual_frame_safe s f rest : usual_frame s f rest -> json_safe s -> koops_good f /\ json_safe rest.
Proof.
  intros (t0 & paren & t1 & G & M & H) S. apply gap_safe in G; [|exact S]. apply maybe_safe in M; [|exact G].
  destruct H as [(a & t2 & A & B)|(_ & [(a & t2 & X & LE & ->)|(_ & a & A & B)])].
  - apply address_safe in A; [|exact M]. apply (frame_body_safe _ _ _ _ _ B); tauto.
  - apply hex_0x_safe in X; [|exact M]. split; [|apply (line_end_safe _ _ LE); tauto].
    apply frame_with_good; [tauto|exact unnamed_good|exact zero_u64|exact unnamed_good].
  - apply (frame_body_safe _ _ _ _ _ B); [|exact M]. exact (address_left_u64 _ _ A M).
Qed.
Lemma frame_text_safe s f rest : frame_text s f rest -> json_safe s -> koops_good f /\ json_safe rest.
Proof. intros [H|(_ & [H|(_ & H)])]; [exact (ppc_frame_safe _ _ _ H)|exact (arm_frame_safe _ _ _ H)|exact (usual_frame_safe _ _ _ H)]. Qed.
Lemma spaces_then_safe s b r : spaces_then s b r -> json_safe s -> json_safe r.
Proof. intros (G & _). exact (gap_safe _ _ G). Qed.
Lemma module_list_safe b ms s ms' rest : module_list b ms s ms' rest -> Forall json_safe ms -> json_safe s -> Forall json_safe ms' /\ json_safe rest.
Proof.
  induction 1 as [b ms s m q b' r ms' rest -> _ _ SP _ IH|ms m q t u b' r ms' rest _ -> _ _ SP _ IH|ms m q _ _ _|b ms q b' r ms' rest _ _ SP _ IH|b ms q _|b ms s _ _]; intros F S.
  - apply safe_app in S. apply spaces_then_safe in SP; [|tauto]. apply IH; [|exact SP]. apply Forall_app. split; [exact F|]. constructor; [tauto|constructor].
  - rewrite safe_cons, safe_app in S. apply spaces_then_safe in SP; [|tauto]. apply IH; [|exact SP]. apply Forall_app in F. destruct F as (F & K).
    apply Forall_app. split; [exact F|]. constructor; [|constructor]. apply safe_app. split; [exact (Forall_inv K)|tauto].
  - apply safe_cons in S. tauto.
  - apply safe_cons in S. apply spaces_then_safe in SP; [|tauto]. exact (IH F SP).
  - tauto.
  - tauto.
Qed.
Lemma modules_text_safe s ms r : modules_text s ms r -> json_safe s -> Forall json_safe ms /\ json_safe r.
Proof.
  intros (t0 & q & b & r' & G & -> & SP & M) S. apply gap_safe in G; [|exact S]. apply safe_app in G. apply spaces_then_safe in SP; [|tauto].
  exact (module_list_safe _ _ _ _ _ M (Forall_nil _) SP).
Qed.
Lemma rest_of_line_safe s r : rest_of_line s r -> json_safe s -> json_safe r.
Proof. intros (j & -> & _) S. apply safe_app in S. tauto. Qed.
Lemma ip_line_safe s f r : ip_line s f r -> json_safe s -> koops_good f /\ json_safe r.
Proof.
  intros (t0 & G & H) S. apply gap_safe in G; [|exact S].
  destruct H as [(t1 & t2 & t3 & t4 & t5 & word & -> & (G1 & _) & -> & _ & _ & (G2 & _) & F & R)|(t1 & t2 & t3 & t4 & t5 & t6 & t7 & a & question & fn & -> & (G1 & _) & A & G2 & M & G3 & F & R & ->)];
    apply safe_app in G.
  - apply gap_safe in G1; [|tauto]. apply safe_app in G1. apply gap_safe in G2; [|tauto]. apply frame_text_safe in F; [|exact G2].
    split; [tauto|]. apply (rest_of_line_safe _ _ R). tauto.
  - apply gap_safe in G1; [|tauto]. apply address_safe in A; [|exact G1]. apply gap_safe in G2; [|tauto]. apply maybe_safe in M; [|exact G2].
    apply gap_safe in G3; [|exact M]. apply function_safe in F; [|exact G3]. split; [|apply (rest_of_line_safe _ _ R); tauto].
    apply frame_with_good; [tauto|tauto|exact zero_u64|exact unnamed_good].
Qed.
Lemma stack_words_safe label s label' r : stack_words label s label' r -> opt_safe label -> json_safe s -> opt_safe label' /\ json_safe r.
Proof.
  intros (l1 & t & H & K) O S.
  assert (Q : opt_safe l1 /\ json_safe t).
  { destruct H as [((t0 & opn & tag & cls & G & -> & _) & ->)|(_ & -> & ->)]; [|tauto]. apply gap_safe in G; [|exact S]. rewrite !safe_app in G. cbn. tauto. }
  destruct K as [(w & (t0 & G & -> & _) & ->)|(_ & -> & ->)]; [|exact Q]. apply gap_safe in G; [|tauto]. rewrite !safe_app in G. cbn. tauto.
Qed.
Definition progress_good (p : progress) : Prop :=
  let '(ms, _, label, fs) := p in match ms with Some l => Forall json_safe l | None => True end /\ opt_safe label /\ Forall koops_good fs.
Lemma on_stack_good label f : opt_safe label -> koops_good f -> koops_good (on_stack label f).
Proof. unfold koops_good, koops_frame_safe, koops_frame_range. cbn. tauto. Qed.
Lemma oops_line_safe p s p' r : oops_line p s p' r -> progress_good p -> json_safe s -> progress_good p' /\ json_safe r.
Proof.
  destruct 1 as [ip label fs s ms r M|ms label fs s f r _ I|ms ip label fs s label' t f r _ _ W F|ms ip label fs s label' t r _ _ W _ R]; cbn [progress_good]; intros P S.
  - apply modules_text_safe in M; [|exact S]. tauto.
  - apply ip_line_safe in I; [|exact S]. split; [|tauto]. split; [tauto|]. split; [tauto|]. constructor; tauto.
  - apply stack_words_safe in W; [|tauto|exact S]. apply frame_text_safe in F; [|tauto]. split; [|tauto]. split; [tauto|]. split; [tauto|].
    apply Forall_app. split; [tauto|]. constructor; [|constructor]. apply on_stack_good; tauto.
  - apply stack_words_safe in W; [|tauto|exact S]. apply rest_of_line_safe in R; tauto.
Qed.
Lemma past_timestamp_safe s r : past_timestamp s r -> json_safe s -> json_safe r.
Proof.
  intros (t1 & t2 & G & T & G2) S. apply gap_safe in G; [|exact S]. apply (gap_safe _ _ G2). destruct T as [T|(_ & ->)]; [exact (timestamp_safe _ _ T G)|exact G].
Qed.
Lemma oops_lines_safe p s p' : oops_lines p s p' -> progress_good p -> json_safe s -> progress_good p'.
Proof.
  induction 1 as [p|p s t _ _ _|p s t p' q b q' p'' _ T _ Li M _ IH]; intros P S; [exact P|exact P|].
  apply past_timestamp_safe in T; [|exact S]. apply oops_line_safe in Li; [|exact P|exact T]. apply maybe_safe in M; [|tauto]. apply IH; tauto.
Qed.
Lemma oops_sent s fs ms reason : oops_text s fs ms reason -> json_safe s ->
  Forall koops_good fs /\ match ms with Some l => Forall json_safe l | None => True end.
Proof.
  intros ((ip & label & H) & _) S. apply oops_lines_safe in H; [|cbn; auto|exact S]. cbn in H. tauto.
Qed.
Lemma set_flag_length c l : length (set_flag c l) = length l.
Proof.
  unfold set_flag. generalize taint_flags. intros table. revert l. induction table as [|[letter x] table IH]; intros [|b l]; cbn; try reflexivity.
  destruct (Ascii.eqb c letter); cbn; [reflexivity|]. now rewrite IH.
Qed.
