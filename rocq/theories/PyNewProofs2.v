(** * Proofs: the constructors. *)
From Verif Require Import Base Types JsonSpec JsonTypesModel JsonTypesSpec JsonReaders TextModel PyParseModel RubyParseModel JavaParseModel JsParseModel KoopsModel GdbParseModel GdbLibModel FunsModel AbrtModel
  HeapModel HeapSpec HeapProofs HeapProofs2 HeapListModel PyModel PySpec PyProofs PyProofs4 PyProofs8 PyAttrModel PyAttrSpec PyBaseModel PyBaseSpec PyReportModel PyReportProofs2 PyNewModel PyNewSpec PyNewProofs.
Open Scope nat_scope.

(** ** Frames *)
Lemma wrap_frame_ok os h f : exists h' e, wrap_frame (St os h) (kind_of_frame f) f = Ok (St (os ++ [Some (1, PyStruct (kind_of_frame f) (e_addr e) [])]) h', Value (length os)) /\
  taken h h' (e_foot e) /\ own h' (kind_of_frame f) None e /\ is_frame (kind_of_frame f) (e_val e) f.
Proof.
  unfold wrap_frame. cbn [mem]. destruct (frame_placer (kind_of_frame f) h f None eq_refl) as (h' & e & E & O & V & X & F). rewrite E. cbn [new_obj with_mem objs mem].
  exists h', e. split; [reflexivity|]. split; [apply fresh_taken; assumption|]. split; assumption.
Qed.
Definition made_frame (os : objects) (h : heap) (k : kind) (f : frame) (x : method ref) : Prop :=
  exists os' h' r e, x = Ok (St os' h', Value r) /\ os' = os ++ [Some (1, PyStruct k (e_addr e) [])] /\ frame_object (length os) os' h' r k e f /\ taken h h' (e_foot e).
Lemma wrap_made os h f : made_frame os h (kind_of_frame f) f (wrap_frame (St os h) (kind_of_frame f) f).
Proof.
  destruct (wrap_frame_ok os h f) as (h' & e & E & T & O & V). exists (os ++ [Some (1, PyStruct (kind_of_frame f) (e_addr e) [])]), h', (length os), e.
  split; [exact E|]. split; [reflexivity|]. split; [|exact T]. split; [lia|]. split; [apply object_last|]. split; assumption.
Qed.
Lemma frame_new_ok os h k s f : reads_frame k s f -> made_frame os h k f (frame_new (St os h) k (Some s)).
Proof.
  destruct f as [f|f|f|f|f|f|f]; cbn [reads_frame]; [intros []|..]; intros (-> & rest & E); cbn [frame_new]; rewrite E; cbn [parsed frame_or bind option_map].
  - apply (wrap_made os h (FPython f)).
  - apply (wrap_made os h (FKoops f)).
  - apply (wrap_made os h (FJava f)).
  - apply (wrap_made os h (FGdb f)).
  - apply (wrap_made os h (FRuby f)).
  - apply (wrap_made os h (FJs f)).
Qed.
Lemma frame_blank_ok os h k f : blank_frame k f -> made_frame os h k f (frame_new (St os h) k None).
Proof. destruct f as [f|f|f|f|f|f|f]; cbn [blank_frame]; intros (-> & ->); cbn [frame_new]; match goal with |- made_frame _ _ _ ?f _ => exact (wrap_made os h f) end. Qed.
Lemma frame_core_ok os h arg f : blank_frame KCoreFrame f -> made_frame os h KCoreFrame f (frame_new (St os h) KCoreFrame arg).
Proof. intros B. destruct arg; exact (frame_blank_ok os h KCoreFrame f B). Qed.
Lemma frame_failed os h k s : no_frame k s -> frame_new (St os h) k (Some s) = Ok (St (os ++ [Some (1, PyOther)]) h, Raise ValueError).
Proof.
  intros [(-> & E)|[(-> & E)|[(-> & rest & E)|[(-> & E)|(-> & E)]]]]; cbn [frame_new]; rewrite E; reflexivity.
Qed.
Lemma koops_null os h s : sr_koops_frame_parse s = None ->
  frame_new (St os h) KKoopsFrame (Some s) = Ok (St (os ++ [Some (1, PyStruct KKoopsFrame (length h) [])]) (h ++ [CFree]), Value (length os)).
Proof. intros E. cbn [frame_new]. rewrite E. reflexivity. Qed.
Lemma frame_cases os h k s : In k [KGdbFrame; KJavaFrame; KRubyFrame; KJsFrame] ->
  (exists f, reads_frame k s f) \/ no_frame k s \/ frame_new (St os h) k (Some s) = UB.
Proof.
  intros H. cbn [In] in H. destruct H as [<-|[<-|[<-|[<-|[]]]]]; cbn [frame_new]; unfold no_frame.
  - destruct (sr_gdb_frame_parse s) as [[f rest]| |] eqn:E; [left; exists (FGdb f); split; eauto|right; left; tauto|right; right; reflexivity].
  - destruct (sr_java_frame_parse s) as [[f rest]| |] eqn:E; [left; exists (FJava f); split; eauto|right; left; tauto|right; right; reflexivity].
  - destruct (sr_ruby_frame_parse s) as [[f rest]| |] eqn:E; [left; exists (FRuby f); split; eauto|right; left; tauto|right; right; reflexivity].
  - destruct (sr_js_frame_parse s) as [[f rest]| |] eqn:E; [left; exists (FJs f); split; eauto|right; left; tauto|right; right; reflexivity].
Qed.
Lemma sharedlib_new_ok os h : exists h' e, py_sharedlib_new (St os h) = Ok (St (os ++ [Some (1, PyStruct KGdbLib (e_addr e) [])]) h', Value (length os)) /\
  taken h h' (e_foot e) /\ own h' KGdbLib None e /\ is_lib (e_val e) (mk_gdb_sharedlib ulong_max ulong_max 2 None).
Proof.
  unfold py_sharedlib_new. cbn [mem]. destruct (lib_placer h gdb_sharedlib_new None I) as (h' & e & E & O & V & X & F). rewrite E. cbn [new_obj with_mem objs mem].
  exists h', e. split; [reflexivity|]. split; [apply fresh_taken; assumption|]. split; assumption.
Qed.

(** ** Threads and single-threaded stack traces *)
Lemma fresh_nodup h h' f : fresh h h' f -> NoDup f.
Proof. intros [N _]. exact N. Qed.
Lemma list_app_new m a x l k items es : new_list m a l k items es -> new_list m (a ++ x) l k items es.
Proof.
  intros (A & B & C & D). split; [exact A|]. split; [apply object_app; exact B|]. split; [exact C|]. clear -D. induction D; constructor; [now apply object_app|assumption].
Qed.
Lemma threads_app_new m a x l tk fk ts : new_threads m a l tk fk ts -> new_threads m (a ++ x) l tk fk ts.
Proof.
  intros (A & B & C). split; [exact A|]. split; [apply object_app; exact B|]. eapply Forall_impl; [|exact C]. intros t (D & E & F).
  split; [exact D|]. split; [apply object_app; exact E|now apply list_app_new].
Qed.
Lemma wrap_frames os h k fk e : own h k None e -> frame_kind k = Some fk -> NoDup (e_foot e) ->
  exists os1 l items es, frames_to_python (St os h) fk (e_addr e) = Ok (St os1 h, l) /\ grown os os1 /\ new_list (length os) os1 l fk items es /\ unlinked_thread h k fk None e es.
Proof. intros O K N. destruct (frames_back os h k fk None e O K N) as (os1 & l & items & es & E & G & Nl & U & _). exists os1, l, items, es. auto. Qed.
Definition made_thread (os : objects) (h : heap) (k : kind) (t : thread) (x : method ref) : Prop :=
  exists os' h' r e, x = Ok (St os' h', Value r) /\ grown os os' /\ thread_object (length os) os' h' r k e t /\ rest_of_thread (e_val e) t /\ taken h h' (e_foot e).
Lemma wrap_thread_ok os h t k fk : kind_of_thread t = k -> frame_kind k = Some fk -> made_thread os h k t (wrap_thread (St os h) k fk t).
Proof.
  intros <- K. unfold wrap_thread. cbn [mem]. destruct (thread_placed h t None) as (h' & e & ps & pa & fs & E & O & V & R & X & F & _). rewrite E. unfold with_mem. cbn [objs].
  destruct (wrap_frames os h' _ fk e O K (fresh_nodup _ _ _ F)) as (os1 & l & items & es & E1 & G & Nl & U). rewrite E1. cbn [bind new_obj objs mem].
  exists (os1 ++ [Some (1, PyStruct (kind_of_thread t) (e_addr e) [Some l])]), h', (length os1), e. split; [reflexivity|]. split; [eapply grown_trans; [exact G|apply grown_app]|].
  split; [|split; [exact R|apply fresh_taken; assumption]]. exists fk, l, items, es. split; [apply G|]. split; [exact K|]. split; [apply object_last|]. split; [apply list_app_new; exact Nl|]. auto.
Qed.
Lemma no_frames_back h k fk e vss : own h k None e -> frame_kind k = Some fk -> kids (e_val e) = vss -> vss = [[]] -> unlinked_thread h k fk None e [].
Proof.
  intros O K E ->. destruct (own_inv _ _ _ _ O) as (scal & ps & ss & fs & ks & vss & fkk & arr & sarr & fa & raw & Ev & Ef & Hc & Lp & Os & Oa & Ok'). rewrite Ev in E. cbn [kids] in E. subst vss.
  assert (Ko : kid_ops k = [(fk, true)]) by (destruct k; cbn in K |- *; congruence). rewrite Ko in Ok'.
  inversion Ok' as [|? ? ? p ps' l vss' f' Ol _ Ok2 E1 E2 E3 E4]; subst. inversion Ok2; subst. destruct l; [|discriminate E3]. inversion Ol; subst.
  exists scal, ps, None, ss, fs, arr, sarr, fa, raw. split; [exact K|]. split; [exact Hc|]. split; [exact Lp|]. split; [exact Os|]. split; [exact Oa|]. split; [exact Ev|]. split; [exact Ef|]. split; [constructor|reflexivity].
Qed.
Lemma empty_thread_ok os h t k fk : kind_of_thread t = k -> frame_kind k = Some fk -> sr_thread_frames t = [] -> made_thread os h k t (empty_thread (St os h) k t).
Proof.
  intros <- K Z0. unfold empty_thread. cbn [new_obj mem]. destruct (thread_placed h t None) as (h' & e & ps & pa & fs & E & O & V & R & X & F & _). rewrite E. unfold with_mem. cbn [objs new_obj mem].
  assert (Kv : kids (e_val e) = [[]]).
  { destruct t; cbn [is_thread sr_thread_frames] in V, Z0.
    all: apply map_eq_nil in Z0; rewrite Z0 in V.
    all: repeat match goal with H : _ /\ _ |- _ => destruct H as [_ H] end; destruct V as (vs & Ek & Fv); inversion Fv; subst; exact Ek. }
  set (os1 := os ++ [Some (1, PyList [])]). exists (os1 ++ [Some (1, PyStruct (kind_of_thread t) (e_addr e) [Some (length os)])]), h', (length os1), e.
  split; [reflexivity|]. split; [eapply grown_trans; apply grown_app|]. split; [|split; [exact R|apply fresh_taken; assumption]].
  exists fk, (length os), [], []. split; [unfold os1; rewrite app_length; lia|]. split; [exact K|]. split; [apply object_last|]. split; [|split; [exact O|split; [eapply no_frames_back; eauto|exact V]]].
  apply list_app_new. split; [lia|]. split; [apply object_last|]. split; constructor.
Qed.
Lemma thread_new_ok os h k s o t : reads_thread k s o t -> made_thread os h k t (thread_new (St os h) k (Some s) o).
Proof.
  destruct t as [t|t|t|t|t|t|t]; cbn [reads_thread]; try (intros []; fail).
  - intros (-> & rest & E). cbn [thread_new]. rewrite E. cbn [parsed thread_or bind]. now apply wrap_thread_ok.
  - intros (-> & [(-> & rest & E)|(N & E)]); cbn [thread_new].
    + cbn [Z.eqb]. rewrite E. cbn [parsed thread_or bind]. now apply wrap_thread_ok.
    + apply Z.eqb_neq in N. rewrite N, E. cbn [bind]. now apply wrap_thread_ok.
Qed.
Lemma thread_blank_ok os h k o t : blank_thread k t -> made_thread os h k t (thread_new (St os h) k None o).
Proof.
  destruct t as [t|t|t|t|t|t|t]; cbn [blank_thread]; try (intros []; fail).
  - intros (-> & E). destruct t as [fs]. cbn in E. subst fs. cbn [thread_new]. now apply (empty_thread_ok os h _ _ KCoreFrame).
  - intros (-> & E1 & E2). destruct t as [n fs]. cbn in E1, E2. subst. cbn [thread_new]. now apply (empty_thread_ok os h _ _ KJavaFrame).
  - intros (-> & E1 & E2 & E3). destruct t as [n tid fs]. cbn in E1, E2, E3. subst. cbn [thread_new]. now apply (empty_thread_ok os h _ _ KGdbFrame).
Qed.
Lemma thread_core_ok os h arg o t : blank_thread KCoreThread t -> made_thread os h KCoreThread t (thread_new (St os h) KCoreThread arg o).
Proof. intros B. destruct arg; exact (thread_blank_ok os h KCoreThread o t B). Qed.
Lemma thread_failed os h k s o : no_thread k s o -> thread_new (St os h) k (Some s) o = Ok (St (os ++ [Some (1, PyOther)]) h, Raise ValueError).
Proof. intros [(-> & -> & E)|(-> & E)]; cbn [thread_new Z.eqb]; rewrite E; reflexivity. Qed.

(** ** Stack traces *)
Lemma addrs_same h k : forall es p es', own_list h k p es -> own_list h k p es' -> map e_addr es = map e_addr es'.
Proof.
  induction es as [|e es IH]; intros p es' O O'.
  - inversion O; subst. inversion O'; subst. reflexivity.
  - inversion O as [|? n ? ? Oe Or]; subst. inversion O' as [|? n' e' es2 Oe' Or' E1 E2]; subst. pose proof (own_next _ _ _ _ Oe) as Hn. pose proof (own_next _ _ _ _ Oe') as Hn'. rewrite E2 in Hn'. rewrite Hn in Hn'.
    injection Hn' as <-. cbn [map]. rewrite (IH _ _ Or Or'). congruence.
Qed.
Lemma wrap_multi os h k tk fk e : own h k None e -> (k = KCoreStack \/ k = KJavaStack) -> thread_type k = Some tk -> frame_kind tk = Some fk -> NoDup (e_foot e) ->
  exists os' l ts p, threads_to_python (St os h) k (e_addr e) = Ok (St os' h, l) /\ grown os os' /\ new_threads (length os) os' l tk fk ts /\ unlinked_stack h k None e ts /\
    thread_frames h (e_addr e) = Ok p /\ own_list h tk p (map pt_entry ts).
Proof.
  intros O Hk Ht Hf N. destruct (stack_open _ _ _ _ _ _ O Hk Ht Hf) as (p & es & Ep & Ol & Nn & St_).
  unfold threads_to_python. rewrite Ht, Hf. unfold stack_threads.
  replace (match k with KGdbStack => gdb_threads (mem (St os h)) (e_addr e) | _ => thread_frames (mem (St os h)) (e_addr e) end) with (@Ok (option addr) p) by (destruct Hk as [-> | ->]; symmetry; exact Ep).
  cbn [bind new_obj objs mem].
  destruct (wrapped_threads tk fk os h p es Hf Ol (Nn N)) as (os' & ts & E & G & Nt & Em & U). rewrite E. cbn [bind].
  exists os', (length os), ts, p. split; [reflexivity|]. split; [exact G|]. split; [exact Nt|]. split; [apply St_; assumption|]. split; [exact Ep|]. rewrite Em. exact Ol.
Qed.
(* the crash thread is one of the threads *)
Definition crash_known (s : stacktrace) : Prop := match s with SCore s => forall i, cs_crash_thread s = Some i -> i < length (cs_threads s) | _ => True end.
Lemma crash_pointed h e es s ts p : crash_of h e es s -> crash_known s -> thread_frames h (e_addr e) = Ok p -> own_list h KCoreThread p (map pt_entry ts) -> crash_pointer h e ts s.
Proof.
  destruct s as [s| | | | | |]; cbn [crash_of crash_pointer]; auto. intros (scal & ps & q & arr & x & n & H & Oq & Le & Ex) K Ep Op.
  assert (q = p). { unfold thread_frames in Ep. rewrite (get_live _ _ _ H) in Ep by discriminate. cbn [bind] in Ep. congruence. } subst q.
  pose proof (addrs_same _ _ _ _ _ Oq Op) as A. exists scal, ps, [p], arr, x, n. split; [exact H|]. destruct (cs_crash_thread s) as [i|] eqn:Ei; [|exact Ex].
  specialize (K i Ei). destruct (nth_error es i) as [e'|] eqn:Ee; [|apply nth_error_None in Ee; lia].
  assert (B : nth_error (map e_addr (map pt_entry ts)) i = Some (e_addr e')) by (rewrite <- A, nth_map, Ee; reflexivity).
  rewrite !nth_map in B. destruct (nth_error ts i) as [t|]; [|discriminate B]. exists t. split; [reflexivity|]. rewrite Ex. cbn [option_map] in *. congruence.
Qed.
Lemma multi_ok os h k s e es : (exists s', s = SCore s') \/ (exists s', s = SJava s') -> kind_of_stack s = k -> own h k None e -> NoDup (e_foot e) -> is_stack k (e_val e) s ->
  crash_of h e es s -> crash_known s ->
  exists os1 l, threads_to_python (St os h) k (e_addr e) = Ok (St os1 h, l) /\ grown os os1 /\
    forall os2 r m, grown os1 os2 \/ (exists b, os2 = put_obj os1 r b /\ r < length os) -> m <= length os -> m <= r -> object os2 r 1 (PyStruct k (e_addr e) [Some l]) -> multi_object m os2 h r k e s.
Proof.
  intros Hs Hk O N V C K.
  assert (T : exists tk fk, (k = KCoreStack \/ k = KJavaStack) /\ thread_type k = Some tk /\ frame_kind tk = Some fk /\ (forall s', s = SCore s' -> tk = KCoreThread)).
  { destruct Hs as [[s' ->]|[s' ->]]; cbn [kind_of_stack] in Hk; subst k; eexists _, _; (split; [tauto|]; split; [reflexivity|]; split; [reflexivity|]); intros; [reflexivity|congruence]. }
  destruct T as (tk & fk & Hk2 & Ht & Hf & Tk).
  destruct (wrap_multi os h k tk fk e O Hk2 Ht Hf N) as (os1 & l & ts & p & E & G & Nt & U & Ep & Ol). exists os1, l. split; [exact E|]. split; [exact G|].
  intros os2 r m Hg Hm Hr Hr2. exists tk, fk, l, ts. split; [exact Hr|]. split; [exact Ht|]. split; [exact Hf|]. split; [exact Hr2|].
  assert (Nt2 : new_threads m os2 l tk fk ts).
  { assert (Q : forall x n b, length os <= x -> object os1 x n b -> object os2 x n b).
    { intros x n b Hx Hb. destruct Hg as [Hg|(b' & -> & Lr)]; [eapply grown_object; eassumption|]. unfold object. rewrite put_obj_other by lia. exact Hb. }
    destruct Nt as (A & B & D). split; [lia|]. split; [apply Q; assumption|]. eapply Forall_impl; [|exact D]. intros t (T1 & T2 & (L1 & L2 & L3 & L4)).
    split; [lia|]. split; [apply Q; assumption|]. split; [lia|]. split; [apply Q; assumption|]. split; [eapply Forall_impl; [|exact L3]; intros x Hx; cbv beta in *; lia|].
    clear -L3 L4 Q. induction L4; constructor; inversion L3; subst; auto. }
  split; [exact Nt2|]. split; [exact O|]. split; [exact U|]. split; [exact V|].
  destruct s as [s| | | | | |]; try exact I. eapply crash_pointed; [exact C|exact K|exact Ep|]. rewrite <- (Tk _ eq_refl). exact Ol.
Qed.
