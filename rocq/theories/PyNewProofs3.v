(** * Proofs: the constructors of stack traces, and from_json. *)
From Verif Require Import Base Types JsonSpec JsonTypesModel JsonTypesSpec JsonReaders TextModel PyParseModel RubyParseModel JavaParseModel JsParseModel KoopsModel GdbParseModel GdbLibModel FunsModel ReportModel AbrtModel
  HeapModel HeapSpec HeapProofs HeapProofs2 HeapListModel PyModel PySpec PyProofs PyProofs4 PyProofs8 PyAttrModel PyAttrSpec PyBaseModel PyBaseSpec PyReportModel PyReportProofs2 PyNewModel PyNewSpec PyNewProofs PyNewProofs2.
Open Scope nat_scope.

(** ** Constructors *)
Definition thread_of (s : stacktrace) : option thread :=
  match s with SPython s => Some (TPython s) | SRuby s => Some (TRuby s) | SJs s => Some (TJs s) | SKoops s => Some (TKoops s) | _ => None end.
Definition made_stack (os : objects) (h : heap) (none : ref) (k : kind) (s : stacktrace) (x : method ref) : Prop :=
  exists os' h' r e, x = Ok (St os' h', Value r) /\ grown os os' /\ stack_is_new (length os) os' h' none r k e s /\ taken h h' (e_foot e).
Lemma single_ok os h k s t e : thread_of s = Some t -> kind_of_stack s = k -> own h k None e -> NoDup (e_foot e) -> is_stack k (e_val e) s ->
  exists fk os1 l, frame_kind k = Some fk /\ frames_to_python (St os h) fk (e_addr e) = Ok (St os1 h, l) /\ grown os os1 /\
    forall os2 r m, grown os1 os2 \/ (exists b, os2 = put_obj os1 r b /\ r < length os) -> m <= length os -> m <= r -> object os2 r 1 (PyStruct k (e_addr e) [Some l]) -> thread_object m os2 h r k e t.
Proof.
  intros Ht Hk O N V.
  assert (F : exists fk, frame_kind k = Some fk) by (destruct s; try discriminate Ht; cbn in Hk; subst k; eexists; reflexivity). destruct F as [fk Hf].
  destruct (wrap_frames os h k fk e O Hf N) as (os1 & l & items & es & E & G & (L1 & L2 & L3 & L4) & U). exists fk, os1, l. split; [exact Hf|]. split; [exact E|]. split; [exact G|].
  intros os2 r m Hg Hm Hr Hr2. exists fk, l, items, es. split; [exact Hr|]. split; [exact Hf|]. split; [exact Hr2|].
  assert (Q : forall x n b, length os <= x -> object os1 x n b -> object os2 x n b).
  { intros x n b Hx Hb. destruct Hg as [Hg|(b' & -> & Lr)]; [eapply grown_object; eassumption|]. unfold object. rewrite put_obj_other by lia. exact Hb. }
  split; [|split; [exact O|split; [exact U|]]].
  - split; [lia|]. split; [apply Q; assumption|]. split; [eapply Forall_impl; [|exact L3]; intros x Hx; cbv beta in *; lia|]. clear -L3 L4 Q. induction L4; constructor; inversion L3; subst; auto.
  - destruct s; try discriminate Ht; injection Ht as <-; exact V.
Qed.
Lemma multi_or_single (s : stacktrace) : (exists s', s = SGdb s') \/ ((exists s', s = SCore s') \/ (exists s', s = SJava s')) \/ exists t, thread_of s = Some t.
Proof. destruct s; cbn; eauto 6. Qed.
Lemma wrap_stack_ok os h none k s : (forall x, s <> SGdb x) -> kind_of_stack s = k -> crash_known s -> made_stack os h none k s (wrap_stack (St os h) k s).
Proof.
  intros Ng Hk Ck. unfold wrap_stack. cbn [mem]. destruct (stack_placed h s) as (h' & e & es & E & O & V & R & C & X & F). rewrite Hk in *. rewrite E. unfold with_mem, stack_to_python. cbn [objs].
  destruct (multi_or_single s) as [[s' ->]|[M|[t Ht]]]; [destruct (Ng s' eq_refl)| |].
  - replace (frame_kind k) with (@None kind) by (destruct M as [[s' ->]|[s' ->]]; cbn in Hk; subst k; reflexivity).
    destruct (multi_ok os h' k s e es M Hk O (fresh_nodup _ _ _ F) V C Ck) as (os1 & l & E1 & G & Q). rewrite E1. cbn [bind new_obj objs mem].
    exists (os1 ++ [Some (1, PyStruct k (e_addr e) [Some l])]), h', (length os1), e. split; [reflexivity|]. split; [eapply grown_trans; [exact G|apply grown_app]|].
    split; [|apply fresh_taken; assumption]. split; [exact R|]. destruct M as [[s' ->]|[s' ->]]; (apply Q; [left; apply grown_app|lia|apply G|apply object_last]).
  - destruct (single_ok os h' k s t e Ht Hk O (fresh_nodup _ _ _ F) V) as (fk & os1 & l & Hf & E1 & G & Q). rewrite Hf, E1. cbn [bind new_obj objs mem].
    exists (os1 ++ [Some (1, PyStruct k (e_addr e) [Some l])]), h', (length os1), e. split; [reflexivity|]. split; [eapply grown_trans; [exact G|apply grown_app]|].
    split; [|apply fresh_taken; assumption]. split; [exact R|].
    assert (T : thread_object (length os) (os1 ++ [Some (1, PyStruct k (e_addr e) [Some l])]) h' (length os1) k e t) by (apply Q; [left; apply grown_app|lia|apply G|apply object_last]).
    destruct s; try discriminate Ht; injection Ht as <-; exact T.
Qed.
Lemma wrap_gdb_ok os h none s : made_stack os h none KGdbStack (SGdb s) (wrap_gdb none (St os h) s).
Proof.
  unfold wrap_gdb. cbn [mem]. destruct (stack_placed h (SGdb s)) as (h' & e & es & E & O & V & R & C & X & F). rewrite E. unfold with_mem. cbn [objs kind_of_stack] in *.
  destruct (gdb_wrapped os h' None e O (fresh_nodup _ _ _ F)) as (os1 & l & ts & os2 & ll & items & libs & pl & E1 & (scal & strs & pc & pt & arr & raw & H) & E2 & G1 & G2 & Nt & Nl & U).
  rewrite E1. cbn [bind mem]. unfold gdb_libs. rewrite (get_live _ _ _ H) by discriminate. cbn [bind]. rewrite E2. cbn [bind new_obj objs mem].
  eexists _, h', (length os2), e. split; [reflexivity|]. assert (G : grown os os2) by (eapply grown_trans; eassumption). split; [eapply grown_trans; [exact G|apply grown_app]|]. split; [|apply fresh_taken; assumption].
  split; [exact R|]. split; [reflexivity|]. exists l, ll, ts, items, libs. split; [apply G|]. split; [apply object_last|]. split; [apply threads_app_new; exact Nt|]. split; [apply list_app_new; exact Nl|]. auto.
Qed.
(* the structure of an empty stack trace is a single cell *)
Lemma blank_placed h k s : blank_stack k s -> exists scal ps ks raw, place_stack h s = (h ++ [CObj k scal ps (None :: ks) None raw None], length h) /\ (k = KGdbStack -> ks = [None; None]).
Proof. destruct s; cbn [blank_stack]; intros (-> & ->); eexists _, _, _, _; (split; [reflexivity|]); intros Q; (discriminate Q || reflexivity). Qed.
Lemma gdb_nothing h e : own h KGdbStack None e -> kids (e_val e) = [[]; []; []] -> unlinked_gdb h None e [] [].
Proof.
  intros O Kv. destruct (own_inv _ _ _ _ O) as (scal & ps & ss & fs & ks & vss & fkk & arr & sarr & fa & raw & Ev & Ef & Hc & Lp & Os & Oa & Ok').
  cbn [kid_ops] in Ok'. inversion Ok' as [|? ? ? pc ps1 crash vss1 f1 Oc Lc Ok1]; subst. inversion Ok1 as [|? ? ? pt ps2 es vss2 f2 Ot _ Ok2]; subst.
  inversion Ok2 as [|? ? ? pl ps3 libs vss3 f3 Ol _ Ok3]; subst. inversion Ok3; subst. rewrite Ev in Kv. cbn [kids] in Kv. destruct crash; [|discriminate Kv]. destruct es; [|discriminate Kv]. destruct libs; [|discriminate Kv]. inversion Oc; subst. inversion Ot; subst. inversion Ol; subst.
  cbn in Lp. apply length_zero_iff_nil in Lp. subst ps. inversion Os; subst.
  exists scal, None, None, None, [], arr, sarr, fa, raw. split; [exact Hc|]. split; [exact Oa|]. split; [constructor|]. split; [cbn; lia|]. split; [exact Ev|]. split; [exact Ef|]. split; [constructor|]. split; [reflexivity|]. split; [constructor|reflexivity].
Qed.
Lemma empty_gdb_ok os h none s : blank_stack KGdbStack (SGdb s) -> made_stack os h none KGdbStack (SGdb s) (empty_gdb none (St os h) s).
Proof.
  intros (_ & ->). unfold empty_gdb. cbn [new_obj mem objs].
  match goal with |- context [place_stack h ?s] => destruct (stack_placed h s) as (h' & e & es & E & O & V & R & C & X & F) end. rewrite E. unfold with_mem. cbn [objs kind_of_stack new_obj mem] in *.
  set (os1 := os ++ [Some (1, PyList [])]). set (os2 := os1 ++ [Some (1, PyList [])]).
  eexists (os2 ++ [_]), h', (length os2), e. split; [reflexivity|]. split; [eapply grown_trans; [|apply grown_app]; eapply grown_trans; apply grown_app|]. split; [|apply fresh_taken; assumption].
  split; [exact R|]. split; [reflexivity|]. exists (length os), (length os1), [], [], [].
  split; [unfold os2, os1; rewrite !app_length; lia|]. split; [apply object_last|]. split; [|split; [|split; [exact O|split; [|exact V]]]].
  - split; [lia|]. split; [|constructor]. unfold os2, os1. rewrite <- app_assoc. unfold object. rewrite <- app_assoc, nth_error_app2, Nat.sub_diag by lia. reflexivity.
  - split; [unfold os1; rewrite app_length; lia|]. split; [|split; constructor]. apply object_app. apply object_last.
  - apply gdb_nothing; [exact O|]. cbn [is_stack] in V. destruct V as (_ & _ & vc & vt & vl & Ek & Fc & Ft & Fl). cbn in Fc, Ft, Fl. inversion Fc; subst. inversion Ft; subst. inversion Fl; subst. exact Ek.
Qed.
Lemma core_known root x : reads_core root x -> crash_known (SCore x).
Proof.
  intros (o & _ & _ & _ & _ & [(_ & _ & Z0)|(l & _ & F & _ & C)]) i Ei; [congruence|]. rewrite Ei in C. destruct C as ((j & Hj & _) & _). rewrite <- (Forall2_len _ _ _ F).
  apply nth_error_Some. congruence.
Qed.
Section Stacks.
Variable none : ref.
Variable tokener : str -> option json.
Lemma reads_known k s x : reads_stack tokener k s x -> crash_known x.
Proof. destruct x; cbn [reads_stack crash_known]; auto. intros (_ & root & _ & R). exact (core_known _ _ R). Qed.
Lemma reads_kind k s x : reads_stack tokener k s x -> kind_of_stack x = k /\ stack_parse tokener k s = Ok (Some x).
Proof.
  destruct x; cbn [reads_stack kind_of_stack].
  1: { intros (-> & root & E & R). split; [reflexivity|]. cbn [stack_parse]. unfold sr_core_stacktrace_from_json_text, from_text. rewrite E. apply core_reads in R. now rewrite R. }
  all: intros (-> & rest & E); split; [reflexivity|]; cbn [stack_parse]; rewrite E; reflexivity.
Qed.
Lemma stack_new_ok os h k s x : reads_stack tokener k s x -> made_stack os h none k x (stack_new none tokener (St os h) k (Some s)).
Proof.
  intros R. pose proof (reads_known _ _ _ R) as Ck. pose proof (reads_kind _ _ _ R) as (Hk & E). unfold stack_new. rewrite E. cbn [bind].
  destruct x as [x|x|x|x|x|x|x]; try (now apply wrap_stack_ok). cbn in Hk. subst k. apply wrap_gdb_ok.
Qed.
Lemma stack_blank_ok os h k x : blank_stack k x -> made_stack os h none k x (stack_new none tokener (St os h) k None).
Proof.
  destruct x as [x|x|x|x|x|x|x]; cbn [blank_stack]; intros (-> & ->); cbn [stack_new new_stack].
  5: apply empty_gdb_ok; split; reflexivity.
  all: apply wrap_stack_ok; [discriminate|reflexivity|cbn; try discriminate; exact I].
Qed.
Lemma stack_failed os h k s : no_stack tokener k s -> stack_new none tokener (St os h) k (Some s) = Ok (St os h, Raise ValueError).
Proof.
  intros [(-> & C)|[(-> & E)|[(-> & E)|[(-> & E)|[(-> & E)|(-> & E)]]]]]; unfold stack_new; cbn [stack_parse]; try (rewrite E; reflexivity).
  unfold sr_core_stacktrace_from_json_text, from_text. destruct C as [->|(root & -> & N)]; [reflexivity|].
  destruct (core_stacktrace_from_json root) as [x| |] eqn:E; [apply core_reads in E; destruct (N _ E)|reflexivity|destruct (core_not_UB _ E)].
Qed.
Lemma gdb_failed os h s : sr_gdb_stacktrace_parse s = Fail -> stack_new none tokener (St os h) KGdbStack (Some s) = Ok (St (os ++ [Some (1, PyOther)]) h, Raise ValueError).
Proof. intros E. unfold stack_new. cbn [stack_parse]. rewrite E. reflexivity. Qed.

(** ** from_json *)
Lemma put_same_cell (h : heap) : forall a x, nth_error h a = Some x -> put h a x = h.
Proof. induction h as [|y h IH]; intros [|a] x E; cbn in *; try discriminate; [congruence|]. f_equal. now apply IH. Qed.
(* what remains of the empty stack trace made first *)
Lemma emptied_frames h h' a k scal ps ks raw : h' = h ++ [CObj k scal ps (None :: ks) None raw None] -> a = length h ->
  set_frames h' a None = Ok h' /\ (k = KGdbStack -> ks = [None; None] -> set_threads k h' a None = Ok h').
Proof.
  intros -> ->. assert (H : nth_error (h ++ [CObj k scal ps (None :: ks) None raw None]) (length h) = Some (CObj k scal ps (None :: ks) None raw None)) by (rewrite nth_error_app2, Nat.sub_diag by lia; reflexivity).
  split.
  - unfold set_frames. rewrite (get_live _ _ _ H) by discriminate. cbn [bind]. unfold set_cell. rewrite (get_live _ _ _ H) by discriminate. cbn [bind]. now rewrite (put_same_cell _ _ _ H).
  - intros -> ->. cbn [set_threads]. unfold set_gdb_threads. rewrite (get_live _ _ _ H) by discriminate. cbn [bind]. unfold set_cell. rewrite (get_live _ _ _ H) by discriminate. cbn [bind]. now rewrite (put_same_cell _ _ _ H).
Qed.
(* the call of the class: one cell of memory, one or two lists, the object *)
Definition extra (k : kind) : objects := match k with KGdbStack => [Some (1, PyList [])] | _ => [] end.
Definition attrs_of (os : objects) (k : kind) : list (option ref) := match k with KGdbStack => [Some (S (length os)); Some none] | _ => [] end.
Lemma blank_made os h k x : blank_stack k x -> exists scal ps ks raw,
  place_stack h x = (h ++ [CObj k scal ps (None :: ks) None raw None], length h) /\ (k = KGdbStack -> ks = [None; None]) /\
  stack_new none tokener (St os h) k None =
    Ok (St ((os ++ Some (1, PyList []) :: extra k) ++ [Some (1, PyStruct k (length h) (Some (length os) :: attrs_of os k))]) (h ++ [CObj k scal ps (None :: ks) None raw None]), Value (length (os ++ Some (1, PyList []) :: extra k))).
Proof.
  intros B. destruct (blank_placed h k x B) as (scal & ps & ks & raw & E & K). exists scal, ps, ks, raw. split; [exact E|]. split; [exact K|].
  assert (H : get (h ++ [CObj k scal ps (None :: ks) None raw None]) (length h) = Ok (CObj k scal ps (None :: ks) None raw None)) by (apply get_live; [rewrite nth_error_app2, Nat.sub_diag by lia; reflexivity|discriminate]).
  destruct x as [x|x|x|x|x|x|x]; cbn [blank_stack] in B; destruct B as (-> & ->); cbn [stack_new new_stack].
  5: { unfold empty_gdb. cbn [new_obj mem objs]. rewrite E. unfold with_mem. cbn [objs mem new_obj extra attrs_of]. rewrite <- !app_assoc. cbn [app]. rewrite !app_length. cbn [length]. replace (length os + 1) with (S (length os)) by lia. replace (S (length os) + 1) with (length os + 2) by lia. repeat f_equal; cbn; lia. }
  all: unfold wrap_stack; cbn [mem]; try change core_stacktrace_new with (mk_core_stacktrace 0%Z None None [] false); try change koops_stacktrace_new with (mk_koops_stacktrace None (repeat false 16) None None [] None).
  all: rewrite E; unfold with_mem, stack_to_python; cbn [objs frame_kind].
  all: unfold threads_to_python, frames_to_python, stack_threads, thread_frames; cbn [thread_type frame_kind mem]; rewrite H; cbn [bind]; unfold wrap_list; cbn [new_obj mem objs].
  all: try replace (wrap_threads (length (h ++ [CObj KCoreStack scal ps (None :: ks) None raw None]))) with (wrap_threads (S (length h))) by (rewrite app_length, Nat.add_1_r; reflexivity).
  all: try replace (wrap_threads (length (h ++ [CObj KJavaStack scal ps (None :: ks) None raw None]))) with (wrap_threads (S (length h))) by (rewrite app_length, Nat.add_1_r; reflexivity).
  all: cbn [wrap_threads]; try (match goal with |- context [wrap_loop ?n] => destruct n end); reflexivity.
Qed.
Lemma drop_empty os h l : object os l 1 (PyList []) -> decref (St os h) l = Ok (St (put_obj os l None) h).
Proof.
  intros O. unfold decref. cbn [objs decref_in]. rewrite (obj_ok (St os h) l _ _ O). cbn [bind rev map each_ref]. unfold set_obj. cbn [objs mem]. rewrite put_obj_twice. reflexivity.
Qed.
Lemma put_obj_mid (os : objects) x y z : put_obj (os ++ x :: z) (length os) y = os ++ y :: z.
Proof. induction os as [|a os IH]; cbn; [reflexivity|]. now rewrite IH. Qed.
(* everything up to the reading of the text *)
Lemma emptied os h k x text : blank_stack k x -> exists h2, length h2 = S (length h) /\ (forall y, y < length h -> nth_error h2 y = nth_error h y) /\ freed h2 (length h) /\
  py_from_json none tokener (St os h) k text =
  (let os2 := (os ++ None :: extra k) ++ [Some (1, PyStruct k (length h) (Some (length os) :: attrs_of os k))] in let r := length (os ++ None :: extra k) in
   do s <- from_json_text tokener k text;
   match s with
   | None => Ok (St (put_obj os2 r (Some (1, PyOther))) h2, Raise ValueError)
   | Some s => let '(h, a) := place_stack h2 s in
       do (st, l) <- match frame_kind k with Some fk => frames_to_python (St os2 h) fk a | None => threads_to_python (St os2 h) k a end;
       Ok (set_obj st r (Some (1, PyStruct k a (Some l :: attrs_of os k))), Value r)
   end).
Proof.
  intros B. destruct (blank_made os h k x B) as (scal & ps & ks & raw & E & K & M). set (h1 := h ++ [CObj k scal ps (None :: ks) None raw None]) in *.
  destruct (stack_placed h x) as (h' & e & es & E' & O & _ & _ & _ & _ & F). rewrite E in E'. injection E' as <- Ea.
  assert (Kx : kind_of_stack x = k) by (destruct x; cbn [blank_stack] in B; destruct B as (-> & _); reflexivity). rewrite Kx in O.
  destruct (sr_free_ok k h1 None e O (fresh_nodup _ _ _ F)) as (h2 & Ef & Lf & Sf & Ff). rewrite <- Ea in Ef.
  destruct F as (_ & Fi). assert (L1 : length h1 = S (length h)) by (unfold h1; rewrite app_length; cbn; lia).
  exists h2. split; [lia|]. split; [|split].
  - intros y Hy. rewrite Sf by (intros Iy; apply Fi in Iy; lia). unfold h1. apply nth_error_app1. exact Hy.
  - apply Ff. apply Fi. lia.
  - unfold py_from_json. rewrite M. cbn [bind].
    replace (length (os ++ Some (1, PyList []) :: extra k)) with (length (os ++ None :: extra k)) by (rewrite !app_length; reflexivity).
    rewrite (obj_ok _ _ 1 (PyStruct k (length h) (Some (length os) :: attrs_of os k))); [|cbn [objs]; unfold object; replace (length (os ++ None :: extra k)) with (length (os ++ Some (1, PyList []) :: extra k)) by (rewrite !app_length; reflexivity); rewrite nth_error_app2, Nat.sub_diag by lia; reflexivity].
    cbn [bind]. rewrite drop_empty by (unfold object; rewrite <- app_assoc, nth_error_app2, Nat.sub_diag by lia; reflexivity). cbn [bind mem].
    replace (put_obj ((os ++ Some (1, PyList []) :: extra k) ++ [Some (1, PyStruct k (length h) (Some (length os) :: attrs_of os k))]) (length os) None)
      with ((os ++ None :: extra k) ++ [Some (1, PyStruct k (length h) (Some (length os) :: attrs_of os k))]) by (rewrite <- !app_assoc; cbn [app]; rewrite put_obj_mid; reflexivity).
    destruct (emptied_frames h h1 (length h) k scal ps ks raw eq_refl eq_refl) as (S1 & S2).
    replace (match frame_kind k with Some _ => set_frames h1 (length h) None | None => set_threads k h1 (length h) None end) with (@Ok heap h1)
      by (destruct x; cbn [blank_stack] in B; destruct B as (-> & _); cbn [frame_kind set_threads]; try (symmetry; exact S1); symmetry; exact (S2 eq_refl (K eq_refl))).
    cbn [bind]. rewrite Ef. cbn [bind]. destruct (from_json_text tokener k text) as [[s|]| |]; reflexivity.
Qed.

Lemma put_obj_grown os r b : forall os0, length os0 <= r -> grown os0 os -> grown os0 (put_obj os r b).
Proof. intros os0 Hr (L & G). split; [rewrite put_obj_length; exact L|]. intros x Hx. rewrite put_obj_other by lia. now apply G. Qed.
Lemma json_kind k text x : reads_json tokener k text x -> kind_of_stack x = k /\ crash_known x /\ from_json_text tokener k text = Ok (Some x) /\ (forall y, x <> SGdb y) /\ exists y, blank_stack k y.
Proof.
  intros (root & T & R). destruct x as [x|x|x|x|x|x|x]; try contradiction; destruct R as (-> & R); cbn [from_json_text type_of_stack]; unfold sr_stacktrace_from_json_text; rewrite T.
  all: split; [reflexivity|]; split; [|split; [|split; [discriminate|]]].
  all: try (cbn; match goal with H : _ = Ok _ |- _ => rewrite H end; reflexivity).
  all: try exact I; try (match goal with H : core_stacktrace_from_json _ = Ok _ |- _ => apply core_reads in H; exact (core_known _ _ H) end).
  - exists (SCore (mk_core_stacktrace 0%Z None None [] false)). split; reflexivity.
  - exists (SPython (mk_python_stacktrace None [])). split; reflexivity.
  - exists (SKoops (mk_koops_stacktrace None (repeat false 16) None None [] None)). split; reflexivity.
  - exists (SJava (mk_java_stacktrace [])). split; reflexivity.
  - exists (SRuby (mk_ruby_stacktrace None [])). split; reflexivity.
  - exists (SJs (mk_js_stacktrace None [] 0%Z)). split; reflexivity.
Qed.
Lemma from_json_ok os h k text x : reads_json tokener k text x ->
  exists os' h' r e, py_from_json none tokener (St os h) k text = Ok (St os' h', Value r) /\ grown os os' /\ stack_is_new (length os) os' h' none r k e x /\ taken_freed h h' (e_foot e).
Proof.
  intros R. destruct (json_kind _ _ _ R) as (Hk & Ck & Ej & Ng & y & B). destruct (emptied os h k y text B) as (h2 & L2 & S2 & F2 & E). rewrite E. clear E. cbv zeta. rewrite Ej. cbn [bind].
  assert (Ea : attrs_of os k = [] /\ extra k = []). { destruct x; cbn in Hk; subst k; try (split; reflexivity). exfalso; eapply Ng; reflexivity. } destruct Ea as (Ea & Ee). rewrite Ea, Ee in *.
  destruct (stack_placed h2 x) as (h' & e & es & E & O & V & Rs & C & X & F). rewrite Hk in *. rewrite E.
  assert (T : taken_freed h h' (e_foot e)).
  { destruct X as (X1 & X2). destruct F as (F1 & F3). split; [lia|]. split; [intros z Hz; rewrite X2 by lia; now apply S2|]. split; [exact F1|]. split; [intros z Hz; apply F3 in Hz; lia|].
    intros z Hz. destruct (Nat.eq_dec z (length h)) as [->|Nz]; [right; unfold freed; rewrite X2 by lia; exact F2|left; apply F3; lia]. }
  set (os2 := (os ++ [None]) ++ [Some (1, PyStruct k (length h) (Some (length os) :: []))]). match goal with |- context [St ?o h'] => change o with os2 end. set (r := length (os ++ [None])).
  assert (G2 : grown os os2) by (unfold os2; eapply grown_trans; apply grown_app).
  assert (Lr : r < length os2) by (unfold r, os2; rewrite (app_length (os ++ [None])); cbn; lia). assert (Hr : length os <= r) by (unfold r; rewrite app_length; lia).
  destruct (multi_or_single x) as [[s' ->]|[M|[t Ht]]]; [destruct (Ng s' eq_refl)| |].
  - replace (frame_kind k) with (@None kind) by (destruct M as [[s' ->]|[s' ->]]; cbn in Hk; subst k; reflexivity).
    destruct (multi_ok os2 h' k x e es M Hk O (fresh_nodup _ _ _ F) V C Ck) as (os1 & l & E1 & G & Q). rewrite E1. cbn [bind]. unfold set_obj. cbn [objs mem].
    eexists _, h', r, e. split; [reflexivity|]. split; [apply put_obj_grown; [exact Hr|eapply grown_trans; eassumption]|]. split; [|exact T]. split; [exact Rs|].
    assert (Mo : multi_object (length os) (put_obj os1 r (Some (1, PyStruct k (e_addr e) [Some l]))) h' r k e x).
    { apply Q; [right; eexists; split; [reflexivity|exact Lr]|apply G2|exact Hr|]. unfold object. apply put_obj_same. destruct G. lia. }
    destruct M as [[s' ->]|[s' ->]]; exact Mo.
  - destruct (single_ok os2 h' k x t e Ht Hk O (fresh_nodup _ _ _ F) V) as (fk & os1 & l & Hf & E1 & G & Q). rewrite Hf, E1. cbn [bind]. unfold set_obj. cbn [objs mem].
    eexists _, h', r, e. split; [reflexivity|]. split; [apply put_obj_grown; [exact Hr|eapply grown_trans; eassumption]|]. split; [|exact T]. split; [exact Rs|].
    assert (Mo : thread_object (length os) (put_obj os1 r (Some (1, PyStruct k (e_addr e) [Some l]))) h' r k e t).
    { apply Q; [right; eexists; split; [reflexivity|exact Lr]|apply G2|exact Hr|]. unfold object. apply put_obj_same. destruct G. lia. }
    destruct x; try discriminate Ht; injection Ht as <-; exact Mo.
Qed.
Lemma no_json_text k text : no_json tokener k text -> from_json_text tokener k text = Ok None /\ exists y, blank_stack k y.
Proof.
  intros [->|(I & C)].
  - split; [reflexivity|]. exists (SGdb (mk_gdb_stacktrace [] None [] 4294967295%Z)). split; reflexivity.
  - split.
    + assert (Hk : from_json_text tokener k text = sr_stacktrace_from_json_text tokener (type_of_stack k) text) by (cbn [In] in I; destruct I as [<-|[<-|[<-|[<-|[<-|[<-|[]]]]]]]; reflexivity).
      rewrite Hk. unfold sr_stacktrace_from_json_text. destruct C as [->|(root & -> & C)]; [reflexivity|].
      destruct C as [(-> & E)|[(-> & E)|[(-> & E)|[(-> & E)|[(-> & E)|(-> & E)]]]]]; cbn; rewrite E; reflexivity.
    + cbn [In] in I. destruct I as [<-|[<-|[<-|[<-|[<-|[<-|[]]]]]]].
      * exists (SCore (mk_core_stacktrace 0%Z None None [] false)). split; reflexivity.
      * exists (SJava (mk_java_stacktrace [])). split; reflexivity.
      * exists (SPython (mk_python_stacktrace None [])). split; reflexivity.
      * exists (SRuby (mk_ruby_stacktrace None [])). split; reflexivity.
      * exists (SJs (mk_js_stacktrace None [] 0%Z)). split; reflexivity.
      * exists (SKoops (mk_koops_stacktrace None (repeat false 16) None None [] None)). split; reflexivity.
Qed.
Lemma from_json_failed os h k text : no_json tokener k text -> exists h', length h' = S (length h) /\ (forall y, y < length h -> nth_error h' y = nth_error h y) /\ freed h' (length h) /\
  py_from_json none tokener (St os h) k text = Ok (St (os ++ None :: extra k ++ [Some (1, PyOther)]) h', Raise ValueError).
Proof.
  intros N. destruct (no_json_text _ _ N) as (Ej & y & B). destruct (emptied os h k y text B) as (h2 & L2 & S2 & F2 & E). exists h2. split; [exact L2|]. split; [exact S2|]. split; [exact F2|].
  rewrite E. cbv zeta. rewrite Ej. cbn [bind]. rewrite put_obj_last, <- app_assoc. reflexivity.
Qed.
Lemma from_json_cases os h k text : In k [KCoreStack; KJavaStack; KPythonStack; KRubyStack; KJsStack; KKoopsStack] ->
  (exists x, reads_json tokener k text x) \/ no_json tokener k text \/ k = KKoopsStack /\ py_from_json none tokener (St os h) k text = UB.
Proof.
  intros I. destruct (tokener text) as [root|] eqn:T; [|right; left; right; split; [exact I|left; exact T]].
  cbn [In] in I. destruct I as [<-|[<-|[<-|[<-|[<-|[<-|[]]]]]]].
  - destruct (core_stacktrace_from_json root) as [x| |] eqn:E; [left; exists (SCore x), root; tauto|right; left; right; split; [cbn; tauto|right; exists root; tauto]|destruct (core_not_UB _ E)].
  - destruct (java_stacktrace_from_json root) as [x| |] eqn:E; [left; exists (SJava x), root; tauto|right; left; right; split; [cbn; tauto|right; exists root; tauto]|destruct (java_not_UB _ E)].
  - destruct (python_stacktrace_from_json root) as [x| |] eqn:E; [left; exists (SPython x), root; tauto|right; left; right; split; [cbn; tauto|right; exists root; tauto]|destruct (python_not_UB _ E)].
  - destruct (ruby_stacktrace_from_json root) as [x| |] eqn:E; [left; exists (SRuby x), root; tauto|right; left; right; split; [cbn; tauto|right; exists root; tauto]|destruct (ruby_not_UB _ E)].
  - destruct (js_stacktrace_from_json root) as [x| |] eqn:E; [left; exists (SJs x), root; tauto|right; left; right; split; [cbn; tauto|right; exists root; tauto]|destruct (js_not_UB _ E)].
  - destruct (koops_stacktrace_from_json root) as [x| |] eqn:E; [left; exists (SKoops x), root; tauto|right; left; right; split; [cbn; tauto|right; exists root; tauto]|].
    right; right. split; [reflexivity|]. destruct (emptied os h KKoopsStack (SKoops (mk_koops_stacktrace None (repeat false 16) None None [] None)) text (conj eq_refl eq_refl)) as (h2 & _ & _ & _ & Ep).
    rewrite Ep. cbv zeta. unfold from_json_text, sr_stacktrace_from_json_text. rewrite T. cbn. rewrite E. reflexivity.
Qed.
End Stacks.
