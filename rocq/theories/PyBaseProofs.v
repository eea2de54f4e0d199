(** * Proofs for PyBaseModel.v: reading structures. *)
From Coq Require Import QArith.
From Verif Require Import Base Types UtilsProofs NormModel CmpModel CmpSpec CmpProofs TextModel TextSpec DistModel CrashModel HeapModel HeapSpec HeapProofs HeapProofs2 HeapListModel HeapListProofs PyModel PySpec PyProofs PyProofs2 PyProofs3 PyProofs4
  PyAttrModel PyAttrSpec PyAttrProofs PyAttrProofs2 PyBaseModel PyBaseSpec.
Open Scope nat_scope.

Lemma number_members_are k : number_members k = map fst (scalars k). Proof. destruct k; reflexivity. Qed.
Lemma text_members_are k : k <> KReport -> text_members k = strings k. Proof. destruct k; try reflexivity; congruence. Qed.
Lemma offset_pos k m t i : offset k m t = Ok i -> nth_error (number_members k) i = Some m.
Proof.
  unfold offset. rewrite number_members_are. destruct (pos _ m) as [j|] eqn:E; [|discriminate]. destruct (nth_error (scalars k) j) as [[? t']|]; [|discriminate].
  destruct (ctype_beq t t'); [|discriminate]. intros H. injection H as <-. exact (pos_nth _ _ _ E).
Qed.
Lemma num_ok h k n e m t z : own h k n e -> (exists i, offset k (L m) t = Ok i) -> is_number k (e_val e) m z -> num h (e_addr e) (L m) t = Ok z.
Proof.
  intros O [i Ei] N. destruct (own_inv _ _ _ _ O) as (scal & ps & ss & fs & ks & vss & fk & arr & sarr & fa & raw & Ev & _ & Hc & _).
  rewrite Ev in N. destruct N as (j & E1 & E2). pose proof (offset_pos _ _ _ _ Ei) as E3.
  pose proof (nth_unique _ _ _ _ (proj1 (members_nodup k)) E1 E3) as ->.
  unfold num, load_scalar. rewrite (get_obj _ _ _ _ _ _ _ _ _ Hc). cbn [bind]. rewrite Ei. cbn [bind]. unfold load. rewrite E2. reflexivity.
Qed.
Lemma flag_ok h k n e m b : own h k n e -> (exists i, offset k (L m) TBool = Ok i) -> is_flag k (e_val e) m b -> flag h (e_addr e) (L m) = Ok b.
Proof.
  intros O I (z & N & B). unfold flag. pose proof (num_ok _ _ _ _ _ _ _ O I N) as E. unfold num in E. rewrite E. cbn [bind]. f_equal.
  destruct (Z.eqb_spec z 0); destruct b; cbn; try reflexivity; destruct B as [B1 B2]; [destruct (B1 eq_refl e0)|discriminate (B2 n0)].
Qed.
Lemma txt_ok h k n e m s : own h k n e -> k <> KReport -> (exists i, pos (strings k) (L m) = Some i) -> is_text k (e_val e) m s -> txt h (e_addr e) (L m) = Ok s.
Proof.
  intros O K [i Ei] N. destruct (own_inv _ _ _ _ O) as (scal & ps & ss & fs & ks & vss & fk & arr & sarr & fa & raw & Ev & _ & Hc & _ & Os & _).
  rewrite Ev in N. destruct N as (j & E1 & E2). pose proof (pos_nth _ _ _ Ei) as E3. rewrite <- (text_members_are k K) in E3.
  pose proof (nth_unique _ _ _ _ (proj2 (members_nodup k)) E1 E3) as ->.
  unfold txt, load_string. rewrite (get_obj _ _ _ _ _ _ _ _ _ Hc). cbn [bind]. rewrite Ei. unfold load.
  destruct (own_strs_nth _ _ _ _ _ _ Os E2) as (p & Ep & Hp). rewrite Ep. cbn [bind]. destruct p as [a|], s as [s|]; try contradiction; [|reflexivity].
  rewrite (get_string _ _ _ (proj1 Hp)). reflexivity.
Qed.

Ltac member O := first
  [ erewrite (num_ok _ _ _ _ _ _ _ O); [cbn [bind]|eexists; vm_compute; reflexivity|eassumption]
  | erewrite (flag_ok _ _ _ _ _ _ O); [cbn [bind]|eexists; vm_compute; reflexivity|eassumption]
  | erewrite (txt_ok _ _ _ _ _ _ O); [cbn [bind]|discriminate|eexists; vm_compute; reflexivity|eassumption] ].
Lemma load_frame_ok h k n e f : own h k n e -> is_frame k (e_val e) f -> load_frame h (e_addr e) = Ok f.
Proof.
  intros O F. unfold load_frame. rewrite (own_kind _ _ _ _ O). cbn [bind]. destruct f as [f|f|f|f|f|f|f]; cbn [is_frame] in F;
    destruct F as (-> & F); repeat match type of F with _ /\ _ => let X := fresh in destruct F as [X F] end; repeat member O; destruct f; reflexivity.
Qed.
Lemma load_lib_ok h n e f : own h KGdbLib n e -> is_lib (e_val e) f -> load_lib h (e_addr e) = Ok f.
Proof.
  intros O F. unfold load_lib. destruct F as (? & ? & ? & ?). repeat member O. destruct f. reflexivity.
Qed.
Lemma load_list_ok {A} (one : heap -> addr -> res A) h k xs : forall l p fuel, own_list h k p l ->
  Forall2 (fun e x => forall n, own h k n e -> one h (e_addr e) = Ok x) l xs -> length l <= fuel -> load_list one fuel h p = Ok xs.
Proof.
  intros l. revert xs. induction l as [|e l IH]; intros xs p fuel O F Lf; inversion O as [|? n ? ? Oe Ol]; subst; inversion F as [|? x ? xs' Hx F']; subst.
  - destruct fuel; reflexivity.
  - destruct fuel as [|fuel]; [cbn in Lf; lia|]. cbn [load_list]. rewrite (Hx n Oe). cbn [bind]. rewrite (own_next _ _ _ _ Oe). cbn [bind].
    rewrite (IH xs' n fuel Ol F'); [reflexivity|cbn in Lf; lia].
Qed.
Lemma own_list_bound h k p l : own_list h k p l -> NoDup (foot l) -> length l <= length h.
Proof. intros O N. etransitivity; [exact (foot_long _ _ _ _ O)|]. apply NoDup_bound; [exact N|]. exact (own_list_valid _ _ _ _ O). Qed.
Lemma each_as_ok {A B} (f : A -> option B) (g : B -> A) l : (forall x, f (g x) = Some x) -> each_as f (map g l) = Ok l.
Proof. intros H. induction l as [|x l IH]; [reflexivity|]. cbn. rewrite H, IH. reflexivity. Qed.
Lemma forall2_map_l {A B C} (P : B -> C -> Prop) (f : A -> B) : forall l m, Forall2 P (map f l) m -> Forall2 (fun x y => P (f x) y) l m.
Proof. intros l. induction l as [|x l IH]; intros m H; inversion H; subst; constructor; auto. Qed.
Lemma forall2_weak {A B} (P Q : A -> B -> Prop) l m : (forall x y, P x y -> Q x y) -> Forall2 P l m -> Forall2 Q l m.
Proof. intros H F. induction F; constructor; auto. Qed.

Lemma load_frames_ok {F} (as_f : frame -> option F) (of_f : F -> frame) h k fk n e fs : (forall x, as_f (of_f x) = Some x) ->
  own h k n e -> frame_kind k = Some fk -> NoDup (e_foot e) -> has_frames fk (e_val e) (map of_f fs) -> load_frames as_f h (e_addr e) = Ok fs.
Proof.
  intros A O Hk N (vs & Ek & Fv). destruct (thread_open _ _ _ _ _ O Hk) as (p & es & Ep & Ol & U & Nf). specialize (Nf N).
  destruct U as (scal & ps & p' & ss & fs' & arr & sarr & fa & raw & _ & _ & _ & _ & _ & Ev & _). rewrite Ev in Ek. cbn in Ek. injection Ek as <-.
  unfold load_frames. rewrite Ep. cbn [bind]. rewrite (load_list_ok load_frame h fk (map of_f fs) es p (length h) Ol).
  - cbn [bind]. apply each_as_ok. exact A.
  - apply forall2_map_l in Fv. revert Fv. apply forall2_weak. intros x y H m Om. exact (load_frame_ok _ _ _ _ _ Om H).
  - eapply own_list_bound; eassumption.
Qed.
Lemma load_strs_ok h items ss : Forall2 (fun i s => nth_error h i = Some (CStr s)) items ss -> load_strs h items = Ok ss.
Proof. intros F. induction F as [|i s items ss Hi F IH]; [reflexivity|]. cbn. rewrite (get_string _ _ _ Hi). cbn [bind]. rewrite IH. reflexivity. Qed.
Lemma load_modules_ok h k n e : own h k n e -> load_modules h (e_addr e) = Ok (array (e_val e)).
Proof.
  intros O. destruct (own_inv _ _ _ _ O) as (scal & ps & ss & fs & ks & vss & fk & arr & sarr & fa & raw & Ev & _ & Hc & _ & _ & Oa & _).
  unfold load_modules. rewrite (get_obj _ _ _ _ _ _ _ _ _ Hc), Ev. cbn [bind array]. inversion Oa as [|a items ss' Ha F]; subst; [reflexivity|].
  rewrite (get_live _ _ _ Ha) by discriminate. cbn [bind]. rewrite (load_strs_ok _ _ _ F). reflexivity.
Qed.

(** What is not read of a thread: it does not matter. *)
Definition plainly (t : thread) : thread :=
  match t with
  | TKoops t => TKoops (mk_koops_stacktrace (ks_version t) no_taint (ks_modules t) (ks_raw_oops t) (ks_frames t) (ks_reason t))
  | TJs t => TJs (mk_js_stacktrace (js_exception_name t) (js_frames t) 0)
  | t => t
  end.
Lemma load_thread_ok h k n e t : own h k n e -> NoDup (e_foot e) -> is_thread k (e_val e) t -> load_thread h (e_addr e) = Ok (plainly t).
Proof.
  intros O N T. unfold load_thread. rewrite (own_kind _ _ _ _ O). cbn [bind]. destruct t as [t|t|t|t|t|t|t]; cbn [is_thread] in T; destruct T as (-> & T);
    repeat match type of T with _ /\ _ => let X := fresh in destruct T as [X T] end; repeat member O; try rewrite (load_modules_ok _ _ _ _ O); cbn [bind]; repeat member O;
    match type of T with has_frames ?fk _ (map ?g _) => match goal with |- context [load_frames ?a _ _] => rewrite (load_frames_ok a g _ _ fk _ _ _ (fun x => eq_refl) O eq_refl N T) end end; cbn [bind]; try match goal with X : array _ = _ |- _ => rewrite X end; destruct t; reflexivity.
Qed.

Lemma plainly_frames t : sr_thread_frames (plainly t) = sr_thread_frames t. Proof. destruct t; reflexivity. Qed.
Lemma plainly_tag t : thread_tag (plainly t) = thread_tag t. Proof. destruct t; reflexivity. Qed.
Lemma plainly_duphash sha1 t n p fl : sr_thread_get_duphash sha1 (plainly t) n p fl = sr_thread_get_duphash sha1 t n p fl.
Proof.
  destruct t; try reflexivity; cbn [plainly]; unfold sr_thread_get_duphash; destruct (flag_nonormalize fl); cbn [bind]; try reflexivity.
  cbn [sr_thread_normalize ks_frames]. destruct (NormModel.sr_normalize_koops_frames _); reflexivity.
Qed.
Lemma plainly_cmp t u : sr_thread_cmp (plainly t) (plainly u) = sr_thread_cmp t u.
Proof. destruct t, u; reflexivity. Qed.

(** Stack traces. *)
Definition plainly_stack (s : stacktrace) : stacktrace :=
  match s with
  | SCore s => SCore (mk_core_stacktrace (cs_signal s) (cs_executable s) None (cs_threads s) (cs_only_crash_thread s))
  | SKoops s => SKoops (mk_koops_stacktrace (ks_version s) no_taint (ks_modules s) (ks_raw_oops s) (ks_frames s) (ks_reason s))
  | SJs s => SJs (mk_js_stacktrace (js_exception_name s) (js_frames s) 0)
  | s => s
  end.
Lemma nodup_foot_in (l : list entry) e : In e l -> NoDup (foot l) -> NoDup (e_foot e).
Proof.
  induction l as [|x l IH]; [intros []|]. rewrite foot_cons. intros [-> | I] N; apply NoDup_app_inv in N; tauto.
Qed.
Lemma load_threads_ok {T} (as_t : thread -> option T) (of_t : T -> thread) h tk p l ts : (forall x, as_t (of_t x) = Some x) -> (forall x, plainly (of_t x) = of_t x) ->
  own_list h tk p l -> NoDup (foot l) -> Forall2 (is_thread tk) (map e_val l) (map of_t ts) -> load_threads as_t h p = Ok ts.
Proof.
  intros A P Ol N F. unfold load_threads. rewrite (load_list_ok load_thread h tk (map of_t ts) l p (length h) Ol).
  - cbn [bind]. apply each_as_ok. exact A.
  - apply forall2_map_l in F. assert (I : forall e, In e l -> NoDup (e_foot e)) by (intros e I; eapply nodup_foot_in; eassumption).
    assert (Pm : forall y, In y (map of_t ts) -> plainly y = y) by (intros y Iy; apply in_map_iff in Iy as (x & <- & _); apply P).
    clear Ol N. induction F as [|e y l ys H F IH]; constructor; [|apply IH; intros; [apply I|apply Pm]; right; assumption].
    intros n O. rewrite (load_thread_ok _ _ _ _ _ O (I e (or_introl eq_refl)) H). rewrite (Pm y (or_introl eq_refl)). reflexivity.
  - eapply own_list_bound; eassumption.
Qed.
Lemma stack_parts h k tk n e : own h k n e -> (k = KCoreStack \/ k = KJavaStack) -> thread_type k = Some tk -> NoDup (e_foot e) ->
  exists p l, thread_frames h (e_addr e) = Ok p /\ own_list h tk p l /\ kids (e_val e) = [map e_val l] /\ NoDup (foot l).
Proof.
  intros O Hk Ht N. destruct (own_inv _ _ _ _ O) as (scal & ps & ss & fs & ks & vss & fkk & arr & sarr & fa & raw & Ev & Ef & Hc & Lp & Os & Oa & Ok').
  rewrite (kid_of_stack _ _ Hk Ht) in Ok'. inversion Ok' as [|? ? ? p ps' l vss' f' Ol _ Ok2]; subst. inversion Ok2; subst.
  exists p, l. split; [unfold thread_frames; rewrite (get_live _ _ _ Hc) by discriminate; reflexivity|]. split; [exact Ol|]. rewrite Ev. split; [reflexivity|].
  rewrite Ef in N. inversion N as [|? ? _ N']; subst. apply NoDup_app_inv in N' as (_ & N' & _). apply NoDup_app_inv in N' as (_ & N' & _). rewrite app_nil_r in N'. exact N'.
Qed.
Lemma load_single k h n e s t : own h k n e -> NoDup (e_foot e) -> is_thread k (e_val e) t ->
  (k = KPythonStack \/ k = KRubyStack \/ k = KJsStack \/ k = KKoopsStack) ->
  match plainly t with TPython s => Ok (SPython s) | TRuby s => Ok (SRuby s) | TJs s => Ok (SJs s) | TKoops s => Ok (SKoops s) | _ => UB end = Ok s ->
  load_stack h (e_addr e) = Ok s.
Proof.
  intros O N T K E. unfold load_stack. rewrite (own_kind _ _ _ _ O). cbn [bind].
  destruct K as [-> |[-> |[-> | ->]]]; rewrite (load_thread_ok _ _ _ _ _ O N T); cbn [bind]; exact E.
Qed.
Lemma load_stack_ok h k n e s : own h k n e -> NoDup (e_foot e) -> is_stack k (e_val e) s -> load_stack h (e_addr e) = Ok (plainly_stack s).
Proof.
  intros O N I. destruct s as [s|s|s|s|s|s|s]; cbn [is_stack] in I.
  - destruct I as (-> & I1 & I2 & I3 & vs & Ek & F). destruct (stack_parts _ _ KCoreThread _ _ O (or_introl eq_refl) eq_refl N) as (p & l & Ep & Ol & Ek' & Nf).
    rewrite Ek in Ek'. injection Ek' as ->. unfold load_stack. rewrite (own_kind _ _ _ _ O). cbn [bind]. member O. member O. rewrite Ep. cbn [bind].
    rewrite (load_threads_ok as_core_thread TCore _ _ _ _ _ (fun x => eq_refl) (fun x => eq_refl) Ol Nf F). cbn [bind]. member O. reflexivity.
  - apply (load_single k _ _ _ _ _ O N I); [|reflexivity]. destruct I as [-> _]. tauto.
  - apply (load_single k _ _ _ _ _ O N I); [|reflexivity]. destruct I as [-> _]. tauto.
  - destruct I as (-> & vs & Ek & F). destruct (stack_parts _ _ KJavaThread _ _ O (or_intror eq_refl) eq_refl N) as (p & l & Ep & Ol & Ek' & Nf).
    rewrite Ek in Ek'. injection Ek' as ->. unfold load_stack. rewrite (own_kind _ _ _ _ O). cbn [bind]. rewrite Ep. cbn [bind].
    rewrite (load_threads_ok as_java_thread TJava _ _ _ _ _ (fun x => eq_refl) (fun x => eq_refl) Ol Nf F). cbn [bind]. destruct s. reflexivity.
  - destruct I as (-> & En & cs & ts & ls & Ek & Fc & Ft & Fl).
    destruct (own_inv _ _ _ _ O) as (scal & ps & ss & fs & ks & vss & fkk & arr & sarr & fa & raw & Ev & Ef & Hc & Lp & Os & Oa & Ok').
    cbn [kid_ops] in Ok'. inversion Ok' as [|? ? ? pc ps1 lc vss1 f1 Oc Lc Ok1]; subst. inversion Ok1 as [|? ? ? pt ps2 lt vss2 f2 Ot _ Ok2]; subst.
    inversion Ok2 as [|? ? ? pl ps3 ll vss3 f3 Ol _ Ok3]; subst. inversion Ok3; subst. rewrite Ev in *. cbn [numbers kids] in *. subst scal. injection Ek as <- <- <-.
    rewrite Ef in N. inversion N as [|? ? _ N']; subst. apply NoDup_app_inv in N' as (_ & N' & _). apply NoDup_app_inv in N' as (_ & N' & _). apply NoDup_app_inv in N' as (_ & N' & _).
    apply NoDup_app_inv in N' as (Nt & N' & _). rewrite app_nil_r in N'.
    unfold load_stack. rewrite (own_kind _ _ _ _ O). cbn [bind]. rewrite (get_obj _ _ _ _ _ _ _ _ _ Hc). cbn [bind].
    rewrite (load_threads_ok as_gdb_thread TGdb _ _ _ _ _ (fun x => eq_refl) (fun x => eq_refl) Ot Nt Ft). cbn [bind].
    assert (Ec : match pc with None => Ok None | Some x => do f <- load_frame h x; match f with FGdb f => Ok (Some f) | _ => UB end end = Ok (gs_crash s)).
    { destruct (gs_crash s) as [c|].
      - inversion Oc as [|? m x l Ox Oll]; subst; [inversion Fc|]. cbn in Fc. inversion Fc as [|? ? ? ? Fx _]; subst. rewrite (load_frame_ok _ _ _ _ _ Ox Fx). reflexivity.
      - inversion Oc as [|? m x l Ox Oll]; subst; [reflexivity|inversion Fc]. }
    rewrite Ec. cbn [bind].
    rewrite (load_list_ok load_lib h KGdbLib (gs_libs s) ll pl (length h) Ol).
    + destruct s. reflexivity.
    + apply forall2_map_l in Fl. revert Fl. apply forall2_weak. intros x y H m Om. exact (load_lib_ok _ _ _ _ Om H).
    + eapply own_list_bound; eassumption.
  - apply (load_single k _ _ _ _ _ O N I); [|destruct s; reflexivity]. destruct I as [-> _]. tauto.
  - apply (load_single k _ _ _ _ _ O N I); [|reflexivity]. destruct I as [-> _]. tauto.
Qed.
Lemma plainly_bthash sha1 s fl : sr_stacktrace_get_bthash sha1 (plainly_stack s) fl = sr_stacktrace_get_bthash sha1 s fl.
Proof. destruct s; reflexivity. Qed.
