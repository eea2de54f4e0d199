From Verif Require Import Base HeapModel HeapSpec HeapProofs HeapProofs2 HeapProofs3 HeapListModel HeapListSpec HeapListProofs HeapListProofs3 PyModel PySpec PyProofs PyProofs2 PyProofs3.
Open Scope nat_scope.

(** ** Wrapping a linked list *)
Lemma put_obj_app os x : forall r o, r < length os -> put_obj (os ++ x) r o = put_obj os r o ++ x.
Proof. induction os as [|y os IH]; destruct r; cbn; intros; try lia; [reflexivity|]. rewrite IH by lia. reflexivity. Qed.
Lemma put_obj_last os x o : put_obj (os ++ [x]) (length os) o = os ++ [o].
Proof. induction os as [|y os IH]; cbn; [reflexivity|]. rewrite IH. reflexivity. Qed.
Lemma put_obj_twice os : forall r a b, put_obj (put_obj os r a) r b = put_obj os r b.
Proof. induction os as [|y os IH]; destruct r; cbn; intros; try reflexivity. rewrite IH. reflexivity. Qed.
Lemma object_app os x r n b : object os r n b -> object (os ++ x) r n b.
Proof. intros H. unfold object. rewrite nth_error_app1 by (eapply object_lt; exact H). exact H. Qed.
Lemma nth_last {A} (l : list A) x : nth_error (l ++ [x]) (length l) = Some x.
Proof. rewrite nth_error_app2, Nat.sub_diag by lia. reflexivity. Qed.
Lemma object_last os n b : object (os ++ [Some (n, b)]) (length os) n b.
Proof. unfold object. apply nth_last. Qed.

Lemma list_add_new os h l n items b : object os l n (PyList items) ->
  list_add (St (os ++ [Some (1, b)]) h) l (length os) = Ok (St (put_obj os l (Some (n, PyList (items ++ [length os]))) ++ [Some (2, b)]) h).
Proof.
  intros H. unfold list_add. rewrite (incref_ok (St (os ++ [Some (1, b)]) h) (length os) 1 b (object_last _ _ _)). cbn [bind objs mem].
  rewrite (bump_eq _ _ _ _ (object_last os 1 b)), put_obj_last.
  rewrite (obj_ok (St (os ++ [Some (2, b)]) h) l n (PyList items) (object_app _ _ _ _ _ H)). cbn [bind]. unfold set_obj. cbn [objs mem].
  rewrite put_obj_app by (eapply object_lt; exact H). reflexivity.
Qed.
Lemma own_next_of h k n e : own h k n e -> next_of h (e_addr e) = Ok n.
Proof. intros O. destruct (own_inv _ _ _ _ O) as (? & ? & ? & ? & ? & ? & ? & ? & ? & ? & ? & _ & _ & H & _). unfold next_of. rewrite (get_live _ _ _ H) by discriminate. reflexivity. Qed.

Lemma wrap_loop_ok k h : forall es fuel os l n items p, own_list h k p es -> length es <= fuel -> object os l n (PyList items) ->
  wrap_loop fuel k (St os h) l p =
    Ok (St (put_obj os l (Some (n, PyList (items ++ seq (length os) (length es)))) ++ map (fun e => Some (2, PyStruct k (e_addr e) [])) es) h).
Proof.
  induction es as [|e es IH]; intros fuel os l n items p Ol Lf H; inversion Ol as [|? m ? ? Oe Ol']; subst.
  - destruct fuel; cbn [wrap_loop length seq map]; rewrite !app_nil_r; f_equal; f_equal; apply nth_ext_eq; intros x;
      (destruct (Nat.eq_dec x l) as [->|Ne]; [rewrite put_obj_same by (eapply object_lt; exact H); exact H|rewrite put_obj_other by exact Ne; reflexivity]).
  - destruct fuel as [|fuel]; [cbn in Lf; lia|]. cbn [wrap_loop]. unfold new_obj. cbn [objs mem]. rewrite (list_add_new os h l n items _ H). cbn [bind mem].
    rewrite (own_next_of _ _ _ _ Oe). cbn [bind].
    rewrite (IH fuel _ l n (items ++ [length os]) m Ol' ltac:(cbn in Lf; lia)).
    + f_equal. f_equal. rewrite put_obj_app by (rewrite put_obj_length; eapply object_lt; exact H). rewrite put_obj_twice. rewrite <- app_assoc. cbn [app map].
      f_equal. f_equal. f_equal. f_equal. f_equal. rewrite <- app_assoc. f_equal. rewrite app_length, put_obj_length. cbn [length seq app]. rewrite Nat.add_1_r. reflexivity.
    + apply object_app. apply (object_put_same os l n (PyList items) (n, PyList (items ++ [length os])) H).
Qed.
Lemma wrap_list_ok k os h p es : own_list h k p es -> NoDup (foot es) ->
  wrap_list k (St os h) p = Ok (St (os ++ Some (1, PyList (seq (S (length os)) (length es))) :: map (fun e => Some (2, PyStruct k (e_addr e) [])) es) h, length os).
Proof.
  intros O N. unfold wrap_list, new_obj. cbn [objs mem]. rewrite (wrap_loop_ok k h es _ _ _ 1 [] p O (own_list_bound _ _ _ _ O N) (object_last _ _ _)). cbn [bind].
  rewrite put_obj_last. rewrite <- app_assoc. rewrite app_length. cbn [app length]. rewrite Nat.add_1_r. reflexivity.
Qed.
Lemma items_at k : forall (es : list entry) os x, Forall2 (fun r e => object (os ++ map (fun e => Some (2, PyStruct k (e_addr e) [])) es ++ x) r 2 (PyStruct k (e_addr e) [])) (seq (length os) (length es)) es.
Proof.
  induction es as [|e es IH]; intros os x; cbn [length seq map]; constructor.
  - unfold object. rewrite nth_error_app2, Nat.sub_diag by lia. reflexivity.
  - specialize (IH (os ++ [Some (2, PyStruct k (e_addr e) [])]) x). rewrite app_length, Nat.add_1_r in IH. rewrite <- app_assoc in IH. exact IH.
Qed.
Lemma wrapped_list k os h p es : own_list h k p es -> NoDup (foot es) ->
  exists os' l items, wrap_list k (St os h) p = Ok (St os' h, l) /\ grown os os' /\ new_list (length os) os' l k items es /\ NoDup (l :: items).
Proof.
  intros O N. eexists _, _, _. split; [apply wrap_list_ok; eassumption|]. split; [|split].
  - split; [rewrite app_length; lia|]. intros r Hr. apply nth_error_app1. exact Hr.
  - split; [lia|]. split; [unfold object; rewrite nth_error_app2, Nat.sub_diag by lia; reflexivity|]. split; [apply Forall_forall; intros r Ir; apply in_seq in Ir; lia|].
    pose proof (items_at k es (os ++ [Some (1, PyList (seq (S (length os)) (length es)))]) []) as H. rewrite app_length, Nat.add_1_r, app_nil_r, <- app_assoc in H. exact H.
  - constructor; [intros I; apply in_seq in I; lia|apply seq_NoDup].
Qed.

(** ** Wrapping threads *)
Lemma thread_open h tk fk n e : own h tk n e -> frame_kind tk = Some fk ->
  exists p fs, thread_frames h (e_addr e) = Ok p /\ own_list h fk p fs /\ unlinked_thread h tk fk n e fs /\ (NoDup (e_foot e) -> NoDup (foot fs)).
Proof.
  intros O Hk. destruct (own_inv _ _ _ _ O) as (scal & ps & ss & fs & ks & vss & fkk & arr & sarr & fa & raw & Ev & Ef & Hc & Lp & Os & Oa & Ok').
  rewrite (kid_of_frames _ _ Hk) in Ok'. inversion Ok' as [|? ? ? p ps' l vss' f' Ol _ Ok2]; subst. inversion Ok2; subst.
  exists p, l. split; [unfold thread_frames; rewrite (get_live _ _ _ Hc) by discriminate; reflexivity|]. split; [exact Ol|]. split.
  - exists scal, ps, p, ss, fs, arr, sarr, fa, raw. rewrite app_nil_r in Ef. repeat (split; [assumption|]). split.
    + apply Forall_forall. intros x Ix. apply seg_list in Ol. eapply entry_own; [exact Ol|exact Ix].
    + intros ->. inversion Ol. reflexivity.
  - intros N. rewrite Ef, app_nil_r in N. inversion N as [|? ? _ N']; subst. apply NoDup_app_inv in N' as (_ & N' & _). apply NoDup_app_inv in N' as (_ & N' & _). exact N'.
Qed.

Lemma wrap_threads_ok tk fk h : frame_kind tk = Some fk -> forall es fuel os l n items p, own_list h tk p es -> NoDup (foot es) -> length es <= fuel -> object os l n (PyList items) ->
  exists os' ts, wrap_threads fuel tk fk (St os h) l p = Ok (St os' h) /\ map pt_entry ts = es /\ length os <= length os' /\
    (forall r, r < length os -> r <> l -> nth_error os' r = nth_error os r) /\ object os' l n (PyList (items ++ map pt_ref ts)) /\
    Forall (fun t => length os <= pt_ref t /\ object os' (pt_ref t) 2 (PyStruct tk (e_addr (pt_entry t)) [Some (pt_list t)]) /\
                   new_list (length os) os' (pt_list t) fk (pt_items t) (pt_frames t)) ts /\
    unlinked_threads h tk fk ts /\ NoDup (map pt_list ts).
Proof.
  intros Hk. induction es as [|e es IH]; intros fuel os l n items p Ol N Lf H; inversion Ol as [|? m ? ? Oe Ol']; subst.
  - exists os, []. cbn [map]. rewrite app_nil_r. split; [destruct fuel; reflexivity|]. split; [reflexivity|]. split; [lia|]. split; [reflexivity|]. split; [exact H|]. split; [constructor|split; constructor].
  - destruct fuel as [|fuel]; [cbn in Lf; lia|]. cbn [wrap_threads]. rewrite foot_cons in N. apply NoDup_app_inv in N as (Ne & Nes & D).
    destruct (thread_open _ _ _ _ _ Oe Hk) as (q & fs & Eq & Of & Ue & Nf). unfold frames_to_python. cbn [mem]. rewrite Eq. cbn [bind].
    destruct (wrapped_list fk os h q fs Of (Nf Ne)) as (os1 & lf & its & E1 & [L1 G1] & (B1 & Hl1 & Bi1 & Hi1) & _). rewrite E1. cbn [bind]. unfold new_obj. cbn [objs mem].
    assert (Ll : l < length os) by (eapply object_lt; exact H).
    assert (H1 : object os1 l n (PyList items)) by (unfold object; rewrite G1 by exact Ll; exact H).
    rewrite (list_add_new os1 h l n items _ H1). cbn [bind mem]. rewrite (own_next_of _ _ _ _ Oe). cbn [bind].
    set (os2 := put_obj os1 l (Some (n, PyList (items ++ [length os1]))) ++ [Some (2, PyStruct tk (e_addr e) [Some lf])]).
    assert (L2 : length os2 = S (length os1)) by (unfold os2; rewrite app_length, put_obj_length; cbn; lia).
    assert (H2 : object os2 l n (PyList (items ++ [length os1]))).
    { unfold os2. apply object_app. apply (object_put_same os1 l n (PyList items) (n, PyList (items ++ [length os1])) H1). }
    assert (K2 : forall r x b, r <> l -> object os1 r x b -> object os2 r x b) by (intros r x b Nr Hr; unfold os2; apply object_app, object_put; assumption).
    destruct (IH fuel os2 l n (items ++ [length os1]) m Ol' Nes ltac:(cbn in Lf; lia) H2) as (os3 & ts & E3 & Em & L3 & G3 & H3 & F3 & U3 & N3).
    rewrite E3. assert (K3 : forall r x b, r <> l -> object os2 r x b -> object os3 r x b).
    { intros r x b Nr Hr. unfold object. rewrite G3; [exact Hr|eapply object_lt; exact Hr|exact Nr]. }
    assert (Tr : object os2 (length os1) 2 (PyStruct tk (e_addr e) [Some lf])).
    { unfold os2, object. rewrite <- (put_obj_length os1 l (Some (n, PyList (items ++ [length os1])))) at 2. apply nth_last. }
    exists os3, (PT (length os1) lf its e fs :: ts). cbn [map pt_entry pt_ref]. split; [reflexivity|]. split; [rewrite Em; reflexivity|]. split; [lia|]. split; [|split; [|split; [|split]]].
    + intros r Hr Nr. rewrite G3 by (try exact Nr; lia). unfold os2. rewrite nth_error_app1 by (rewrite put_obj_length; lia). rewrite put_obj_other by exact Nr. apply G1. exact Hr.
    + rewrite <- app_assoc in H3. exact H3.
    + constructor; cbn [pt_ref pt_entry pt_list pt_items pt_frames].
      * split; [lia|]. split; [apply K3; [lia|exact Tr]|]. split; [lia|]. split; [apply K3; [lia|]; apply K2; [lia|exact Hl1]|]. split; [exact Bi1|].
        clear - Hi1 Bi1 K2 K3 Ll. revert Bi1. induction Hi1 as [|r f rs fs Hr F IHF]; intros B; constructor; inversion B as [|? ? Br Bs]; subst; [|apply IHF; exact Bs].
        apply K3; [lia|]. apply K2; [lia|exact Hr].
      * eapply Forall_impl; [|exact F3]. intros t (B & Ht & (B' & Hl & Bi & Fi)). split; [lia|]. split; [exact Ht|]. split; [lia|]. split; [exact Hl|]. split; [|exact Fi].
        eapply Forall_impl; [|exact Bi]. intros r Hr. cbv beta in *. lia.
    + constructor; [exists m; exact Ue|exact U3].
    + cbn [pt_list]. constructor; [|exact N3]. intros I. apply in_map_iff in I as (t & Et & It). rewrite Forall_forall in F3. destruct (F3 t It) as (_ & _ & (B' & _)).
      assert (lf < length os1) by (eapply object_lt; exact Hl1). lia.
Qed.
Lemma wrapped_threads_apart tk fk os h p es : frame_kind tk = Some fk -> own_list h tk p es -> NoDup (foot es) ->
  exists os' ts, wrap_threads (length h) tk fk (St (os ++ [Some (1, PyList [])]) h) (length os) p = Ok (St os' h) /\
    grown os os' /\ new_threads (length os) os' (length os) tk fk ts /\ map pt_entry ts = es /\ unlinked_threads h tk fk ts /\ NoDup (length os :: map pt_list ts).
Proof.
  intros Hk O N. destruct (wrap_threads_ok tk fk h Hk es (length h) _ _ 1 [] p O N (own_list_bound _ _ _ _ O N) (object_last os 1 (PyList []))) as (os' & ts & E & Em & Le & G & H & F & U & Nl).
  rewrite app_length in Le. cbn in Le. exists os', ts. split; [exact E|]. split; [|split; [|split; [exact Em|split; [exact U|]]]].
  - split; [lia|]. intros r Hr. rewrite G by (rewrite ?app_length; cbn; lia). apply nth_error_app1. exact Hr.
  - split; [lia|]. split; [exact H|]. eapply Forall_impl; [|exact F]. intros t. rewrite app_length. cbn [length]. intros (B & Ht & (B' & Hl & Bi & Fi)).
    split; [lia|]. split; [exact Ht|]. split; [lia|]. split; [exact Hl|]. split; [|exact Fi]. eapply Forall_impl; [|exact Bi]. intros r Hr. cbv beta in *. lia.
  - constructor; [|exact Nl]. intros I. apply in_map_iff in I as (t & Et & It). rewrite Forall_forall in F. destruct (F t It) as (_ & _ & (B' & _)). rewrite app_length in B'. cbn [length] in B'. lia.
Qed.
Lemma wrapped_threads tk fk os h p es : frame_kind tk = Some fk -> own_list h tk p es -> NoDup (foot es) ->
  exists os' ts, wrap_threads (length h) tk fk (St (os ++ [Some (1, PyList [])]) h) (length os) p = Ok (St os' h) /\
    grown os os' /\ new_threads (length os) os' (length os) tk fk ts /\ map pt_entry ts = es /\ unlinked_threads h tk fk ts.
Proof. intros Hk O N. destruct (wrapped_threads_apart tk fk os h p es Hk O N) as (os' & ts & E & G & Nt & Em & U & _). exists os', ts. tauto. Qed.
Lemma new_py_list m os l k items es : new_list m os l k items es -> py_list os l k items es.
Proof. intros (_ & Hl & _ & F). split; [exists 0; exact Hl|]. eapply Forall2_weaken; [|exact F]. intros r e Hr. exists 1. exact Hr. Qed.
Lemma new_py_threads m os l tk fk ts : new_threads m os l tk fk ts -> py_threads os l tk fk ts.
Proof.
  intros (_ & Hl & F). split; [exists 0; exact Hl|]. eapply Forall_impl; [|exact F]. intros t (_ & Ht & Nl). split; [exists 1; exact Ht|]. eapply new_py_list; exact Nl.
Qed.
Lemma grown_trans a b c : grown a b -> grown b c -> grown a c.
Proof. intros [L1 G1] [L2 G2]. split; [lia|]. intros r Hr. rewrite G2 by lia. apply G1. exact Hr. Qed.
Lemma grown_refl a : grown a a.
Proof. split; auto. Qed.
Lemma grown_object a b r n x : grown a b -> object a r n x -> object b r n x.
Proof. intros [L G] H. unfold object. rewrite G; [exact H|eapply object_lt; exact H]. Qed.
Lemma grown_app a x : grown a (a ++ x).
Proof. split; [rewrite app_length; lia|]. intros r Hr. apply nth_error_app1. exact Hr. Qed.

Lemma stack_open h k tk fk n e : own h k n e -> (k = KCoreStack \/ k = KJavaStack) -> thread_type k = Some tk -> frame_kind tk = Some fk ->
  exists p es, thread_frames h (e_addr e) = Ok p /\ own_list h tk p es /\ (NoDup (e_foot e) -> NoDup (foot es)) /\
    forall ts, map pt_entry ts = es -> unlinked_threads h tk fk ts -> unlinked_stack h k n e ts.
Proof.
  intros O Hk Ht Hf. destruct (own_inv _ _ _ _ O) as (scal & ps & ss & fs & ks & vss & fkk & arr & sarr & fa & raw & Ev & Ef & Hc & Lp & Os & Oa & Ok').
  rewrite (kid_of_stack _ _ Hk Ht) in Ok'. inversion Ok' as [|? ? ? p ps' l vss' f' Ol _ Ok2]; subst. inversion Ok2; subst.
  exists p, l. split; [unfold thread_frames; rewrite (get_live _ _ _ Hc) by discriminate; reflexivity|]. split; [exact Ol|]. rewrite app_nil_r in Ef. split.
  - intros N. rewrite Ef in N. inversion N as [|? ? _ N']; subst. apply NoDup_app_inv in N' as (_ & N' & _). apply NoDup_app_inv in N' as (_ & N' & _). exact N'.
  - intros ts Em U. exists tk, fk, scal, ps, p, ss, fs, arr, sarr, fa, raw. rewrite Em. repeat (split; [assumption|]).
    intros ->. cbn [map] in Em. subst l. inversion Ol. reflexivity.
Qed.
Lemma stack_wrapped os h k tk fk n e : own h k n e -> (k = KCoreStack \/ k = KJavaStack) -> thread_type k = Some tk -> frame_kind tk = Some fk -> NoDup (e_foot e) ->
  exists os' l ts, threads_to_python (St os h) k (e_addr e) = Ok (St os' h, l) /\ grown os os' /\
    new_threads (length os) os' l tk fk ts /\ unlinked_stack h k n e ts.
Proof.
  intros O Hk Ht Hf N. destruct (stack_open _ _ _ _ _ _ O Hk Ht Hf) as (p & es & Ep & Ol & Nn & St_).
  unfold threads_to_python. rewrite Ht, Hf. unfold stack_threads.
  replace (match k with KGdbStack => gdb_threads (mem (St os h)) (e_addr e) | _ => thread_frames (mem (St os h)) (e_addr e) end) with (@Ok (option addr) p) by (destruct Hk as [-> | ->]; symmetry; exact Ep).
  cbn [bind new_obj objs mem].
  destruct (wrapped_threads tk fk os h p es Hf Ol (Nn N)) as (os' & ts & E & G & Nt & Em & U). rewrite E. cbn [bind].
  exists os', (length os), ts. split; [reflexivity|]. split; [exact G|]. split; [exact Nt|]. apply St_; assumption.
Qed.
Lemma gdb_wrapped os h n e : own h KGdbStack n e -> NoDup (e_foot e) ->
  exists os1 l ts os2 ll items libs pl, threads_to_python (St os h) KGdbStack (e_addr e) = Ok (St os1 h, l) /\
    (exists scal strs pc pt arr raw, nth_error h (e_addr e) = Some (CObj KGdbStack scal strs [pc; pt; pl] arr raw n)) /\
    wrap_list KGdbLib (St os1 h) pl = Ok (St os2 h, ll) /\ grown os os1 /\ grown os1 os2 /\
    new_threads (length os) os2 l KGdbThread KGdbFrame ts /\ new_list (length os) os2 ll KGdbLib items libs /\ unlinked_gdb h n e ts libs.
Proof.
  intros O N. destruct (own_inv _ _ _ _ O) as (scal & ps & ss & fs & ks & vss & fkk & arr & sarr & fa & raw & Ev & Ef & Hc & Lp & Os & Oa & Ok').
  cbn [kid_ops] in Ok'. inversion Ok' as [|? ? ? pc ps1 crash vss1 f1 Oc Lc Ok1]; subst. inversion Ok1 as [|? ? ? pt ps2 es vss2 f2 Ot _ Ok2]; subst.
  inversion Ok2 as [|? ? ? pl ps3 libs vss3 f3 Ol _ Ok3]; subst. inversion Ok3; subst.
  destruct ps as [|? ?]; [|discriminate Lp]. inversion Os; subst. 
  rewrite app_nil_r in Ef. pose proof N as N0. rewrite Ef in N. cbn [app] in N. inversion N as [|? ? _ N']; subst. apply NoDup_app_inv in N' as (Nfa & N' & _).
  apply NoDup_app_inv in N' as (_ & N' & _). apply NoDup_app_inv in N' as (Nt & Nl & _).
  unfold threads_to_python. cbn [thread_type frame_kind stack_threads mem]. unfold gdb_threads. rewrite (get_live _ _ _ Hc) by discriminate. cbn [bind]. unfold new_obj. cbn [objs mem].
  destruct (wrapped_threads KGdbThread KGdbFrame os h pt es eq_refl Ot Nt) as (os1 & ts & E & G & Nts & Em & U). rewrite E. cbn [bind].
  destruct (wrapped_list KGdbLib os1 h pl libs Ol Nl) as (os2 & ll & items & E2 & G2 & (B & Hll & Bi & Fi) & _).
  exists os1, (length os), ts, os2, ll, items, libs, pl. split; [reflexivity|]. split; [eexists _, _, _, _, _, _; exact Hc|]. split; [exact E2|]. split; [exact G|]. split; [exact G2|].
  split; [|split].
  - destruct Nts as (B1 & Hl & F). split; [exact B1|]. split; [eapply grown_object; eassumption|]. eapply Forall_impl; [|exact F]. intros t (Bt & Ht & (Bl & Hlt & Bit & Fit)).
    split; [exact Bt|]. split; [eapply grown_object; eassumption|]. split; [exact Bl|]. split; [eapply grown_object; eassumption|]. split; [exact Bit|].
    eapply Forall2_weaken; [|exact Fit]. intros r f Hr. eapply grown_object; eassumption.
  - destruct G as [G _]. split; [lia|]. split; [exact Hll|]. split; [|exact Fi]. eapply Forall_impl; [|exact Bi]. intros r Hr. cbv beta in *. lia.
  - exists scal, pc, pt, pl, crash, arr, sarr, fa, raw. cbn [app] in Ef. rewrite Em. split; [exact Hc|]. split; [exact Oa|]. split; [exact Oc|]. split; [apply Lc; reflexivity|]. split; [exact Ev|]. split; [exact Ef|].
    split; [exact U|]. split; [intros ->; cbn in Em; subst es; inversion Ot; reflexivity|]. split.
    + apply Forall_forall. intros x Ix. apply seg_list in Ol. eapply entry_own; [exact Ol|exact Ix].
    + intros ->. inversion Ol. reflexivity.
Qed.
