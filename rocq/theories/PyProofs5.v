From Verif Require Import Base HeapModel HeapSpec HeapProofs HeapProofs2 HeapProofs3 HeapListModel HeapListSpec HeapListProofs HeapListProofs3 PyModel PySpec PyProofs PyProofs2 PyProofs3 PyProofs4.
Open Scope nat_scope.

(** ** Copies *)
Lemma dup_single k h n e : own h k n e -> NoDup (e_foot e) ->
  exists h' d, sr_dup k h (e_addr e) false = Ok (h', e_addr d) /\ own h' k None d /\ e_val d = e_val e /\ NoDup (e_foot d) /\
    (forall x, In x (e_foot d) -> length h <= x) /\ length h <= length h' /\ (forall x, x < length h -> nth_error h' x = nth_error h x).
Proof.
  intros O N. destruct (dup_ok (S (length h)) k h e n [] false O) as (h' & r & l' & E & [Lx X] & Ol & V & [F1 F2]); [discriminate| |].
  { enough (length (e_foot e) <= length h) by lia. apply NoDup_bound; [exact N|]. intros x. eapply own_valid; exact O. }
  destruct l' as [|d [|? ?]]; try discriminate V. injection V as V. inversion Ol as [|? m ? ? Od Ol']; subst. inversion Ol'; subst.
  cbn [foot map concat] in F1, F2. rewrite app_nil_r in F1, F2.
  exists h', d. split; [exact E|]. split; [exact Od|]. split; [exact V|]. split; [exact F1|]. split; [|split; [exact Lx|exact X]]. intros x Ix. apply F2 in Ix. lia.
Qed.
Lemma own_ext k h h' n e : own h k n e -> (forall x, x < length h -> nth_error h' x = nth_error h x) -> own h' k n e.
Proof. intros O X. eapply own_same; [exact O|]. intros x Ix. apply X. eapply own_valid; eassumption. Qed.

Lemma thread_dup_ok os h r tk fk n e l items es at_ :
  alive os r (PyStruct tk (e_addr e) (Some l :: at_)) -> py_list os l fk items es -> unlinked_thread h tk fk n e es -> NoDup (e_foot e) ->
  exists os' h' o d l' items' es', thread_dup (St os h) r = Ok (St os' h', Some o) /\ grown os os' /\ length os <= o /\
    object os' o 1 (PyStruct tk (e_addr d) [Some l']) /\ new_list (length os) os' l' fk items' es' /\ unlinked_thread h' tk fk None d es' /\
    own h' tk n e /\ own h' tk None d /\ e_val d = e_val e /\ NoDup (e_foot d) /\ (forall x, In x (e_foot d) -> length h <= x) /\
    (forall x, x < length h -> ~ In x (link_cells e es) -> nth_error h' x = nth_error h x).
Proof.
  intros A P U N. assert (Hk : frame_kind tk = Some fk) by (destruct U as (? & ? & ? & ? & ? & ? & ? & ? & ? & Hk & _); exact Hk).
  destruct (frames_prepare_ok os h r tk fk n e l items es at_ A P U N) as (h1 & E1 & O1 & S1 & L1).
  unfold thread_dup. rewrite E1. cbn [bind]. destruct A as [m A]. rewrite (obj_ok (St os h1) r _ _ A). cbn [bind]. rewrite Hk.
  destruct (dup_single tk h1 n e O1 N) as (h2 & d & E2 & Od & V & Nd & Fd & L2 & X2). cbn [mem]. rewrite E2. cbn [bind]. unfold with_mem. cbn [objs].
  destruct (thread_open _ _ _ _ _ Od Hk) as (p & fs & Ep & Ofs & Ud & Nfs). unfold frames_to_python. cbn [mem]. rewrite Ep. cbn [bind].
  destruct (wrapped_list fk os h2 p fs Ofs (Nfs Nd)) as (os1 & l' & its & E3 & G & (B & Hl & Bi & Fi) & _). rewrite E3. cbn [bind]. unfold new_obj. cbn [objs mem].
  eexists _, h2, _, d, l', its, fs. split; [reflexivity|]. split; [eapply grown_trans; [exact G|apply grown_app]|]. split; [destruct G; lia|]. split; [apply object_last|].
  split; [|split; [exact Ud|]].
  { split; [exact B|]. split; [apply object_app; exact Hl|]. split; [exact Bi|]. eapply Forall2_weaken; [|exact Fi]. intros x y Hx. apply object_app. exact Hx. }
  split; [eapply own_ext; eassumption|]. split; [exact Od|]. split; [exact V|]. split; [exact Nd|]. split; [intros x Ix; apply Fd in Ix; lia|].
  intros x Lx Hx. rewrite X2 by lia. apply S1. exact Hx.
Qed.
Lemma stack_dup_ok os h r k tk fk n e l ts at_ : thread_type k = Some tk -> frame_kind tk = Some fk ->
  alive os r (PyStruct k (e_addr e) (Some l :: at_)) -> py_threads os l tk fk ts -> unlinked_stack h k n e ts -> NoDup (e_foot e) ->
  exists os' h' o d l' ts', stack_dup (St os h) r = Ok (St os' h', Some o) /\ grown os os' /\ length os <= o /\
    object os' o 1 (PyStruct k (e_addr d) [Some l']) /\ new_threads (length os) os' l' tk fk ts' /\ unlinked_stack h' k None d ts' /\
    own h' k n e /\ own h' k None d /\ e_val d = e_val e /\ NoDup (e_foot d) /\ (forall x, In x (e_foot d) -> length h <= x) /\
    (forall x, x < length h -> ~ In x (e_addr e :: threads_cells ts) -> nth_error h' x = nth_error h x).
Proof.
  intros Ht Hf A T U N. assert (Hk : k = KCoreStack \/ k = KJavaStack) by (destruct U as (? & ? & ? & ? & ? & ? & ? & ? & ? & ? & ? & Hk & _); exact Hk).
  destruct (stack_prepare_ok os h r k tk fk n e l ts at_ Ht Hf A T U N) as (h1 & E1 & O1 & S1 & L1).
  unfold stack_dup. rewrite E1. cbn [bind]. destruct A as [m A]. rewrite (obj_ok (St os h1) r _ _ A). cbn [bind].
  destruct (dup_single k h1 n e O1 N) as (h2 & d & E2 & Od & V & Nd & Fd & L2 & X2). cbn [mem]. rewrite E2. cbn [bind]. unfold with_mem. cbn [objs].
  destruct (stack_wrapped os h2 k tk fk None d Od Hk Ht Hf Nd) as (os1 & l' & ts' & E3 & G & (B & Hl & F) & Ud). rewrite E3. cbn [bind]. unfold new_obj. cbn [objs mem].
  eexists _, h2, _, d, l', ts'. split; [reflexivity|]. split; [eapply grown_trans; [exact G|apply grown_app]|]. split; [destruct G; lia|]. split; [apply object_last|].
  split; [|split; [exact Ud|]].
  { split; [exact B|]. split; [apply object_app; exact Hl|]. eapply Forall_impl; [|exact F]. intros t (Bt & Ht' & (Bl & Hlt & Bit & Fit)).
    split; [exact Bt|]. split; [apply object_app; exact Ht'|]. split; [exact Bl|]. split; [apply object_app; exact Hlt|]. split; [exact Bit|].
    eapply Forall2_weaken; [|exact Fit]. intros x y Hx. apply object_app. exact Hx. }
  split; [eapply own_ext; eassumption|]. split; [exact Od|]. split; [exact V|]. split; [exact Nd|]. split; [intros x Ix; apply Fd in Ix; lia|].
  intros x Lx Hx. rewrite X2 by lia. apply S1. exact Hx.
Qed.
Lemma gdb_dup_ok os h r n e lt ll ts items libs cf b :
  alive os r (PyStruct KGdbStack (e_addr e) [Some lt; Some ll; Some cf]) -> alive os cf b -> (forall c a, b <> PyStruct KGdbFrame c a) ->
  py_threads os lt KGdbThread KGdbFrame ts -> py_list os ll KGdbLib items libs -> unlinked_gdb h n e ts libs -> NoDup (e_foot e) ->
  exists os' h' o d lt' ts' ll' items' libs', gdb_dup (St os h) r = Ok (St os' h', Some o) /\ grown os os' /\ length os <= o /\
    object os' o 1 (PyStruct KGdbStack (e_addr d) [Some lt'; Some ll'; Some cf]) /\ new_threads (length os) os' lt' KGdbThread KGdbFrame ts' /\
    new_list (length os) os' ll' KGdbLib items' libs' /\ unlinked_gdb h' None d ts' libs' /\
    own h' KGdbStack n e /\ own h' KGdbStack None d /\ e_val d = e_val e /\ NoDup (e_foot d) /\ (forall x, In x (e_foot d) -> length h <= x) /\
    (forall x, x < length h -> ~ In x (e_addr e :: threads_cells ts ++ map e_addr libs) -> nth_error h' x = nth_error h x).
Proof.
  intros A Ac Hb T P U N.
  destruct (gdb_prepare_ok os h r n e lt ll ts items libs [Some cf] A T P U N) as (h1 & E1 & O1 & S1 & L1).
  unfold gdb_dup. rewrite E1. cbn [bind]. destruct A as [m A]. rewrite (obj_ok (St os h1) r _ _ A). cbn [bind].
  destruct (dup_single KGdbStack h1 n e O1 N) as (h2 & d & E2 & Od & V & Nd & Fd & L2 & X2). cbn [mem]. rewrite E2. cbn [bind]. unfold with_mem. cbn [objs].
  destruct (gdb_wrapped os h2 None d Od Nd) as (os1 & l' & ts' & os2 & ll' & its & libs' & pl & E3 & (scal & strs & pc & pt & arr & raw & Hc) & E4 & G1 & G2 & (B & Hl & F) & (Bl & Hll & Bi & Fi) & Ud).
  rewrite E3. cbn [bind mem]. rewrite (get_live _ _ _ Hc) by discriminate. cbn [bind]. rewrite E4. cbn [bind].
  assert (Gos : grown os os2) by (eapply grown_trans; eassumption).
  destruct Ac as [mc Ac]. pose proof (grown_object _ _ _ _ _ Gos Ac) as Ac2.
  assert (Ety : has_type (St os2 h2) cf KGdbFrame = Ok false).
  { unfold has_type. rewrite (obj_ok (St os2 h2) cf _ _ Ac2). cbn [bind]. destruct b as [|its'|k' c a]; try reflexivity.
    destruct (kind_beq KGdbFrame k') eqn:E; [|reflexivity]. apply kind_beq_eq in E as <-. destruct (Hb c a eq_refl). }
  rewrite Ety. cbn [bind]. unfold new_obj. cbn [objs mem].
  eexists _, h2, _, d, l', ts', ll', its, libs'. split; [reflexivity|]. split; [eapply grown_trans; [exact Gos|apply grown_app]|]. split; [destruct Gos; lia|]. split; [apply object_last|].
  split; [|split; [|split; [exact Ud|]]].
  { split; [exact B|]. split; [apply object_app; exact Hl|]. eapply Forall_impl; [|exact F]. intros t (Bt & Ht' & (Blt & Hlt & Bit & Fit)).
    split; [exact Bt|]. split; [apply object_app; exact Ht'|]. split; [exact Blt|]. split; [apply object_app; exact Hlt|]. split; [exact Bit|].
    eapply Forall2_weaken; [|exact Fit]. intros x y Hx. apply object_app. exact Hx. }
  { split; [exact Bl|]. split; [apply object_app; exact Hll|]. split; [exact Bi|]. eapply Forall2_weaken; [|exact Fi]. intros x y Hx. apply object_app. exact Hx. }
  split; [eapply own_ext; eassumption|]. split; [exact Od|]. split; [exact V|]. split; [exact Nd|]. split; [intros x Ix; apply Fd in Ix; lia|].
  intros x Lx Hx. rewrite X2 by lia. apply S1. exact Hx.
Qed.

(** ** The crash thread *)
Lemma find_item_ok os h tk fk ts t : py_threads os 0 tk fk ts \/ Forall (fun t => alive os (pt_ref t) (PyStruct tk (e_addr (pt_entry t)) [Some (pt_list t)])) ts ->
  NoDup (map (fun t => e_addr (pt_entry t)) ts) -> In t ts ->
  exists st', incref (St os h) (pt_ref t) = Ok st' /\ find_item (St os h) tk (map pt_ref ts) (e_addr (pt_entry t)) = Ok (st', Some (Some (pt_ref t))).
Proof.
  intros H. assert (F : Forall (fun t => alive os (pt_ref t) (PyStruct tk (e_addr (pt_entry t)) [Some (pt_list t)])) ts).
  { destruct H as [[_ H]|H]; [|exact H]. eapply Forall_impl; [|exact H]. intros u [Hu _]. exact Hu. }
  clear H. induction F as [|u ts [m Hu] F IH]; intros N I; [destruct I|]. cbn [map] in N. inversion N as [|? ? Nu N']; subst.
  cbn [map find_item]. unfold has_type, wrapped. rewrite (obj_ok (St os h) (pt_ref u) _ _ Hu). cbn [bind]. rewrite kind_refl. cbn [bind].
  destruct I as [->|I].
  - rewrite Nat.eqb_refl. rewrite (incref_ok (St os h) (pt_ref t) _ _ Hu). cbn [bind]. eexists. split; reflexivity.
  - destruct (Nat.eqb_spec (e_addr (pt_entry u)) (e_addr (pt_entry t))) as [E|_]; [|apply IH; assumption].
    exfalso. apply Nu. rewrite E. apply in_map_iff. exists t. split; [reflexivity|exact I].
Qed.
Lemma get_crash_ok os h r k tk fk n e l ts at_ find_crash : thread_type k = Some tk -> frame_kind tk = Some fk ->
  alive os r (PyStruct k (e_addr e) (Some l :: at_)) -> py_threads os l tk fk ts -> unlinked_stack h k n e ts -> NoDup (e_foot e) ->
  exists h', own h' k n e /\ same_outside (e_addr e :: threads_cells ts) h h' /\ length h' = length h /\
    (find_crash h' (e_addr e) = Ok None -> get_crash find_crash (St os h) r = Ok (St os h', Some None)) /\
    (forall t, In t ts -> find_crash h' (e_addr e) = Ok (Some (e_addr (pt_entry t))) ->
       exists st', incref (St os h') (pt_ref t) = Ok st' /\ get_crash find_crash (St os h) r = Ok (st', Some (Some (pt_ref t)))).
Proof.
  intros Ht Hf A T U N.
  destruct (stack_prepare_ok os h r k tk fk n e l ts at_ Ht Hf A T U N) as (h1 & E1 & O1 & S1 & L1).
  exists h1. split; [exact O1|]. split; [exact S1|]. split; [exact L1|]. unfold get_crash. rewrite E1. cbn [bind]. destruct A as [m A]. rewrite (obj_ok (St os h1) r _ _ A). cbn [bind mem]. rewrite Ht.
  assert (D : NoDup (map (fun t => e_addr (pt_entry t)) ts)).
  { destruct U as (? & ? & scal & ps & p & ss & fs & arr & sarr & fa & raw & _ & _ & _ & _ & _ & _ & _ & _ & Ef & U & _). eapply threads_distinct; [exact U|].
    rewrite Ef in N. inversion N as [|? ? _ N']; subst. apply NoDup_app_inv in N' as (_ & N' & _). apply NoDup_app_inv in N' as (_ & N' & _). exact N'. }
  split.
  - intros ->. reflexivity.
  - intros t It ->. cbn [bind]. pose proof T as [[ml Hl] Tt]. rewrite (obj_ok (St os h1) l _ _ Hl). cbn [bind].
    apply (find_item_ok os h1 tk fk ts t); [right|exact D|exact It]. eapply Forall_impl; [|exact Tt]. intros u [Hu _]. exact Hu.
Qed.

(** ** Arrays of threads *)
Lemma thread_kind_of tk fk : frame_kind tk = Some fk -> thread_kind tk = true.
Proof. unfold thread_kind. intros ->. reflexivity. Qed.
Lemma thread_array_ok os tk fk : frame_kind tk = Some fk -> forall ts type h, type = None \/ type = Some tk ->
  Forall (fun t => alive os (pt_ref t) (PyStruct tk (e_addr (pt_entry t)) [Some (pt_list t)]) /\ py_list os (pt_list t) fk (pt_items t) (pt_frames t)) ts ->
  unlinked_threads h tk fk ts -> NoDup (foot (map pt_entry ts)) ->
  exists h', thread_array (map pt_ref ts) type (St os h) = Ok (St os h', Some (map (fun t => e_addr (pt_entry t)) ts)) /\
    Forall (fun t => exists n, own h' tk n (pt_entry t)) ts /\ same_outside (threads_cells ts) h h' /\ length h' = length h.
Proof.
  intros Hk. induction ts as [|t ts IH]; intros type h Ty F U N.
  - exists h. split; [reflexivity|]. split; [constructor|]. split; [intros x _; reflexivity|reflexivity].
  - inversion F as [|? ? [A P] F']; subst. inversion U as [|? ? [n Ut] U']; subst. cbn [map] in N. rewrite foot_cons in N. apply NoDup_app_inv in N as (Nt & N & D).
    cbn [map thread_array]. pose proof A as [m A']. rewrite (obj_ok (St os h) (pt_ref t) _ _ A'). cbn [bind]. rewrite (thread_kind_of _ _ Hk).
    assert (E0 : match type with None => true | Some t => kind_beq t tk end = true) by (destruct Ty as [-> | ->]; [reflexivity|apply kind_refl]). rewrite E0.
    destruct (frames_prepare_ok os h (pt_ref t) tk fk n (pt_entry t) (pt_list t) (pt_items t) (pt_frames t) [] A P Ut Nt) as (h1 & E1 & O1 & S1 & L1). rewrite E1. cbn [bind].
    destruct (IH (Some tk) h1 (or_intror eq_refl) F') as (h2 & E2 & O2 & S2 & L2); [|exact N|].
    { eapply threads_local; [exact U'|]. intros x Ix. apply S1. intros I. apply (D x); [eapply unlinked_cells; eassumption|exact Ix]. }
    rewrite E2. cbn [bind]. exists h2. split; [reflexivity|]. split; [|split; [|lia]].
    + constructor; [|exact O2]. exists n. eapply own_same; [exact O1|]. intros x Ix. apply S2. intros I. apply (D x Ix). eapply threads_cells_in; eassumption.
    + intros x Hx. unfold threads_cells in *. cbn [map concat] in Hx. rewrite in_app_iff in Hx. rewrite S2 by tauto. apply S1. tauto.
Qed.
Lemma thread_array_fails os tk fk bad rest : frame_kind tk = Some fk -> forall ts type h, type = None \/ type = Some tk ->
  Forall (fun t => alive os (pt_ref t) (PyStruct tk (e_addr (pt_entry t)) [Some (pt_list t)]) /\ py_list os (pt_list t) fk (pt_items t) (pt_frames t)) ts ->
  unlinked_threads h tk fk ts -> NoDup (foot (map pt_entry ts)) -> bad_thread os bad tk (match type, ts with None, [] => true | _, _ => false end) ->
  exists h', thread_array (map pt_ref ts ++ bad :: rest) type (St os h) = Ok (St os h', None) /\ same_outside (threads_cells ts) h h' /\ length h' = length h.
Proof.
  intros Hk. induction ts as [|t ts IH]; intros type h Ty F U N Bd.
  - exists h. split; [|split; [intros x _; reflexivity|reflexivity]]. destruct Bd as (b & [m A] & Hb & Hf). cbn [map app thread_array]. rewrite (obj_ok (St os h) bad _ _ A). cbn [bind].
    destruct b as [|its|k c a]; try reflexivity. unfold thread_kind. destruct (frame_kind k) as [fk'|] eqn:Ek; [|reflexivity].
    destruct type as [t|]; [|rewrite (Hf eq_refl k c a eq_refl) in Ek; discriminate]. destruct Ty as [Ty|Ty]; [discriminate|]. injection Ty as ->.
    destruct (kind_beq tk k) eqn:E; [|reflexivity]. apply kind_beq_eq in E as <-. destruct (Hb c a eq_refl).
  - inversion F as [|? ? [A P] F']; subst. inversion U as [|? ? [n Ut] U']; subst. cbn [map] in N. rewrite foot_cons in N. apply NoDup_app_inv in N as (Nt & N & D).
    cbn [map app thread_array]. pose proof A as [m A']. rewrite (obj_ok (St os h) (pt_ref t) _ _ A'). cbn [bind]. rewrite (thread_kind_of _ _ Hk).
    assert (E0 : match type with None => true | Some t => kind_beq t tk end = true) by (destruct Ty as [-> | ->]; [reflexivity|apply kind_refl]). rewrite E0.
    destruct (frames_prepare_ok os h (pt_ref t) tk fk n (pt_entry t) (pt_list t) (pt_items t) (pt_frames t) [] A P Ut Nt) as (h1 & E1 & O1 & S1 & L1). rewrite E1. cbn [bind].
    destruct (IH (Some tk) h1 (or_intror eq_refl) F') as (h2 & E2 & S2 & L2); [|exact N| |].
    { eapply threads_local; [exact U'|]. intros x Ix. apply S1. intros I. apply (D x); [eapply unlinked_cells; eassumption|exact Ix]. }
    { destruct Bd as (b & A2 & Hb & _). exists b. split; [exact A2|]. split; [exact Hb|discriminate]. }
    rewrite E2. cbn [bind]. exists h2. split; [reflexivity|]. split; [|lia].
    intros x Hx. unfold threads_cells in *. cbn [map concat] in Hx. rewrite in_app_iff in Hx. rewrite S2 by tauto. apply S1. tauto.
Qed.
Lemma thread_array_all os tk fk ts h : frame_kind tk = Some fk ->
  Forall (fun t => alive os (pt_ref t) (PyStruct tk (e_addr (pt_entry t)) [Some (pt_list t)]) /\ py_list os (pt_list t) fk (pt_items t) (pt_frames t)) ts ->
  unlinked_threads h tk fk ts -> NoDup (foot (map pt_entry ts)) ->
  exists h', thread_array (map pt_ref ts) None (St os h) = Ok (St os h', Some (map (fun t => e_addr (pt_entry t)) ts)) /\
    Forall (fun t => exists n, own h' tk n (pt_entry t)) ts /\ same_outside (threads_cells ts) h h' /\ length h' = length h.
Proof. intros Hk. apply (thread_array_ok os tk fk Hk). left. reflexivity. Qed.
Lemma thread_array_wrong os tk fk bad rest ts h : frame_kind tk = Some fk ->
  Forall (fun t => alive os (pt_ref t) (PyStruct tk (e_addr (pt_entry t)) [Some (pt_list t)]) /\ py_list os (pt_list t) fk (pt_items t) (pt_frames t)) ts ->
  unlinked_threads h tk fk ts -> NoDup (foot (map pt_entry ts)) -> bad_thread os bad tk (match ts with [] => true | _ => false end) ->
  exists h', thread_array (map pt_ref ts ++ bad :: rest) None (St os h) = Ok (St os h', None) /\ same_outside (threads_cells ts) h h' /\ length h' = length h.
Proof. intros Hk F U N B. apply (thread_array_fails os tk fk bad rest Hk); try assumption. left. reflexivity. Qed.
