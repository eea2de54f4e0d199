From Verif Require Import Base HeapModel HeapSpec HeapProofs HeapProofs2 HeapProofs3 HeapListModel HeapListSpec HeapListProofs HeapListProofs3 PyModel PySpec PyProofs PyProofs2.
Open Scope nat_scope.

Lemma unlinked_addr h tk fk n e es : unlinked_thread h tk fk n e es -> In (e_addr e) (e_foot e).
Proof. intros U. eapply unlinked_cells; [exact U|left; reflexivity]. Qed.
Lemma threads_distinct h tk fk ts : unlinked_threads h tk fk ts -> NoDup (foot (map pt_entry ts)) -> NoDup (map (fun t => e_addr (pt_entry t)) ts).
Proof.
  induction ts as [|t ts IH]; intros F N; cbn [map]; constructor; inversion F as [|? ? [n O] F']; subst;
    cbn [map] in N; rewrite foot_cons in N; apply NoDup_app_inv in N as (Ne & Nes & D).
  - intros I. apply (D (e_addr (pt_entry t))); [eapply unlinked_addr; exact O|]. apply in_map_iff in I as (u & E & Iu). rewrite <- E.
    eapply in_foot; [apply in_map; exact Iu|]. rewrite Forall_forall in F'. destruct (F' u Iu) as [m U]. eapply unlinked_addr; exact U.
  - apply IH; assumption.
Qed.
Lemma threads_cells_in h tk fk ts x : unlinked_threads h tk fk ts -> In x (threads_cells ts) -> In x (foot (map pt_entry ts)).
Proof.
  intros F I. unfold threads_cells in I. apply in_concat in I as (c & Ic & I). apply in_map_iff in Ic as (t & <- & It).
  unfold unlinked_threads in F. rewrite Forall_forall in F. destruct (F t It) as [n U]. eapply in_foot; [apply in_map; exact It|]. eapply unlinked_cells; eassumption.
Qed.
Lemma threads_local h h' tk fk ts : unlinked_threads h tk fk ts -> same_on (foot (map pt_entry ts)) h h' -> unlinked_threads h' tk fk ts.
Proof.
  unfold unlinked_threads. rewrite !Forall_forall. intros F S t It. destruct (F t It) as [n U]. exists n. eapply unlinked_local; [exact U|].
  intros x Ix. apply S. eapply in_foot; [apply in_map; exact It|exact Ix].
Qed.
Lemma kid_of_stack k tk : (k = KCoreStack \/ k = KJavaStack) -> thread_type k = Some tk -> kid_ops k = [(tk, true)].
Proof. intros [-> | ->] H; injection H as <-; reflexivity. Qed.

Lemma stack_prepare_ok os h r k tk fk n e l ts at_ : thread_type k = Some tk -> frame_kind tk = Some fk ->
  alive os r (PyStruct k (e_addr e) (Some l :: at_)) -> py_threads os l tk fk ts -> unlinked_stack h k n e ts -> NoDup (e_foot e) ->
  exists h', threads_prepare (St os h) r = Ok (St os h', true) /\ own h' k n e /\ same_outside (e_addr e :: threads_cells ts) h h' /\ length h' = length h.
Proof.
  intros Htk0 Hfk0 [m Hr] T (tk1 & fk1 & scal & ps & p & ss & fs & arr & sarr & fa & raw & Hk & Htk & Hfk & Hc & Lp & Os & Oa & Ev & Ef & U & He) N.
  rewrite Htk0 in Htk. injection Htk as <-. rewrite Hfk0 in Hfk. injection Hfk as <-.
  unfold threads_prepare. rewrite (obj_ok (St os h) r _ _ Hr). cbn [bind]. rewrite Htk0. destruct T as [[ml Hl] Tt]. unfold items_of. rewrite (obj_ok (St os h) l _ _ Hl). cbn [bind].
  assert (T : py_threads os l tk fk ts) by (split; [exists ml; exact Hl|exact Tt]).
  rewrite Ef in N. inversion N as [|? ? Na N']; subst. apply NoDup_app_inv in N' as (Nfs & N' & D1). apply NoDup_app_inv in N' as (Nfa & Nfk & D2).
  rewrite !in_app_iff in Na. destruct e as [[a v] f]. cbn [e_addr e_val e_foot fst snd] in *. subst v f.
  destruct ts as [|t us].
  - cbn [map link_loop]. exists h. split; [reflexivity|]. split; [|split; [|reflexivity]].
    + rewrite (He eq_refl) in Hc. eapply (own_obj h k a scal ps ss fs [None] [map e_val []] (foot [])); try eassumption.
      rewrite (kid_of_stack _ _ Hk Htk0). change (foot []) with (foot [] ++ []). econstructor; [constructor|discriminate|constructor].
    + intros y _. reflexivity.
  - set (ts := t :: us) in *.
    assert (Eset : forall h a b, set_threads k h a b = set_frames h a b) by (destruct Hk as [-> | ->]; reflexivity).
    assert (Fr : exists fk', frame_kind k = Some fk' \/ True) by (exists fk; right; exact I).
    destruct (threads_linked tk fk os l ts T (threads_distinct _ _ _ _ U Nfk) (fun h a0 => set_threads k h a (Some a0)) a (CObj k scal ps [p] arr raw n)
      (CObj k scal ps [Some (e_addr (pt_entry t))] arr raw n) t us false h eq_refl) as (h' & E & Hc' & Ol & S & L); try assumption.
    { intros h1 H1. rewrite Eset. destruct (set_frames_ok h1 a k scal ps [] arr raw n p (Some (e_addr (pt_entry t))) H1) as (h2 & E2 & C2 & S2 & L2). exists h2. repeat split; assumption. }
    { constructor; [tauto|exact Nfk]. }
    exists h'. split; [exact E|]. split; [|split; [exact S|exact L]].
    assert (Sep : forall g, (forall y, In y g -> y <> a /\ ~ In y (foot (map pt_entry ts))) -> same_on g h h').
    { intros g Hg y Iy. apply S. intros [<-|I]; [destruct (Hg a Iy); congruence|]. destruct (Hg y Iy) as [_ Hy]. apply Hy.
      eapply threads_cells_in; eassumption. }
    eapply (own_obj h' k a scal ps ss fs [Some (e_addr (pt_entry t))] [map e_val (map pt_entry ts)]); [exact Hc'|exact Lp| | |].
    + eapply own_strs_same; [exact Os|]. apply Sep. intros y Iy. split; [intros ->; tauto|]. intros I. apply (D1 y Iy). apply in_app_iff. right. exact I.
    + eapply own_arr_same; [exact Oa|]. apply Sep. intros y Iy. split; [intros ->; tauto|]. exact (D2 y Iy).
    + rewrite (kid_of_stack _ _ Hk Htk0). rewrite <- (app_nil_r (foot (map pt_entry ts))). econstructor; [exact Ol|discriminate|constructor].
Qed.

Lemma set_gdb_threads_ok' h s scal strs pc pt pl arr raw n p : nth_error h s = Some (CObj KGdbStack scal strs [pc; pt; pl] arr raw n) ->
  exists h', set_gdb_threads h s p = Ok h' /\ nth_error h' s = Some (CObj KGdbStack scal strs [pc; p; pl] arr raw n) /\ same_outside [s] h h' /\ length h' = length h.
Proof.
  intros H. unfold set_gdb_threads. rewrite (get_live _ _ _ H) by discriminate. cbn [bind]. rewrite (set_live _ _ _ _ H) by discriminate.
  eexists. split; [reflexivity|]. split; [apply put_same; apply nth_error_Some; congruence|]. split; [|apply put_length].
  intros x Hx. apply put_other. intros ->. apply Hx. left. reflexivity.
Qed.
Lemma set_libs_ok h s scal strs pc pt pl arr raw n p : nth_error h s = Some (CObj KGdbStack scal strs [pc; pt; pl] arr raw n) ->
  exists h', set_libs h s p = Ok h' /\ nth_error h' s = Some (CObj KGdbStack scal strs [pc; pt; p] arr raw n) /\ same_outside [s] h h' /\ length h' = length h.
Proof.
  intros H. unfold set_libs. rewrite (get_live _ _ _ H) by discriminate. cbn [bind]. rewrite (set_live _ _ _ _ H) by discriminate.
  eexists. split; [reflexivity|]. split; [apply put_same; apply nth_error_Some; congruence|]. split; [|apply put_length].
  intros x Hx. apply put_other. intros ->. apply Hx. left. reflexivity.
Qed.
Lemma set_packages_ok h s scal strs o p0 t u arr raw n p : nth_error h s = Some (CObj KReport scal strs [o; p0; t; u] arr raw n) ->
  exists h', set_packages h s p = Ok h' /\ nth_error h' s = Some (CObj KReport scal strs [o; p; t; u] arr raw n) /\ same_outside [s] h h' /\ length h' = length h.
Proof.
  intros H. unfold set_packages. rewrite (get_live _ _ _ H) by discriminate. cbn [bind]. rewrite (set_live _ _ _ _ H) by discriminate.
  eexists. split; [reflexivity|]. split; [apply put_same; apply nth_error_Some; congruence|]. split; [|apply put_length].
  intros x Hx. apply put_other. intros ->. apply Hx. left. reflexivity.
Qed.

Lemma own_list_each h k p l : own_list h k p l -> Forall (fun f => exists m, own h k m f) l.
Proof.
  revert p. induction l as [|y l IH]; intros p O; [constructor|]. inversion O as [|? n ? ? Oy Ol]; subst. constructor; [exists n; exact Oy|exact (IH _ Ol)].
Qed.
(* a gdb stack trace whose lists are linked *)
Definition linked_gdb (h : heap) (n : option addr) (e : entry) (ts libs : list entry) : Prop :=
  exists scal pc p pl crash arr sarr fa raw,
    nth_error h (e_addr e) = Some (CObj KGdbStack scal [] [pc; p; pl] arr raw n) /\ own_arr h arr sarr fa /\
    own_list h KGdbFrame pc crash /\ length crash <= 1 /\ own_list h KGdbThread p ts /\ own_list h KGdbLib pl libs /\
    e_val e = Val scal [] sarr [map e_val crash; map e_val ts; map e_val libs] /\
    e_foot e = e_addr e :: fa ++ foot crash ++ foot ts ++ foot libs.
Lemma linked_own h n e ts libs : linked_gdb h n e ts libs -> own h KGdbStack n e.
Proof.
  intros (scal & pc & p & pl & crash & arr & sarr & fa & raw & Hc & Oa & Oc & Lc & Ot & Ol & Ev & Ef). destruct e as [[a v] f]. cbn [e_addr e_val e_foot fst snd] in *. subst v f.
  change (a :: fa ++ foot crash ++ foot ts ++ foot libs) with (a :: [] ++ fa ++ (foot crash ++ foot ts ++ foot libs)).
  eapply (own_obj h KGdbStack a scal [] [] [] [pc; p; pl]); [exact Hc|reflexivity|constructor|exact Oa|].
  cbn [kid_ops]. econstructor; [exact Oc|intros _; exact Lc|]. econstructor; [exact Ot|discriminate|].
  rewrite <- (app_nil_r (foot libs)). econstructor; [exact Ol|discriminate|constructor].
Qed.
Lemma gdb_prepare_all os h r n e lt ll ts items libs at_ :
  alive os r (PyStruct KGdbStack (e_addr e) (Some lt :: Some ll :: at_)) -> py_threads os lt KGdbThread KGdbFrame ts -> py_list os ll KGdbLib items libs ->
  unlinked_gdb h n e ts libs -> NoDup (e_foot e) ->
  exists h', gdb_prepare (St os h) r = Ok (St os h', true) /\ linked_gdb h' n e (map pt_entry ts) libs /\
    same_outside (e_addr e :: threads_cells ts ++ map e_addr libs) h h' /\ length h' = length h.
Proof.
  intros [m Hr] T [[mll Hll] Fi] (scal & pc & p & pl & crash & arr & sarr & fa & raw & Hc & Oa & Oc & Lc & Ev & Ef & U & He & Fo & Hel) N.
  unfold gdb_prepare, threads_prepare. rewrite (obj_ok (St os h) r _ _ Hr). cbn [bind thread_type]. destruct T as [[ml Hl] Tt]. unfold items_of at 1. rewrite (obj_ok (St os h) lt _ _ Hl). cbn [bind].
  assert (T : py_threads os lt KGdbThread KGdbFrame ts) by (split; [exists ml; exact Hl|exact Tt]).
  rewrite Ef in N. inversion N as [|? ? Na N']; subst. apply NoDup_app_inv in N' as (Nfa & N' & D0). apply NoDup_app_inv in N' as (Nc & N' & D1). apply NoDup_app_inv in N' as (Nt & Nl & D2).
  rewrite !in_app_iff in Na. destruct e as [[a v] f]. cbn [e_addr e_val e_foot fst snd] in *. subst v f.
  assert (P1 : exists h1, link_loop KGdbThread frames_prepare (fun h a0 => set_threads KGdbStack h a (Some a0)) false (map pt_ref ts) None (St os h) = Ok (St os h1, true) /\
    (exists p1, nth_error h1 a = Some (CObj KGdbStack scal [] [pc; p1; pl] arr raw n) /\ own_list h1 KGdbThread p1 (map pt_entry ts)) /\
    same_outside (a :: threads_cells ts) h h1 /\ length h1 = length h).
  { destruct ts as [|t us].
    - cbn [map link_loop]. exists h. split; [reflexivity|]. split; [exists p; split; [exact Hc|rewrite (He eq_refl); constructor]|]. split; [intros x _; reflexivity|reflexivity].
    - destruct (threads_linked KGdbThread KGdbFrame os lt (t :: us) T (threads_distinct _ _ _ _ U Nt) (fun h a0 => set_threads KGdbStack h a (Some a0)) a (CObj KGdbStack scal [] [pc; p; pl] arr raw n)
        (CObj KGdbStack scal [] [pc; Some (e_addr (pt_entry t)); pl] arr raw n) t us false h eq_refl) as (h' & E & Hc' & Ol & S & L); try assumption.
      { intros h1 H1. cbn [set_threads]. destruct (set_gdb_threads_ok' h1 a scal [] pc p pl arr raw n (Some (e_addr (pt_entry t))) H1) as (h2 & E2 & C2 & S2 & L2). exists h2. repeat split; assumption. }
      { constructor; [tauto|exact Nt]. }
      exists h'. split; [exact E|]. split; [eexists; split; [exact Hc'|exact Ol]|]. split; [exact S|exact L]. }
  destruct P1 as (h1 & E1 & (p1 & Hc1 & Ol1) & S1 & L1). rewrite E1. cbn [bind]. rewrite (obj_ok (St os h1) r _ _ Hr). cbn [bind].
  unfold items_of. rewrite (obj_ok (St os h1) ll _ _ Hll). cbn [bind].
  assert (Same1 : forall g, (forall y, In y g -> y <> a /\ ~ In y (foot (map pt_entry ts))) -> same_on g h h1).
  { intros g Hg y Iy. apply S1. intros [<-|I]; [destruct (Hg a Iy); congruence|]. destruct (Hg y Iy) as [_ Hy]. apply Hy. eapply threads_cells_in; eassumption. }
  assert (Fo1 : Forall (fun f => exists m, own h1 KGdbLib m f) libs).
  { rewrite Forall_forall in *. intros f If. destruct (Fo f If) as [m1 O]. exists m1. eapply own_same; [exact O|]. apply Same1. intros y Iy.
    assert (Iy' : In y (foot libs)) by (eapply in_foot; eassumption). split; [intros ->; tauto|]. intros I. exact (D2 y I Iy'). }
  assert (Oc1 : own_list h1 KGdbFrame pc crash).
  { eapply own_list_same; [exact Oc|]. apply Same1. intros y Iy. split; [intros ->; tauto|]. intros I. apply (D1 y Iy). apply in_app_iff. left. exact I. }
  assert (P2 : exists h2, link_loop KGdbLib nothing (fun h a0 => set_libs h a (Some a0)) false items None (St os h1) = Ok (St os h2, true) /\
    (exists p2, nth_error h2 a = Some (CObj KGdbStack scal [] [pc; p1; p2] arr raw n) /\ own_list h2 KGdbLib p2 libs) /\
    same_outside (a :: map e_addr libs) h1 h2 /\ length h2 = length h1).
  { destruct libs as [|x libs].
    - inversion Fi; subst. cbn [map link_loop]. exists h1. split; [reflexivity|]. split; [exists pl; split; [exact Hc1|rewrite (Hel eq_refl); constructor]|]. split; [intros x _; reflexivity|reflexivity].
    - destruct (link_plain KGdbLib false os (fun h a0 => set_libs h a (Some a0)) a (CObj KGdbStack scal [] [pc; p1; pl] arr raw n) (CObj KGdbStack scal [] [pc; p1; Some (e_addr x)] arr raw n) x libs items h1)
        as (h' & E & Hc' & Ol & S & L); try assumption.
      { intros h2 H2. apply (set_libs_ok h2 a scal [] pc p1 pl arr raw n (Some (e_addr x)) H2). }
      { constructor; [tauto|exact Nl]. }
      exists h'. split; [exact E|]. split; [eexists; split; [exact Hc'|exact Ol]|]. split; [exact S|exact L]. }
  destruct P2 as (h2 & E2 & (p2 & Hc2 & Ol2) & S2 & L2). rewrite E2. exists h2. split; [reflexivity|].
  assert (Same2 : forall g, (forall y, In y g -> y <> a /\ ~ In y (foot libs)) -> same_on g h1 h2).
  { intros g Hg y Iy. apply S2. intros [<-|I]; [destruct (Hg a Iy); congruence|]. destruct (Hg y Iy) as [_ Hy]. apply Hy.
    eapply addrs_in_foot; [|exact I]. rewrite Forall_forall in Fo1. exact Fo1. }
  split; [|split; [|lia]].
  - exists scal, pc, p1, p2, crash, arr, sarr, fa, raw. cbn [e_addr e_val e_foot fst snd]. split; [exact Hc2|]. split.
    { eapply own_arr_same; [eapply own_arr_same; [exact Oa|]|]; [apply Same1|apply Same2]; intros y Iy; (split; [intros ->; tauto|]); intros I; apply (D0 y Iy); rewrite !in_app_iff; tauto. }
    split; [|split; [exact Lc|split; [|split; [exact Ol2|split; reflexivity]]]].
    { eapply own_list_same; [exact Oc1|]. apply Same2. intros y Iy. split; [intros ->; tauto|]. intros I. apply (D1 y Iy). apply in_app_iff. right. exact I. }
    { eapply own_list_same; [exact Ol1|]. apply Same2. intros y Iy. split; [intros ->; tauto|]. exact (D2 y Iy). }
  - intros x Hx. rewrite S2, S1; [reflexivity| |].
    + intros [<-|I]; apply Hx; [left; reflexivity|right; apply in_app_iff; left; exact I].
    + intros [<-|I]; apply Hx; [left; reflexivity|right; apply in_app_iff; right; exact I].
Qed.
Lemma gdb_prepare_libs os h r n e lt ll ts items libs at_ :
  alive os r (PyStruct KGdbStack (e_addr e) (Some lt :: Some ll :: at_)) -> py_threads os lt KGdbThread KGdbFrame ts -> py_list os ll KGdbLib items libs ->
  unlinked_gdb h n e ts libs -> NoDup (e_foot e) ->
  exists h', gdb_prepare (St os h) r = Ok (St os h', true) /\ (Forall (fun f => exists m, own h' KGdbLib m f) libs /\ own h' KGdbStack n e) /\
    same_outside (e_addr e :: threads_cells ts ++ map e_addr libs) h h' /\ length h' = length h.
Proof.
  intros A T P U N. destruct (gdb_prepare_all _ _ _ _ _ _ _ _ _ _ _ A T P U N) as (h' & E & O & S & L). exists h'. split; [exact E|]. split; [|split; assumption].
  split; [|eapply linked_own; exact O]. destruct O as (scal & pc & p & pl & crash & arr & sarr & fa & raw & _ & _ & _ & _ & _ & Ol & _). exact (own_list_each _ _ _ _ Ol).
Qed.
Lemma gdb_prepare_ok os h r n e lt ll ts items libs at_ :
  alive os r (PyStruct KGdbStack (e_addr e) (Some lt :: Some ll :: at_)) -> py_threads os lt KGdbThread KGdbFrame ts -> py_list os ll KGdbLib items libs ->
  unlinked_gdb h n e ts libs -> NoDup (e_foot e) ->
  exists h', gdb_prepare (St os h) r = Ok (St os h', true) /\ own h' KGdbStack n e /\
    same_outside (e_addr e :: threads_cells ts ++ map e_addr libs) h h' /\ length h' = length h.
Proof.
  intros A T P U N. destruct (gdb_prepare_libs _ _ _ _ _ _ _ _ _ _ _ A T P U N) as (h' & E & [_ O] & S & L). exists h'. repeat split; assumption.
Qed.

(** ** Packages of a report *)
Lemma rpms_prepare_ok os h r c l items es at_ scal strs o p t u arr raw n :
  alive os r (PyStruct KReport c (Some l :: at_)) -> py_list os l KRpm items es ->
  nth_error h c = Some (CObj KReport scal strs [o; p; t; u] arr raw n) ->
  Forall (fun e => exists m, own h KRpm m e) es -> NoDup (c :: foot es) -> (es = [] -> p = None) ->
  exists h' p', rpms_prepare (St os h) r = Ok (St os h', true) /\
    nth_error h' c = Some (CObj KReport scal strs [o; p'; t; u] arr raw n) /\ own_list h' KRpm p' es /\
    same_outside (c :: map e_addr es) h h' /\ length h' = length h.
Proof.
  intros [m Hr] [[ml Hl] Fi] Hc Fo N He. unfold rpms_prepare. rewrite (obj_ok (St os h) r _ _ Hr). cbn [bind]. rewrite (obj_ok (St os h) l _ _ Hl). cbn [bind].
  destruct es as [|x es].
  - inversion Fi; subst. cbn [link_loop]. exists h, p. split; [reflexivity|]. split; [exact Hc|]. split; [rewrite (He eq_refl); constructor|]. split; [intros y _; reflexivity|reflexivity].
  - destruct (link_plain KRpm true os (fun h a0 => set_packages h c (Some a0)) c (CObj KReport scal strs [o; p; t; u] arr raw n) (CObj KReport scal strs [o; Some (e_addr x); t; u] arr raw n) x es items h)
      as (h' & E & Hc' & Ol & S & L); try assumption.
    { intros h2 H2. apply (set_packages_ok h2 c scal strs o p t u arr raw n (Some (e_addr x)) H2). }
    exists h', (Some (e_addr x)). repeat split; assumption.
Qed.

(** ** An item of the wrong type *)
Lemma kind_beq_eq a b : kind_beq a b = true -> a = b.
Proof. destruct a, b; cbn; intros; try discriminate; reflexivity. Qed.
Lemma type_wrong os os' h r k : more os os' -> wrong os r k -> has_type (St os' h) r k = Ok false.
Proof.
  intros M (b & A & Hb). apply (alive_more _ _ _ _ M) in A as [n A]. unfold has_type. rewrite (obj_ok (St os' h) r _ _ A). cbn [bind].
  destruct b as [|items|k' c at_]; try reflexivity. destruct (kind_beq k k') eqn:E; [|reflexivity]. apply kind_beq_eq in E as <-. destruct (Hb c at_ eq_refl).
Qed.
Lemma link_fails k os first s c0 c1 good es bad rest h :
  (forall e h1, nth_error h1 s = Some c0 -> exists h2, first h1 e = Ok h2 /\ nth_error h2 s = Some (c1 e) /\ same_outside [s] h1 h2 /\ length h2 = length h1) ->
  Forall2 (fun r e => alive os r (PyStruct k (e_addr e) [])) good es -> wrong os bad k ->
  Forall (fun e => exists n, own h k n e) es -> NoDup (s :: foot es) -> nth_error h s = Some c0 ->
  exists h', link_loop k nothing first true (good ++ bad :: rest) None (St os h) = Ok (St os h', false) /\
    same_outside (s :: map e_addr es) h h' /\ length h' = length h.
Proof.
  intros F Fi W Fo N Hs.
  assert (Bad : forall os' h1 prev, more os os' -> (forall q, prev = Some q -> exists b, alive os q b /\ os' = bump os q) -> (prev = None -> os' = os) ->
    (forall q, prev = Some q -> q <> bad) ->
    link_loop k nothing first true (bad :: rest) prev (St os' h1) = Ok (St os h1, false)).
  { intros os' h1 prev M Hp Hn Hq. cbn [link_loop]. pose proof W as (b & A & Hb). pose proof (alive_more _ _ _ _ M A) as [nb A'].
    rewrite (incref_ok (St os' h1) bad _ _ A'). cbn [bind objs mem].
    rewrite (type_wrong os (bump os' bad) h1 bad k); [|eapply more_trans; [exact M|apply bump_more]|exact W]. cbn [bind decref_opt].
    rewrite (decref_bump os' h1 bad b) by (exists nb; exact A'). cbn [bind].
    destruct prev as [q|]; cbn [decref_opt].
    - destruct (Hp q eq_refl) as (bq & Aq & ->). rewrite (decref_bump os h1 q bq Aq). reflexivity.
    - rewrite (Hn eq_refl). reflexivity. }
  assert (Rest : forall good es q eq h n, alive os q (PyStruct k (e_addr eq) []) -> own h k n eq ->
    Forall2 (fun r e => alive os r (PyStruct k (e_addr e) [])) good es -> Forall (fun e => exists n, own h k n e) es -> NoDup (foot (eq :: es)) ->
    exists h', link_loop k nothing first true (good ++ bad :: rest) (Some q) (St (bump os q) h) = Ok (St os h', false) /\
      same_outside (map e_addr (eq :: es)) h h' /\ length h' = length h).
  { clear - Bad W. induction good as [|r good IH]; intros es q eq h n Aq Oq Fi Fo N; inversion Fi as [|? e ? es' Ar Fi']; subst.
    - exists h. split; [|split; [intros x _; reflexivity|reflexivity]]. cbn [app]. apply Bad; [apply bump_more| |discriminate|].
      + intros q' E. injection E as <-. eexists. split; [exact Aq|reflexivity].
      + intros q' E. injection E as <-. intros ->. destruct W as (b & [nb Hb1] & Hb). destruct Aq as [na Aq]. destruct (object_fun _ _ _ _ _ _ Hb1 Aq) as [_ ->].
        exact (Hb _ _ eq_refl).
    - inversion Fo as [|? ? [n1 O1] Fo']; subst. rewrite !foot_cons in N. rewrite app_assoc in N.
      apply NoDup_app_inv in N as (Nqe & Nf' & Dqe). apply NoDup_app_inv in Nqe as (Nq & Ne & Dq).
      assert (Nqr : q <> r).
      { intros ->. destruct Aq as [? Aq], Ar as [? Ar]. destruct (object_fun _ _ _ _ _ _ Aq Ar) as [_ E]. injection E as E.
        apply (Dq (e_addr eq)); [eapply own_foot; exact Oq|]. rewrite E. eapply own_foot; exact O1. }
      cbn [app link_loop]. pose proof (alive_more _ _ _ _ (bump_more os q) Ar) as [m1 Hr1].
      rewrite (incref_ok (St (bump os q) h) r _ _ Hr1). cbn [objs mem bind]. set (os2 := bump (bump os q) r).
      assert (M2 : more os os2) by (eapply more_trans; [apply bump_more|apply bump_more]).
      assert (Hr2 : is_item k (fun _ => []) os2 r e) by (eapply alive_more; eassumption).
      assert (Hq2 : is_item k (fun _ => []) os2 q eq) by (eapply alive_more; eassumption).
      rewrite (type_ok k (fun _ => []) (St os2 h) r e Hr2). cbn [bind nothing].
      rewrite (wrapped_ok k (fun _ => []) (St os2 h) r e Hr2). cbn [bind]. rewrite (wrapped_ok k (fun _ => []) (St os2 h) q eq Hq2). cbn [bind mem].
      destruct (set_next_ok h k n eq (Some (e_addr e)) Oq Nq) as (h2 & E2 & O2 & S2 & L2). rewrite E2. cbn [bind]. unfold with_mem. cbn [objs decref_opt].
      assert (Eos : os2 = bump (bump os r) q) by (apply bump_swap; exact Nqr). rewrite Eos.
      rewrite (decref_bump (bump os r) h2 q (PyStruct k (e_addr eq) [])) by (eapply alive_more; [apply bump_more|exact Aq]). cbn [bind].
      destruct (IH es' r e h2 n1) as (h3 & E3 & S3 & L3); [exact Ar| |exact Fi'| | |].
      { eapply own_same; [exact O1|]. intros x Hx. apply S2. intros [<-|[]]. apply (Dq (e_addr eq)); [eapply own_foot; exact Oq|exact Hx]. }
      { rewrite Forall_forall in *. intros f If. destruct (Fo' f If) as [m O]. exists m. eapply own_same; [exact O|]. intros x Ix. apply S2. intros [<-|[]].
        apply (Dqe (e_addr eq)); [apply in_app_iff; left; eapply own_foot; exact Oq|]. eapply in_foot; eassumption. }
      { rewrite foot_cons. apply NoDup_app2; [exact Ne|exact Nf'|]. intros x I1 I2. apply (Dqe x); [apply in_app_iff; right; exact I1|exact I2]. }
      exists h3. split; [exact E3|]. split; [|lia]. intros x Hx. rewrite S3 by (intros I; apply Hx; right; exact I). apply S2. intros [<-|[]]. apply Hx. left. reflexivity. }
  destruct good as [|r good]; inversion Fi as [|? e ? es' Ar Fi']; subst.
  - exists h. split; [|split; [intros x _; reflexivity|reflexivity]]. cbn [app]. apply Bad; [apply more_refl|discriminate|reflexivity|discriminate].
  - cbn [app link_loop]. inversion Fo as [|? ? [n1 O1] Fo']; subst. inversion N as [|? ? Ns Nf]; subst.
    pose proof Ar as [m Hr]. rewrite (incref_ok (St os h) r _ _ Hr). cbn [objs mem bind].
    assert (Hr2 : is_item k (fun _ => []) (bump os r) r e) by (eapply alive_more; [apply bump_more|exact Ar]).
    rewrite (type_ok k (fun _ => []) (St (bump os r) h) r e Hr2). cbn [bind nothing]. rewrite (wrapped_ok k (fun _ => []) (St (bump os r) h) r e Hr2). cbn [bind mem].
    destruct (F (e_addr e) h Hs) as (h2 & E2 & Hs2 & S2 & L2). rewrite E2. cbn [bind decref_opt]. unfold with_mem. cbn [objs].
    assert (Same : same_on (foot (e :: es')) h h2) by (intros x Ix; apply S2; intros [<-|[]]; exact (Ns Ix)).
    destruct (Rest good es' r e h2 n1) as (h3 & E3 & S3 & L3); [exact Ar| |exact Fi'| |exact Nf|].
    { eapply own_same; [exact O1|]. intros x Ix. apply Same. rewrite foot_cons. apply in_app_iff. left. exact Ix. }
    { rewrite Forall_forall in *. intros f If. destruct (Fo' f If) as [m1 O]. exists m1. eapply own_same; [exact O|]. intros x Ix. apply Same.
      eapply in_foot; [right; exact If|exact Ix]. }
    exists h3. split; [exact E3|]. split; [|lia]. intros x Hx. rewrite S3 by (intros I; apply Hx; right; exact I). apply S2. intros [<-|[]]. apply Hx. left. reflexivity.
Qed.
Lemma wrong_frame os h r tk fk c l good es bad rest at_ scal ps p arr raw n : frame_kind tk = Some fk ->
  alive os r (PyStruct tk c (Some l :: at_)) -> alive os l (PyList (good ++ bad :: rest)) ->
  Forall2 (fun r e => alive os r (PyStruct fk (e_addr e) [])) good es -> wrong os bad fk ->
  nth_error h c = Some (CObj tk scal ps [p] arr raw n) -> Forall (fun e => exists n, own h fk n e) es -> NoDup (c :: foot es) ->
  exists h', frames_prepare (St os h) r = Ok (St os h', false) /\ same_outside (c :: map e_addr es) h h' /\ length h' = length h.
Proof.
  intros Hk [m Hr] [ml Hl] F W Hc Fo N. unfold frames_prepare. rewrite (obj_ok (St os h) r _ _ Hr). cbn [bind]. rewrite Hk. unfold items_of. rewrite (obj_ok (St os h) l _ _ Hl). cbn [bind].
  apply (link_fails fk os _ c (CObj tk scal ps [p] arr raw n) (fun a => CObj tk scal ps [Some a] arr raw n)); try assumption.
  intros e h1 H1. destruct (set_frames_ok h1 c tk scal ps [] arr raw n p (Some e) H1) as (h2 & E2 & C2 & S2 & L2). exists h2. repeat split; assumption.
Qed.
Lemma wrong_package os h r c l good es bad rest at_ scal strs o p t u arr raw n :
  alive os r (PyStruct KReport c (Some l :: at_)) -> alive os l (PyList (good ++ bad :: rest)) ->
  Forall2 (fun r e => alive os r (PyStruct KRpm (e_addr e) [])) good es -> wrong os bad KRpm ->
  nth_error h c = Some (CObj KReport scal strs [o; p; t; u] arr raw n) -> Forall (fun e => exists n, own h KRpm n e) es -> NoDup (c :: foot es) ->
  exists h', rpms_prepare (St os h) r = Ok (St os h', false) /\ same_outside (c :: map e_addr es) h h' /\ length h' = length h.
Proof.
  intros [m Hr] [ml Hl] F W Hc Fo N. unfold rpms_prepare. rewrite (obj_ok (St os h) r _ _ Hr). cbn [bind]. rewrite (obj_ok (St os h) l _ _ Hl). cbn [bind].
  apply (link_fails KRpm os _ c (CObj KReport scal strs [o; p; t; u] arr raw n) (fun a => CObj KReport scal strs [o; Some a; t; u] arr raw n)); try assumption.
  intros e h1 H1. apply (set_packages_ok h1 c scal strs o p t u arr raw n (Some e) H1).
Qed.
