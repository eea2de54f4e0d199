(** * Proofs for PyBaseModel.v: the methods of frames and threads. *)
From Coq Require Import QArith.
From Verif Require Import Base Types NormSpec UtilsProofs NormModel CmpModel CmpSpec CmpProofs TextModel TextSpec TextProofs3 DistModel CrashModel HeapModel HeapSpec HeapProofs HeapProofs2 HeapListModel HeapListProofs HeapListProofs3 PyModel PySpec PyProofs PyProofs2 PyProofs3 PyProofs4
  PyAttrModel PyAttrSpec PyAttrProofs PyAttrProofs2 PyBaseModel PyBaseSpec PyBaseProofs.
Open Scope nat_scope.

Lemma struct_ok os h r k c at_ : alive os r (PyStruct k c at_) -> struct_at (St os h) r = Ok (k, c).
Proof. intros [n H]. unfold struct_at. rewrite (obj_ok (St os h) r _ _ H). reflexivity. Qed.
Lemma py_string_gives s : gives_text (py_string s) s.
Proof.
  unfold py_string, gives_text. destruct (from_utf8 s) as [t|] eqn:E.
  - left. exists t. split; [apply from_utf8_iff; exact E|reflexivity].
  - right. split; [reflexivity|]. intros t U. apply from_utf8_iff in U. congruence.
Qed.
Lemma normalize_zero z : (normalize_cmp z =? 0)%Z = true <-> z = 0%Z.
Proof. unfold normalize_cmp. destruct (Z.ltb_spec 0 z); [split; [discriminate|lia]|]. destruct (Z.ltb_spec z 0); split; (discriminate || lia || reflexivity). Qed.
Lemma beq_refl k : kind_beq k k = true. Proof. destruct k; reflexivity. Qed.
Lemma beq_neq k k' : k <> k' -> kind_beq k k' = false.
Proof. intros H. destruct (kind_beq k k') eqn:E; [|reflexivity]. apply kind_beq_eq in E. congruence. Qed.
Lemma any_frame_iff k : frame_struct k = true <-> any_frame k.
Proof. unfold any_frame. split; [destruct k; cbn; intros H; try discriminate; tauto|]. cbn. intros H; repeat destruct H as [<-|H]; try reflexivity; destruct H. Qed.
Lemma any_thread_iff k : thread_struct k = true <-> any_thread k.
Proof. unfold any_thread. split; [destruct k; cbn; intros H; try discriminate; tauto|]. cbn. intros H; repeat destruct H as [<-|H]; try reflexivity; destruct H. Qed.
Lemma frame_kind_frame k v f : is_frame k v f -> any_frame k.
Proof. unfold any_frame. destruct f; cbn; intros [-> _]; cbn; tauto. Qed.
Lemma frame_kind_thread k fk : frame_kind k = Some fk -> thread_struct k = true.
Proof. unfold thread_struct. intros ->. reflexivity. Qed.
Lemma instance_ok of os h r k c at_ : alive os r (PyStruct k c at_) -> instance of (St os h) r = Ok (of k).
Proof. intros [n H]. unfold instance. rewrite (obj_ok (St os h) r _ _ H). reflexivity. Qed.
Lemma instance_other of (ofP : kind -> Prop) os h r : (forall k, of k = true <-> ofP k) -> other_object ofP os r -> instance of (St os h) r = Ok false.
Proof.
  intros I (b & [n H] & N). unfold instance. rewrite (obj_ok (St os h) r _ _ H). cbn [bind]. destruct b as [| |k c at_]; try reflexivity.
  destruct (of k) eqn:E; [|reflexivity]. apply I in E. destruct (N k c at_ eq_refl E).
Qed.

(** ** Frames *)
Lemma short_string_ok os h r k n e f : py_frame os h r k n e f -> printable f ->
  exists s a, sr_frame_append_to_str f = Ok s /\ Forall (fun w => infix w s) (frame_shows f) /\ frame_short_string (St os h) r = Ok (St os h, a) /\ gives_text a s.
Proof.
  intros ([at_ A] & O & F) P. destruct (TextProofs3.append_ok f P) as [s Es]. exists s, (py_string s). split; [exact Es|]. split; [exact (append_shows f s Es)|]. split; [|apply py_string_gives].
  unfold frame_short_string. rewrite (struct_ok _ _ _ _ _ _ A). cbn [bind mem]. rewrite (load_frame_ok _ _ _ _ _ O F). cbn [bind]. rewrite Es. reflexivity.
Qed.
Lemma short_string_gdb os h r n e f : py_frame os h r KGdbFrame n e (FGdb f) -> frame_short_string (St os h) r = UB.
Proof.
  intros ([at_ A] & O & F). unfold frame_short_string. rewrite (struct_ok _ _ _ _ _ _ A). cbn [bind mem]. rewrite (load_frame_ok _ _ _ _ _ O F). reflexivity.
Qed.
Lemma frames_agree_iff f g : in_range f -> in_range g -> frame_type f = frame_type g -> (sr_frame_cmp f g = 0%Z <-> frames_agree f g).
Proof.
  intros Rf Rg T. destruct f as [f|f|f|f|f|f|f], g as [g|g|g|g|g|g|g]; try discriminate T; cbn [sr_frame_cmp frames_agree in_range] in *; clear T.
  - rewrite (proj1 core_orders f g Rf Rg). reflexivity.
  - rewrite (proj1 python_orders f g Rf Rg). destruct f, g; cbn. split; [intros; repeat match goal with H : _ /\ _ |- _ => destruct H end; subst; reflexivity|intros H; injection H; intros; subst; repeat split].
  - rewrite (proj1 koops_orders f g Rf Rg). destruct f, g; cbn. split; [intros; repeat match goal with H : _ /\ _ |- _ => destruct H end; subst; reflexivity|intros H; injection H; intros; subst; repeat split].
  - rewrite (proj1 java_orders f g Rf Rg). reflexivity.
  - rewrite (proj1 (gdb_orders false) f g Rf Rg). split; intros [H1 H2]; (split; [exact H1|]); intros H3; specialize (H2 H3); intuition discriminate.
  - rewrite (proj1 ruby_orders f g Rf Rg). destruct f, g; cbn. split; [intros; repeat match goal with H : _ /\ _ |- _ => destruct H end; subst; reflexivity|intros H; injection H; intros; subst; repeat split].
  - rewrite (proj1 js_orders f g Rf Rg). destruct f, g; cbn. split; [intros; repeat match goal with H : _ /\ _ |- _ => destruct H end; subst; reflexivity|intros H; injection H; intros; subst; repeat split].
Qed.
Lemma frame_type_kind k v w f g : is_frame k v f -> is_frame k w g -> frame_type f = frame_type g.
Proof. destruct f, g; cbn [is_frame]; intros [-> _] [E _]; try discriminate E; reflexivity. Qed.
Lemma frame_equals_ok os h r1 r2 k n1 n2 e1 e2 f g : py_frame os h r1 k n1 e1 f -> py_frame os h r2 k n2 e2 g -> in_range f -> in_range g ->
  exists b, frame_equals (St os h) r1 r2 = Ok (St os h, Value b) /\ (b = true <-> frames_agree f g).
Proof.
  intros ([a1 A1] & O1 & F1) ([a2 A2] & O2 & F2) R1 R2. exists (normalize_cmp (sr_frame_cmp f g) =? 0)%Z. split.
  - unfold frame_equals, frame_cmp. rewrite (instance_ok _ _ _ _ _ _ _ A2), (proj2 (any_frame_iff k) (frame_kind_frame _ _ _ F1)). cbn [bind negb].
    rewrite (struct_ok _ _ _ _ _ _ A1), (struct_ok _ _ _ _ _ _ A2). cbn [bind]. rewrite beq_refl. cbn [negb mem].
    rewrite (load_frame_ok _ _ _ _ _ O1 F1), (load_frame_ok _ _ _ _ _ O2 F2). reflexivity.
  - rewrite normalize_zero. apply frames_agree_iff; try assumption. eapply frame_type_kind; eassumption.
Qed.
Lemma frame_equals_types os h r1 r2 k1 k2 c1 c2 a1 a2 : alive os r1 (PyStruct k1 c1 a1) -> alive os r2 (PyStruct k2 c2 a2) -> any_frame k2 -> k1 <> k2 ->
  frame_equals (St os h) r1 r2 = Ok (St os h, Value false).
Proof.
  intros A1 A2 F N. unfold frame_equals, frame_cmp. rewrite (instance_ok _ _ _ _ _ _ _ A2), (proj2 (any_frame_iff k2) F). cbn [bind negb].
  rewrite (struct_ok _ _ _ _ _ _ A1), (struct_ok _ _ _ _ _ _ A2). cbn [bind]. rewrite (beq_neq _ _ N). reflexivity.
Qed.
Lemma frame_equals_other os h r1 r2 : other_object any_frame os r2 -> frame_equals (St os h) r1 r2 = Ok (St os h, Raise TypeError).
Proof. intros O. unfold frame_equals. rewrite (instance_other _ _ _ _ _ any_frame_iff O). reflexivity. Qed.

(** ** Linking the frames of two threads *)
Lemma frames_prepare_again os h r tk fk n e l items es at_ :
  alive os r (PyStruct tk (e_addr e) (Some l :: at_)) -> py_list os l fk items es -> unlinked_thread h tk fk n e es -> NoDup (e_foot e) ->
  exists h', frames_prepare (St os h) r = Ok (St os h', true) /\ unlinked_thread h' tk fk n e es.
Proof.
  intros [m Hr] [[ml Hl] Fi] (scal & ps & p & ss & fs & arr & sarr & fa & raw & Hk & Hc & Lp & Os & Oa & Ev & Ef & Fo & He) N.
  unfold frames_prepare. rewrite (obj_ok (St os h) r _ _ Hr). cbn [bind]. rewrite Hk. unfold items_of. rewrite (obj_ok (St os h) l _ _ Hl). cbn [bind].
  pose proof N as N0. rewrite Ef in N. inversion N as [|? ? Na N']; subst. apply NoDup_app_inv in N' as (Nfs & N' & D1). apply NoDup_app_inv in N' as (Nfa & Nfk & D2).
  rewrite !in_app_iff in Na. destruct e as [[a v] f]. cbn [e_addr e_val e_foot fst snd] in *. subst v f.
  destruct es as [|x es].
  - inversion Fi; subst. cbn [link_loop]. exists h. split; [reflexivity|]. exists scal, ps, p, ss, fs, arr, sarr, fa, raw. cbn [e_addr e_val e_foot fst snd]. repeat split; assumption.
  - destruct (link_plain fk true os (fun h a0 => set_frames h a (Some a0)) a (CObj tk scal ps [p] arr raw n) (CObj tk scal ps [Some (e_addr x)] arr raw n) x es items h)
      as (h' & E & Hc' & Ol & S & L); try assumption.
    { intros h1 H1. destruct (set_frames_ok h1 a tk scal ps [] arr raw n p (Some (e_addr x)) H1) as (h2 & E2 & C2 & S2 & L2). exists h2. repeat split; assumption. }
    { constructor; [tauto|exact Nfk]. }
    exists h'. split; [exact E|].
    assert (Sep : forall g, (forall y, In y g -> y <> a /\ ~ In y (foot (x :: es))) -> same_on g h h').
    { intros g Hg y Iy. apply S. intros [<-|I]; [destruct (Hg a Iy); congruence|]. destruct (Hg y Iy) as [_ Hy]. apply Hy.
      eapply addrs_in_foot; [|exact I]. rewrite Forall_forall in Fo. exact Fo. }
    exists scal, ps, (Some (e_addr x)), ss, fs, arr, sarr, fa, raw. cbn [e_addr e_val e_foot fst snd].
    split; [exact Hk|]. split; [exact Hc'|]. split; [exact Lp|]. split; [|split; [|split; [reflexivity|split; [reflexivity|split; [|discriminate]]]]].
    + eapply own_strs_same; [exact Os|]. apply Sep. intros y Iy. split; [intros ->; tauto|]. intros I. apply (D1 y Iy). apply in_app_iff. right. exact I.
    + eapply own_arr_same; [exact Oa|]. apply Sep. intros y Iy. split; [intros ->; tauto|]. exact (D2 y Iy).
    + clear - Ol. generalize dependent (Some (e_addr x)). generalize (x :: es). clear. intros l. induction l as [|y l IH]; intros p O; [constructor|].
      inversion O as [|? n ? ? Oy Ol]; subst. constructor; [exists n; exact Oy|exact (IH _ Ol)].
Qed.
Lemma two_linked os h r1 r2 k1 k2 n1 n2 e1 e2 es1 es2 t u : py_thread_is os h r1 k1 n1 e1 es1 t -> py_thread_is os h r2 k2 n2 e2 es2 u -> disjoint (e_foot e1) (e_foot e2) ->
  exists h1 h2, frames_prepare (St os h) r1 = Ok (St os h1, true) /\ frames_prepare (St os h1) r2 = Ok (St os h2, true) /\ own h2 k1 n1 e1 /\ own h2 k2 n2 e2 /\
    same_outside (link_cells e1 es1 ++ link_cells e2 es2) h h2 /\ length h2 = length h.
Proof.
  intros (fk1 & l1 & i1 & a1 & A1 & P1 & U1 & N1 & _) (fk2 & l2 & i2 & a2 & A2 & P2 & U2 & N2 & _) D.
  destruct (frames_prepare_ok _ _ _ _ _ _ _ _ _ _ _ A1 P1 U1 N1) as (h1 & E1 & O1 & S1 & L1).
  assert (U2' : unlinked_thread h1 k2 fk2 n2 e2 es2).
  { eapply unlinked_local; [exact U2|]. intros x Ix. apply S1. intros I. exact (D x (unlinked_cells _ _ _ _ _ _ _ U1 I) Ix). }
  destruct (frames_prepare_ok _ _ _ _ _ _ _ _ _ _ _ A2 P2 U2' N2) as (h2 & E2 & O2 & S2 & L2).
  exists h1, h2. split; [exact E1|]. split; [exact E2|]. split; [|split; [exact O2|split; [|congruence]]].
  - eapply own_same; [exact O1|]. intros x Ix. apply S2. intros I. exact (D x Ix (unlinked_cells _ _ _ _ _ _ _ U2' I)).
  - intros x Hx. rewrite S2, S1; [reflexivity| |]; intros I; apply Hx; apply in_app_iff; tauto.
Qed.
Lemma one_linked os h r k n e es t : py_thread_is os h r k n e es t ->
  exists h1 h2, frames_prepare (St os h) r = Ok (St os h1, true) /\ frames_prepare (St os h1) r = Ok (St os h2, true) /\ own h2 k n e /\ same_outside (link_cells e es) h h2 /\ length h2 = length h.
Proof.
  intros (fk & l & i & a & A & P & U & N & _). destruct (frames_prepare_again _ _ _ _ _ _ _ _ _ _ _ A P U N) as (h1 & E1 & U1).
  destruct (frames_prepare_ok _ _ _ _ _ _ _ _ _ _ _ A P U N) as (h1' & E1' & _ & S1 & L1). rewrite E1 in E1'. injection E1' as <-.
  destruct (frames_prepare_ok _ _ _ _ _ _ _ _ _ _ _ A P U1 N) as (h2 & E2 & O2 & S2 & L2). exists h1, h2. split; [exact E1|]. split; [exact E2|]. split; [exact O2|]. split; [|congruence].
  intros x Hx. rewrite S2, S1; tauto.
Qed.
Lemma thread_is_alive os h r k n e es t : py_thread_is os h r k n e es t -> exists at_, alive os r (PyStruct k (e_addr e) at_) /\ thread_struct k = true /\ is_thread k (e_val e) t /\ NoDup (e_foot e).
Proof. intros (fk & l & i & a & A & P & U & N & T). exists (Some l :: a). split; [exact A|]. split; [|tauto]. destruct U as (? & ? & ? & ? & ? & ? & ? & ? & ? & Hk & _). exact (frame_kind_thread _ _ Hk). Qed.

(** ** Comparing threads *)
Lemma forall2_iff {A B} (P Q : A -> B -> Prop) l m : (forall x y, P x y <-> Q x y) -> Forall2 P l m <-> Forall2 Q l m.
Proof. intros H. split; apply forall2_weak; intros; apply H; assumption. Qed.
Lemma thread_cmp_iff t u k v w : is_thread k v t -> is_thread k w u -> k = KCoreThread \/ k = KGdbThread -> thread_in_range t -> thread_in_range u ->
  exists z, sr_thread_cmp t u = Ok z /\ (z = 0%Z <-> threads_agree t u).
Proof.
  intros T U K [R1 R2] [Q1 Q2]. destruct t as [t|t|t|t|t|t|t]; cbn [is_thread] in T; destruct T as [-> T]; destruct K as [K|K]; try discriminate K;
    destruct u as [u|u|u|u|u|u|u]; cbn [is_thread] in U; destruct U as [EU U]; try discriminate EU; cbn [sr_thread_cmp threads_agree].
  - eexists. split; [reflexivity|]. rewrite (proj1 core_thread_orders t u).
    + reflexivity.
    + cbn in R1. rewrite Forall_map in R1. exact R1.
    + cbn in Q1. rewrite Forall_map in Q1. exact Q1.
  - eexists. split; [reflexivity|]. rewrite (proj1 gdb_thread_orders t u).
    + split; intros [H1 H2]; (split; [exact H1|]); revert H2; apply forall2_weak; intros f g; cbn [frames_agree]; tauto.
    + cbn in R1. rewrite Forall_map in R1. split; [exact R2|exact R1].
    + cbn in Q1. rewrite Forall_map in Q1. split; [exact Q2|exact Q1].
Qed.
Lemma thread_equals_steps os h h1 h2 r1 r2 k e1 e2 n1 n2 t u a1 a2 : alive os r1 (PyStruct k (e_addr e1) a1) -> alive os r2 (PyStruct k (e_addr e2) a2) ->
  thread_struct k = true -> frames_prepare (St os h) r1 = Ok (St os h1, true) -> frames_prepare (St os h1) r2 = Ok (St os h2, true) ->
  own h2 k n1 e1 -> own h2 k n2 e2 -> NoDup (e_foot e1) -> NoDup (e_foot e2) -> is_thread k (e_val e1) t -> is_thread k (e_val e2) u ->
  thread_equals (St os h) r1 r2 = do z <- sr_thread_cmp t u; Ok (St os h2, Value (normalize_cmp z =? 0)%Z).
Proof.
  intros A1 A2 K E1 E2 O1 O2 N1 N2 T U. unfold thread_equals, thread_cmp. rewrite (instance_ok _ _ _ _ _ _ _ A2), K. cbn [bind negb].
  rewrite (struct_ok _ _ _ _ _ _ A1), (struct_ok _ _ _ _ _ _ A2). cbn [bind]. rewrite beq_refl. cbn [negb]. rewrite E1. cbn [bind negb]. rewrite E2. cbn [bind negb mem].
  rewrite (load_thread_ok _ _ _ _ _ O1 N1 T), (load_thread_ok _ _ _ _ _ O2 N2 U). cbn [bind]. rewrite plainly_cmp. destruct (sr_thread_cmp t u); reflexivity.
Qed.
Lemma thread_equals_ok os h r1 r2 k n1 n2 e1 e2 es1 es2 t u : py_thread_is os h r1 k n1 e1 es1 t -> py_thread_is os h r2 k n2 e2 es2 u -> disjoint (e_foot e1) (e_foot e2) ->
  k = KCoreThread \/ k = KGdbThread -> thread_in_range t -> thread_in_range u ->
  exists b h', thread_equals (St os h) r1 r2 = Ok (St os h', Value b) /\ (b = true <-> threads_agree t u) /\
    own h' k n1 e1 /\ own h' k n2 e2 /\ same_outside (link_cells e1 es1 ++ link_cells e2 es2) h h' /\ length h' = length h.
Proof.
  intros P1 P2 D K R1 R2. destruct (two_linked _ _ _ _ _ _ _ _ _ _ _ _ _ _ P1 P2 D) as (h1 & h2 & E1 & E2 & O1 & O2 & S & Len).
  destruct (thread_is_alive _ _ _ _ _ _ _ _ P1) as (a1 & A1 & K1 & T1 & N1). destruct (thread_is_alive _ _ _ _ _ _ _ _ P2) as (a2 & A2 & K2 & T2 & N2).
  destruct (thread_cmp_iff _ _ _ _ _ T1 T2 K R1 R2) as (z & Ez & Hz). exists (normalize_cmp z =? 0)%Z, h2.
  rewrite (thread_equals_steps _ _ _ _ _ _ _ _ _ _ _ _ _ _ _ A1 A2 K1 E1 E2 O1 O2 N1 N2 T1 T2), Ez. cbn [bind]. split; [reflexivity|]. rewrite normalize_zero. repeat split; tauto || assumption.
Qed.
Lemma agree_refl t : (exists k v, (k = KCoreThread \/ k = KGdbThread) /\ is_thread k v t) -> threads_agree t t.
Proof.
  intros (k & v & K & T). destruct t as [t|t|t|t|t|t|t]; cbn [is_thread] in T; destruct T as [-> _]; destruct K as [K|K]; try discriminate K; cbn [threads_agree].
  - induction (ct_frames t); constructor; [|assumption]. cbn. repeat split.
  - split; [reflexivity|]. induction (gt_frames t); constructor; [|assumption]. cbn. repeat split.
Qed.
Lemma thread_equals_self os h r k n e es t : py_thread_is os h r k n e es t -> k = KCoreThread \/ k = KGdbThread -> thread_in_range t ->
  exists h', thread_equals (St os h) r r = Ok (St os h', Value true) /\ own h' k n e /\ same_outside (link_cells e es) h h' /\ length h' = length h.
Proof.
  intros P K R. destruct (one_linked _ _ _ _ _ _ _ _ P) as (h1 & h2 & E1 & E2 & O & S & Len). destruct (thread_is_alive _ _ _ _ _ _ _ _ P) as (a & A & K1 & T & N).
  destruct (thread_cmp_iff _ _ _ _ _ T T K R R) as (z & Ez & Hz). exists h2.
  rewrite (thread_equals_steps _ _ _ _ _ _ _ _ _ _ _ _ _ _ _ A A K1 E1 E2 O O N N T T), Ez. cbn [bind].
  rewrite (proj2 Hz (agree_refl t (ex_intro _ k (ex_intro _ _ (conj K T))))). repeat split; assumption.
Qed.
Lemma thread_equals_types os h r1 r2 k1 k2 c1 c2 a1 a2 : alive os r1 (PyStruct k1 c1 a1) -> alive os r2 (PyStruct k2 c2 a2) -> any_thread k2 -> k1 <> k2 ->
  thread_equals (St os h) r1 r2 = Ok (St os h, Value false).
Proof.
  intros A1 A2 F N. unfold thread_equals, thread_cmp. rewrite (instance_ok _ _ _ _ _ _ _ A2), (proj2 (any_thread_iff k2) F). cbn [bind negb].
  rewrite (struct_ok _ _ _ _ _ _ A1), (struct_ok _ _ _ _ _ _ A2). cbn [bind]. rewrite (beq_neq _ _ N). reflexivity.
Qed.
Lemma thread_equals_other os h r1 r2 : other_object any_thread os r2 -> thread_equals (St os h) r1 r2 = Ok (St os h, Raise TypeError).
Proof. intros O. unfold thread_equals. rewrite (instance_other _ _ _ _ _ any_thread_iff O). reflexivity. Qed.
Lemma foreign_prepare os h r k c es : foreign os h r k c es ->
  exists h', frames_prepare (St os h) r = Ok (St os h', false) /\ same_outside (c :: map e_addr es) h h' /\ length h' = length h.
Proof. intros (fk & l & good & bad & rest & at_ & scal & ps & p & arr & raw & n & Hk & A & Al & F & W & Hc & Fo & N). eapply wrong_frame; eassumption. Qed.
Lemma foreign_alive os h r k c es : foreign os h r k c es -> exists at_, alive os r (PyStruct k c at_) /\ thread_struct k = true.
Proof. intros (fk & l & good & bad & rest & at_ & scal & ps & p & arr & raw & n & Hk & A & _). exists (Some l :: at_). split; [exact A|exact (frame_kind_thread _ _ Hk)]. Qed.
(** A foreign frame: False, and an exception. *)
Lemma thread_equals_foreign os h r1 r2 k c1 c2 es a2 : foreign os h r1 k c1 es -> alive os r2 (PyStruct k c2 a2) ->
  exists h', thread_equals (St os h) r1 r2 = Ok (St os h', ValueAnd false TypeError).
Proof.
  intros F A2. destruct (foreign_prepare _ _ _ _ _ _ F) as (h' & E & _). destruct (foreign_alive _ _ _ _ _ _ F) as (a1 & A1 & K). exists h'.
  unfold thread_equals, thread_cmp. rewrite (instance_ok _ _ _ _ _ _ _ A2), K. cbn [bind negb].
  rewrite (struct_ok _ _ _ _ _ _ A1), (struct_ok _ _ _ _ _ _ A2). cbn [bind]. rewrite beq_refl. cbn [negb]. rewrite E. reflexivity.
Qed.
(** Single-threaded stack traces: the assertion fails. *)
Lemma thread_equals_single os h r1 r2 k n1 n2 e1 e2 es1 es2 t u : py_thread_is os h r1 k n1 e1 es1 t -> py_thread_is os h r2 k n2 e2 es2 u -> disjoint (e_foot e1) (e_foot e2) ->
  In k [KPythonStack; KKoopsStack; KRubyStack; KJsStack] -> thread_equals (St os h) r1 r2 = UB.
Proof.
  intros P1 P2 D K. destruct (two_linked _ _ _ _ _ _ _ _ _ _ _ _ _ _ P1 P2 D) as (h1 & h2 & E1 & E2 & O1 & O2 & S & Len).
  destruct (thread_is_alive _ _ _ _ _ _ _ _ P1) as (a1 & A1 & K1 & T1 & N1). destruct (thread_is_alive _ _ _ _ _ _ _ _ P2) as (a2 & A2 & K2 & T2 & N2).
  rewrite (thread_equals_steps _ _ _ _ _ _ _ _ _ _ _ _ _ _ _ A1 A2 K1 E1 E2 O1 O2 N1 N2 T1 T2).
  destruct t; cbn [is_thread] in T1; destruct T1 as [-> _]; cbn in K; destruct u; cbn [is_thread] in T2; destruct T2 as [E _]; try discriminate E; try reflexivity; intuition discriminate.
Qed.
