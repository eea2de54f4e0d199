(** * Proofs for PyBaseModel.v: hashes, texts, distances, shared libraries. *)
From Coq Require Import QArith.
From Verif Require Import Base Types NormSpec UtilsProofs NormModel CmpModel CmpSpec CmpProofs TextModel TextSpec TextProofs3 DistModel CrashModel HeapModel HeapSpec HeapProofs HeapProofs2 HeapListModel HeapListProofs HeapListProofs3 PyModel PySpec PyProofs PyProofs2 PyProofs3 PyProofs4
  PyAttrModel PyAttrSpec PyAttrProofs PyAttrProofs2 PyBaseModel PyBaseSpec PyBaseProofs PyBaseProofs2.
Open Scope nat_scope.

Lemma c_int_ok z : (-2147483648 <= z <= 2147483647)%Z -> is_c_int z = true.
Proof. intros H. unfold is_c_int. rewrite andb_true_iff, !Z.leb_le. lia. Qed.
Lemma c_int_not z : ~ (-2147483648 <= z <= 2147483647)%Z -> is_c_int z = false.
Proof. intros H. destruct (is_c_int z) eqn:E; [|reflexivity]. unfold is_c_int in E. rewrite andb_true_iff, !Z.leb_le in E. lia. Qed.

(** ** Distances *)
Lemma distance_steps os h h1 h2 r1 r2 k e1 e2 n1 n2 t u a1 a2 d : alive os r1 (PyStruct k (e_addr e1) a1) -> alive os r2 (PyStruct k (e_addr e2) a2) ->
  thread_struct k = true -> frames_prepare (St os h) r1 = Ok (St os h1, true) -> frames_prepare (St os h1) r2 = Ok (St os h2, true) ->
  own h2 k n1 e1 -> own h2 k n2 e2 -> NoDup (e_foot e1) -> NoDup (e_foot e2) -> is_thread k (e_val e1) t -> is_thread k (e_val e2) u -> (0 <= d < 4)%Z ->
  thread_distance (St os h) r1 r2 d =
    do q <- sr_distance frame_same (distance_of d) (0, sr_thread_frames t) (0, sr_thread_frames u); Ok (St os h2, Value q).
Proof.
  intros A1 A2 K E1 E2 O1 O2 N1 N2 T U Hd. unfold thread_distance. rewrite (instance_ok _ _ _ _ _ _ _ A2), K. cbn [bind negb].
  rewrite c_int_ok by lia. cbn [negb]. rewrite E1. cbn [bind negb]. rewrite E2. cbn [bind negb].
  rewrite (struct_ok _ _ _ _ _ _ A1), (struct_ok _ _ _ _ _ _ A2). cbn [bind]. rewrite beq_refl. cbn [negb].
  destruct (Z.ltb_spec d 0); [lia|]. destruct (Z.leb_spec 4 d); [lia|]. cbn [orb mem].
  rewrite (load_thread_ok _ _ _ _ _ O1 N1 T), (load_thread_ok _ _ _ _ _ O2 N2 U). cbn [bind]. rewrite !plainly_frames, !plainly_tag.
  assert (Et : thread_tag t = thread_tag u).
  { destruct t; cbn [is_thread] in T; destruct T as [-> _]; destruct u; cbn [is_thread] in U; destruct U as [E _]; try discriminate E; reflexivity. }
  rewrite Et. unfold sr_distance. cbn [fst snd]. rewrite !Nat.eqb_refl. reflexivity.
Qed.
Lemma distance_ok os h r1 r2 k n1 n2 e1 e2 es1 es2 t u d q : py_thread_is os h r1 k n1 e1 es1 t -> py_thread_is os h r2 k n2 e2 es2 u -> disjoint (e_foot e1) (e_foot e2) ->
  (0 <= d < 4)%Z -> sr_distance frame_same (distance_of d) (0, sr_thread_frames t) (0, sr_thread_frames u) = Ok q ->
  exists h', thread_distance (St os h) r1 r2 d = Ok (St os h', Value q) /\ own h' k n1 e1 /\ own h' k n2 e2 /\
    same_outside (link_cells e1 es1 ++ link_cells e2 es2) h h' /\ length h' = length h.
Proof.
  intros P1 P2 D Hd Eq. destruct (two_linked _ _ _ _ _ _ _ _ _ _ _ _ _ _ P1 P2 D) as (h1 & h2 & E1 & E2 & O1 & O2 & S & Len).
  destruct (thread_is_alive _ _ _ _ _ _ _ _ P1) as (a1 & A1 & K1 & T1 & N1). destruct (thread_is_alive _ _ _ _ _ _ _ _ P2) as (a2 & A2 & K2 & T2 & N2). exists h2.
  rewrite (distance_steps _ _ _ _ _ _ _ _ _ _ _ _ _ _ _ d A1 A2 K1 E1 E2 O1 O2 N1 N2 T1 T2 Hd), Eq. repeat split; assumption.
Qed.
Lemma distance_self os h r k n e es t d q : py_thread_is os h r k n e es t -> (0 <= d < 4)%Z ->
  sr_distance frame_same (distance_of d) (0, sr_thread_frames t) (0, sr_thread_frames t) = Ok q ->
  exists h', thread_distance (St os h) r r d = Ok (St os h', Value q) /\ own h' k n e.
Proof.
  intros P Hd Eq. destruct (one_linked _ _ _ _ _ _ _ _ P) as (h1 & h2 & E1 & E2 & O & S & Len). destruct (thread_is_alive _ _ _ _ _ _ _ _ P) as (a & A & K1 & T & N). exists h2.
  rewrite (distance_steps _ _ _ _ _ _ _ _ _ _ _ _ _ _ _ d A A K1 E1 E2 O O N N T T Hd), Eq. repeat split; assumption.
Qed.
Lemma distance_types os h r1 r2 k1 k2 n1 n2 e1 e2 es1 es2 t u d : py_thread_is os h r1 k1 n1 e1 es1 t -> py_thread_is os h r2 k2 n2 e2 es2 u -> disjoint (e_foot e1) (e_foot e2) ->
  k1 <> k2 -> (-2147483648 <= d <= 2147483647)%Z -> exists h', thread_distance (St os h) r1 r2 d = Ok (St os h', Raise TypeError).
Proof.
  intros P1 P2 D K Hd. destruct (two_linked _ _ _ _ _ _ _ _ _ _ _ _ _ _ P1 P2 D) as (h1 & h2 & E1 & E2 & O1 & O2 & S & Len).
  destruct (thread_is_alive _ _ _ _ _ _ _ _ P1) as (a1 & A1 & K1 & T1 & N1). destruct (thread_is_alive _ _ _ _ _ _ _ _ P2) as (a2 & A2 & K2 & T2 & N2). exists h2.
  unfold thread_distance. rewrite (instance_ok _ _ _ _ _ _ _ A2), K2. cbn [bind negb]. rewrite c_int_ok by lia. cbn [negb]. rewrite E1. cbn [bind negb]. rewrite E2. cbn [bind negb].
  rewrite (struct_ok _ _ _ _ _ _ A1), (struct_ok _ _ _ _ _ _ A2). cbn [bind]. rewrite (beq_neq _ _ K). reflexivity.
Qed.
Lemma distance_number os h r1 r2 k n1 n2 e1 e2 es1 es2 t u d : py_thread_is os h r1 k n1 e1 es1 t -> py_thread_is os h r2 k n2 e2 es2 u -> disjoint (e_foot e1) (e_foot e2) ->
  ~ (0 <= d < 4)%Z -> exists h' e, thread_distance (St os h) r1 r2 d = Ok (St os h', Raise e) /\ (e = ValueError \/ e = OverflowError).
Proof.
  intros P1 P2 D Hd. destruct (two_linked _ _ _ _ _ _ _ _ _ _ _ _ _ _ P1 P2 D) as (h1 & h2 & E1 & E2 & O1 & O2 & S & Len).
  destruct (thread_is_alive _ _ _ _ _ _ _ _ P1) as (a1 & A1 & K1 & T1 & N1). destruct (thread_is_alive _ _ _ _ _ _ _ _ P2) as (a2 & A2 & K2 & T2 & N2).
  unfold thread_distance. rewrite (instance_ok _ _ _ _ _ _ _ A2), K2. cbn [bind negb]. destruct (is_c_int d) eqn:Ec; cbn [negb]; [|exists h, OverflowError; tauto].
  rewrite E1. cbn [bind negb]. rewrite E2. cbn [bind negb].
  rewrite (struct_ok _ _ _ _ _ _ A1), (struct_ok _ _ _ _ _ _ A2). cbn [bind]. rewrite beq_refl. cbn [negb].
  assert (B : ((d <? 0) || (4 <=? d))%Z = true) by (rewrite orb_true_iff, Z.ltb_lt, Z.leb_le; lia). rewrite B. exists h2, ValueError. tauto.
Qed.
Lemma distance_other os h r1 r2 d : other_object any_thread os r2 -> thread_distance (St os h) r1 r2 d = Ok (St os h, Raise TypeError).
Proof. intros O. unfold thread_distance. rewrite (instance_other _ _ _ _ _ any_thread_iff O). reflexivity. Qed.
Lemma distance_foreign os h r1 r2 k c es d k2 c2 a2 : foreign os h r1 k c es -> alive os r2 (PyStruct k2 c2 a2) -> any_thread k2 -> (-2147483648 <= d <= 2147483647)%Z ->
  exists h', thread_distance (St os h) r1 r2 d = Ok (St os h', Raise TypeError).
Proof.
  intros F A2 K2 Hd. destruct (foreign_prepare _ _ _ _ _ _ F) as (h' & E & _). exists h'. unfold thread_distance.
  rewrite (instance_ok _ _ _ _ _ _ _ A2), (proj2 (any_thread_iff k2) K2). cbn [bind negb]. rewrite c_int_ok by lia. cbn [negb]. rewrite E. reflexivity.
Qed.

(** ** Hashes *)
Section Hash.
Variable sha1 : str -> str.
Lemma duphash_ok os h r k n e es t frames flags prefix x : py_thread_is os h r k n e es t -> (-2147483648 <= frames <= 2147483647)%Z -> (-2147483648 <= flags <= 2147483647)%Z ->
  sr_thread_get_duphash sha1 t frames prefix (flags_of flags) = Ok x ->
  exists h' a, thread_get_duphash sha1 (St os h) r frames flags prefix = Ok (St os h', a) /\ match x with Some s => gives_text a s | None => a = Raise RuntimeError end /\
    own h' k n e /\ same_outside (link_cells e es) h h' /\ length h' = length h.
Proof.
  intros (fk & l & i & a & A & P & U & N & T) H1 H2 E. destruct (frames_prepare_ok _ _ _ _ _ _ _ _ _ _ _ A P U N) as (h' & Ep & O & S & Len).
  exists h', (match x with None => Raise RuntimeError | Some s => py_string s end). unfold thread_get_duphash. rewrite !c_int_ok by lia. cbn [andb negb]. rewrite Ep. cbn [bind negb].
  rewrite (struct_ok _ _ _ _ _ _ A). cbn [bind mem]. rewrite (load_thread_ok _ _ _ _ _ O N T). cbn [bind]. rewrite plainly_duphash, E. cbn [bind].
  split; [reflexivity|]. split; [destruct x; [apply py_string_gives|reflexivity]|]. repeat split; assumption.
Qed.
Lemma duphash_foreign os h r k c es frames flags prefix : foreign os h r k c es -> (-2147483648 <= frames <= 2147483647)%Z -> (-2147483648 <= flags <= 2147483647)%Z ->
  exists h', thread_get_duphash sha1 (St os h) r frames flags prefix = Ok (St os h', Raise TypeError).
Proof.
  intros F H1 H2. destruct (foreign_prepare _ _ _ _ _ _ F) as (h' & E & _). exists h'. unfold thread_get_duphash. rewrite !c_int_ok by lia. cbn [andb negb]. rewrite E. reflexivity.
Qed.
Lemma duphash_overflow os h r frames flags prefix : ~ (-2147483648 <= frames <= 2147483647)%Z \/ ~ (-2147483648 <= flags <= 2147483647)%Z ->
  thread_get_duphash sha1 (St os h) r frames flags prefix = Ok (St os h, Raise OverflowError).
Proof.
  intros H. unfold thread_get_duphash. assert (E : is_c_int frames && is_c_int flags = false).
  { apply andb_false_iff. destruct H as [H|H]; [left|right]; apply c_int_not; exact H. }
  rewrite E. reflexivity.
Qed.
Lemma single_stack k v s : In k [KPythonStack; KKoopsStack; KRubyStack; KJsStack] -> is_stack k v s -> exists t, is_thread k v t /\ sr_stacktrace_threads s = [t].
Proof.
  intros K I. destruct s; cbn [is_stack] in I; try (destruct I as [-> _]; cbn in K; intuition discriminate); eexists; (split; [exact I|reflexivity]).
Qed.
Lemma single_bthash_ok os h r k n e es t s flags : py_thread_is os h r k n e es t -> is_stack k (e_val e) s -> (-2147483648 <= flags <= 2147483647)%Z ->
  exists h' a, single_get_bthash sha1 (St os h) r flags = Ok (St os h', a) /\ gives_text a (sr_stacktrace_get_bthash sha1 s (flags_of flags)) /\
    own h' k n e /\ same_outside (link_cells e es) h h' /\ length h' = length h.
Proof.
  intros (fk & l & i & a & A & P & U & N & T) I H1. destruct (frames_prepare_ok _ _ _ _ _ _ _ _ _ _ _ A P U N) as (h' & Ep & O & S & Len).
  exists h', (py_string (sr_stacktrace_get_bthash sha1 s (flags_of flags))). unfold single_get_bthash, get_bthash. rewrite c_int_ok by lia. cbn [negb]. rewrite Ep. cbn [bind negb].
  rewrite (struct_ok _ _ _ _ _ _ A). cbn [bind mem]. rewrite (load_stack_ok _ _ _ _ _ O N I). cbn [bind]. rewrite plainly_bthash.
  split; [reflexivity|]. split; [apply py_string_gives|]. repeat split; assumption.
Qed.
Lemma multi_bthash_ok os h r k n e ts s flags : py_stack_is os h r k n e ts s -> (-2147483648 <= flags <= 2147483647)%Z ->
  exists h' a, multi_get_bthash sha1 (St os h) r flags = Ok (St os h', a) /\ gives_text a (sr_stacktrace_get_bthash sha1 s (flags_of flags)) /\
    own h' k n e /\ same_outside (e_addr e :: threads_cells ts) h h' /\ length h' = length h.
Proof.
  intros (tk & fk & l & at_ & Ht & Hf & A & P & U & N & I) H1. destruct (stack_prepare_ok _ _ _ _ _ _ _ _ _ _ _ Ht Hf A P U N) as (h' & Ep & O & S & Len).
  exists h', (py_string (sr_stacktrace_get_bthash sha1 s (flags_of flags))). unfold multi_get_bthash, get_bthash. rewrite c_int_ok by lia. cbn [negb]. rewrite Ep. cbn [bind negb].
  rewrite (struct_ok _ _ _ _ _ _ A). cbn [bind mem]. rewrite (load_stack_ok _ _ _ _ _ O N I). cbn [bind]. rewrite plainly_bthash.
  split; [reflexivity|]. split; [apply py_string_gives|]. repeat split; assumption.
Qed.
Lemma bthash_foreign os h r k c es flags : foreign os h r k c es -> (-2147483648 <= flags <= 2147483647)%Z ->
  exists h', single_get_bthash sha1 (St os h) r flags = Ok (St os h', Raise TypeError).
Proof.
  intros F H1. destruct (foreign_prepare _ _ _ _ _ _ F) as (h' & E & _). exists h'. unfold single_get_bthash, get_bthash. rewrite !c_int_ok by lia. cbn [negb]. rewrite E. reflexivity.
Qed.
End Hash.

(** ** Short texts *)
Lemma single_short_ok os h r k n e es t s max out : py_thread_is os h r k n e es t -> is_stack k (e_val e) s -> In k [KPythonStack; KKoopsStack; KRubyStack; KJsStack] ->
  (-2147483648 <= max <= 2147483647)%Z -> sr_stacktrace_to_short_text s max = Ok (Some out) ->
  exists h' a, single_to_short_text (St os h) r max = Ok (St os h', a) /\ gives_text a out /\
    own h' k n e /\ same_outside (link_cells e es) h h' /\ length h' = length h.
Proof.
  intros (fk & l & i & a & A & P & U & N & T) I K H1 Eo. destruct (frames_prepare_ok _ _ _ _ _ _ _ _ _ _ _ A P U N) as (h' & Ep & O & S & Len).
  exists h', (py_string out). unfold single_to_short_text, to_short_text. rewrite c_int_ok by lia. cbn [negb]. rewrite Ep. cbn [bind negb].
  rewrite (struct_ok _ _ _ _ _ _ A). cbn [bind mem]. unfold short_text. rewrite (own_kind _ _ _ _ O). cbn [bind].
  assert (Ek : match k with KCoreStack => core_known_crash_thread h' (e_addr e) | _ => Ok None end = Ok None) by (destruct k; try reflexivity; cbn in K; intuition discriminate).
  rewrite Ek. cbn [bind]. rewrite (load_stack_ok _ _ _ _ _ O N I). cbn [bind].
  assert (Es : sr_stacktrace_to_short_text (plainly_stack s) max = Ok (Some out)).
  { rewrite <- Eo. destruct s; try reflexivity. destruct I as [-> _]. cbn in K. intuition discriminate. }
  rewrite Es. cbn [bind]. split; [reflexivity|]. split; [apply py_string_gives|]. repeat split; assumption.
Qed.
(** Linking the threads leaves the pointer to the crash thread alone. *)
Lemma stack_prepare_list os h r k tk fk n e l ts at_ scal ps p arr raw : thread_type k = Some tk -> frame_kind tk = Some fk ->
  alive os r (PyStruct k (e_addr e) (Some l :: at_)) -> py_threads os l tk fk ts -> unlinked_stack h k n e ts -> NoDup (e_foot e) ->
  nth_error h (e_addr e) = Some (CObj k scal ps [p] arr raw n) ->
  exists h' p', threads_prepare (St os h) r = Ok (St os h', true) /\ nth_error h' (e_addr e) = Some (CObj k scal ps [p'] arr raw n) /\ own_list h' tk p' (map pt_entry ts) /\
    NoDup (foot (map pt_entry ts)).
Proof.
  intros Htk0 Hfk0 [m Hr] T (tk1 & fk1 & scal1 & ps1 & p1 & ss & fs & arr1 & sarr & fa & raw1 & Hk & Htk & Hfk & Hc & Lp & Os & Oa & Ev & Ef & U & He) N Hc1.
  rewrite Htk0 in Htk. injection Htk as <-. rewrite Hfk0 in Hfk. injection Hfk as <-. rewrite Hc in Hc1. injection Hc1 as -> -> -> -> ->.
  unfold threads_prepare. rewrite (obj_ok (St os h) r _ _ Hr). cbn [bind]. rewrite Htk0. destruct T as [[ml Hl] Tt]. unfold items_of. rewrite (obj_ok (St os h) l _ _ Hl). cbn [bind].
  assert (T : py_threads os l tk fk ts) by (split; [exists ml; exact Hl|exact Tt]).
  rewrite Ef in N. inversion N as [|? ? Na N']; subst. apply NoDup_app_inv in N' as (Nfs & N' & D1). apply NoDup_app_inv in N' as (Nfa & Nfk & D2).
  rewrite !in_app_iff in Na. destruct e as [[a v] f]. cbn [e_addr e_val e_foot fst snd] in *. subst v f.
  destruct ts as [|t us].
  - cbn [map link_loop]. exists h, p. split; [reflexivity|]. split; [exact Hc|]. split; [rewrite (He eq_refl); constructor|exact Nfk].
  - set (ts := t :: us) in *.
    assert (Eset : forall h a b, set_threads k h a b = set_frames h a b) by (destruct Hk as [-> | ->]; reflexivity).
    destruct (threads_linked tk fk os l ts T (threads_distinct _ _ _ _ U Nfk) (fun h a0 => set_threads k h a (Some a0)) a (CObj k scal ps [p] arr raw n)
      (CObj k scal ps [Some (e_addr (pt_entry t))] arr raw n) t us false h eq_refl) as (h' & E & Hc' & Ol & S & L); try assumption.
    { intros h1 H1. rewrite Eset. destruct (set_frames_ok h1 a k scal ps [] arr raw n p (Some (e_addr (pt_entry t))) H1) as (h2 & E2 & C2 & S2 & L2). exists h2. repeat split; assumption. }
    { constructor; [tauto|exact Nfk]. }
    exists h', (Some (e_addr (pt_entry t))). split; [exact E|]. split; [exact Hc'|]. split; [exact Ol|exact Nfk].
Qed.
Lemma own_list_at h k : forall l p i e, own_list h k p l -> nth_error l i = Some e -> exists m, own h k m e.
Proof.
  induction l as [|x l IH]; intros p i e O E; [destruct i; discriminate|]. inversion O as [|? m ? ? Ox Ol]; subst. destruct i as [|i]; cbn in E; [injection E as <-; eauto|].
  exact (IH _ _ _ Ol E).
Qed.
Lemma forall2_at {A B} (P : A -> B -> Prop) l m i x : Forall2 P l m -> nth_error l i = Some x -> exists y, nth_error m i = Some y /\ P x y.
Proof. intros F. revert i. induction F as [|a b l m H F IH]; intros [|i] E; cbn in E; try discriminate; [injection E as <-; exists b; split; [reflexivity|exact H]|exact (IH i E)]. Qed.
Lemma multi_short_ok os h r k n e ts s max x : py_stack_is os h r k n e ts s -> crash_pointer h e ts s -> (-2147483648 <= max <= 2147483647)%Z ->
  sr_stacktrace_to_short_text s max = Ok x ->
  exists h' a, multi_to_short_text (St os h) r max = Ok (St os h', a) /\ match x with Some out => gives_text a out | None => a = NullAlone end /\
    own h' k n e /\ same_outside (e_addr e :: threads_cells ts) h h' /\ length h' = length h.
Proof.
  intros (tk & fk & l & at_ & Ht & Hf & A & P & U & N & I) C H1 Eo. destruct (stack_prepare_ok _ _ _ _ _ _ _ _ _ _ _ Ht Hf A P U N) as (h' & Ep & O & S & Len).
  exists h', (match x with Some out => py_string out | None => NullAlone end). unfold multi_to_short_text, to_short_text. rewrite c_int_ok by lia. cbn [negb]. rewrite Ep. cbn [bind negb].
  rewrite (struct_ok _ _ _ _ _ _ A). cbn [bind mem].
  assert (Es : short_text h' (e_addr e) max = Ok x).
  { unfold short_text. rewrite (own_kind _ _ _ _ O). cbn [bind]. pose proof U as U0. destruct U0 as (tk1 & fk1 & scal & ps & p & ss & fs & arr & sarr & fa & raw & Hk & _ & _ & Hc & _).
    destruct (stack_prepare_list _ _ _ _ _ _ _ _ _ _ _ _ _ _ _ _ Ht Hf A P U N Hc) as (h1 & p' & Ep' & Hc' & Ol & Nf). rewrite Ep in Ep'. injection Ep' as <-.
    destruct Hk as [-> | ->].
    - destruct s as [s|s|s|s|s|s|s]; cbn [is_stack] in I; try (destruct I as [I _]; discriminate I). cbn [crash_pointer] in C.
      destruct C as (scal2 & ps2 & ks2 & arr2 & y & n2 & Hc2 & Hy). rewrite Hc in Hc2. injection Hc2 as <- <- <- <- -> _.
      unfold core_known_crash_thread. rewrite (get_live _ _ _ Hc') by discriminate. cbn [bind].
      destruct (cs_crash_thread s) as [i|] eqn:Ei.
      + destruct Hy as (t & Et & ->). destruct I as (_ & _ & _ & _ & vs & Ek & Fv). destruct U as (? & ? & ? & ? & ? & ? & ? & ? & ? & ? & ? & _ & _ & _ & _ & _ & _ & _ & Ev & _).
        rewrite Ev in Ek. cbn in Ek. injection Ek as <-. injection Ht as <-. destruct (own_list_at _ _ _ _ _ _ Ol (map_nth_error pt_entry _ _ Et)) as [mm Om].
        destruct (forall2_at _ _ _ _ _ Fv (map_nth_error e_val _ _ (map_nth_error pt_entry _ _ Et))) as (y & Ey & Hy).
        rewrite nth_error_map in Ey. destruct (nth_error (cs_threads s) i) as [ct|] eqn:Ect; [|discriminate]. cbn in Ey. injection Ey as <-.
        rewrite (load_thread_ok _ _ _ _ (TCore ct) Om); [|eapply nodup_foot_in; [|exact Nf]; apply in_map; eapply nth_error_In; exact Et|exact Hy].
        cbn [bind]. rewrite <- Eo. unfold sr_stacktrace_to_short_text, stacktrace_to_short_text, sr_stacktrace_find_crash_thread, sr_core_stacktrace_find_crash_thread.
        rewrite Ei, Ect. reflexivity.
      + subst y. rewrite (load_stack_ok _ _ _ _ (SCore s) O N I). cbn [bind plainly_stack]. rewrite <- Eo. destruct s as [a1 a2 a3 a4 a5]. cbn in Ei. rewrite Ei. reflexivity.
    - cbn [bind]. rewrite (load_stack_ok _ _ _ _ _ O N I). cbn [bind]. rewrite <- Eo. destruct s; cbn [is_stack] in I; destruct I as [I _]; try discriminate I. reflexivity. }
  rewrite Es. cbn [bind]. split; [destruct x; reflexivity|]. split; [destruct x; [apply py_string_gives|reflexivity]|]. repeat split; assumption.
Qed.

(** ** gdb stack traces *)
Lemma quality_ok quality os h r n e ts items libs s : py_gdb_is os h r n e ts items libs s ->
  exists h', gdb_quality quality (St os h) r = Ok (St os h', Value (quality s)) /\ own h' KGdbStack n e /\
    same_outside (e_addr e :: threads_cells ts ++ map e_addr libs) h h' /\ length h' = length h.
Proof.
  intros (lt & ll & at_ & A & Pt & Pl & U & N & I). destruct (gdb_prepare_ok _ _ _ _ _ _ _ _ _ _ _ A Pt Pl U N) as (h' & Ep & O & S & Len). exists h'.
  unfold gdb_quality. rewrite Ep. cbn [bind negb]. rewrite (struct_ok _ _ _ _ _ _ A). cbn [bind mem]. rewrite (load_stack_ok _ _ _ _ _ O N I). cbn [bind plainly_stack].
  repeat split; assumption.
Qed.
Lemma find_lib_ok os h address : forall items libs ls, Forall2 (fun r e => alive os r (PyStruct KGdbLib (e_addr e) [])) items libs ->
  Forall (fun e => exists m, own h KGdbLib m e) libs -> Forall2 is_lib (map e_val libs) ls ->
  (find_lib (St os h) items address = Ok None /\ Forall (fun l => ~ contains l address) ls) \/
  exists i item l, find_lib (St os h) items address = Ok (Some item) /\ nth_error items i = Some item /\ nth_error ls i = Some l /\ contains l address /\
    Forall (fun l => ~ contains l address) (firstn i ls).
Proof.
  intros items libs ls F. revert ls. induction F as [|r e items libs A F IH]; intros ls O L; cbn in L; inversion L as [|? l ? ls' Hl Ll]; subst.
  - left. split; [reflexivity|constructor].
  - inversion O as [|? ? [m Om] O']; subst. cbn [find_lib]. rewrite (struct_ok _ _ _ _ _ _ A). cbn [bind mem]. destruct Hl as (L1 & L2 & _ & _).
    rewrite (num_ok _ _ _ _ _ TU64 (gl_from l) Om); [|eexists; vm_compute; reflexivity|exact L1]. cbn [bind].
    rewrite (num_ok _ _ _ _ _ TU64 (gl_to l) Om); [|eexists; vm_compute; reflexivity|exact L2]. cbn [bind].
    destruct ((gl_from l <=? address) && (address <=? gl_to l))%Z eqn:E.
    + right. exists 0, r, l. rewrite andb_true_iff, !Z.leb_le in E. repeat split; try tauto; constructor.
    + assert (Nc : ~ contains l address). { unfold contains. intros C. rewrite <- not_true_iff_false, andb_true_iff, !Z.leb_le in E. tauto. }
      destruct (IH ls' O' Ll) as [[E1 E2]|(i & item & l' & E1 & E2 & E3 & E4 & E5)].
      * left. split; [exact E1|constructor; assumption].
      * right. exists (S i), item, l'. repeat split; try assumption; cbn; try apply E4. constructor; assumption.
Qed.
Lemma libs_of h n e ts libs s : unlinked_gdb h n e ts libs -> is_stack KGdbStack (e_val e) (SGdb s) -> Forall2 is_lib (map e_val libs) (gs_libs s).
Proof.
  intros (scal & pc & p & pl & crash & arr & sarr & fa & raw & Hc & Oa & Oc & Lc & Ev & Ef & U & He & Fo & Hel) I.
  destruct I as (_ & _ & cs & ts' & ls & Ek & _ & _ & Fl). rewrite Ev in Ek. cbn in Ek. injection Ek as _ _ <-. exact Fl.
Qed.
Lemma mod_below z : (0 <= z < 2 ^ 63)%Z -> (z mod 2 ^ 64)%Z = z.
Proof. intros H. apply Z.mod_small. split; [lia|]. eapply Z.lt_trans; [apply H|]. reflexivity. Qed.
Lemma find_address_ok os h r n e ts items libs s address : py_gdb_is os h r n e ts items libs s -> (0 <= address < 2 ^ 63)%Z ->
  exists h', own h' KGdbStack n e /\ same_outside (e_addr e :: threads_cells ts ++ map e_addr libs) h h' /\ length h' = length h /\
   ((find_address (St os h) r address = Ok (St os h', Value None) /\ Forall (fun l => ~ contains l address) (gs_libs s)) \/
    exists i item l st', find_address (St os h) r address = Ok (st', Value (Some item)) /\ incref (St os h') item = Ok st' /\
      nth_error items i = Some item /\ nth_error (gs_libs s) i = Some l /\ contains l address /\ Forall (fun l => ~ contains l address) (firstn i (gs_libs s))).
Proof.
  intros (lt & ll & at_ & A & Pt & Pl & U & N & I) Ha. destruct (gdb_prepare_libs _ _ _ _ _ _ _ _ _ _ _ A Pt Pl U N) as (h' & Ep & [Fl O] & S & Len). exists h'.
  split; [exact O|]. split; [exact S|]. split; [exact Len|]. unfold find_address. rewrite Ep. cbn [bind negb].
  assert (B : ((- 2 ^ 63 <=? address) && (address <? 2 ^ 63))%Z = true) by (rewrite andb_true_iff, Z.leb_le, Z.ltb_lt; lia). rewrite B. cbn [negb]. rewrite (mod_below _ Ha).
  destruct (Z.eqb_spec address (2 ^ 64 - 1)) as [-> |_]; [exfalso; destruct Ha as [_ Ha]; vm_compute in Ha; discriminate|].
  destruct A as [mr Hr]. rewrite (obj_ok (St os h') r _ _ Hr). cbn [bind]. destruct Pl as [[ml Hl] F]. unfold items_of. rewrite (obj_ok (St os h') ll _ _ Hl). cbn [bind].
  destruct (find_lib_ok os h' address items libs (gs_libs s) F Fl (libs_of _ _ _ _ _ _ U I)) as [[E1 E2]|(i & item & l' & E1 & E2 & E3 & E4 & E5)].
  - left. rewrite E1. cbn [bind]. split; [reflexivity|exact E2].
  - right. destruct (forall2_at _ _ _ _ _ F E2) as (x & _ & [mi Hi]). exists i, item, l'. rewrite E1. cbn [bind].
    rewrite (incref_ok (St os h') item _ _ Hi). cbn [bind]. eexists. split; [reflexivity|]. split; [reflexivity|]. repeat split; try assumption; apply E4.
Qed.
Lemma find_address_overflow os h r n e ts items libs s address : py_gdb_is os h r n e ts items libs s -> ~ (- 2 ^ 63 <= address < 2 ^ 63)%Z ->
  exists h', find_address (St os h) r address = Ok (St os h', Raise OverflowError).
Proof.
  intros (lt & ll & at_ & A & Pt & Pl & U & N & I) Ha. destruct (gdb_prepare_ok _ _ _ _ _ _ _ _ _ _ _ A Pt Pl U N) as (h' & Ep & O & S & Len). exists h'.
  unfold find_address. rewrite Ep. cbn [bind negb].
  assert (B : ((- 2 ^ 63 <=? address) && (address <? 2 ^ 63))%Z = false) by (rewrite <- not_true_iff_false, andb_true_iff, Z.leb_le, Z.ltb_lt; exact Ha). rewrite B. reflexivity.
Qed.
