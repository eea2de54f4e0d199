From Verif Require Import Base HeapModel HeapSpec HeapProofs HeapProofs2 HeapProofs3 HeapListModel HeapListSpec HeapListProofs HeapListProofs3 PyModel PySpec PyProofs PyProofs2 PyProofs3 PyProofs4 PyProofs6 PyProofs7 PyMethSpec PyMethProofs2 PyGdbSpec.
Open Scope nat_scope.

(** ** Giving up a list of threads *)
Lemma list_given_up_in fuel os h l k ml items es : plain k -> object os l ml (PyList items) -> 0 < ml -> Forall2 (fun r e => alive os r (PyStruct k (e_addr e) [])) items es ->
  Forall (fun f => exists n, own h k n f) es -> NoDup (foot es) ->
  exists os' h' f, decref_in (S (S fuel)) (St os h) l = Ok (St os' h') /\ length os' = length os /\ gave_up os os' l ml items /\
    (forall x, x <> l -> (ml = 1 -> ~ In x items) -> nth_error os' x = nth_error os x) /\
    freed_all f h h' /\ (forall x, In x f <-> ml = 1 /\ In x (dying os (combine items es))).
Proof.
  intros Pk Hl Hml F O N. assert (Nl : ~ In l items).
  { intros I. destruct (Forall2_in _ _ _ F _ I) as (e & _ & [m He]). destruct (object_fun _ _ _ _ _ _ Hl He) as [_ E]. discriminate E. }
  assert (Ll : l < length os) by (eapply object_lt; exact Hl).
  destruct ml as [|[|ml]]; [lia| |].
  - set (os1 := put_obj os l (Some (0, PyList items))).
    assert (G1 : forall r, In r items -> nth_error os1 r = nth_error os r) by (intros r Ir; apply put_obj_other; intros ->; contradiction).
    set (ps := combine items es). assert (Eps : map fst ps = items) by (eapply combine_fst; exact F). assert (Eps2 : map snd ps = es) by (eapply combine_snd; exact F).
    destruct (release_items k fuel Pk (rev ps) os1 h) as (os2 & h2 & E2 & L2 & [Lo1 Lo2] & G2 & F2).
    { apply Forall_forall. intros q Iq. apply in_rev in Iq. pose proof (combine_all _ _ _ F) as Fa. rewrite Forall_forall in Fa. destruct (Fa q Iq) as [m Hm]. exists m.
      unfold object. rewrite G1; [exact Hm|]. rewrite <- Eps. apply in_map. exact Iq. }
    { apply Forall_forall. intros q Iq. apply in_rev in Iq. rewrite Forall_forall in O. apply O. rewrite <- Eps2. apply in_map. exact Iq. }
    { rewrite map_rev, Eps2. apply foot_rev_nodup. exact N. }
    rewrite map_rev, Eps in Lo1, Lo2, G2.
    assert (Lr : l < length os2) by (rewrite L2; unfold os1; rewrite put_obj_length; lia).
    exists (put_obj os2 l None), h2, (dying os1 (rev ps)). split; [|split; [|split; [|split; [|split]]]].
    + remember (S fuel) as fu. cbn [decref_in]. rewrite (obj_ok (St os h) l _ _ Hl). cbn [bind]. unfold set_obj. cbn [objs mem]. fold os1.
      rewrite <- Eps at 1. rewrite <- map_rev. rewrite E2. reflexivity.
    + rewrite put_obj_length, L2. unfold os1. apply put_obj_length.
    + split; [intros _; split; [apply put_obj_same; exact Lr|]|lia]. split.
      * intros x c b I Hx. unfold object. rewrite put_obj_other by (intros ->; contradiction). apply (Lo1 x c b); [apply in_rev; rewrite rev_involutive; exact I|]. unfold object. rewrite G1 by exact I. exact Hx.
      * intros x b I Hx. rewrite put_obj_other by (intros ->; contradiction). apply (Lo2 x b); [apply in_rev; rewrite rev_involutive; exact I|]. unfold object. rewrite G1 by exact I. exact Hx.
    + intros x Nx Ni. rewrite put_obj_other by exact Nx. rewrite G2 by (intros I; apply (Ni eq_refl); apply in_rev; exact I). apply put_obj_other. exact Nx.
    + exact F2.
    + intros x. rewrite dying_rev. rewrite (dying_same os os1); [split; [tauto|intros [_ ?]; assumption]|]. intros q Iq. apply G1. rewrite <- Eps. apply in_map. exact Iq.
  - exists (put_obj os l (Some (S ml, PyList items))), h, []. split; [apply decref_more; exact Hl|]. split; [apply put_obj_length|]. split; [|split; [|split]].
    + split; [lia|]. intros _. split; [cbn; apply (object_put_same os l _ _ (S ml, PyList items) Hl)|]. apply Forall_forall. intros x Ix. apply put_obj_other. intros ->. contradiction.
    + intros x Nx _. apply put_obj_other. exact Nx.
    + apply freed_nil.
    + intros x. split; [intros []|intros [? _]; discriminate].
Qed.

Definition thread_object (os : objects) (tk fk : kind) (t : py_thread) : Prop :=
  alive os (pt_ref t) (PyStruct tk (e_addr (pt_entry t)) [Some (pt_list t)]) /\ py_list os (pt_list t) fk (pt_items t) (pt_frames t).
Lemma gave_up_same os1 os1' os os' l ml items : gave_up os1 os1' l ml items -> (forall x, In x (l :: items) -> nth_error os1 x = nth_error os x) ->
  (forall x, In x (l :: items) -> nth_error os1' x = nth_error os' x) -> gave_up os os' l ml items.
Proof.
  intros [G1 G2] E E'. split.
  - intros H. destruct (G1 H) as [D [L1 L2]]. split; [rewrite <- E' by (left; reflexivity); exact D|]. split.
    + intros x n b Ix Hx. unfold object. rewrite <- E' by (right; exact Ix). apply (L1 x n b Ix). unfold object. rewrite E by (right; exact Ix). exact Hx.
    + intros x b Ix Hx. rewrite <- E' by (right; exact Ix). apply (L2 x b Ix). unfold object. rewrite E by (right; exact Ix). exact Hx.
  - intros H. destruct (G2 H) as [D F]. split; [unfold object; rewrite <- E' by (left; reflexivity); exact D|]. rewrite Forall_forall in *. intros x Ix.
    rewrite <- E', <- E by (right; exact Ix). apply F. exact Ix.
Qed.
Lemma lost_in_foot os h tk fk n t x : Forall2 (fun r e => alive os r (PyStruct fk (e_addr e) [])) (pt_items t) (pt_frames t) ->
  unlinked_thread h tk fk n (pt_entry t) (pt_frames t) -> thread_lost os t x -> In x (e_foot (pt_entry t)).
Proof.
  intros Ft Ut [_ [[I _]|[_ I]]]; [exact I|]. apply dying_in in I. rewrite (combine_snd _ _ _ Ft) in I.
  destruct Ut as (? & ? & ? & ? & ? & ? & ? & ? & ? & _ & _ & _ & _ & _ & _ & Ef & _). rewrite Ef. right. apply in_app_iff. right. apply in_app_iff. right. exact I.
Qed.

Lemma thread_released fuel os h tk fk n t : thread_object os tk fk t -> unlinked_thread h tk fk n (pt_entry t) (pt_frames t) -> NoDup (e_foot (pt_entry t)) ->
  exists os' h' f, decref_in (S (S (S fuel))) (St os h) (pt_ref t) = Ok (St os' h') /\ length os' = length os /\ thread_left os os' t /\
    (forall x, ~ In x (pt_refs t) -> nth_error os' x = nth_error os x) /\ freed_all f h h' /\ (forall x, In x f <-> thread_lost os t x).
Proof.
  destruct t as [r l items e es]. unfold thread_object, thread_left, thread_lost, pt_refs. cbn [pt_ref pt_list pt_items pt_entry pt_frames].
  intros [[m Hr] [[ml Hl] A]] U N. destruct m as [|m].
  2:{ exists (put_obj os r (Some (S m, PyStruct tk (e_addr e) [Some l]))), h, []. split; [apply decref_more; exact Hr|]. split; [apply put_obj_length|]. split; [|split; [|split]].
    - split.
      + intros n' b Hb. destruct (object_fun _ _ _ _ _ _ Hr Hb) as [E <-]. injection E as <-. split; [apply (object_put_same os r _ _ (S m, PyStruct tk (e_addr e) [Some l]) Hr)|].
        apply Forall_forall. intros x Ix. apply put_obj_other. intros ->. destruct Ix as [->|Ix].
        * destruct (object_fun _ _ _ _ _ _ Hr Hl) as [_ E]. discriminate E.
        * destruct (Forall2_in _ _ _ A _ Ix) as (f & _ & [mf Hf]). destruct (object_fun _ _ _ _ _ _ Hr Hf) as [_ E]. injection E as _ _ E. discriminate E.
      + intros b ml' Hb. destruct (object_fun _ _ _ _ _ _ Hr Hb) as [E _]. discriminate E.
    - intros x Hx. apply put_obj_other. intros ->. apply Hx. left. reflexivity.
    - apply freed_nil.
    - intros x. split; [intros []|]. intros [[b Hb] _]. destruct (object_fun _ _ _ _ _ _ Hr Hb) as [E _]. discriminate E. }
  destruct U as (scal & strs & p & ss & fs & arr & sarr & fa & raw & Hk & Hc & Lp & Os & Oa & Ev & Ef & Fo & He).
  destruct (thread_holder _ _ Hk) as [Hrel Hfree].
  assert (Nrl : r <> l) by (intros ->; destruct (object_fun _ _ _ _ _ _ Hr Hl) as [_ E]; discriminate E).
  assert (Nr : ~ In r items).
  { intros I. destruct (Forall2_in _ _ _ A _ I) as (f & _ & [mf Hf]). destruct (object_fun _ _ _ _ _ _ Hr Hf) as [_ E]. injection E as _ _ E. discriminate E. }
  set (body := PyStruct tk (e_addr e) [Some l]) in *.
  set (os1 := put_obj os r (Some (0, body))).
  assert (G1 : forall x, x <> r -> nth_error os1 x = nth_error os x) by (intros x N1; apply put_obj_other; exact N1).
  assert (Gi : forall x, In x (l :: items) -> nth_error os1 x = nth_error os x) by (intros x [<-|I]; apply G1; [auto|intros ->; contradiction]).
  pose proof N as N0. rewrite Ef in N0. inversion N0 as [|? ? Na N1]; subst. apply NoDup_app_inv in N1 as (Nfs & N1 & D1). apply NoDup_app_inv in N1 as (Nfa & Nfk & D2). rewrite !in_app_iff in Na.
  destruct (list_given_up_in fuel os1 h l fk (S ml) items es (frame_plain _ _ Hk)) as (os2 & h2 & f2 & E2 & L2 & Gu & G2 & F2 & If2).
  { unfold object. rewrite Gi by (left; reflexivity). exact Hl. }
  { lia. }
  { clear - A Gi. assert (Gi' : forall x, In x items -> nth_error os1 x = nth_error os x) by (intros x Ix; apply Gi; right; exact Ix). clear Gi. revert Gi'.
    induction A as [|a b la lb [mb Hb] F IHF]; intros Gi; constructor; [|apply IHF; intros x Ix; apply Gi; right; exact Ix]. exists mb. unfold object. rewrite Gi by (left; reflexivity). exact Hb. }
  { exact Fo. }
  { exact Nfk. }
  assert (Ed : dying os1 (combine items es) = dying os (combine items es)) by (apply dying_combine_same; intros x Ix; apply Gi; right; exact Ix).
  rewrite Ed in If2.
  assert (Sub : forall x, In x f2 -> In x (foot es)) by (intros x I; apply If2 in I as [_ I]; apply dying_in in I; rewrite (combine_snd _ _ _ A) in I; exact I).
  assert (Hc2 : nth_error h2 (e_addr e) = Some (CObj tk scal strs [p] arr raw n)).
  { destruct F2 as (_ & S2 & _). rewrite S2; [exact Hc|]. intros I. apply Sub in I. apply Na; right; right; exact I. }
  assert (Sm : forall g, (forall x, In x g -> ~ In x (foot es)) -> same_on g h h2).
  { intros g Hg. eapply freed_same_on; [exact F2|]. intros x Ix I. exact (Hg x Ix (Sub x I)). }
  destruct (empty_freed h2 tk (fk, true) n (e_addr e) scal strs ss fs arr sarr fa raw p (kid_of_frames _ _ Hk) Hc2 Lp) as (h3 & h4 & E3 & E4 & F4).
  { eapply own_strs_same; [exact Os|]. apply Sm. intros x Ix I. apply (D1 x Ix). apply in_app_iff. right. exact I. }
  { eapply own_arr_same; [exact Oa|]. apply Sm. exact D2. }
  { constructor; [rewrite in_app_iff; tauto|]. apply NoDup_app2; [exact Nfs|exact Nfa|]. intros x I1 I2. apply (D1 x I1). apply in_app_iff. left. exact I2. }
  assert (Lr : r < length os) by (eapply object_lt; exact Hr).
  assert (L1 : length os1 = length os) by (unfold os1; apply put_obj_length).
  exists (put_obj os2 r None), h4, (f2 ++ e_addr e :: fs ++ fa). split.
  { remember (S (S fuel)) as fu eqn:Efu. cbn [decref_in]. rewrite (obj_ok (St os h) r _ _ Hr). cbn [bind]. unfold body at 1. rewrite Hrel. cbn [firstn each_ref]. unfold set_obj at 1. cbn [objs mem].
    fold os1. rewrite E2. cbn [bind objs mem]. rewrite E3. cbn [bind]. rewrite Hfree, E4. cbn [bind]. reflexivity. }
  split; [rewrite put_obj_length; lia|]. split; [|split; [|split]].
  - split.
    + intros n' b Hb. destruct (object_fun _ _ _ _ _ _ Hr Hb) as [E _]. discriminate E.
    + intros b ml' _ Hl'. destruct (object_fun _ _ _ _ _ _ Hl Hl') as [<- _]. split; [apply put_obj_same; lia|]. eapply gave_up_same; [exact Gu|exact Gi|].
      intros x Ix. symmetry. apply put_obj_other. destruct Ix as [<-|Ix]; [auto|intros ->; contradiction].
  - intros x Hx. cbn [In] in Hx. rewrite put_obj_other by (intros ->; tauto). rewrite G2; [apply G1; intros ->; tauto|intros ->; tauto|tauto].
  - eapply freed_app; eassumption.
  - intros x. rewrite in_app_iff, If2. unfold own_cells. rewrite Ef. cbn [In]. rewrite !in_app_iff. split.
    + intros [[E I]|[<-|[I|I]]]; (split; [exists body; exact Hr|]); [right; split; [rewrite E in Hl; eexists; exact Hl|exact I]| | |]; left.
      * split; [left; reflexivity|tauto].
      * split; [tauto|]. intros J. apply (D1 x I). apply in_app_iff. right. exact J.
      * split; [tauto|]. exact (D2 x I).
    + intros [_ [[I J]|[[b Hb] I]]]; [right; tauto|]. left. split; [|exact I]. destruct (object_fun _ _ _ _ _ _ Hl Hb) as [E _]. exact E.
Qed.
