From Verif Require Import Base HeapModel HeapSpec HeapProofs HeapProofs2 HeapProofs3 HeapListModel HeapListSpec HeapListProofs HeapListProofs3 PyModel PySpec PyProofs PyProofs2 PyProofs3 PyProofs4.
Open Scope nat_scope.

(** ** Destruction *)
Lemma decref_more fuel os h r n b : object os r (S (S n)) b -> decref_in (S fuel) (St os h) r = Ok (St (put_obj os r (Some (S n, b))) h).
Proof. intros H. cbn [decref_in]. rewrite (obj_ok (St os h) r _ _ H). reflexivity. Qed.
Lemma put_none os r n b : object os r n b -> nth_error (put_obj os r None) r = Some None.
Proof. intros H. apply put_obj_same. eapply object_lt; exact H. Qed.
Definition plain (k : kind) : Prop := released k = (0, []) /\ forall h c, struct_free k h c = sr_free k h c.
Lemma frame_plain tk fk : frame_kind tk = Some fk -> plain fk.
Proof. destruct tk; cbn; intros H; try discriminate; injection H as <-; split; reflexivity. Qed.
Lemma decref_plain fuel os h r k n e : plain k -> object os r 1 (PyStruct k (e_addr e) []) -> own h k n e -> NoDup (e_foot e) ->
  exists h', decref_in (S fuel) (St os h) r = Ok (St (put_obj os r None) h') /\ freed_all (e_foot e) h h'.
Proof.
  intros [Pr Pf] H O N. cbn [decref_in]. rewrite (obj_ok (St os h) r _ _ H). cbn [bind]. rewrite Pr. cbn [firstn each_ref bind]. unfold set_obj. cbn [objs mem].
  rewrite Pf. destruct (sr_free_ok k h n e O N) as (h' & E & F). rewrite E. cbn [bind]. unfold with_mem. cbn [objs mem]. rewrite put_obj_twice. exists h'. split; [reflexivity|exact F].
Qed.
Lemma dying_same os os' ps : (forall p, In p ps -> nth_error os' (fst p) = nth_error os (fst p)) -> dying os' ps = dying os ps.
Proof. intros H. unfold dying. f_equal. apply map_ext_in. intros p Ip. rewrite (H p Ip). reflexivity. Qed.
Lemma dying_in os ps x : In x (dying os ps) -> In x (foot (map snd ps)).
Proof.
  unfold dying. intros I. apply in_concat in I as (c & Ic & I). apply in_map_iff in Ic as (p & <- & Ip). eapply in_foot; [apply in_map; exact Ip|].
  destruct (nth_error os (fst p)) as [[[[|[|?]] ?]|]|]; try destruct I; assumption.
Qed.
Lemma release_items k fuel : plain k -> forall ps os h,
  Forall (fun p => alive os (fst p) (PyStruct k (e_addr (snd p)) [])) ps -> Forall (fun p => exists n, own h k n (snd p)) ps -> NoDup (foot (map snd ps)) ->
  exists os' h', each_ref (decref_in (S fuel)) (St os h) (map Some (map fst ps)) = Ok (St os' h') /\ length os' = length os /\
    lost_one os os' (map fst ps) /\ (forall r, ~ In r (map fst ps) -> nth_error os' r = nth_error os r) /\ freed_all (dying os ps) h h'.
Proof.
  intros Pk. induction ps as [|[r e] ps IH]; intros os h A O N.
  - exists os, h. split; [reflexivity|]. split; [reflexivity|]. split; [split; [intros ? ? ? []|intros ? ? []]|]. split; [reflexivity|]. apply freed_nil.
  - inversion A as [|? ? [m Ar] A']; subst. inversion O as [|? ? [n Oe] O']; subst. cbn [fst snd] in *. cbn [map fst snd] in *. rewrite foot_cons in N. apply NoDup_app_inv in N as (Ne & N & D).
    assert (Nr : ~ In r (map fst ps)).
    { intros I. apply in_map_iff in I as ([r' e'] & Er & I). cbn in Er. subst r'. rewrite Forall_forall in A', O'. destruct (A' _ I) as [m' A2]. destruct (O' _ I) as [n' O2]. cbn [fst snd] in *.
      destruct (object_fun _ _ _ _ _ _ Ar A2) as [_ E]. injection E as E. apply (D (e_addr e)); [eapply own_foot; exact Oe|]. rewrite E.
      eapply in_foot; [apply in_map_iff; exists (r, e'); split; [reflexivity|exact I]|]. eapply own_foot; exact O2. }
    assert (St1 : exists os1 h1, decref_in (S fuel) (St os h) r = Ok (St os1 h1) /\ length os1 = length os /\ (forall x, x <> r -> nth_error os1 x = nth_error os x) /\
      lost_one os os1 [r] /\ freed_all (match nth_error os r with Some (Some (1, _)) => e_foot e | _ => [] end) h h1).
    { destruct m as [|m].
      - destruct (decref_plain fuel os h r k n e Pk Ar Oe Ne) as (h1 & E1 & F1). exists (put_obj os r None), h1. split; [exact E1|]. split; [apply put_obj_length|].
        split; [intros x Nx; apply put_obj_other; exact Nx|]. split; [|unfold object in Ar; rewrite Ar; exact F1]. split.
        + intros x c b [<-|[]] Hx. destruct (object_fun _ _ _ _ _ _ Ar Hx) as [E _]. discriminate E.
        + intros x b [<-|[]] Hx. eapply put_none; exact Ar.
      - exists (put_obj os r (Some (S m, PyStruct k (e_addr e) []))), h. split; [apply decref_more; exact Ar|]. split; [apply put_obj_length|].
        split; [intros x Nx; apply put_obj_other; exact Nx|]. split; [|unfold object in Ar; rewrite Ar; apply freed_nil]. split.
        + intros x c b [<-|[]] Hx. destruct (object_fun _ _ _ _ _ _ Ar Hx) as [E <-]. injection E as <-. apply (object_put_same os r (S (S m)) _ (S m, PyStruct k (e_addr e) []) Ar).
        + intros x b [<-|[]] Hx. destruct (object_fun _ _ _ _ _ _ Ar Hx) as [E _]. discriminate E. }
    destruct St1 as (os1 & h1 & E1 & L1 & G1 & [Lo1 Lo2] & F1).
    assert (Sub : forall x, In x (match nth_error os r with Some (Some (1, _)) => e_foot e | _ => [] end) -> In x (e_foot e)).
    { intros x. destruct (nth_error os r) as [[[[|[|?]] ?]|]|]; cbn [In]; tauto. }
    cbn [each_ref]. rewrite E1. cbn [bind].
    destruct (IH os1 h1) as (os2 & h2 & E2 & L2 & [Lp1 Lp2] & G2 & F2); [| |exact N|].
    { rewrite Forall_forall in *. intros p Ip. destruct (A' p Ip) as [m' H']. exists m'. unfold object. rewrite G1; [exact H'|]. intros E. apply Nr. rewrite <- E. apply in_map. exact Ip. }
    { rewrite Forall_forall in *. intros p Ip. destruct (O' p Ip) as [n' H']. exists n'. eapply own_same; [exact H'|]. eapply freed_same_on; [exact F1|].
      intros x Ix I. apply (D x (Sub x I)). eapply in_foot; [apply in_map; exact Ip|exact Ix]. }
    rewrite E2. exists os2, h2. split; [reflexivity|]. split; [lia|]. split; [|split].
    + split.
      * intros x c b [<-|I] Hx; [unfold object; rewrite G2 by exact Nr; apply (Lo1 _ c b); [left; reflexivity|exact Hx]|].
        apply (Lp1 x c b I). unfold object. rewrite G1; [exact Hx|]. intros ->. contradiction.
      * intros x b [<-|I] Hx; [rewrite G2 by exact Nr; apply (Lo2 _ b); [left; reflexivity|exact Hx]|].
        apply (Lp2 x b I). unfold object. rewrite G1; [exact Hx|]. intros ->. contradiction.
    + intros x Hx. rewrite G2 by (intros I; apply Hx; right; exact I). apply G1. intros ->. apply Hx. left. reflexivity.
    + unfold dying. cbn [map concat fst snd]. eapply freed_app; [exact F1|].
      replace (concat (map _ ps)) with (dying os1 ps); [exact F2|]. apply dying_same. intros p Ip. apply G1. intros E. apply Nr. rewrite <- E. apply in_map. exact Ip.
Qed.

Lemma dying_rev os ps x : In x (dying os (rev ps)) <-> In x (dying os ps).
Proof.
  unfold dying. rewrite !in_concat. split; intros (c & Ic & I); exists c; (split; [|exact I]); apply in_map_iff in Ic as (p & Ep & Ip); apply in_map_iff; exists p; (split; [exact Ep|]); apply in_rev; [|rewrite rev_involutive]; exact Ip.
Qed.
Lemma foot_rev_nodup (es : list entry) : NoDup (foot es) -> NoDup (foot (rev es)).
Proof.
  induction es as [|e es IH]; intros N; [exact N|]. cbn [rev]. rewrite foot_app. rewrite foot_cons in N. apply NoDup_app_inv in N as (Ne & N & D).
  apply NoDup_app2; [apply IH; exact N|cbn; rewrite app_nil_r; exact Ne|]. intros x I1 I2. cbn in I2. rewrite app_nil_r in I2. apply (D x I2).
  unfold foot in *. apply in_concat in I1 as (c & Ic & I1). apply in_concat. exists c. split; [|exact I1]. rewrite map_rev in Ic. apply in_rev. exact Ic.
Qed.

Definition holder (k : kind) : Prop := released k = (1, [true]) /\ forall h c, struct_free k h c = sr_free k h c.
Lemma thread_holder tk fk : frame_kind tk = Some fk -> holder tk.
Proof. destruct tk; cbn; intros H; try discriminate; split; reflexivity. Qed.
Lemma clear_ok h a k scal ps p arr raw n : nth_error h a = Some (CObj k scal ps [p] arr raw n) ->
  exists h', clear h a [true] = Ok h' /\ nth_error h' a = Some (CObj k scal ps [None] arr raw n) /\ same_outside [a] h h' /\ length h' = length h.
Proof.
  intros H. unfold clear. rewrite (get_live _ _ _ H) by discriminate. cbn [bind clear_kids]. rewrite (set_live _ _ _ _ H) by discriminate.
  eexists. split; [reflexivity|]. split; [apply put_same; apply nth_error_Some; congruence|]. split; [|apply put_length].
  intros x Hx. apply put_other. intros ->. apply Hx. left. reflexivity.
Qed.
(* what is left of a structure with one list when its list has been cleared is freed *)
Lemma empty_freed h k ops n a scal ps ss fs arr sarr fa raw p : kid_ops k = [ops] ->
  nth_error h a = Some (CObj k scal ps [p] arr raw n) -> length ps = length (str_ops k) -> own_strs h ps ss fs -> own_arr h arr sarr fa -> NoDup (a :: fs ++ fa) ->
  exists h1 h2, clear h a [true] = Ok h1 /\ sr_free k h1 a = Ok h2 /\ freed_all (a :: fs ++ fa) h h2.
Proof.
  intros Hk Hc Lp Os Oa N. destruct (clear_ok _ _ _ _ _ _ _ _ _ Hc) as (h1 & E1 & Hc1 & S1 & L1).
  inversion N as [|? ? Na N']; subst. rewrite in_app_iff in Na.
  assert (Sm : forall g, ~ In a g -> same_on g h h1) by (intros g Hg x Ix; apply S1; intros [<-|[]]; contradiction).
  assert (O : own h1 k n (a, Val scal ss sarr [map e_val []], a :: fs ++ fa ++ foot [] ++ [])).
  { eapply own_obj; [exact Hc1|exact Lp|eapply own_strs_same; [exact Os|apply Sm; tauto]|eapply own_arr_same; [exact Oa|apply Sm; tauto]|].
    rewrite Hk. destruct ops. econstructor; [constructor|cbn; lia|constructor]. }
  cbn [foot map concat app] in O. rewrite app_nil_r in O.
  destruct (sr_free_ok k h1 n _ O) as (h2 & E2 & F2); [exact N|]. cbn [e_addr e_foot fst snd] in *.
  exists h1, h2. split; [exact E1|]. split; [exact E2|]. destruct F2 as (L2 & S2 & F2). split; [lia|]. split; [|exact F2].
  intros x Hx. rewrite S2 by exact Hx. apply S1. intros [<-|[]]. apply Hx. left. reflexivity.
Qed.

Lemma thread_destroyed fuel os h r l tk fk n e ps :
  object os r 1 (PyStruct tk (e_addr e) [Some l]) -> object os l 1 (PyList (map fst ps)) ->
  Forall (fun p => alive os (fst p) (PyStruct fk (e_addr (snd p)) [])) ps -> unlinked_thread h tk fk n e (map snd ps) -> NoDup (e_foot e) ->
  exists os' h', decref_in (S (S (S fuel))) (St os h) r = Ok (St os' h') /\ length os' = length os /\ nth_error os' r = Some None /\ nth_error os' l = Some None /\
    lost_one os os' (map fst ps) /\ (forall x, x <> r -> x <> l -> ~ In x (map fst ps) -> nth_error os' x = nth_error os x) /\
    exists f, freed_all f h h' /\ (forall x, In x f <-> own_cells e (map snd ps) x \/ In x (dying os ps)).
Proof.
  intros Hr Hl A (scal & strs & p & ss & fs & arr & sarr & fa & raw & Hk & Hc & Lp & Os & Oa & Ev & Ef & Fo & He) N.
  destruct (thread_holder _ _ Hk) as [Hrel Hfree].
  assert (Nrl : r <> l) by (intros ->; destruct (object_fun _ _ _ _ _ _ Hr Hl) as [_ E]; discriminate E).
  assert (Fk : fk <> tk) by (destruct tk; cbn in Hk; try discriminate; injection Hk as <-; discriminate).
  assert (Nr : ~ In r (map fst ps)).
  { intros I. apply in_map_iff in I as (q & Eq & Iq). rewrite Forall_forall in A. destruct (A q Iq) as [m Aq]. rewrite Eq in Aq. destruct (object_fun _ _ _ _ _ _ Hr Aq) as [_ E]. injection E as E _ _. congruence. }
  assert (Nl : ~ In l (map fst ps)).
  { intros I. apply in_map_iff in I as (q & Eq & Iq). rewrite Forall_forall in A. destruct (A q Iq) as [m Aq]. rewrite Eq in Aq. destruct (object_fun _ _ _ _ _ _ Hl Aq) as [_ E]. discriminate E. }
  set (body := PyStruct tk (e_addr e) [Some l]) in *. set (lb := PyList (map fst ps)) in *.
  set (os1 := put_obj (put_obj os r (Some (0, body))) l (Some (0, lb))).
  assert (G1 : forall x, x <> r -> x <> l -> nth_error os1 x = nth_error os x) by (intros x N1 N2; unfold os1; rewrite !put_obj_other by assumption; reflexivity).
  assert (Gp : forall q, In q ps -> nth_error os1 (fst q) = nth_error os (fst q)).
  { intros q Iq. apply G1; intros E; [apply Nr|apply Nl]; rewrite <- E; apply in_map; exact Iq. }
  pose proof N as N0. rewrite Ef in N0. inversion N0 as [|? ? Na N1]; subst. apply NoDup_app_inv in N1 as (Nfs & N1 & D1). apply NoDup_app_inv in N1 as (Nfa & Nfk & D2). rewrite !in_app_iff in Na.
  destruct (release_items fk fuel (frame_plain _ _ Hk) (rev ps) os1 h) as (os2 & h2 & E2 & L2 & [Lo1 Lo2] & G2 & F2).
  { rewrite Forall_forall in *. intros q Iq. apply in_rev in Iq. destruct (A q Iq) as [m Aq]. exists m. unfold object. rewrite Gp by exact Iq. exact Aq. }
  { rewrite Forall_forall in *. intros q Iq. apply in_rev in Iq. apply Fo. apply in_map. exact Iq. }
  { rewrite map_rev. apply foot_rev_nodup. exact Nfk. }
  assert (Hc2 : nth_error h2 (e_addr e) = Some (CObj tk scal strs [p] arr raw n)).
  { destruct F2 as (_ & S2 & _). rewrite S2; [exact Hc|]. intros I. rewrite dying_rev in I. apply dying_in in I. apply Na; right; right; exact I. }
  assert (Sm : forall g, (forall x, In x g -> ~ In x (foot (map snd ps))) -> same_on g h h2).
  { intros g Hg. eapply freed_same_on; [exact F2|]. intros x Ix I. rewrite dying_rev in I. apply dying_in in I. exact (Hg x Ix I). }
  destruct (empty_freed h2 tk (fk, true) n (e_addr e) scal strs ss fs arr sarr fa raw p (kid_of_frames _ _ Hk) Hc2 Lp) as (h3 & h4 & E3 & E4 & F4).
  { eapply own_strs_same; [exact Os|]. apply Sm. intros x Ix I. apply (D1 x Ix). apply in_app_iff. right. exact I. }
  { eapply own_arr_same; [exact Oa|]. apply Sm. exact D2. }
  { constructor; [rewrite in_app_iff; tauto|]. apply NoDup_app2; [exact Nfs|exact Nfa|]. intros x I1 I2. apply (D1 x I1). apply in_app_iff. left. exact I2. }
  assert (Lr : r < length os) by (eapply object_lt; exact Hr). assert (Ll : l < length os) by (eapply object_lt; exact Hl).
  assert (L1 : length os1 = length os) by (unfold os1; rewrite !put_obj_length; reflexivity).
  exists (put_obj (put_obj os2 l None) r None), h4. split.
  { remember (S (S fuel)) as fu eqn:Efu. cbn [decref_in]. rewrite (obj_ok (St os h) r _ _ Hr). cbn [bind]. unfold body at 1. rewrite Hrel. cbn [firstn each_ref]. unfold set_obj at 1. cbn [objs mem].
    rewrite Efu. remember (S fuel) as fu2 eqn:Efu2. cbn [decref_in].
    rewrite (obj_ok (St (put_obj os r (Some (0, body))) h) l 1 lb) by (apply object_put; [exact Hl|auto]). cbn [bind]. unfold lb at 1. unfold set_obj. cbn [objs mem].
    fold os1. rewrite <- map_rev, E2. cbn [bind objs mem]. cbn [mem] in E3. rewrite E3. cbn [bind]. rewrite Hfree, E4. cbn [bind]. reflexivity. }
  split; [rewrite !put_obj_length; lia|]. split; [apply put_obj_same; rewrite put_obj_length; lia|].
  split; [rewrite put_obj_other by auto; apply put_obj_same; lia|]. split; [|split].
  - assert (Gf : forall x, In x (map fst ps) -> nth_error (put_obj (put_obj os2 l None) r None) x = nth_error os2 x).
    { intros x Ix. rewrite !put_obj_other; [reflexivity| |]; intros ->; contradiction. }
    assert (Gi : forall x, In x (map fst ps) -> nth_error os1 x = nth_error os x) by (intros x Ix; apply G1; intros ->; contradiction).
    assert (Ir : forall x, In x (map fst ps) -> In x (map fst (rev ps))) by (intros x Ix; rewrite map_rev; apply in_rev; rewrite rev_involutive; exact Ix).
    split.
    + intros x c b Ix Hx. unfold object. rewrite Gf by exact Ix. apply (Lo1 x c b (Ir x Ix)). unfold object. rewrite Gi by exact Ix. exact Hx.
    + intros x b Ix Hx. rewrite Gf by exact Ix. apply (Lo2 x b (Ir x Ix)). unfold object. rewrite Gi by exact Ix. exact Hx.
  - intros x N1 N2 N3. rewrite !put_obj_other by assumption. rewrite G2 by (rewrite map_rev; intros I; apply N3, in_rev; exact I). apply G1; assumption.
  - exists (dying os1 (rev ps) ++ e_addr e :: fs ++ fa). split; [eapply freed_app; eassumption|].
    intros x. rewrite in_app_iff, dying_rev. rewrite (dying_same os os1 ps Gp). unfold own_cells. rewrite Ef. cbn [In]. rewrite !in_app_iff. split.
    + intros [I|[<-|[I|I]]]; [right; exact I| | |]; left.
      * split; [left; reflexivity|tauto].
      * split; [tauto|]. intros J. apply (D1 x I). apply in_app_iff. right. exact J.
      * split; [tauto|]. exact (D2 x I).
    + intros [[I J]|I]; [|left; exact I]. right. tauto.
Qed.
