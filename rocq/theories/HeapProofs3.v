From Verif Require Import Base HeapModel HeapSpec HeapProofs HeapProofs2.

(** ** A thread as a structure and as a list of frames *)
Lemma thread_of_own : forall h k n e fk, own h k n e -> frame_kind k = Some fk -> NoDup (e_foot e) ->
  kid_ops k = [(fk, true)] ->
  exists rest l scal ss sarr other,
    thread_is h (e_addr e) rest fk l /\ e_val e = Val scal ss sarr [map e_val l] /\
    e_foot e = e_addr e :: other ++ foot l /\
    (forall h' l', thread_is h' (e_addr e) rest fk l' -> same_on other h h' ->
       own h' k n (e_addr e, Val scal ss sarr [map e_val l'], e_addr e :: other ++ foot l')).
Proof.
  intros h k n e fk O Hk N Hops.
  destruct (own_inv _ _ _ _ O) as (scal & ps & ss & fs & ks & vss & f & arr & sarr & fa & raw & Ev & Ef & Hc & Lp & Os & Oa & Ok').
  rewrite Hops in Ok'. inversion Ok' as [|? ? ? p ps' l vss' f' Ol Os' Ok2]; subst.
  inversion Ok2; subst. rewrite app_nil_r in Ef.
  exists (fun p => CObj k scal ps (p :: []) arr raw n), l, scal, ss, sarr, (fs ++ fa).
  rewrite Ef in N. inversion N as [|? ? Na N']; subst. rewrite !in_app_iff in Na.
  split.
  { exists p, k, scal, ps, [], arr, raw, n. split; [reflexivity|]. split; [exact Hk|]. split; [exact Hc|].
    split; [exact Ol|]. apply NoDup_app_inv in N'. destruct N' as (_ & N' & _). apply NoDup_app_inv in N'.
    destruct N' as (_ & N' & _). constructor; tauto. }
  split; [exact Ev|]. split; [rewrite <- app_assoc; exact Ef|].
  intros h' l' (p' & k' & scal' & strs' & kids' & arr' & raw' & next' & E & Hk' & Ht & Ol' & N2) S.
  assert (E' := f_equal (fun f => f None) E). cbn in E'. inversion E'; subst. clear E'.
  apply same_on_app in S. destruct S as [S1 S2].
  rewrite <- app_assoc. rewrite <- (app_nil_r (foot l')).
  econstructor; [exact Ht|exact Lp|eapply own_strs_same; eassumption|eapply own_arr_same; eassumption|].
  rewrite Hops. econstructor; [exact Ol'|discriminate|constructor].
Qed.

Lemma foot_split : forall (l : list entry) n, foot l = foot (firstn n l) ++ foot (skipn n l).
Proof. intros l n. rewrite <- foot_app. now rewrite firstn_skipn. Qed.

Lemma limit_loop_ok : forall depth, (0 <= depth)%Z -> forall l fuel h p, own_list h KGdbThread p l ->
  NoDup (foot l) -> length l <= fuel ->
  exists h' l', limit_loop fuel h p depth = Ok h' /\ own_list h' KGdbThread p l' /\
    Forall2 (truncated (Z.to_nat depth)) (map e_val l) (map e_val l') /\
    NoDup (foot l') /\ (forall x, In x (foot l') -> In x (foot l)) /\
    (forall x, In x (foot l) -> ~ In x (foot l') -> freed h' x) /\
    same_outside (foot l) h h' /\ length h' = length h.
Proof.
  intros depth Hd. induction l as [|e l IH]; intros fuel h p O N Lf; inversion O as [|? n ? ? Oe Ol]; subst.
  - exists h, []. destruct fuel; (split; [reflexivity|]); (split; [constructor|]); (split; [constructor|]);
      (split; [constructor|]); (split; [auto|]); (split; [intros x []|]); split; try reflexivity; intros x _; reflexivity.
  - destruct fuel as [|fuel]; [cbn in Lf; lia|]. cbn [limit_loop].
    rewrite foot_cons in N |- *. apply NoDup_app_inv in N. destruct N as (Ne & Nl & D).
    destruct (thread_of_own _ _ _ _ KGdbFrame Oe eq_refl Ne eq_refl)
      as (rest & fl & scal & ss & sarr & other & T & Ev & Ef & Back).
    destruct (remove_frames_below_n_ok _ _ _ _ _ depth T Hd) as (h1 & E1 & T1 & F1 & So1 & L1).
    rewrite E1. cbn [bind].
    rewrite Ef in Ne. apply NoDup_cons_iff in Ne. destruct Ne as [Na Ne]. apply NoDup_app_inv in Ne.
    destruct Ne as (No & Nf & Df). rewrite in_app_iff in Na.
    assert (Sother : same_on other h h1).
    { intros x Hx. apply So1. intros [<-|I]; [tauto|]. exact (Df x Hx I). }
    specialize (Back h1 _ T1 Sother). set (e' := (e_addr e, _, _)) in Back.
    pose proof (own_next _ _ _ _ Back) as En. change (e_addr e') with (e_addr e) in En. rewrite En. cbn [bind].
    assert (Ol1 : own_list h1 KGdbThread n l).
    { eapply own_list_same; [exact Ol|]. intros x Hx. apply So1. intro I. apply (D x); [|exact Hx].
      rewrite Ef. destruct I as [<-|I]; [now left|]. right. apply in_or_app. now right. }
    destruct (IH fuel h1 n Ol1 Nl ltac:(cbn in Lf; lia)) as (h2 & l' & E2 & O2 & V2 & N2 & I2 & F2 & So2 & L2).
    assert (Fe' : forall x, In x (e_foot e') -> In x (e_foot e)).
    { intros x. rewrite Ef. cbn [e' e_foot snd]. cbn [In]. rewrite !in_app_iff.
      rewrite (foot_split fl (Z.to_nat depth)), in_app_iff. tauto. }
    exists h2, (e' :: l'). split; [exact E2|]. split.
    { change (Some (e_addr e)) with (Some (e_addr e')). econstructor; [|exact O2].
      eapply own_same; [exact Back|]. intros x Hx. apply So2. intro I. exact (D x (Fe' x Hx) I). }
    split.
    { cbn [map]. constructor; [|exact V2]. exists scal, ss, sarr, (map e_val fl). split; [exact Ev|].
      cbn [e' e_val fst snd]. now rewrite firstn_map. }
    split.
    { rewrite foot_cons. apply NoDup_app2; [|exact N2|].
      - cbn [e' e_foot snd]. rewrite (foot_split fl (Z.to_nat depth)) in Na, Nf, Df. rewrite in_app_iff in Na.
        apply NoDup_app_inv in Nf. destruct Nf as (Nf & _ & _).
        constructor; [rewrite in_app_iff; tauto|]. apply NoDup_app2; [exact No|exact Nf|].
        intros x Hx I. apply (Df x Hx). apply in_or_app. now left.
      - intros x Hx I. exact (D x (Fe' x Hx) (I2 x I)). }
    split.
    { intros x. rewrite foot_cons, !in_app_iff. intros [H|H]; [left; now apply Fe'|right; now apply I2]. }
    split.
    { intros x. rewrite foot_cons, !in_app_iff. intros [H|H] Hn.
      - unfold freed. rewrite So2 by exact (D x H). apply F1. rewrite Ef in H. cbn [In] in H. rewrite in_app_iff in H.
        rewrite (foot_split fl (Z.to_nat depth)), in_app_iff in H. cbn [e' e_foot snd In] in Hn. rewrite in_app_iff in Hn. tauto.
      - apply F2; tauto. }
    split; [|lia]. intros x Hx. rewrite in_app_iff in Hx. rewrite So2 by tauto. apply So1.
    intro I. apply Hx. left. rewrite Ef. destruct I as [<-|I]; [now left|]. right. apply in_or_app. now right.
Qed.

Theorem limit_frame_depth_ok : forall h n e depth, own h KGdbStack n e -> separate (e_foot e) -> (0 < depth)%Z ->
  exists h' e' scal strs arr crash threads threads' libs,
    limit_frame_depth h (e_addr e) depth = Ok h' /\ own h' KGdbStack n e' /\ e_addr e' = e_addr e /\
    e_val e = Val scal strs arr [crash; threads; libs] /\ e_val e' = Val scal strs arr [crash; threads'; libs] /\
    Forall2 (truncated (Z.to_nat depth)) threads threads' /\
    separate (e_foot e') /\ (forall x, In x (e_foot e) -> ~ In x (e_foot e') -> freed h' x) /\
    same_outside (e_foot e) h h'.
Proof.
  intros h n e depth O N Hd.
  destruct (own_inv _ _ _ _ O) as (scal & ps & ss & fs & ks & vss & f & arr & sarr & fa & raw & Ev & Ef & Hc & Lp & Os & Oa & Ok').
  cbn [kid_ops] in Ok'.
  inversion Ok' as [|? ? ? pc ps1 lc vss1 f1 Oc Osc Ok1]; subst.
  inversion Ok1 as [|? ? ? pt ps2 lt vss2 f2 Ot Ost Ok2]; subst.
  inversion Ok2 as [|? ? ? pl ps3 ll vss3 f3 Oll Osl Ok3]; subst.
  inversion Ok3; subst. rewrite app_nil_r in *.
  unfold limit_frame_depth. replace (depth <=? 0)%Z with false by (symmetry; apply Z.leb_gt; lia).
  rewrite (get_live _ _ _ Hc) by discriminate. cbn [bind].
  unfold separate in N. pose proof N as N0. rewrite Ef in N. apply NoDup_cons_iff in N. destruct N as [Na N].
  rewrite !in_app_iff in Na.
  apply NoDup_app_inv in N. destruct N as (Ns & N & Ds). apply NoDup_app_inv in N. destruct N as (Nfa & N & Da).
  apply NoDup_app_inv in N. destruct N as (Nc & N & Dc). apply NoDup_app_inv in N. destruct N as (Nt & Nl & Dt).
  destruct (limit_loop_ok depth ltac:(lia) lt (length h) h pt Ot Nt) as (h' & l' & E & O' & V & N' & I' & F' & So & Lh).
  { pose proof (foot_long _ _ _ _ Ot). assert (length (e_foot e) <= length h).
    { apply NoDup_bound; [exact N0|]. eapply own_valid; exact O. }
    rewrite Ef in H0. cbn [length] in H0. rewrite !app_length in H0. lia. }
  exists h', (e_addr e, Val scal ss sarr [map e_val lc; map e_val l'; map e_val ll],
              e_addr e :: fs ++ fa ++ foot lc ++ foot l' ++ foot ll ++ []),
    scal, ss, sarr, (map e_val lc), (map e_val lt), (map e_val l'), (map e_val ll).
  assert (D : forall g, (forall x, In x g -> ~ In x (foot lt)) -> same_on g h h').
  { intros g Hg x Hx. apply So, Hg, Hx. }
  assert (Dsl : forall x, In x fs -> ~ In x (foot lt)) by (intros x Hx I; apply (Ds x Hx); rewrite !in_app_iff; tauto).
  assert (Dal : forall x, In x fa -> ~ In x (foot lt)) by (intros x Hx I; apply (Da x Hx); rewrite !in_app_iff; tauto).
  assert (Dcl : forall x, In x (foot lc) -> ~ In x (foot lt)) by (intros x Hx I; apply (Dc x Hx); rewrite !in_app_iff; tauto).
  assert (Dll : forall x, In x (foot ll) -> ~ In x (foot lt)) by (intros x Hx I; apply (Dt x I Hx)).
  split; [exact E|]. split.
  { econstructor; [rewrite So by tauto; exact Hc|exact Lp|eapply own_strs_same; eauto|eapply own_arr_same; eauto|].
    cbn [kid_ops]. econstructor; [eapply own_list_same; eauto|exact Osc|].
    econstructor; [exact O'|discriminate|]. econstructor; [eapply own_list_same; eauto|discriminate|constructor]. }
  split; [reflexivity|]. split; [exact Ev|]. split; [reflexivity|]. split; [exact V|].
  cbn [e_foot snd]. rewrite app_nil_r. split.
  { constructor; [rewrite !in_app_iff; intro; apply Na; specialize (I' (e_addr e)); tauto|].
    apply NoDup_app2; [exact Ns| |intros x Hx; rewrite !in_app_iff; intro; apply (Ds x Hx); rewrite !in_app_iff; specialize (I' x); tauto].
    apply NoDup_app2; [exact Nfa| |intros x Hx; rewrite !in_app_iff; intro; apply (Da x Hx); rewrite !in_app_iff; specialize (I' x); tauto].
    apply NoDup_app2; [exact Nc| |intros x Hx; rewrite !in_app_iff; intro; apply (Dc x Hx); rewrite !in_app_iff; specialize (I' x); tauto].
    apply NoDup_app2; [exact N'|exact Nl|]. intros x Hx. apply Dt, I', Hx. }
  split.
  { intros x Hx Hn. rewrite Ef in Hx. cbn [In] in Hx, Hn. rewrite !in_app_iff in Hx, Hn. apply F'; tauto. }
  intros x Hx. apply So. intro I. apply Hx. rewrite Ef. right. rewrite !in_app_iff. tauto.
Qed.

(** ** Copies and originals do not influence each other *)
Lemma copy_independent : forall h h' h'' k p l' e n l,
  (* what a copy guarantees *)
  own_list h' k p l' -> (forall x, In x (foot l') <-> length h <= x < length h') ->
  own h k n e -> own_list h k n l -> (forall x, x < length h -> nth_error h' x = nth_error h x) ->
  (same_outside (e_foot e ++ foot l) h' h'' -> own_list h'' k p l') /\
  (same_outside (foot l') h' h'' -> own h'' k n e /\ own_list h'' k n l).
Proof.
  intros h h' h'' k p l' e n l O' F Oe Ol Old. split; intro S.
  - eapply own_list_same; [exact O'|]. intros x Hx. apply S. intro I. apply F in Hx. apply in_app_or in I.
    destruct I as [I|I]; [eapply own_valid in I|eapply own_list_valid in I]; try eassumption; lia.
  - assert (K : forall x, x < length h -> nth_error h'' x = nth_error h x).
    { intros x Hx. rewrite S; [now apply Old|]. intro I. apply F in I. lia. }
    split; [eapply own_same; [exact Oe|]|eapply own_list_same; [exact Ol|]]; intros x Hx; apply K;
      [eapply own_valid in Hx|eapply own_list_valid in Hx]; eassumption.
Qed.

(** ** The generic entry points *)
Lemma same_type_ok : forall h t rest fk l f, thread_is h t rest fk l -> kind_at h f = Ok fk -> same_type h t f = Ok tt.
Proof.
  intros h t rest fk l f (p & k & scal & strs & kids & arr & raw & next & -> & Hk & Ht & _) Hf.
  unfold same_type. unfold kind_at at 1. rewrite (get_live _ _ _ Ht) by discriminate. cbn [bind].
  rewrite Hf. cbn [bind]. now rewrite Hk, kind_refl.
Qed.
Lemma thread_frame_kind : forall h t rest fk l e, thread_is h t rest fk l -> In e l -> kind_at h (e_addr e) = Ok fk.
Proof.
  intros h t rest fk l e (p & k & scal & strs & kids & arr & raw & next & _ & _ & _ & Ol & _) I.
  apply seg_list in Ol. destruct (entry_own _ _ _ _ _ _ Ol I) as [n O]. eapply own_kind; exact O.
Qed.
Theorem sr_thread_remove_frame_ok : forall h t rest fk l1 e l2, thread_is h t rest fk (l1 ++ e :: l2) ->
  exists h', sr_thread_remove_frame h t (e_addr e) = Ok (h', true) /\ thread_remove_frame h t (e_addr e) = Ok (h', true) /\
    thread_is h' t rest fk (l1 ++ l2) /\
    (forall x, In x (e_foot e) -> freed h' x) /\ same_outside (t :: foot (l1 ++ e :: l2)) h h' /\ length h' = length h.
Proof.
  intros h t rest fk l1 e l2 T. destruct (thread_remove_frame_ok _ _ _ _ _ _ _ T) as (h' & E & R).
  exists h'. split; [|split; [exact E|exact R]]. unfold sr_thread_remove_frame.
  rewrite (same_type_ok _ _ _ _ _ _ T); [exact E|]. eapply thread_frame_kind; [exact T|]. apply in_or_app. right. now left.
Qed.
Theorem sr_thread_remove_absent_ok : forall h t rest fk l f, thread_is h t rest fk l -> kind_at h f = Ok fk ->
  ~ In f (map e_addr l) -> sr_thread_remove_frame h t f = Ok (h, false) /\ thread_remove_frame h t f = Ok (h, false).
Proof.
  intros h t rest fk l f T K N. pose proof (thread_remove_absent_ok _ _ _ _ _ _ T N) as E.
  split; [|exact E]. unfold sr_thread_remove_frame. now rewrite (same_type_ok _ _ _ _ _ _ T K).
Qed.
Theorem sr_thread_above_ok : forall h t rest fk l1 e l2, thread_is h t rest fk (l1 ++ e :: l2) ->
  exists h', sr_thread_remove_frames_above h t (e_addr e) = Ok (h', true) /\
    thread_remove_frames_above h t (e_addr e) = Ok (h', true) /\ thread_is h' t rest fk (e :: l2) /\
    (forall x, In x (foot l1) -> freed h' x) /\ same_outside (t :: foot l1) h h' /\ length h' = length h.
Proof.
  intros h t rest fk l1 e l2 T. destruct (thread_remove_frames_above_ok _ _ _ _ _ _ _ T) as (h' & E & R).
  exists h'. split; [|split; [exact E|exact R]]. unfold sr_thread_remove_frames_above.
  rewrite (same_type_ok _ _ _ _ _ _ T); [exact E|]. eapply thread_frame_kind; [exact T|]. apply in_or_app. right. now left.
Qed.
Theorem sr_thread_above_absent_ok : forall h t rest fk l f, thread_is h t rest fk l -> kind_at h f = Ok fk ->
  ~ In f (map e_addr l) -> sr_thread_remove_frames_above h t f = Ok (h, false) /\ thread_remove_frames_above h t f = Ok (h, false).
Proof.
  intros h t rest fk l f T K N. pose proof (thread_above_absent_ok _ _ _ _ _ _ T N) as E.
  split; [|exact E]. unfold sr_thread_remove_frames_above. now rewrite (same_type_ok _ _ _ _ _ _ T K).
Qed.
Theorem limit_rejects : forall h s depth, (depth <= 0)%Z -> limit_frame_depth h s depth = UB.
Proof. intros h s depth H. unfold limit_frame_depth. now replace (depth <=? 0)%Z with true by (symmetry; apply Z.leb_le; lia). Qed.

(** ** Copy, change, free *)
Theorem dup_independent : forall k h e n l (sib : bool),
  own h k n e -> own_list h k n l -> separate (e_foot e ++ foot l) ->
  exists h' r l', sr_dup k h (e_addr e) sib = Ok (h', r) /\ own_list h' k (Some r) l' /\ own h' k n e /\ own_list h' k n l /\
    disjoint (foot l') (e_foot e ++ foot l) /\
    forall h'', (same_outside (e_foot e ++ foot l) h' h'' -> own_list h'' k (Some r) l') /\
                (same_outside (foot l') h' h'' -> own h'' k n e /\ own_list h'' k n l).
Proof.
  intros k h e n l sib Oe Ol N. destruct (sr_dup_ok k h e n l sib Oe Ol N) as (h' & r & l' & E & O' & V & N' & F & Lh & Old).
  exists h', r, l'. split; [exact E|]. split; [exact O'|].
  destruct (copy_independent h h' h' k _ l' e n l O' F Oe Ol Old) as [_ C].
  destruct C as [Oe' Ol']; [intros x _; reflexivity|].
  split; [exact Oe'|]. split; [exact Ol'|]. split.
  { intros x Hx I. apply F in Hx. apply in_app_or in I.
    destruct I as [I|I]; [apply (own_valid _ _ _ _ Oe) in I|apply (own_list_valid _ _ _ _ Ol) in I]; lia. }
  intro h''. exact (copy_independent h h' h'' k _ l' e n l O' F Oe Ol Old).
Qed.
Theorem dup_then_free : forall k h e n, own h k n e -> separate (e_foot e) ->
  exists h' r h'', sr_dup k h (e_addr e) false = Ok (h', r) /\ sr_free k h' r = Ok h'' /\
    own h'' k n e /\ (forall x, x < length h -> nth_error h'' x = nth_error h x) /\
    length h'' = length h' /\ (forall x, length h <= x < length h'' -> freed h'' x).
Proof.
  intros k h e n O N.
  destruct (dup_ok (S (length h)) k h e n [] false O ltac:(discriminate)) as (h' & r & l' & E & X & O' & V & F).
  { assert (length (e_foot e) <= length h).
    { apply NoDup_bound; [exact N|]. eapply own_valid; exact O. }
    cbn [app foot map concat length]. lia. }
  destruct l' as [|e' [|? ?]]; try discriminate V. inversion O' as [|? n' ? ? Oe' On]; subst.
  destruct F as [F1 F2]. rewrite foot_cons in F1, F2. cbn [foot map concat] in F1, F2. rewrite app_nil_r in F1, F2.
  destruct (sr_free_ok _ _ _ _ Oe' F1) as (h'' & Ef & (Lf & So & Fr)).
  exists h', (e_addr e'), h''. split; [exact E|]. split; [exact Ef|].
  assert (K : forall x, x < length h -> nth_error h'' x = nth_error h x).
  { intros x Hx. destruct X as [X1 X2]. rewrite So; [now apply X2|]. intro I. apply F2 in I. lia. }
  split; [eapply own_same; [exact O|]; intros x Hx; apply K; eapply own_valid in Hx; eassumption|].
  split; [exact K|]. split; [exact Lf|]. intros x Hx. apply Fr, F2. lia.
Qed.

Lemma all_members : forall k, length (str_ops k) = length (string_members k) /\
  kid_ops k = map (fun m => (snd (fst m), snd m)) (list_members k).
Proof. intro k. split; destruct k; reflexivity. Qed.
