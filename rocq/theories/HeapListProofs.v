From Coq Require Import Sorting.Sorted.
From Verif Require Import Base Types CmpModel CmpSpec HeapModel HeapSpec HeapProofs HeapProofs2 HeapProofs3 HeapListModel HeapListSpec.
Open Scope nat_scope.

Lemma own_list_bound h k p l : own_list h k p l -> NoDup (foot l) -> length l <= length h.
Proof.
  intros O N. pose proof (foot_long _ _ _ _ O). enough (length (foot l) <= length h) by lia.
  apply NoDup_bound; [exact N|]. intros x. eapply own_list_valid; exact O.
Qed.

(** ** Joining *)
Lemma last_from_ok h k : forall l e fuel p, own_list h k p (l ++ [e]) -> length l < fuel ->
  exists a, p = Some a /\ last_from fuel h a = Ok (e_addr e).
Proof.
  induction l as [|x l IH]; intros e fuel p O Lf; inversion O as [|? n ? ? Oe Ol]; subst; eexists; (split; [reflexivity|]);
    (destruct fuel as [|fuel]; [cbn in Lf; lia|]); cbn [last_from]; rewrite (own_next _ _ _ _ Oe); cbn [bind].
  - inversion Ol; subst. reflexivity.
  - destruct (IH e fuel n Ol ltac:(cbn in Lf; lia)) as (a & -> & E). exact E.
Qed.
Lemma end_of_snoc l e : end_of (l ++ [e]) = [e_addr e].
Proof. unfold end_of. now rewrite rev_app_distr. Qed.
Lemma own_foot h k n e : own h k n e -> In (e_addr e) (e_foot e).
Proof. intros O. destruct (e_foot_cons _ _ _ _ O) as [f ->]. now left. Qed.

Lemma append_ok h k p q l1 l2 : own_list h k p l1 -> own_list h k q l2 -> separate (foot l1 ++ foot l2) ->
  exists h' r, list_append h p q = Ok (h', r) /\ own_list h' k r (l1 ++ l2) /\
    r = (match p with None => q | Some _ => p end) /\ same_outside (end_of l1) h h' /\ length h' = length h.
Proof.
  intros O1 O2 N. destruct l1 as [|e l1 _] using rev_ind.
  - inversion O1; subst. exists h, q. split; [reflexivity|]. split; [exact O2|]. repeat split.
  - apply NoDup_app_inv in N as (N1 & N2 & D). pose proof (own_list_bound _ _ _ _ O1 N1) as B. rewrite app_length in B. cbn in B.
    destruct (last_from_ok h k l1 e (length h) p O1 ltac:(lia)) as (a & -> & E).
    unfold list_append. rewrite E. cbn [bind].
    apply seg_list in O1. apply seg_app in O1 as (m & S1 & S2). inversion S2 as [|n ? ? ? Oe S3]; subst. inversion S3; subst.
    rewrite foot_app, foot_cons in N1, D. apply NoDup_app_inv in N1 as (N1 & Ne & D1). cbn [foot map concat] in Ne, D1, D. rewrite app_nil_r in Ne, D1, D.
    destruct (set_next_ok h k None e q Oe Ne) as (h' & E' & Oe' & So & Lh). rewrite E'. cbn [bind].
    exists h', (Some a). split; [reflexivity|]. split; [|split; [reflexivity|split; [rewrite end_of_snoc; exact So|exact Lh]]].
    apply seg_list. rewrite <- app_assoc. apply seg_app. exists (Some (e_addr e)). split.
    + eapply seg_same; [exact S1|]. intros x Hx. apply So. intros [<-|[]]. apply (D1 _ Hx). eapply own_foot; exact Oe.
    + apply (seg_cons _ _ q e l2); [exact Oe'|]. apply seg_list. eapply own_list_same; [exact O2|]. intros x Hx. apply So. intros [<-|[]].
      apply (D (e_addr e)); [apply in_or_app; right; eapply own_foot; exact Oe|exact Hx].
Qed.
Lemma prepend_ok h p l e n : own_list h KKoopsFrame p l -> own h KKoopsFrame n e -> separate (e_foot e ++ foot l) -> p <> None ->
  exists h', koops_frame_prepend h p (Some (e_addr e)) = Ok (h', Some (e_addr e)) /\ own_list h' KKoopsFrame (Some (e_addr e)) (e :: l) /\
    same_outside [e_addr e] h h' /\ length h' = length h.
Proof.
  intros O Oe N Hp. destruct p as [a|]; [|congruence]. apply NoDup_app_inv in N as (Ne & N & D).
  destruct (set_next_ok h _ n e (Some a) Oe Ne) as (h' & E & Oe' & So & Lh). exists h'. unfold koops_frame_prepend. rewrite E. cbn [bind].
  split; [reflexivity|]. split; [|split; assumption]. econstructor; [exact Oe'|]. eapply own_list_same; [exact O|].
  intros x Hx. apply So. intros [<-|[]]. apply (D (e_addr e)); [eapply own_foot; exact Oe|exact Hx].
Qed.
Lemma prepend_first h item : koops_frame_prepend h None item = Ok (h, item).
Proof. reflexivity. Qed.

(** A list appended to itself never ends. *)
Lemma count_endless h (s : addr -> Prop) : (forall x, s x -> exists y, next_of h x = Ok (Some y) /\ s y) ->
  forall fuel x, s x -> count_from fuel h (Some x) = UB.
Proof.
  intros H. induction fuel as [|fuel IH]; intros x Hx; [reflexivity|]. cbn [count_from].
  destruct (H x Hx) as (y & E & Hy). rewrite E. cbn [bind]. now rewrite (IH y Hy).
Qed.
Lemma seg_next h k : forall l p q, seg h k p l q -> forall e, In e l ->
  exists n, next_of h (e_addr e) = Ok n /\ (n = q \/ exists e', In e' l /\ n = Some (e_addr e')).
Proof.
  induction l as [|x l IH]; intros p q S e He; [destruct He|]. inversion S as [|n ? ? ? O S']; subst. destruct He as [->|He].
  - exists n. split; [eapply own_next; exact O|]. inversion S' as [|n' e' l' ? O' S'']; subst; [now left|]. right. exists e'. split; [right; now left|reflexivity].
  - destruct (IH _ _ S' e He) as (m & E & [->|(e' & I' & ->)]).
    + exists q. split; [exact E|now left].
    + exists (Some (e_addr e')). split; [exact E|]. right. exists e'. split; [now right|reflexivity].
Qed.
Lemma append_self h k p l : own_list h k p l -> separate (foot l) -> l <> [] ->
  exists h', list_append h p p = Ok (h', p) /\ list_count h' p = UB.
Proof.
  intros O N Hl. destruct l as [|e l _] using rev_ind; [congruence|].
  pose proof (own_list_bound _ _ _ _ O N) as B. rewrite app_length in B. cbn in B.
  destruct (last_from_ok h k l e (length h) p O ltac:(lia)) as (a & -> & E). unfold list_append. rewrite E. cbn [bind].
  apply seg_list in O. apply seg_app in O as (m & S1 & S2). inversion S2 as [|n ? ? ? Oe S3]; subst. inversion S3; subst.
  unfold separate in N. rewrite foot_app, foot_cons in N. apply NoDup_app_inv in N as (N1 & Ne & D1). cbn [foot map concat] in Ne, D1. rewrite app_nil_r in Ne, D1.
  destruct (set_next_ok h k None e (Some a) Oe Ne) as (h' & E' & Oe' & So & Lh). rewrite E'. cbn [bind].
  exists h'. split; [reflexivity|]. unfold list_count.
  assert (S : seg h' k (Some a) (l ++ [e]) (Some a)).
  { apply seg_app. exists (Some (e_addr e)). split.
    - eapply seg_same; [exact S1|]. intros x Hx. apply So. intros [<-|[]]. apply (D1 _ Hx). eapply own_foot; exact Oe.
    - apply (seg_cons _ _ (Some a) e []); [exact Oe'|constructor]. }
  assert (A : exists e0, In e0 (l ++ [e]) /\ a = e_addr e0).
  { inversion S as [|? e0 l0 ? ? ? E1 E2]; subst; [exfalso; destruct l; discriminate|]. exists e0. split; [now left|congruence]. }
  apply (count_endless h' (fun x => exists e0, In e0 (l ++ [e]) /\ x = e_addr e0)); [|exact A].
  intros x (e0 & I0 & ->). destruct (seg_next _ _ _ _ _ S e0 I0) as (n & En & [->|(e1 & I1 & ->)]).
  - exists a. split; [exact En|exact A].
  - exists (e_addr e1). split; [exact En|]. eauto.
Qed.
Lemma list_count_ok h k p l : own_list h k p l -> separate (foot l) -> list_count h p = Ok (length l).
Proof. intros O N. apply (count_ok _ _ _ _ _ O). eapply own_list_bound; eassumption. Qed.

(** ** One thread *)
Lemma set_gdb_threads_ok h s scal pc pt pl raw n q :
  nth_error h s = Some (CObj KGdbStack scal [] [pc; pt; pl] None raw n) ->
  exists h', set_gdb_threads h s q = Ok h' /\ nth_error h' s = Some (CObj KGdbStack scal [] [pc; q; pl] None raw n) /\
    same_outside [s] h h' /\ length h' = length h.
Proof.
  intros Ht. unfold set_gdb_threads. rewrite (get_live _ _ _ Ht) by discriminate. cbn [bind]. rewrite (set_live _ _ _ _ Ht) by discriminate.
  eexists. split; [reflexivity|]. split; [apply put_same; eapply live_lt; exact Ht|].
  split; [|apply put_length]. intros x Hx. apply put_other. intro E. apply Hx. now left.
Qed.
Definition others (t : addr) (l : list entry) : list entry := filter (fun e => negb (Nat.eqb (e_addr e) t)) l.
Lemma others_in t l x : In x (foot (others t l)) -> In x (foot l).
Proof.
  induction l as [|e l IH]; [easy|]. cbn [others filter]. destruct (Nat.eqb (e_addr e) t); cbn [negb]; rewrite ?foot_cons, !in_app_iff; [|].
  - intros H. right. apply IH, H.
  - intros [H|H]; [now left|right; apply IH, H].
Qed.
Lemma except_loop_ok t s scal pc pl raw n0 : forall l fuel h pt,
  nth_error h s = Some (CObj KGdbStack scal [] [pc; pt; pl] None raw n0) -> own_list h KGdbThread pt l -> separate (s :: foot l) -> length l <= fuel ->
  exists h', except_loop fuel h s t = Ok h' /\ nth_error h' s = Some (CObj KGdbStack scal [] [pc; None; pl] None raw n0) /\
    (forall x, In x (foot (others t l)) -> freed h' x) /\ same_outside (s :: foot (others t l)) h h' /\ length h' = length h.
Proof.
  induction l as [|e l IH]; intros fuel h pt Hs O N Lf; inversion O as [|? n ? ? Oe Ol]; subst.
  - exists h. assert (E : except_loop fuel h s t = Ok h) by (destruct fuel; cbn [except_loop]; unfold gdb_threads; rewrite (get_live _ _ _ Hs) by discriminate; reflexivity).
    split; [exact E|]. split; [exact Hs|]. split; [intros x []|]. split; [intros x _; reflexivity|reflexivity].
  - destruct fuel as [|fuel]; [cbn in Lf; lia|]. cbn [except_loop]. unfold gdb_threads at 1. rewrite (get_live _ _ _ Hs) by discriminate. cbn [bind].
    rewrite (own_next _ _ _ _ Oe). cbn [bind].
    destruct (set_gdb_threads_ok _ _ _ _ _ _ _ _ n Hs) as (h1 & E1 & Hs1 & So1 & L1). rewrite E1. cbn [bind].
    unfold separate in N. apply NoDup_cons_iff in N as [Ns N]. rewrite foot_cons in Ns, N. rewrite in_app_iff in Ns. apply NoDup_app_inv in N as (Ne & Nl & D).
    assert (S1 : forall f, ~ In s f -> same_on f h h1) by (intros f Hf x Hx; apply So1; intros [<-|[]]; contradiction).
    cbn [others filter]. destruct (Nat.eqb_spec (e_addr e) t) as [Et|Et]; cbn [negb bind].
    + destruct (IH fuel h1 n Hs1) as (h2 & E2 & Hs2 & F2 & So2 & L2).
      { eapply own_list_same; [exact Ol|]. apply S1. tauto. }
      { constructor; tauto. }
      { cbn in Lf. lia. }
      exists h2. split; [exact E2|]. split; [exact Hs2|]. split; [exact F2|]. split; [|lia].
      intros x Hx. rewrite So2 by exact Hx. apply So1. intros [<-|[]]. apply Hx. now left.
    + assert (Oe1 : own h1 KGdbThread n e) by (eapply own_same; [exact Oe|]; apply S1; tauto).
      destruct (sr_free_ok _ _ _ _ Oe1 Ne) as (h2 & E2 & F2). rewrite E2. cbn [bind]. destruct F2 as (L2 & So2 & F2).
      destruct (IH fuel h2 n) as (h3 & E3 & Hs3 & F3 & So3 & L3).
      { rewrite So2 by tauto. exact Hs1. }
      { eapply own_list_same; [exact Ol|]. intros x Hx. rewrite So2 by (intro I; exact (D x I Hx)). apply (S1 (foot l)); [tauto|exact Hx]. }
      { constructor; tauto. }
      { cbn in Lf. lia. }
      fold (others t l). exists h3. split; [exact E3|]. split; [exact Hs3|]. rewrite foot_cons.
      split; [|split; [|lia]].
      * intros x Hx. apply in_app_or in Hx as [Hx|Hx]; [|now apply F3]. unfold freed. rewrite So3; [now apply F2|].
        intros [<-|I]; [tauto|]. apply others_in in I. exact (D x Hx I).
      * intros x Hx. cbn [In] in Hx. rewrite in_app_iff in Hx. rewrite So3 by (intros [?|?]; tauto). rewrite So2 by tauto. apply So1. intros [<-|[]]. tauto.
Qed.
Lemma others_split h k t l1 l2 e : (exists p, own_list h k p (l1 ++ e :: l2)) -> NoDup (foot (l1 ++ e :: l2)) -> e_addr e = t ->
  others t (l1 ++ e :: l2) = l1 ++ l2.
Proof.
  intros [p O] N <-. apply seg_list in O.
  assert (A : forall l, (forall x, In x l -> e_addr x <> e_addr e) -> others (e_addr e) l = l).
  { induction l as [|x l IH]; intros H; [reflexivity|]. cbn [others filter].
    replace (Nat.eqb (e_addr x) (e_addr e)) with false by (symmetry; apply Nat.eqb_neq, H; now left). cbn [negb]. f_equal. apply IH. intros y Hy. apply H. now right. }
  assert (Ie : In (e_addr e) (e_foot e)) by (eapply addr_in_foot; [exact O|apply in_or_app; right; now left]).
  assert (B : forall x, In x (l1 ++ e :: l2) -> In (e_addr x) (e_foot x)) by (intros x Hx; eapply addr_in_foot; [exact O|exact Hx]).
  rewrite foot_app, foot_cons in N. apply NoDup_app_inv in N as (N1 & N2 & D). apply NoDup_app_inv in N2 as (Ne & N2 & D2).
  unfold others. rewrite filter_app. cbn [filter]. rewrite Nat.eqb_refl. cbn [negb]. f_equal; apply A; intros x Hx E.
  - apply (D (e_addr x)); [eapply in_foot; [exact Hx|apply B, in_or_app; now left]|]. rewrite E. apply in_or_app. now left.
  - apply (D2 (e_addr e)); [exact Ie|]. rewrite <- E. eapply in_foot; [exact Hx|]. apply B, in_or_app. right. now right.
Qed.
Lemma others_absent t l : ~ In t (map e_addr l) -> others t l = l.
Proof.
  induction l as [|x l IH]; intros H; [reflexivity|]. cbn [others filter].
  replace (Nat.eqb (e_addr x) t) with false by (symmetry; apply Nat.eqb_neq; intro E; apply H; now left). cbn [negb]. f_equal. apply IH. intro I. apply H. now right.
Qed.

(* keeping a thread that survives the loop *)
Lemma except_finish h h1 s scal crash libs pc pl raw n0 t nt cells :
  own_list h KGdbFrame pc crash -> length crash <= 1 -> own_list h KGdbLib pl libs ->
  nth_error h1 s = Some (CObj KGdbStack scal [] [pc; None; pl] None raw n0) ->
  same_outside (s :: cells) h h1 -> length h1 = length h -> own h KGdbThread nt t ->
  (forall x, In x (foot crash ++ foot libs ++ e_foot t) -> ~ In x (s :: cells)) -> NoDup (s :: foot crash ++ e_foot t ++ foot libs) ->
  (forall x, In x cells -> freed h1 x) ->
  exists h', (do h <- set_next h1 (e_addr t) None; set_gdb_threads h s (Some (e_addr t))) = Ok h' /\ gdb_stack_is h' s scal crash [t] libs /\
    (forall x, In x cells -> freed h' x) /\ same_outside (s :: e_addr t :: cells) h h' /\ length h' = length h.
Proof.
  intros Oc Lc Ol Hs So L1 Ot D N Fr.
  assert (Ot1 : own h1 KGdbThread nt t).
  { eapply own_same; [exact Ot|]. intros x Hx. apply So, D. rewrite !in_app_iff. tauto. }
  apply NoDup_cons_iff in N as [Ns N]. rewrite !in_app_iff in Ns. apply NoDup_app_inv in N as (Nc & N & Dc). apply NoDup_app_inv in N as (Nt & Nl & Dt).
  destruct (set_next_ok _ _ _ _ None Ot1 Nt) as (h2 & E2 & Ot2 & So2 & L2). rewrite E2. cbn [bind].
  assert (It : In (e_addr t) (e_foot t)) by (eapply own_foot; exact Ot).
  assert (Hs2 : nth_error h2 s = Some (CObj KGdbStack scal [] [pc; None; pl] None raw n0)).
  { rewrite So2; [exact Hs|]. intros [<-|[]]. tauto. }
  destruct (set_gdb_threads_ok _ _ _ _ _ _ _ _ (Some (e_addr t)) Hs2) as (h3 & E3 & Hs3 & So3 & L3).
  exists h3. split; [exact E3|].
  assert (K : forall f, (forall x, In x f -> x <> s /\ x <> e_addr t /\ ~ In x cells) -> same_on f h h3).
  { intros f Hf x Hx. destruct (Hf x Hx) as (A & B & C). rewrite So3 by (intros [?|[]]; congruence). rewrite So2 by (intros [?|[]]; congruence).
    apply So. intros [?|?]; [congruence|contradiction]. }
  assert (S3 : same_on (e_foot t) h2 h3) by (intros x Hx; apply So3; intros [<-|[]]; tauto).
  assert (Dcell : forall x, In x cells -> x <> s /\ ~ In x (foot crash) /\ ~ In x (foot libs) /\ ~ In x (e_foot t)).
  { intros x Hx. split.
    - intros ->. assert (Hd := Fr s Hx). unfold freed in Hd. congruence.
    - repeat split; intro I; apply (D x); rewrite ?in_app_iff; cbn [In]; tauto. }
  split; [|split; [|split; [|lia]]].
  - exists pc, (Some (e_addr t)), pl, raw, n0. split; [exact Hs3|].
    split; [eapply own_list_same; [exact Oc|]; apply K|split; [exact Lc|split; [|split; [eapply own_list_same; [exact Ol|]; apply K|]]]].
    + intros x Hx. split; [intros ->; tauto|]. split; [intros ->; apply (Dc _ Hx); apply in_or_app; now left|]. intro I. apply Dcell in I. tauto.
    + econstructor; [eapply own_same; [exact Ot2|exact S3]|constructor].
    + intros x Hx. split; [intros ->; tauto|]. split; [intros ->; exact (Dt _ It Hx)|]. intro I. apply Dcell in I. tauto.
    + cbn [foot map concat]. rewrite app_nil_r. constructor; [rewrite !in_app_iff; tauto|]. apply NoDup_app2; [exact Nc| |exact Dc]. now apply NoDup_app2.
  - intros x Hx. destruct (Dcell x Hx) as (A & _ & _ & B). unfold freed. rewrite So3 by (intros [?|[]]; congruence).
    rewrite So2 by (intros [<-|[]]; tauto). now apply Fr.
  - intros x Hx. cbn [In] in Hx. rewrite So3 by (intros [?|[]]; tauto). rewrite So2 by (intros [?|[]]; tauto). apply So. intros [?|?]; tauto.
Qed.
Lemma except_one_ok h s scal crash l1 t l2 libs : gdb_stack_is h s scal crash (l1 ++ t :: l2) libs ->
  exists h', remove_threads_except_one h s (Some (e_addr t)) = Ok h' /\ gdb_stack_is h' s scal crash [t] libs /\
    (forall x, In x (foot (l1 ++ l2)) -> freed h' x) /\ same_outside (s :: e_addr t :: foot (l1 ++ l2)) h h' /\ length h' = length h.
Proof.
  intros (pc & pt & pl & raw & n0 & Hs & Oc & Lc & Ot & Ol & N).
  unfold separate in N. apply NoDup_cons_iff in N as [Ns N]. rewrite !in_app_iff in Ns. apply NoDup_app_inv in N as (Nc & N & Dc). apply NoDup_app_inv in N as (Nt & Nl & Dt).
  destruct (except_loop_ok (e_addr t) s scal pc pl raw n0 (l1 ++ t :: l2) (length h) h pt Hs Ot) as (h1 & E1 & Hs1 & F1 & So1 & L1).
  { constructor; tauto. }
  { eapply own_list_bound; eassumption. }
  rewrite (others_split h KGdbThread (e_addr t) l1 l2 t (ex_intro _ pt Ot) Nt eq_refl) in *.
  unfold remove_threads_except_one. rewrite E1. cbn [bind].
  assert (X : exists nt, own h KGdbThread nt t) by (apply seg_list in Ot; eapply entry_own; [exact Ot|apply in_or_app; right; now left]). destruct X as [nt Oet].
  assert (Q : forall x, In x (foot (l1 ++ t :: l2)) <-> In x (foot (l1 ++ l2)) \/ In x (e_foot t)) by (intros x; rewrite !foot_app, foot_cons, !in_app_iff; tauto).
  assert (Dt' : forall x, In x (e_foot t) -> ~ In x (foot (l1 ++ l2))).
  { rewrite !foot_app, foot_cons in Nt. apply NoDup_app_inv in Nt as (_ & N2 & D2). apply NoDup_app_inv in N2 as (_ & _ & D3).
    intros x Hx. rewrite foot_app, in_app_iff. intros [I|I]; [apply (D2 x I), in_or_app; now left|exact (D3 x Hx I)]. }
  assert (Net : NoDup (e_foot t)).
  { rewrite !foot_app, foot_cons in Nt. apply NoDup_app_inv in Nt as (_ & N2 & _). apply NoDup_app_inv in N2 as (N2 & _ & _). exact N2. }
  assert (Q1 : forall x, In x (e_foot t) -> In x (foot (l1 ++ t :: l2))) by (intros x Hx; apply Q; now right).
  assert (Q2 : forall x, In x (foot (l1 ++ l2)) -> In x (foot (l1 ++ t :: l2))) by (intros x Hx; apply Q; now left).
  destruct (except_finish h h1 s scal crash libs pc pl raw n0 t nt (foot (l1 ++ l2)) Oc Lc Ol Hs1 So1 L1 Oet) as (h' & E' & R).
  - intros x Hx. rewrite !in_app_iff in Hx. cbn [In]. intros [<-|I].
    + destruct Hx as [Hx|[Hx|Hx]]; [tauto|tauto|apply Q1 in Hx; tauto].
    + destruct Hx as [Hx|[Hx|Hx]]; [apply (Dc x Hx), in_or_app; left; auto|apply (Dt x); auto|exact (Dt' x Hx I)].
  - constructor.
    + rewrite !in_app_iff. intros [I|[I|I]]; [tauto|apply Q1 in I; tauto|tauto].
    + apply NoDup_app2; [exact Nc| |].
      * apply NoDup_app2; [exact Net|exact Nl|]. intros x Hx. apply Dt. auto.
      * intros x Hx. rewrite in_app_iff. intros [I|I]; apply (Dc x Hx), in_or_app; auto.
  - exact F1.
  - exists h'. split; [exact E'|exact R].
Qed.
Lemma except_absent_ok h s scal crash l libs t nt : gdb_stack_is h s scal crash l libs -> own h KGdbThread nt t ->
  separate (e_foot t) -> disjoint (e_foot t) (s :: foot crash ++ foot l ++ foot libs) ->
  exists h', remove_threads_except_one h s (Some (e_addr t)) = Ok h' /\ gdb_stack_is h' s scal crash [t] libs /\
    (forall x, In x (foot l) -> freed h' x) /\ same_outside (s :: e_addr t :: foot l) h h' /\ length h' = length h.
Proof.
  intros (pc & pt & pl & raw & n0 & Hs & Oc & Lc & Ot & Ol & N) Oet Net Dj.
  unfold separate in N. apply NoDup_cons_iff in N as [Ns N]. rewrite !in_app_iff in Ns. apply NoDup_app_inv in N as (Nc & N & Dc). apply NoDup_app_inv in N as (Nt & Nl & Dt).
  destruct (except_loop_ok (e_addr t) s scal pc pl raw n0 l (length h) h pt Hs Ot) as (h1 & E1 & Hs1 & F1 & So1 & L1).
  { constructor; tauto. }
  { eapply own_list_bound; eassumption. }
  assert (It : In (e_addr t) (e_foot t)) by (eapply own_foot; exact Oet).
  assert (Ab : ~ In (e_addr t) (map e_addr l)).
  { intros I. apply in_map_iff in I as (e & E & I). apply (Dj _ It). right. rewrite !in_app_iff. right. left. rewrite <- E.
       eapply in_foot; [exact I|]. apply seg_list in Ot. eapply addr_in_foot; [exact Ot|exact I]. }
  rewrite (others_absent (e_addr t) l Ab) in *.
  unfold remove_threads_except_one. rewrite E1. cbn [bind].
  assert (Dj' : forall x, In x (e_foot t) -> x <> s /\ ~ In x (foot crash) /\ ~ In x (foot l) /\ ~ In x (foot libs)).
  { intros x Hx. specialize (Dj x Hx). cbn [In] in Dj. rewrite !in_app_iff in Dj. repeat split; [intros <-; tauto|tauto|tauto|tauto]. }
  destruct (except_finish h h1 s scal crash libs pc pl raw n0 t nt (foot l) Oc Lc Ol Hs1 So1 L1 Oet) as (h' & E' & R).
  - intros x Hx. rewrite !in_app_iff in Hx. cbn [In]. intros [<-|I].
    + destruct Hx as [Hx|[Hx|Hx]]; [tauto|tauto|apply Dj' in Hx; tauto].
    + destruct Hx as [Hx|[Hx|Hx]]; [apply (Dc x Hx), in_or_app; left; auto|apply (Dt x); auto|apply Dj' in Hx; tauto].
  - constructor.
    + rewrite !in_app_iff. intros [I|[I|I]]; [tauto|apply Dj' in I; tauto|tauto].
    + apply NoDup_app2; [exact Nc| |].
      * apply NoDup_app2; [exact Net|exact Nl|]. intros x Hx. apply Dj' in Hx. tauto.
      * intros x Hx. rewrite in_app_iff. intros [I|I]; [apply Dj' in I; tauto|]. apply (Dc x Hx), in_or_app. auto.
  - exact F1.
  - exists h'. split; [exact E'|exact R].
Qed.
Lemma gdb_stack_owns h s scal crash threads libs : gdb_stack_is h s scal crash threads libs ->
  exists n, own h KGdbStack n (s, Val scal [] None [map e_val crash; map e_val threads; map e_val libs], s :: foot crash ++ foot threads ++ foot libs).
Proof.
  intros (pc & pt & pl & raw & n0 & Hs & Oc & Lc & Ot & Ol & N). exists n0.
  pose proof (own_obj h KGdbStack s scal [] [] [] [pc; pt; pl] [map e_val crash; map e_val threads; map e_val libs] (foot crash ++ foot threads ++ foot libs ++ []) None None [] raw n0 Hs eq_refl
    (os_nil _) (oa_null _)) as H. cbn [app] in H. rewrite app_nil_r in H. apply H. cbn [kid_ops].
  replace (foot crash ++ foot threads ++ foot libs) with (foot crash ++ foot threads ++ foot libs ++ []) by now rewrite app_nil_r.
  econstructor; [exact Oc|auto|]. econstructor; [exact Ot|discriminate|]. econstructor; [exact Ol|discriminate|constructor].
Qed.
Lemma thread_count_ok h s scal crash threads libs : gdb_stack_is h s scal crash threads libs -> get_thread_count h s = Ok (length threads).
Proof.
  intros (pc & pt & pl & raw & n0 & Hs & Oc & Lc & Ot & Ol & N). unfold get_thread_count. rewrite (get_live _ _ _ Hs) by discriminate. cbn [bind].
  eapply list_count_ok; [exact Ot|]. unfold separate in N. apply NoDup_cons_iff in N as [Ns N]. apply NoDup_app_inv in N as (Nc & N & Dc). apply NoDup_app_inv in N. tauto.
Qed.
