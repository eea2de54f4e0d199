From Verif Require Import Base HeapModel HeapSpec HeapProofs.

(** ** Freeing *)
Definition freed_all (f : list addr) (h h' : heap) : Prop :=
  length h' = length h /\ same_outside f h h' /\ forall x, In x f -> freed h' x.
Lemma freed_nil : forall h, freed_all [] h h.
Proof. intro h. repeat split. intros x []. Qed.
Lemma freed_app : forall f1 f2 h h1 h2, freed_all f1 h h1 -> freed_all f2 h1 h2 -> freed_all (f1 ++ f2) h h2.
Proof.
  intros f1 f2 h h1 h2 (L1 & S1 & F1) (L2 & S2 & F2). split; [lia|]. split.
  - intros x Hx. rewrite in_app_iff in Hx. rewrite S2 by tauto. apply S1. tauto.
  - intros x Hx. destruct (in_dec Nat.eq_dec x f2) as [I|I]; [now apply F2|].
    apply in_app_or in Hx. destruct Hx as [Hx|Hx]; [|contradiction].
    unfold freed. rewrite S2 by exact I. now apply F1.
Qed.
Lemma freed_equiv : forall f g h h', (forall x, In x f <-> In x g) -> freed_all f h h' -> freed_all g h h'.
Proof.
  intros f g h h' E (L & S & F). split; [exact L|]. split.
  - intros x Hx. apply S. now rewrite E.
  - intros x Hx. apply F. now rewrite E.
Qed.
Lemma freed_same_on : forall f g h h', freed_all f h h' -> (forall x, In x g -> ~ In x f) -> same_on g h h'.
Proof. intros f g h h' (_ & S & _) D x Hx. apply S, D, Hx. Qed.
Lemma g_free_ok : forall h a c, nth_error h a = Some c -> c <> CFree ->
  exists h', g_free h a = Ok h' /\ freed_all [a] h h'.
Proof.
  intros h a c H Hc. unfold g_free. rewrite (set_live _ _ _ _ H Hc). eexists. split; [reflexivity|].
  split; [apply put_length|]. split.
  - intros x Hx. apply put_other. intro E. apply Hx. now left.
  - intros x [<-|[]]. apply put_same. eapply live_lt; exact H.
Qed.
Lemma free_strs_ok : forall ops ps ss f h, own_strs h ps ss f -> NoDup f -> length ps = length ops ->
  all_free ops = true -> exists h', free_strs h ops ps = Ok h' /\ freed_all f h h'.
Proof.
  induction ops as [|[d fr] ops IH]; intros ps ss f h O N Lp A.
  - destruct ps; [|discriminate Lp]. inversion O; subst. exists h. split; [reflexivity|apply freed_nil].
  - destruct ps as [|p ps]; [discriminate Lp|]. injection Lp as Lp. cbn in A. apply andb_true_iff in A.
    destruct A as [A1 A2]. cbn in A1. subst fr. cbn [free_strs].
    inversion O as [|? ? ? O'|a s ? ? f0 Ha O']; subst.
    + cbn [g_free_opt bind]. eapply IH; eassumption.
    + cbn [g_free_opt]. inversion N as [|? ? Na N']; subst.
      destruct (g_free_ok _ _ _ Ha ltac:(discriminate)) as (h1 & E1 & F1). rewrite E1. cbn [bind].
      assert (O1 : own_strs h1 ps ss0 f0).
      { eapply own_strs_same; [exact O'|]. eapply freed_same_on; [exact F1|]. intros x Hx [<-|[]]. contradiction. }
      destruct (IH _ _ _ h1 O1 N' Lp A2) as (h2 & E2 & F2). exists h2. split; [exact E2|].
      exact (freed_app [a] f0 _ _ _ F1 F2).
Qed.
Lemma free_items_ok : forall items ss h, Forall2 (fun i s => nth_error h i = Some (CStr s)) items ss ->
  NoDup items -> exists h', free_items h items = Ok h' /\ freed_all items h h'.
Proof.
  induction items as [|i items IH]; intros ss h F N.
  - exists h. split; [reflexivity|apply freed_nil].
  - inversion F as [|? s ? ss' Hi F']; subst. inversion N as [|? ? Ni N']; subst. cbn [free_items].
    destruct (g_free_ok _ _ _ Hi ltac:(discriminate)) as (h1 & E1 & F1). rewrite E1. cbn [bind].
    assert (F1' : Forall2 (fun i s => nth_error h1 i = Some (CStr s)) items ss').
    { assert (S : same_on items h h1).
      { eapply freed_same_on; [exact F1|]. intros x Hx [<-|[]]. contradiction. }
      clear - F' S. induction F' as [|j t items ss Hj F IH]; constructor.
      - rewrite S by now left. exact Hj.
      - apply IH. intros x Hx. apply S. now right. }
    destruct (IH _ _ F1' N') as (h2 & E2 & F2). exists h2. split; [exact E2|].
    exact (freed_app [i] items _ _ _ F1 F2).
Qed.
Lemma g_strfreev_ok : forall p ss f h, own_arr h p ss f -> NoDup f ->
  exists h', g_strfreev h p = Ok h' /\ freed_all f h h'.
Proof.
  intros p ss f h O N. destruct O as [|a items ss Ha F].
  - exists h. split; [reflexivity|apply freed_nil].
  - inversion N as [|? ? Na N']; subst. cbn [g_strfreev].
    rewrite (get_live _ _ _ Ha) by discriminate. cbn [bind].
    destruct (free_items_ok _ _ _ F N') as (h1 & E1 & F1). rewrite E1. cbn [bind].
    assert (Ha1 : nth_error h1 a = Some (CArr items)).
    { destruct F1 as (_ & S & _). rewrite S by exact Na. exact Ha. }
    destruct (g_free_ok _ _ _ Ha1 ltac:(discriminate)) as (h2 & E2 & F2). exists h2. split; [exact E2|].
    eapply freed_equiv; [|exact (freed_app items [a] _ _ _ F1 F2)].
    intro x. rewrite in_app_iff. cbn. tauto.
Qed.

Definition free_correct (fuel : nat) : Prop := forall k h n e, own h k n e -> NoDup (e_foot e) ->
  length (e_foot e) <= fuel -> exists h', free fuel k h (e_addr e) = Ok h' /\ freed_all (e_foot e) h h'.

Lemma e_foot_cons : forall h k n e, own h k n e -> exists f, e_foot e = e_addr e :: f.
Proof. intros h k n e O. destruct (own_inv _ _ _ _ O) as (? & ? & ? & ? & ? & ? & ? & ? & ? & ? & ? & _ & E & _). eauto. Qed.
Lemma own_next : forall h k n e, own h k n e -> next_of h (e_addr e) = Ok n.
Proof.
  intros h k n e O. destruct (own_inv _ _ _ _ O) as (? & ? & ? & ? & ? & ? & ? & ? & ? & ? & ? & _ & _ & E & _).
  unfold next_of. rewrite (get_live _ _ _ E) by discriminate. reflexivity.
Qed.
Lemma own_kind : forall h k n e, own h k n e -> kind_at h (e_addr e) = Ok k.
Proof.
  intros h k n e O. destruct (own_inv _ _ _ _ O) as (? & ? & ? & ? & ? & ? & ? & ? & ? & ? & ? & _ & _ & E & _).
  unfold kind_at. rewrite (get_live _ _ _ E) by discriminate. reflexivity.
Qed.
Lemma foot_long : forall h k p l, own_list h k p l -> length l <= length (foot l).
Proof.
  intros h k p l. revert p. induction l as [|e l IH]; intros p O; [cbn; lia|].
  inversion O as [|? n ? ? Oe Ol]; subst. rewrite foot_cons, app_length.
  destruct (e_foot_cons _ _ _ _ Oe) as [f ->]. specialize (IH _ Ol). cbn. lia.
Qed.

(* freeing a list with any function that frees single entries correctly *)
Lemma free_list_ok : forall (fr : heap -> addr -> res heap) k,
  forall l fuel h p, own_list h k p l -> NoDup (foot l) -> length l <= fuel ->
  (forall h n e, In e l -> own h k n e -> NoDup (e_foot e) -> exists h', fr h (e_addr e) = Ok h' /\ freed_all (e_foot e) h h') ->
  exists h', free_list fr fuel h p = Ok h' /\ freed_all (foot l) h h'.
Proof.
  intros fr k. induction l as [|e l IH]; intros fuel h p O N Lf C;
    inversion O as [|? n ? ? Oe Ol]; subst.
  - exists h. split; [destruct fuel; reflexivity|apply freed_nil].
  - destruct fuel as [|fuel]; [cbn in Lf; lia|]. cbn [free_list].
    rewrite (own_next _ _ _ _ Oe). cbn [bind]. rewrite foot_cons in N |- *.
    apply NoDup_app_inv in N. destruct N as (N1 & N2 & D).
    destruct (C h n e (or_introl eq_refl) Oe N1) as (h1 & E1 & F1). rewrite E1. cbn [bind].
    assert (O1 : own_list h1 k n l).
    { eapply own_list_same; [exact Ol|]. eapply freed_same_on; [exact F1|]. intros x Hx Hx'. exact (D x Hx' Hx). }
    destruct (IH fuel h1 n O1 N2) as (h2 & E2 & F2).
    { cbn in Lf. lia. }
    { intros h' n' e' I. apply C. now right. }
    exists h2. split; [exact E2|]. eapply freed_app; eassumption.
Qed.

Lemma free_kids_ok : forall fuel, free_correct fuel -> forall ops ps vss f h, own_kids h ops ps vss f ->
  NoDup f -> length f <= fuel -> exists h', free_kids (free fuel) fuel h ops ps = Ok h' /\ freed_all f h h'.
Proof.
  intros fuel C. induction ops as [|[k sib] ops IH]; intros ps vss f h O N Lf;
    inversion O as [|? ? ? p ps' l vss' f' Ol Os Ok']; subst.
  - exists h. split; [reflexivity|apply freed_nil].
  - cbn [free_kids]. rewrite app_length in Lf. apply NoDup_app_inv in N. destruct N as (N1 & N2 & D).
    assert (B : forall e, In e l -> length (e_foot e) <= length (foot l)).
    { clear. intros e I. apply in_split in I. destruct I as (l1 & l2 & ->).
      rewrite foot_app, foot_cons, !app_length. lia. }
    assert (K : exists h1, (if sib then free_list (free fuel k) fuel h p
                            else match p with None => Ok h | Some a => free fuel k h a end) = Ok h1 /\
                           freed_all (foot l) h h1).
    { destruct sib.
      - apply free_list_ok with (k := k); [exact Ol|exact N1| |].
        + pose proof (foot_long _ _ _ _ Ol). lia.
        + intros h' n e I Oe Ne. apply (C k h' n e Oe Ne). specialize (B e I). lia.
      - specialize (Os eq_refl). inversion Ol as [|? n e l0 Oe Ol0]; subst.
        + exists h. split; [reflexivity|apply freed_nil].
        + destruct l0 as [|? ?]; [|cbn in Os; lia]. rewrite foot_cons in *. cbn [foot map concat] in *.
          rewrite app_nil_r in *. apply (C k h n e Oe N1). lia. }
    destruct K as (h1 & E1 & F1). rewrite E1. cbn [bind].
    assert (O1 : own_kids h1 ops ps' vss' f').
    { eapply own_kids_same; [exact Ok'|]. eapply freed_same_on; [exact F1|]. intros x Hx Hx'. exact (D x Hx' Hx). }
    destruct (IH _ _ _ h1 O1 N2 ltac:(lia)) as (h2 & E2 & F2). exists h2. split; [exact E2|].
    eapply freed_app; eassumption.
Qed.
Lemma free_ok : forall fuel, free_correct fuel.
Proof.
  induction fuel as [|fuel IH]; intros k h n e O N Lf.
  { destruct (e_foot_cons _ _ _ _ O) as [f E]. rewrite E in Lf. cbn in Lf. lia. }
  destruct (own_inv _ _ _ _ O) as (scal & ps & ss & fs & ks & vss & fk & arr & sarr & fa & raw & Ev & Ef & Hc & Lp & Os & Oa & Ok').
  cbn [free]. rewrite (get_live _ _ _ Hc) by discriminate. cbn [bind]. rewrite kind_refl.
  rewrite Ef in *. inversion N as [|? ? Na N']; subst. apply NoDup_app_inv in N'. destruct N' as (Ns & N' & Ds).
  apply NoDup_app_inv in N'. destruct N' as (Nf & Nk & Dk). cbn [length] in Lf. rewrite !app_length in Lf.
  rewrite !in_app_iff in Na.
  destruct (free_kids_ok fuel IH _ _ _ _ _ Ok' Nk ltac:(lia)) as (h1 & E1 & F1). rewrite E1. cbn [bind].
  assert (Oa1 : own_arr h1 arr sarr fa).
  { eapply own_arr_same; [exact Oa|]. eapply freed_same_on; [exact F1|]. exact Dk. }
  destruct (g_strfreev_ok _ _ _ _ Oa1 Nf) as (h2 & E2 & F2). rewrite E2. cbn [bind].
  assert (F12 := freed_app _ _ _ _ _ F1 F2).
  assert (Os2 : own_strs h2 ps ss fs).
  { eapply own_strs_same; [exact Os|]. eapply freed_same_on; [exact F12|]. intros x Hx Hx'.
    apply (Ds x Hx). rewrite in_app_iff in *. tauto. }
  destruct (free_strs_ok _ _ _ _ _ Os2 Ns Lp (all_free_kinds k)) as (h3 & E3 & F3). rewrite E3. cbn [bind].
  assert (F13 := freed_app _ _ _ _ _ F12 F3).
  assert (Hc3 : nth_error h3 (e_addr e) = Some (CObj k scal ps ks arr raw n)).
  { destruct F13 as (_ & S & _). rewrite S; [exact Hc|]. rewrite !in_app_iff. tauto. }
  destruct (g_free_ok _ _ _ Hc3 ltac:(discriminate)) as (h4 & E4 & F4). exists h4. split; [exact E4|].
  eapply freed_equiv; [|exact (freed_app _ _ _ _ _ F13 F4)].
  intro x. cbn [In]. rewrite !in_app_iff. cbn. tauto.
Qed.
Theorem sr_free_ok : forall k h n e, own h k n e -> separate (e_foot e) ->
  exists h', sr_free k h (e_addr e) = Ok h' /\ freed_all (e_foot e) h h'.
Proof.
  intros k h n e O N. apply (free_ok _ k h n e O N).
  enough (length (e_foot e) <= length h) by lia. apply NoDup_bound; [exact N|]. eapply own_valid; exact O.
Qed.
Lemma frame_free_ok : forall h k n e, own h k n e -> separate (e_foot e) ->
  exists h', frame_free h (e_addr e) = Ok h' /\ freed_all (e_foot e) h h'.
Proof.
  intros h k n e O N. unfold frame_free. pose proof (own_kind _ _ _ _ O) as K. unfold kind_at in K.
  destruct (get h (e_addr e)) as [c| |]; try discriminate K. cbn [bind] in *.
  destruct c; try discriminate K. injection K as ->. eapply sr_free_ok; eassumption.
Qed.

(** ** List segments *)
Inductive seg (h : heap) (k : kind) : option addr -> list entry -> option addr -> Prop :=
| seg_nil p : seg h k p [] p
| seg_cons n e l q : own h k n e -> seg h k n l q -> seg h k (Some (e_addr e)) (e :: l) q.
Lemma seg_list : forall h k l p, own_list h k p l <-> seg h k p l None.
Proof.
  intros h k. induction l as [|e l IH]; intro p; split; intro H; inversion H; subst; try constructor.
  - econstructor; [eassumption|]. now apply IH.
  - econstructor; [eassumption|]. now apply IH.
Qed.
Lemma seg_app : forall h k l1 l2 p q, seg h k p (l1 ++ l2) q <-> exists m, seg h k p l1 m /\ seg h k m l2 q.
Proof.
  intros h k. induction l1 as [|e l1 IH]; intros l2 p q; cbn; split; intro H.
  - exists p. split; [constructor|exact H].
  - destruct H as (m & H1 & H2). inversion H1; subst. exact H2.
  - inversion H as [|n ? ? ? O H']; subst. apply IH in H'. destruct H' as (m & H1 & H2). exists m. split; [|exact H2].
    econstructor; eassumption.
  - destruct H as (m & H1 & H2). inversion H1 as [|n ? ? ? O H']; subst. econstructor; [exact O|]. apply IH. eauto.
Qed.
Lemma seg_same : forall h h' k l p q, seg h k p l q -> same_on (foot l) h h' -> seg h' k p l q.
Proof.
  intros h h' k. induction l as [|e l IH]; intros p q H S; inversion H; subst; [constructor|].
  rewrite foot_cons in S. apply same_on_app in S. destruct S. econstructor; [eapply own_same; eassumption|auto].
Qed.

(* changing the next pointer of an entry *)
Lemma set_next_ok : forall h k n0 e n, own h k n0 e -> NoDup (e_foot e) ->
  exists h', set_next h (e_addr e) n = Ok h' /\ own h' k n e /\ same_outside [e_addr e] h h' /\ length h' = length h.
Proof.
  intros h k n0 e n O N.
  destruct (own_inv _ _ _ _ O) as (scal & ps & ss & fs & ks & vss & fk & arr & sarr & fa & raw & Ev & Ef & Hc & Lp & Os & Oa & Ok').
  unfold set_next. rewrite (get_live _ _ _ Hc) by discriminate. cbn [bind].
  rewrite (set_live _ _ _ _ Hc) by discriminate. eexists. split; [reflexivity|].
  set (h' := put h (e_addr e) _).
  assert (S : same_outside [e_addr e] h h').
  { intros x Hx. apply put_other. intro E. apply Hx. now left. }
  split; [|split; [exact S|apply put_length]].
  rewrite Ef in N. inversion N as [|? ? Na N']; subst. rewrite !in_app_iff in Na.
  assert (D : forall f, (forall x, In x f -> x <> e_addr e) -> same_on f h h').
  { intros f Hf x Hx. apply S. intros [E|[]]. exact (Hf x Hx (eq_sym E)). }
  destruct e as [[a v] f]. cbn [e_val e_foot e_addr fst snd] in *. subst v f.
  econstructor; [apply put_same; eapply live_lt; exact Hc|exact Lp|eapply own_strs_same; [exact Os|]
                |eapply own_arr_same; [exact Oa|]|eapply own_kids_same; [exact Ok'|]];
    apply D; intros x Hx ->; tauto.
Qed.

Definition last_addr (l : list entry) : option addr :=
  match rev l with [] => None | e :: _ => Some (e_addr e) end.
Lemma last_addr_snoc : forall l e, last_addr (l ++ [e]) = Some (e_addr e).
Proof. intros. unfold last_addr. now rewrite rev_app_distr. Qed.

(** ** Editing *)
Section Edit.
  Variables (h : heap) (t : addr) (rest : option addr -> cell) (fk : kind).

  Lemma thread_frames_ok : forall l, thread_is h t rest fk l ->
    exists p, thread_frames h t = Ok p /\ own_list h fk p l /\ nth_error h t = Some (rest p).
  Proof.
    intros l (p & k & scal & strs & kids & arr & raw & next & -> & Hk & Ht & Ol & N). exists p.
    unfold thread_frames. rewrite (get_live _ _ _ Ht) by discriminate. repeat split; assumption.
  Qed.
End Edit.

Lemma set_frames_ok : forall h t k scal strs kids arr raw next p q,
  nth_error h t = Some (CObj k scal strs (p :: kids) arr raw next) ->
  exists h', set_frames h t q = Ok h' /\ nth_error h' t = Some (CObj k scal strs (q :: kids) arr raw next) /\
    same_outside [t] h h' /\ length h' = length h.
Proof.
  intros h t k scal strs kids arr raw next p q Ht. unfold set_frames.
  rewrite (get_live _ _ _ Ht) by discriminate. cbn [bind]. rewrite (set_live _ _ _ _ Ht) by discriminate.
  eexists. split; [reflexivity|]. split; [apply put_same; eapply live_lt; exact Ht|].
  split; [|apply put_length]. intros x Hx. apply put_other. intro E. apply Hx. now left.
Qed.

Lemma thread_len : forall h t rest fk l, thread_is h t rest fk l -> length l < length h.
Proof.
  intros h t rest fk l (p & k & scal & strs & kids & arr & raw & next & E & Hk & Ht & Ol & N).
  pose proof (foot_long _ _ _ _ Ol). assert (B : length (t :: foot l) <= length h).
  { apply NoDup_bound; [exact N|]. intros x [<-|Hx]; [eapply live_lt; exact Ht|eapply own_list_valid; eassumption]. }
  cbn in B. lia.
Qed.

Lemma in_foot : forall e l, In e l -> forall x, In x (e_foot e) -> In x (foot l).
Proof.
  intros e l I x Hx. apply in_split in I. destruct I as (l1 & l2 & ->).
  rewrite foot_app, foot_cons, !in_app_iff. tauto.
Qed.
Lemma addr_in_foot : forall h k p l q e, seg h k p l q -> In e l -> In (e_addr e) (e_foot e).
Proof.
  intros h k p l q e S. induction S as [|n e' l q O S IH]; [intros []|intros [|]].
  - subst. destruct (e_foot_cons _ _ _ _ O) as [f ->]. now left.
  - auto.
Qed.
Lemma entry_own : forall h k p l q e, seg h k p l q -> In e l -> exists n, own h k n e.
Proof.
  intros h k p l q e S. induction S as [|n e' l q O S IH]; [intros []|intros [|]; [subst; eauto|auto]].
Qed.

(* unlinking one entry *)
Lemma unlink_ok : forall h t rest fk l1 e l2 n, thread_is h t rest fk (l1 ++ e :: l2) ->
  next_of h (e_addr e) = Ok n ->
  exists h', (do h1 <- match last_addr l1 with Some q => set_next h q n | None => set_frames h t n end;
              do h2 <- frame_free h1 (e_addr e); Ok (h2, true)) = Ok (h', true) /\
    thread_is h' t rest fk (l1 ++ l2) /\
    (forall x, In x (e_foot e) -> freed h' x) /\
    same_outside (t :: foot (l1 ++ e :: l2)) h h' /\ length h' = length h.
Proof.
  intros h t rest fk l1 e l2 n (p & k & scal & strs & kids & arr & raw & next & -> & Hk & Ht & Ol & N) Hn.
  apply seg_list in Ol. apply seg_app in Ol. destruct Ol as (m & S1 & S2).
  inversion S2 as [|n' ? ? ? Oe S3]; subst. pose proof (own_next _ _ _ _ Oe) as Hn'.
  rewrite Hn in Hn'. injection Hn' as <-.
  rewrite foot_app, foot_cons in N |- *. unfold separate in N. inversion N as [|? ? Nt N']; subst.
  apply NoDup_app_inv in N'. destruct N' as (N1 & N' & D1). apply NoDup_app_inv in N'. destruct N' as (Ne & N2 & D2).
  rewrite !in_app_iff in Nt.
  assert (K : exists h1 p', match last_addr l1 with Some q => set_next h q n | None => set_frames h t n end = Ok h1 /\
    nth_error h1 t = Some (CObj k scal strs (p' :: kids) arr raw next) /\
    seg h1 fk p' l1 n /\ same_outside (t :: foot l1) h h1 /\ length h1 = length h).
  { destruct (rev l1) as [|e1 r] eqn:R.
    - assert (l1 = []) as -> by (rewrite <- (rev_involutive l1), R; reflexivity).
      cbn [last_addr rev]. destruct (set_frames_ok _ _ _ _ _ _ _ _ _ _ n Ht) as (h1 & E & T & S & Lh).
      exists h1, n. split; [exact E|]. split; [exact T|]. split; [constructor|]. split; [exact S|exact Lh].
    - assert (El : l1 = rev r ++ [e1]) by (rewrite <- (rev_involutive l1), R; reflexivity).
      rewrite El in *. rewrite last_addr_snoc. apply seg_app in S1. destruct S1 as (m' & S0 & S1).
      inversion S1 as [|n1 ? ? ? O1 S1']; subst. rewrite foot_app, foot_cons in *. cbn [foot map concat] in *.
      rewrite app_nil_r in *. fold (foot (rev r)) in *.
      apply NoDup_app_inv in N1. destruct N1 as (N0 & Ne1 & D0).
      destruct (set_next_ok _ _ _ _ n O1 Ne1) as (h1 & E & O1' & S & Lh).
      destruct (e_foot_cons _ _ _ _ O1) as [f1 Ef1].
      assert (I1 : In (e_addr e1) (e_foot e1)) by (rewrite Ef1; now left).
      exists h1, p. split; [exact E|]. split.
      { rewrite S; [exact Ht|]. intros [Et|[]]. apply Nt. left. apply in_or_app. right. now rewrite <- Et. }
      split.
      { apply seg_app. exists (Some (e_addr e1)). split.
        - eapply seg_same; [exact S0|]. intros x Hx. apply S. intros [<-|[]]. exact (D0 _ Hx I1).
        - econstructor; [exact O1'|constructor]. }
      split; [|exact Lh]. intros x Hx. apply S. intros [<-|[]]. apply Hx. right. apply in_or_app. now right. }
  destruct K as (h1 & p' & E1 & T1 & S1' & So1 & L1). rewrite E1. cbn [bind].
  assert (Oe1 : own h1 fk n e).
  { eapply own_same; [exact Oe|]. intros x Hx. apply So1. intros [<-|I].
    - apply Nt. right. now left.
    - apply (D1 x I). apply in_or_app. now left. }
  destruct (frame_free_ok _ _ _ _ Oe1 Ne) as (h2 & E2 & F2). rewrite E2. cbn [bind].
  exists h2. split; [reflexivity|].
  assert (L2 : length h2 = length h) by (destruct F2 as [F2 _]; lia).
  split.
  { exists p', k, scal, strs, kids, arr, raw, next. split; [reflexivity|]. split; [exact Hk|].
    destruct F2 as (_ & So2 & _). split.
    { rewrite So2; [exact T1|]. tauto. }
    split.
    - apply seg_list, seg_app. exists n. split.
      + eapply seg_same; [exact S1'|]. intros x Hx. apply So2. intro I. apply (D1 x Hx), in_or_app. now left.
      + eapply seg_same; [exact S3|]. intros x Hx. rewrite So2 by (intro I; exact (D2 x I Hx)).
        apply So1. intros [<-|I]; [apply Nt; right; now right|]. apply (D1 x I), in_or_app. now right.
    - rewrite foot_app. unfold separate. constructor.
      + rewrite in_app_iff. tauto.
      + apply NoDup_app2; auto. intros x Hx I. apply (D1 x Hx), in_or_app. now right. }
  split; [apply F2|]. split; [|exact L2].
  intros x Hx. destruct F2 as (_ & So2 & _). cbn [In] in Hx. rewrite !in_app_iff in Hx.
  rewrite So2 by tauto. apply So1. cbn [In]. tauto.
Qed.

Lemma remove_found : forall h t rest fk l e l2, e_addr e = e_addr e -> forall fuel l1 loop,
  thread_is h t rest fk (l1 ++ l ++ e :: l2) -> seg h fk loop (l ++ e :: l2) None -> length l < fuel ->
  exists h', remove_loop fuel h t (e_addr e) loop (last_addr l1) = Ok (h', true) /\
    thread_is h' t rest fk (l1 ++ l ++ l2) /\ (forall x, In x (e_foot e) -> freed h' x) /\
    same_outside (t :: foot (l1 ++ l ++ e :: l2)) h h' /\ length h' = length h.
Proof.
  intros h t rest fk. induction l as [|f l IH]; intros e l2 _ fuel l1 loop T S Lf;
    destruct fuel as [|fuel]; try (cbn in Lf; lia); inversion S as [|n ? ? ? O S']; subst; cbn [remove_loop].
  - rewrite Nat.eqb_refl. rewrite (own_next _ _ _ _ O). cbn [bind app].
    apply unlink_ok; [exact T|]. now apply own_next in O.
  - assert (Ne : e_addr f <> e_addr e).
    { intro E. destruct T as (p & k & scal & strs & kids & arr & raw & next & _ & _ & _ & Ol & N).
      apply seg_list in Ol. rewrite foot_app in N. unfold separate in N. inversion N as [|? ? _ N']; subst.
      apply NoDup_app_inv in N'. destruct N' as (_ & N' & _). cbn [app] in N'. rewrite foot_cons in N'.
      apply NoDup_app_inv in N'. destruct N' as (_ & _ & D). apply (D (e_addr f)).
      - destruct (e_foot_cons _ _ _ _ O) as [g ->]. now left.
      - rewrite E. apply in_foot with (e := e); [apply in_or_app; right; now left|].
        eapply addr_in_foot; [exact S'|]. apply in_or_app. right. now left. }
    apply Nat.eqb_neq in Ne. rewrite Ne. rewrite (own_next _ _ _ _ O). cbn [bind].
    replace (l1 ++ (f :: l) ++ e :: l2) with ((l1 ++ [f]) ++ l ++ e :: l2) in * by (now rewrite <- app_assoc).
    replace (l1 ++ (f :: l) ++ l2) with ((l1 ++ [f]) ++ l ++ l2) by (now rewrite <- app_assoc).
    rewrite <- (last_addr_snoc l1 f). apply IH; [reflexivity|exact T|exact S'|cbn in Lf; lia].
Qed.
Lemma remove_absent : forall h fk t frame l fuel loop prev, own_list h fk loop l ->
  ~ In frame (map e_addr l) -> length l <= fuel ->
  remove_loop fuel h t frame loop prev = Ok (h, false).
Proof.
  intros h fk t frame. induction l as [|e l IH]; intros fuel loop prev O N Lf; inversion O as [|? n ? ? Oe Ol]; subst.
  - destruct fuel; reflexivity.
  - destruct fuel as [|fuel]; [cbn in Lf; lia|]. cbn [remove_loop].
    assert (Ne : e_addr e <> frame) by (intro E; apply N; now left).
    apply Nat.eqb_neq in Ne. rewrite Ne, (own_next _ _ _ _ Oe). cbn [bind].
    apply IH; [exact Ol|intro I; apply N; now right|cbn in Lf; lia].
Qed.
Theorem thread_remove_frame_ok : forall h t rest fk l1 e l2, thread_is h t rest fk (l1 ++ e :: l2) ->
  exists h', thread_remove_frame h t (e_addr e) = Ok (h', true) /\ thread_is h' t rest fk (l1 ++ l2) /\
    (forall x, In x (e_foot e) -> freed h' x) /\ same_outside (t :: foot (l1 ++ e :: l2)) h h' /\ length h' = length h.
Proof.
  intros h t rest fk l1 e l2 T. pose proof (thread_len _ _ _ _ _ T) as B.
  destruct (thread_frames_ok _ _ _ _ _ T) as (p & E & Ol & Ht). unfold thread_remove_frame. rewrite E. cbn [bind].
  apply seg_list in Ol. apply (remove_found h t rest fk l1 e l2 eq_refl (length h) [] p T Ol).
  rewrite app_length in B. lia.
Qed.
Theorem thread_remove_absent_ok : forall h t rest fk l frame, thread_is h t rest fk l ->
  ~ In frame (map e_addr l) -> thread_remove_frame h t frame = Ok (h, false).
Proof.
  intros h t rest fk l frame T N. pose proof (thread_len _ _ _ _ _ T) as B.
  destruct (thread_frames_ok _ _ _ _ _ T) as (p & E & Ol & Ht). unfold thread_remove_frame. rewrite E. cbn [bind].
  eapply remove_absent; [exact Ol|exact N|lia].
Qed.

Lemma present_ok : forall h fk frame l fuel loop, own_list h fk loop l -> length l <= fuel ->
  present fuel h frame loop = Ok (existsb (fun e => Nat.eqb (e_addr e) frame) l).
Proof.
  intros h fk frame. induction l as [|e l IH]; intros fuel loop O Lf; inversion O as [|? n ? ? Oe Ol]; subst.
  - destruct fuel; reflexivity.
  - destruct fuel as [|fuel]; [cbn in Lf; lia|]. cbn [present existsb].
    destruct (Nat.eqb (e_addr e) frame); [reflexivity|]. rewrite (own_next _ _ _ _ Oe). cbn [bind orb].
    apply IH; [exact Ol|cbn in Lf; lia].
Qed.
Lemma above_ok : forall rest fk l1 fuel h t e l2, thread_is h t rest fk (l1 ++ e :: l2) -> length l1 < fuel ->
  exists h', above_loop fuel h t (e_addr e) = Ok h' /\ thread_is h' t rest fk (e :: l2) /\
    (forall x, In x (foot l1) -> freed h' x) /\ same_outside (t :: foot l1) h h' /\ length h' = length h.
Proof.
  intros rest fk. induction l1 as [|f l1 IH]; intros fuel h t e l2 T Lf;
    (destruct fuel as [|fuel]; [cbn in Lf; lia|]); cbn [above_loop];
    destruct (thread_frames_ok _ _ _ _ _ T) as (p & E & Ol & Ht); rewrite E; cbn [bind].
  - inversion Ol; subst. cbn [opt_eqb]. rewrite Nat.eqb_refl. exists h. split; [reflexivity|].
    split; [exact T|]. split; [intros x []|]. split; [intros x _; reflexivity|reflexivity].
  - cbn [app] in Ol. inversion Ol as [|? n ? ? Of Ol']; subst. cbn [opt_eqb].
    destruct T as (p0 & k & scal & strs & kids & arr & raw & next & -> & Hk & Ht0 & _ & N).
    unfold separate in N. inversion N as [|? ? Nt N']; subst. cbn [app] in Nt, N'. rewrite foot_cons in Nt, N'.
    apply NoDup_app_inv in N'. destruct N' as (Nf & N2 & D). rewrite in_app_iff in Nt.
    destruct (e_foot_cons _ _ _ _ Of) as [g Eg]. assert (If : In (e_addr f) (e_foot f)) by (rewrite Eg; now left).
    assert (Ne : e_addr f <> e_addr e).
    { intro Ee. apply (D (e_addr f) If). rewrite Ee. apply in_foot with (e := e); [apply in_or_app; right; now left|].
      apply seg_list in Ol'. eapply addr_in_foot; [exact Ol'|]. apply in_or_app. right. now left. }
    apply Nat.eqb_neq in Ne. rewrite Ne, (own_next _ _ _ _ Of). cbn [bind].
    destruct (frame_free_ok _ _ _ _ Of Nf) as (h1 & E1 & (L1 & So1 & F1)). rewrite E1. cbn [bind].
    assert (Ht1 : nth_error h1 t = Some (CObj k scal strs (Some (e_addr f) :: kids) arr raw next)).
    { rewrite So1 by tauto. exact Ht. }
    destruct (set_frames_ok _ _ _ _ _ _ _ _ _ _ n Ht1) as (h2 & E2 & T2 & So2 & L2). rewrite E2. cbn [bind].
    destruct (IH fuel h2 t e l2) as (h3 & E3 & T3 & F3 & So3 & L3).
    { exists n, k, scal, strs, kids, arr, raw, next. split; [reflexivity|]. split; [exact Hk|]. split; [exact T2|].
      split.
      - eapply own_list_same; [exact Ol'|]. intros x Hx. rewrite So2 by (intros [<-|[]]; tauto).
        apply So1. intro I. exact (D x I Hx).
      - constructor; tauto. }
    { cbn in Lf. lia. }
    exists h3. split; [exact E3|]. split; [exact T3|]. split.
    { intros x Hx. rewrite foot_cons in Hx. destruct (in_dec Nat.eq_dec x (foot l1)) as [I|I]; [now apply F3|].
      apply in_app_or in Hx. destruct Hx as [Hx|Hx]; [|contradiction]. unfold freed.
      assert (x <> t) by (intros ->; tauto).
      rewrite So3 by (intros [<-|J]; [congruence|contradiction]). rewrite So2 by (intros [<-|[]]; congruence). now apply F1. }
    split; [|lia]. intros x Hx. rewrite foot_cons in Hx. cbn [In] in Hx. rewrite in_app_iff in Hx.
    rewrite So3 by (cbn [In]; tauto). rewrite So2 by (cbn [In]; tauto). apply So1. tauto.
Qed.
Theorem thread_remove_frames_above_ok : forall h t rest fk l1 e l2, thread_is h t rest fk (l1 ++ e :: l2) ->
  exists h', thread_remove_frames_above h t (e_addr e) = Ok (h', true) /\ thread_is h' t rest fk (e :: l2) /\
    (forall x, In x (foot l1) -> freed h' x) /\ same_outside (t :: foot l1) h h' /\ length h' = length h.
Proof.
  intros h t rest fk l1 e l2 T. pose proof (thread_len _ _ _ _ _ T) as B.
  destruct (thread_frames_ok _ _ _ _ _ T) as (p & E & Ol & Ht). unfold thread_remove_frames_above.
  rewrite E. cbn [bind]. rewrite (present_ok _ _ _ _ _ _ Ol) by lia.
  assert (X : existsb (fun e0 => Nat.eqb (e_addr e0) (e_addr e)) (l1 ++ e :: l2) = true).
  { rewrite existsb_app. cbn. rewrite Nat.eqb_refl. now rewrite orb_true_r. }
  rewrite X. cbn [bind]. destruct (above_ok rest fk l1 (length h) h t e l2 T) as (h' & E' & R).
  { rewrite app_length in B. lia. }
  rewrite E'. cbn [bind]. exists h'. split; [reflexivity|exact R].
Qed.
Theorem thread_above_absent_ok : forall h t rest fk l frame, thread_is h t rest fk l ->
  ~ In frame (map e_addr l) -> thread_remove_frames_above h t frame = Ok (h, false).
Proof.
  intros h t rest fk l frame T N. pose proof (thread_len _ _ _ _ _ T) as B.
  destruct (thread_frames_ok _ _ _ _ _ T) as (p & E & Ol & Ht). unfold thread_remove_frames_above.
  rewrite E. cbn [bind]. rewrite (present_ok _ _ _ _ _ _ Ol) by lia.
  replace (existsb _ l) with false; [reflexivity|]. symmetry. apply not_true_is_false. intro X.
  apply existsb_exists in X. destruct X as (e & I & Ee). apply Nat.eqb_eq in Ee. apply N. rewrite <- Ee.
  now apply in_map.
Qed.

Lemma skip_ok : forall h fk l fuel p last i, own_list h fk p l -> length l <= fuel -> (0 <= i)%Z ->
  exists m, skip_frames fuel h p last i =
      Ok (m, match last_addr (firstn (Z.to_nat i) l) with Some q => Some q | None => last end) /\
    seg h fk p (firstn (Z.to_nat i) l) m /\ own_list h fk m (skipn (Z.to_nat i) l).
Proof.
  intros h fk. induction l as [|e l IH]; intros fuel p last i O Lf Hi; inversion O as [|? n ? ? Oe Ol]; subst.
  - rewrite firstn_nil, skipn_nil. exists None. destruct fuel; (split; [reflexivity|]); split; constructor.
  - destruct (Z.eqb_spec i 0) as [->|Hi0].
    + exists (Some (e_addr e)). cbn [Z.to_nat firstn skipn last_addr rev].
      destruct fuel; cbn [skip_frames Z.eqb]; (split; [reflexivity|]); split; try constructor; assumption.
    + destruct fuel as [|fuel]; [cbn in Lf; lia|]. cbn [skip_frames].
      apply Z.eqb_neq in Hi0. rewrite Hi0. apply Z.eqb_neq in Hi0. rewrite (own_next _ _ _ _ Oe). cbn [bind].
      replace (Z.to_nat i) with (S (Z.to_nat (i - 1))) by lia. cbn [firstn skipn].
      destruct (IH fuel n (Some (e_addr e)) (i - 1)%Z Ol ltac:(cbn in Lf; lia) ltac:(lia)) as (m & E & S & O').
      exists m. split.
      * rewrite E. f_equal. f_equal. unfold last_addr. cbn [rev].
        destruct (rev (firstn (Z.to_nat (i - 1)) l)) as [|x r]; reflexivity.
      * split; [econstructor; eassumption|exact O'].
Qed.

Theorem remove_frames_below_n_ok : forall h t rest fk l n, thread_is h t rest fk l -> (0 <= n)%Z ->
  exists h', remove_frames_below_n h t n = Ok h' /\ thread_is h' t rest fk (firstn (Z.to_nat n) l) /\
    (forall x, In x (foot (skipn (Z.to_nat n) l)) -> freed h' x) /\
    same_outside (t :: foot l) h h' /\ length h' = length h.
Proof.
  intros h t rest fk l n T Hn. pose proof (thread_len _ _ _ _ _ T) as B.
  unfold remove_frames_below_n. replace (n <? 0)%Z with false by (symmetry; apply Z.ltb_ge; lia).
  destruct (thread_frames_ok _ _ _ _ _ T) as (p & E & Ol & Ht). rewrite E. cbn [bind].
  destruct (skip_ok h fk l (length h) p None n Ol ltac:(lia) Hn) as (m & E1 & S1 & O2).
  rewrite E1. cbn [bind]. set (l1 := firstn (Z.to_nat n) l) in *. set (l2 := skipn (Z.to_nat n) l) in *.
  assert (El : l = l1 ++ l2) by (symmetry; apply firstn_skipn).
  destruct T as (p0 & k & scal & strs & kids & arr & raw & next & -> & Hk & Ht0 & _ & N).
  rewrite El in N |- *. rewrite foot_app in N |- *. unfold separate in N. apply NoDup_cons_iff in N.
  destruct N as [Nt N'].
  apply NoDup_app_inv in N'. destruct N' as (N1 & N2 & D). rewrite in_app_iff in Nt.
  assert (K : exists h1 p', match match last_addr l1 with Some q => Some q | None => None end with
                            | Some q => set_next h q None | None => set_frames h t None end = Ok h1 /\
    nth_error h1 t = Some (CObj k scal strs (p' :: kids) arr raw next) /\
    seg h1 fk p' l1 None /\ same_outside (t :: foot l1) h h1 /\ length h1 = length h).
  { clearbody l1 l2. clear El. destruct (rev l1) as [|e1 r] eqn:R.
    - assert (l1 = []) as -> by (rewrite <- (rev_involutive l1), R; reflexivity).
      cbn [last_addr rev]. destruct (set_frames_ok _ _ _ _ _ _ _ _ _ _ None Ht) as (h1 & E' & T' & S & Lh).
      exists h1, None. split; [exact E'|]. split; [exact T'|]. split; [constructor|]. split; [exact S|exact Lh].
    - assert (El1 : l1 = rev r ++ [e1]) by (rewrite <- (rev_involutive l1), R; reflexivity).
      subst l1. rewrite last_addr_snoc. apply seg_app in S1. destruct S1 as (m' & S0 & S1).
      inversion S1 as [|n1 ? ? ? O1 S1']; subst. rewrite foot_app, foot_cons in *. cbn [foot map concat] in *.
      rewrite app_nil_r in *. fold (foot (rev r)) in *.
      apply NoDup_app_inv in N1. destruct N1 as (N0 & Ne1 & D0).
      destruct (set_next_ok _ _ _ _ None O1 Ne1) as (h1 & E' & O1' & S & Lh).
      destruct (e_foot_cons _ _ _ _ O1) as [f1 Ef1].
      assert (I1 : In (e_addr e1) (e_foot e1)) by (rewrite Ef1; now left).
      exists h1, p. split; [exact E'|]. split.
      { rewrite S; [exact Ht|]. intros [Et|[]]. apply Nt. left. apply in_or_app. right. now rewrite <- Et. }
      split.
      { apply seg_app. exists (Some (e_addr e1)). split.
        - eapply seg_same; [exact S0|]. intros x Hx. apply S. intros [<-|[]]. exact (D0 _ Hx I1).
        - econstructor; [exact O1'|constructor]. }
      split; [|exact Lh]. intros x Hx. apply S. intros [<-|[]]. apply Hx. right. apply in_or_app. now right. }
  destruct K as (h1 & p' & E2 & T1 & S1' & So1 & L1). rewrite E2. cbn [bind].
  assert (O21 : own_list h1 fk m l2).
  { eapply own_list_same; [exact O2|]. intros x Hx. apply So1. intros [<-|I]; [tauto|]. exact (D x I Hx). }
  destruct (free_list_ok frame_free fk l2 (length h1) h1 m O21 N2) as (h2 & E3 & F2).
  { assert (length l2 <= length l) by (unfold l2; rewrite skipn_length; lia). lia. }
  { intros h' n' e _ Oe Ne. eapply frame_free_ok; eassumption. }
  rewrite E3. exists h2. split; [reflexivity|]. destruct F2 as (L2 & So2 & F2). split.
  { exists p', k, scal, strs, kids, arr, raw, next. split; [reflexivity|]. split; [exact Hk|]. split.
    - rewrite So2 by tauto. exact T1.
    - split; [apply seg_list|constructor; tauto]. eapply seg_same; [exact S1'|].
      intros x Hx. apply So2. exact (D x Hx). }
  split; [exact F2|]. split; [|lia].
  intros x Hx. cbn [In] in Hx. rewrite in_app_iff in Hx. rewrite So2 by tauto. apply So1. cbn [In]. tauto.
Qed.

Lemma count_ok : forall h fk l fuel p, own_list h fk p l -> length l <= fuel -> count_from fuel h p = Ok (length l).
Proof.
  intros h fk. induction l as [|e l IH]; intros fuel p O Lf; inversion O as [|? n ? ? Oe Ol]; subst.
  - destruct fuel; reflexivity.
  - destruct fuel as [|fuel]; [cbn in Lf; lia|]. cbn [count_from]. rewrite (own_next _ _ _ _ Oe). cbn [bind].
    rewrite (IH _ _ Ol) by (cbn in Lf; lia). reflexivity.
Qed.
Theorem thread_frame_count_ok : forall h t rest fk l, thread_is h t rest fk l ->
  thread_frame_count h t = Ok (length l).
Proof.
  intros h t rest fk l T. pose proof (thread_len _ _ _ _ _ T) as B.
  destruct (thread_frames_ok _ _ _ _ _ T) as (p & E & Ol & Ht). unfold thread_frame_count. rewrite E. cbn [bind].
  apply (count_ok _ _ _ _ _ Ol). lia.
Qed.
