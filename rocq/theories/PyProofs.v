From Verif Require Import Base HeapModel HeapSpec HeapProofs HeapProofs2 HeapProofs3 HeapListModel HeapListProofs HeapListProofs3 PyModel PySpec.
Open Scope nat_scope.

(** ** Objects *)
Lemma put_obj_length os : forall r o, length (put_obj os r o) = length os.
Proof. induction os as [|x os IH]; destruct r; cbn; intros; rewrite ?IH; reflexivity. Qed.
Lemma put_obj_same os : forall r o, r < length os -> nth_error (put_obj os r o) r = Some o.
Proof. induction os as [|x os IH]; destruct r; cbn; intros; try lia; [reflexivity|]. apply IH. lia. Qed.
Lemma put_obj_other os : forall r o x, x <> r -> nth_error (put_obj os r o) x = nth_error os x.
Proof. induction os as [|y os IH]; destruct r, x; cbn; intros; try reflexivity; try lia. apply IH. lia. Qed.
Lemma nth_ext_eq {A} : forall l m : list A, (forall i, nth_error l i = nth_error m i) -> l = m.
Proof.
  induction l as [|x l IH]; destruct m as [|y m]; intros H; [reflexivity| | |].
  - specialize (H 0). discriminate.
  - specialize (H 0). discriminate.
  - f_equal; [specialize (H 0); cbn in H; congruence|]. apply IH. intros i. exact (H (S i)).
Qed.
Lemma object_lt os r n b : object os r n b -> r < length os.
Proof. intros H. apply nth_error_Some. unfold object in H. congruence. Qed.
Lemma obj_ok st r n b : object (objs st) r n b -> obj st r = Ok (n, b).
Proof. unfold object, obj. intros ->. reflexivity. Qed.
Lemma object_put os r n b x o : object os x n b -> x <> r -> object (put_obj os r o) x n b.
Proof. unfold object. intros H E. rewrite put_obj_other; assumption. Qed.
Lemma object_put_same os r n b o : object os r n b -> object (put_obj os r (Some o)) r (fst o) (snd o).
Proof. unfold object. intros H. rewrite put_obj_same by (eapply object_lt; exact H). destruct o; reflexivity. Qed.
Lemma object_fun os r n b n' b' : object os r n b -> object os r n' b' -> n = n' /\ b = b'.
Proof. unfold object. intros H1 H2. rewrite H1 in H2. injection H2 as -> ->. auto. Qed.

(** One more reference to [r]. *)
Definition bump (os : objects) (r : ref) : objects :=
  match nth_error os r with Some (Some (n, b)) => put_obj os r (Some (S n, b)) | _ => os end.
Definition more (os os' : objects) : Prop := length os' = length os /\
  forall r n b, object os r n b -> exists n', n <= n' /\ object os' r n' b.
Lemma more_refl os : more os os.
Proof. split; [reflexivity|]. intros. exists n. auto. Qed.
Lemma more_trans a b c : more a b -> more b c -> more a c.
Proof.
  intros [L1 H1] [L2 H2]. split; [lia|]. intros r n x Hr. destruct (H1 _ _ _ Hr) as (n1 & Le1 & Hr1). destruct (H2 _ _ _ Hr1) as (n2 & Le2 & Hr2).
  exists n2. split; [lia|exact Hr2].
Qed.
Lemma bump_eq os r n b : object os r n b -> bump os r = put_obj os r (Some (S n, b)).
Proof. unfold bump, object. intros ->. reflexivity. Qed.
Lemma bump_more os r : more os (bump os r).
Proof.
  unfold bump. destruct (nth_error os r) as [[[n b]|]|] eqn:E; try apply more_refl. split; [apply put_obj_length|].
  intros x m c H. destruct (Nat.eq_dec x r) as [->|Ne].
  - destruct (object_fun _ _ _ _ _ _ H E) as [-> ->]. exists (S n). split; [lia|]. eapply (object_put_same os r n b (S n, b)). exact E.
  - exists m. split; [lia|]. apply object_put; assumption.
Qed.
Lemma alive_more os os' r b : more os os' -> alive os r b -> alive os' r b.
Proof. intros [_ M] [n H]. destruct (M _ _ _ H) as (n' & Le & H'). destruct n' as [|n']; [lia|]. exists n'. exact H'. Qed.
Lemma incref_ok st r n b : object (objs st) r n b -> incref st r = Ok (St (bump (objs st) r) (mem st)).
Proof. intros H. unfold incref. rewrite (obj_ok _ _ _ _ H). cbn [bind]. unfold set_obj. rewrite (bump_eq _ _ _ _ H). reflexivity. Qed.
(* releasing what has just been taken *)
Lemma decref_bump os h r b : alive os r b -> decref (St (bump os r) h) r = Ok (St os h).
Proof.
  intros [n H]. unfold decref. cbn [decref_in objs]. rewrite (bump_eq _ _ _ _ H).
  pose proof (object_put_same os r (S n) b (S (S n), b) H) as H1. cbn in H1. rewrite (obj_ok (St _ h) r _ _ H1). cbn [bind].
  unfold set_obj. cbn [objs mem]. f_equal. f_equal. apply nth_ext_eq. intros x.
  destruct (Nat.eq_dec x r) as [->|Ne]; [|rewrite !put_obj_other by exact Ne; reflexivity].
  rewrite put_obj_same by (rewrite put_obj_length; eapply object_lt; exact H). symmetry. exact H.
Qed.
Lemma bump_swap os q r : q <> r -> bump (bump os q) r = bump (bump os r) q.
Proof.
  intros Ne. unfold bump at 2 4.
  assert (P : forall a b o, a <> b -> bump (put_obj os a o) b = match nth_error os b with Some (Some (n, c)) => put_obj (put_obj os a o) b (Some (S n, c)) | _ => put_obj os a o end).
  { intros a b o E. unfold bump. rewrite put_obj_other by auto. reflexivity. }
  destruct (nth_error os q) as [[[n b]|]|] eqn:Eq; destruct (nth_error os r) as [[[m c]|]|] eqn:Er;
    rewrite ?P by auto; unfold bump; rewrite ?Eq, ?Er; try reflexivity.
  assert (Lq : q < length os) by (apply nth_error_Some; congruence). assert (Lr : r < length os) by (apply nth_error_Some; congruence).
  apply nth_ext_eq. intros x. destruct (Nat.eq_dec x q) as [E1|N1]; [subst x|destruct (Nat.eq_dec x r) as [E2|N2]; [subst x|]].
  - rewrite put_obj_other by auto. rewrite !put_obj_same; rewrite ?put_obj_length; [reflexivity|exact Lq|exact Lq].
  - rewrite put_obj_same by (rewrite put_obj_length; exact Lr). rewrite put_obj_other by auto.
    rewrite put_obj_same by exact Lr. reflexivity.
  - rewrite !put_obj_other by auto. reflexivity.
Qed.

(** ** Linking *)
Section Link.
  Variables (k : kind) (each : state -> ref -> res (state * bool)) (oe : bool) (os : objects).
  Variables (attrs : entry -> list (option ref)) (pre : heap -> entry -> Prop) (touch : entry -> list addr).
  Definition is_item (os : objects) (r : ref) (e : entry) : Prop := alive os r (PyStruct k (e_addr e) (attrs e)).
  Hypothesis pre_local : forall h h' e, pre h e -> same_on (e_foot e) h h' -> pre h' e.
  Hypothesis pre_addr : forall h e, pre h e -> In (e_addr e) (e_foot e).
  Hypothesis touch_in : forall h e x, pre h e -> In x (touch e) -> In x (e_foot e).
  Hypothesis touch_addr : forall e, In (e_addr e) (touch e).
  Hypothesis each_ok : forall os' h r e, more os os' -> is_item os' r e -> pre h e -> NoDup (e_foot e) ->
    exists h', each (St os' h) r = Ok (St os' h', true) /\ (exists n, own h' k n e) /\ same_outside (touch e) h h' /\ length h' = length h.

  Lemma item_more os1 os2 r e : more os1 os2 -> is_item os1 r e -> is_item os2 r e.
  Proof. intros M H. eapply alive_more; eassumption. Qed.
  Lemma type_ok st r e : is_item (objs st) r e -> has_type st r k = Ok true.
  Proof. intros [n H]. unfold has_type. rewrite (obj_ok _ _ _ _ H). cbn [bind]. rewrite kind_refl. reflexivity. Qed.
  Lemma wrapped_ok st r e : is_item (objs st) r e -> wrapped st r = Ok (e_addr e).
  Proof. intros [n H]. unfold wrapped. rewrite (obj_ok _ _ _ _ H). reflexivity. Qed.

  Lemma link_rest first : forall items es q eq h n, is_item os q eq -> own h k n eq ->
    Forall2 (is_item os) items es -> Forall (pre h) es -> NoDup (foot (eq :: es)) -> NoDup (q :: items) ->
    exists h', link_loop k each first oe items (Some q) (St (bump os q) h) = Ok (St os h', true) /\
      own_list h' k (Some (e_addr eq)) (eq :: es) /\
      same_outside (e_addr eq :: concat (map touch es)) h h' /\ length h' = length h.
  Proof.
    induction items as [|r items IH]; intros es q eq h n Hq Oq Fi Fp Nf Ni; inversion Fi as [|? e ? es' Hr Fi']; subst.
    - cbn [link_loop]. rewrite (wrapped_ok (St (bump os q) h) q eq) by (eapply item_more; [apply bump_more|exact Hq]). cbn [bind mem].
      cbn [foot map concat] in Nf. rewrite app_nil_r in Nf.
      destruct (set_next_ok h k n eq None Oq Nf) as (h1 & E1 & O1 & S1 & L1). rewrite E1. cbn [bind]. unfold with_mem. cbn [objs].
      rewrite (decref_bump os h1 q _ Hq). cbn [bind]. exists h1. split; [reflexivity|]. split; [|split; [exact S1|exact L1]].
      econstructor; [exact O1|constructor].
    - inversion Fp as [|? ? Pe Fp']; subst. rewrite !foot_cons in Nf. rewrite app_assoc in Nf.
      apply NoDup_app_inv in Nf as (Nqe & Nf' & Dqe). apply NoDup_app_inv in Nqe as (Nq & Ne & Dq).
      inversion Ni as [|? ? Nir Ni']; subst. assert (Nqr : q <> r) by (intros ->; apply Nir; left; reflexivity).
      cbn [link_loop]. destruct Hr as [m Hr]. assert (Hr0 : is_item os r e) by (exists m; exact Hr).
      pose proof (item_more _ _ _ _ (bump_more os q) Hr0) as [m1 Hr1].
      rewrite (incref_ok (St (bump os q) h) r _ _ Hr1). cbn [objs mem bind].
      set (os2 := bump (bump os q) r).
      assert (M2 : more os os2) by (eapply more_trans; [apply bump_more|apply bump_more]).
      assert (Hr2 : is_item os2 r e) by (eapply item_more; eassumption).
      assert (Hq2 : is_item os2 q eq) by (eapply item_more; eassumption).
      rewrite (type_ok (St os2 h) r e Hr2). cbn [bind].
      destruct (each_ok os2 h r e M2 Hr2 Pe Ne) as (h1 & E1 & [n1 O1] & S1 & L1). rewrite E1. cbn [bind].
      rewrite (wrapped_ok (St os2 h1) r e Hr2). cbn [bind]. rewrite (wrapped_ok (St os2 h1) q eq Hq2). cbn [bind mem].
      assert (Oq1 : own h1 k n eq).
      { eapply own_same; [exact Oq|]. intros x Hx. apply S1. intros I. apply (Dq x Hx). eapply touch_in; eassumption. }
      destruct (set_next_ok h1 k n eq (Some (e_addr e)) Oq1 Nq) as (h2 & E2 & O2 & S2 & L2). rewrite E2. cbn [bind].
      unfold with_mem. cbn [objs decref_opt].
      assert (Eos : os2 = bump (bump os r) q) by (apply bump_swap; exact Nqr). rewrite Eos.
      rewrite (decref_bump (bump os r) h2 q (PyStruct k (e_addr eq) (attrs eq))) by (eapply alive_more; [apply bump_more|exact Hq]). cbn [bind].
      assert (S12 : same_outside (e_addr eq :: touch e) h h2).
      { intros x Hx. rewrite S2 by (intros [<-|[]]; apply Hx; left; reflexivity). apply S1. intros I. apply Hx. right. exact I. }
      assert (O2e : own h2 k n1 e).
      { eapply own_same; [exact O1|]. intros x Hx. apply S2. intros [<-|[]]. apply (Dq (e_addr eq)); [eapply own_foot; exact Oq|exact Hx]. }
      destruct (IH es' r e h2 n1) as (h3 & E3 & O3 & S3 & L3); [exact Hr0|exact O2e|exact Fi'| | |exact Ni'|].
      { rewrite Forall_forall in *. intros x Ix. eapply pre_local; [apply Fp'; exact Ix|]. intros y Iy. apply S12. intros [<-|I].
        - apply (Dqe (e_addr eq)); [apply in_app_iff; left; eapply own_foot; exact Oq|]. eapply in_foot; eassumption.
        - apply (Dqe y); [apply in_app_iff; right; eapply touch_in; eassumption|]. eapply in_foot; eassumption. }
      { rewrite foot_cons. apply NoDup_app2; [exact Ne|exact Nf'|]. intros x I1 I2. apply (Dqe x); [apply in_app_iff; right; exact I1|exact I2]. }
      exists h3. split; [exact E3|]. split; [|split; [|lia]].
      + econstructor; [|exact O3]. eapply own_same; [exact O2|]. intros x Hx. apply S3. intros [<-|I].
        * apply (Dq (e_addr e) Hx). eapply own_foot; exact O1.
        * apply (Dqe x); [apply in_app_iff; left; exact Hx|]. apply in_concat in I as (y & Iy & I). apply in_map_iff in Iy as (z & <- & Iz).
          rewrite Forall_forall in Fp'. eapply in_foot; [exact Iz|]. eapply touch_in; [apply Fp'; exact Iz|exact I].
      + intros x Hx. rewrite S3, S12; [reflexivity| |].
        * intros [<-|I]; apply Hx; [left; reflexivity|right; cbn; apply in_app_iff; left; exact I].
        * intros [<-|I]; apply Hx; right; cbn; apply in_app_iff; [left; apply touch_addr|right; exact I].
  Qed.

  (* the whole loop over a list that is not empty *)
  Lemma link_all first s c0 c1 e :
    (forall h1, nth_error h1 s = Some c0 -> exists h2, first h1 (e_addr e) = Ok h2 /\ nth_error h2 s = Some c1 /\ same_outside [s] h1 h2 /\ length h2 = length h1) ->
    forall items es h, Forall2 (is_item os) items (e :: es) -> Forall (pre h) (e :: es) -> NoDup (s :: foot (e :: es)) -> NoDup items ->
    nth_error h s = Some c0 ->
    exists h', link_loop k each first oe items None (St os h) = Ok (St os h', true) /\
      nth_error h' s = Some c1 /\ own_list h' k (Some (e_addr e)) (e :: es) /\
      same_outside (s :: concat (map touch (e :: es))) h h' /\ length h' = length h.
  Proof.
    intros F items es h Fi Fp Ns Ni Hs. inversion Fi as [|r ? items' ? Hr0 Fi']; subst. inversion Fp as [|? ? Pe Fp']; subst.
    inversion Ns as [|? ? Ns1 Nf]; subst. pose proof Nf as Nf0. rewrite foot_cons in Nf. apply NoDup_app_inv in Nf as (Ne & Nf & D).
    cbn [link_loop]. destruct Hr0 as [m Hr]. assert (Hr0 : is_item os r e) by (exists m; exact Hr).
    rewrite (incref_ok (St os h) r _ _ Hr). cbn [objs mem bind]. set (os2 := bump os r).
    assert (M2 : more os os2) by apply bump_more.
    assert (Hr2 : is_item os2 r e) by (eapply item_more; eassumption).
    rewrite (type_ok (St os2 h) r e Hr2). cbn [bind].
    destruct (each_ok os2 h r e M2 Hr2 Pe Ne) as (h1 & E1 & [n1 O1] & S1 & L1). rewrite E1. cbn [bind].
    rewrite (wrapped_ok (St os2 h1) r e Hr2). cbn [bind mem].
    assert (Hs1 : nth_error h1 s = Some c0).
    { rewrite S1; [exact Hs|]. intros I. apply Ns1. rewrite foot_cons. apply in_app_iff. left. eapply touch_in; eassumption. }
    destruct (F h1 Hs1) as (h2 & E2 & Hs2 & S2 & L2). rewrite E2. cbn [bind decref_opt]. unfold with_mem. cbn [objs].
    assert (S12 : same_outside (s :: touch e) h h2).
    { intros x Hx. rewrite S2 by (intros [<-|[]]; apply Hx; left; reflexivity). apply S1. intros I. apply Hx. right. exact I. }
    assert (O2 : own h2 k n1 e).
    { eapply own_same; [exact O1|]. intros x Hx. apply S2. intros [<-|[]]. apply Ns1. rewrite foot_cons. apply in_app_iff. left. exact Hx. }
    destruct (link_rest first items' es r e h2 n1) as (h3 & E3 & O3 & S3 & L3); [exact Hr0|exact O2|exact Fi'| |exact Nf0|exact Ni|].
    { rewrite Forall_forall in *. intros x Ix. eapply pre_local; [apply Fp'; exact Ix|]. intros y Iy. apply S12. intros [<-|I].
      - apply Ns1. rewrite foot_cons. apply in_app_iff. right. eapply in_foot; eassumption.
      - apply (D y); [eapply touch_in; eassumption|]. eapply in_foot; eassumption. }
    exists h3. split; [exact E3|]. split.
    { rewrite S3; [exact Hs2|]. intros [<-|I]; apply Ns1; rewrite foot_cons; apply in_app_iff; [left; eapply own_foot; exact O1|right].
      apply in_concat in I as (y & Iy & I). apply in_map_iff in Iy as (z & <- & Iz).
      rewrite Forall_forall in Fp'. eapply in_foot; [exact Iz|]. eapply touch_in; [apply Fp'; exact Iz|exact I]. }
    split; [exact O3|]. split; [|lia].
    intros x Hx. rewrite S3, S12; [reflexivity| |].
    - intros [<-|I]; apply Hx; [left; reflexivity|right; cbn; apply in_app_iff; left; exact I].
    - intros [<-|I]; apply Hx; right; cbn; apply in_app_iff; [left; apply touch_addr|right; exact I].
  Qed.
End Link.
