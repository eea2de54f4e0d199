(** * Proofs: exceptions; wrapping a report; a report object going away. *)
From Verif Require Import Base UtilsModel UtilsProofs SystemModel HeapModel HeapSpec HeapProofs HeapProofs2 HeapListModel HeapListProofs HeapListProofs2 PyModel PySpec
  PyProofs PyProofs2 PyProofs3 PyProofs4 PyProofs8 PyProofs9 PyAttrModel PyAttrSpec PyAttrProofs PyAttrProofs4 PyReportModel PyReportSpec PyReportProofs.
Open Scope nat_scope.

(** ** Exceptions *)
Lemma wrong_type os h r k : wrong os r k -> has_type (St os h) r k = Ok false.
Proof. apply type_wrong. apply more_refl. Qed.
Lemma wrong_os none os h r c l items ro at_ pks scal pc po pp ps pa raw n :
  alive os r (PyStruct KReport c [Some l; Some ro; at_]) -> py_list os l KRpm items pks -> ro <> none -> wrong os ro KOs ->
  nth_error h c = Some (CObj KReport scal [pc] [po; pp; ps; pa] None raw n) -> Forall (fun e => exists m, own h KRpm m e) pks -> NoDup (c :: foot pks) ->
  (pks = [] -> pp = None) ->
  exists h', report_prepare none (St os h) r = Ok (St os h', false) /\ same_outside (c :: map e_addr pks) h h' /\ length h' = length h.
Proof.
  intros A Pl Hn W Hc Fp N Ep. destruct (rpms_prepare_ok os h r c l items pks [Some ro; at_] scal [pc] po pp ps pa None raw n A Pl Hc Fp N Ep) as (h1 & p' & E1 & Hc1 & _ & S1 & L1).
  exists h1. split; [|split; assumption]. unfold report_prepare. rewrite E1. cbn [bind]. destruct A as [m A]. rewrite (obj_ok (St os h1) r _ _ A). cbn [bind].
  unfold os_prepare. apply Nat.eqb_neq in Hn. rewrite Hn. rewrite (wrong_type os h1 ro KOs W). reflexivity.
Qed.
Lemma wrong_stack none os h r c l items ro rs oss pks scal pc po pp ps pa raw n type k :
  alive os r (PyStruct KReport c [Some l; Some ro; Some rs]) -> py_list os l KRpm items pks -> part os none ro KOs oss ->
  number_of KReport scal (L "report_type") type -> traced type k -> rs <> none -> wrong os rs k ->
  nth_error h c = Some (CObj KReport scal [pc] [po; pp; ps; pa] None raw n) -> Forall (fun e => exists m, own h KRpm m e) pks -> NoDup (c :: foot pks) ->
  (pks = [] -> pp = None) ->
  exists h', report_prepare none (St os h) r = Ok (St os h', false) /\ same_outside (c :: map e_addr pks) h h' /\ length h' = length h.
Proof.
  intros A Pl Po T K Hn W Hc Fp N Ep.
  destruct (rpms_prepare_ok os h r c l items pks [Some ro; Some rs] scal [pc] po pp ps pa None raw n A Pl Hc Fp N Ep) as (h1 & p' & E1 & Hc1 & _ & S1 & L1).
  set (h2 := put h1 c (CObj KReport scal [pc] [addr_of oss; p'; ps; pa] None raw n)).
  assert (Hc2 : nth_error h2 c = Some (CObj KReport scal [pc] [addr_of oss; p'; ps; pa] None raw n)) by exact (put_here _ _ _ _ _ _ _ _ _ _ Hc1 _).
  exists h2. split; [|split].
  - unfold report_prepare. rewrite E1. cbn [bind]. destruct A as [m A]. rewrite (obj_ok (St os h1) r _ _ A). cbn [bind].
    rewrite (os_prepare_ok none os h1 c scal pc po p' ps pa raw n ro oss Hc1 Po). cbn [bind]. fold h2.
    unfold trace_prepare. apply Nat.eqb_neq in Hn. rewrite Hn. cbn [mem]. rewrite (type_loaded _ _ _ _ _ _ _ _ _ Hc2 T). cbn [bind]. apply traced_iff in K. rewrite K.
    unfold stacktrace_prepare. rewrite (wrong_type os h2 rs k W). reflexivity.
  - intros x Hx. unfold h2. rewrite put_other by (intros ->; apply Hx; now left). now apply S1.
  - unfold h2. now rewrite put_length.
Qed.

(** ** Wrapping *)
Lemma with_unlinked h c scal component oss pks sk sts auth cells : report_with h c scal component oss pks sk sts auth cells ->
  unlinked_report h c scal component oss pks sk sts auth cells.
Proof.
  intros (pc & po & pp & ps & pa & raw & n & fc & Hc & Oc & Oo & Lo & Op & Os & Ls & Oa & E).
  exists pc, po, pp, ps, pa, raw, n, fc. split; [exact Hc|]. split; [exact Oc|].
  assert (One : forall k p es, own_list h k p es -> length es <= 1 -> Forall (own h k None) es).
  { intros k p es O L. destruct es as [|e [|]]; [constructor| |cbn in L; lia]. inversion O as [|? ? ? ? O1 O2]; subst. inversion O2; subst. constructor; [assumption|constructor]. }
  split; [eauto|]. split; [exact Lo|]. split.
  { clear -Op. induction Op; constructor; eauto. }
  split; [intros ->; inversion Op; reflexivity|]. split; [eauto|]. auto.
Qed.
Lemma stack_to_python_ok os h k type e : traced type k -> own h k None e -> NoDup (e_foot e) ->
  exists os' r, stack_to_python (St os h) k (e_addr e) = Ok (St os' h, r) /\ grown os os' /\ stack_object (length os) os' h r k e.
Proof.
  intros T O N. unfold stack_to_python.
  assert (K : (exists fk, frame_kind k = Some fk) \/ frame_kind k = None /\ (k = KCoreStack \/ k = KJavaStack) /\ exists tk fk, thread_type k = Some tk /\ frame_kind tk = Some fk).
  { cbn [In] in T. destruct T as [E|[E|[E|[E|[E|[]]]]]]; injection E as <- <-; cbn [frame_kind thread_type].
    - right. split; [reflexivity|]. split; [tauto|]. eexists _, _. split; reflexivity.
    - left. eexists. reflexivity.
    - left. eexists. reflexivity.
    - right. split; [reflexivity|]. split; [tauto|]. eexists _, _. split; reflexivity.
    - left. eexists. reflexivity. }
  destruct K as [[fk K]|(K0 & K & tk & fk & K1 & K2)].
  - rewrite K. destruct (frames_back os h k fk None e O K N) as (os1 & l & items & es & E & G & Nl & U & _). rewrite E. cbn [bind new_obj objs mem].
    exists (os1 ++ [Some (1, PyStruct k (e_addr e) [Some l])]), (length os1). split; [reflexivity|].
    split; [eapply grown_trans; [exact G|apply grown_app]|].
    split; [exact (proj1 G)|]. exists l. split; [apply object_last|]. left. exists fk, items, es. split; [exact K|]. split; [|exact U].
    destruct Nl as (A & B & C & D). split; [exact A|]. split; [apply object_app; exact B|]. split; [exact C|]. clear -D. induction D; constructor; [now apply object_app|assumption].
  - rewrite K0. destruct (stack_wrapped os h k tk fk None e O K K1 K2 N) as (os1 & l & ts & E & G & Nt & U). rewrite E. cbn [bind new_obj objs mem].
    exists (os1 ++ [Some (1, PyStruct k (e_addr e) [Some l])]), (length os1). split; [reflexivity|].
    split; [eapply grown_trans; [exact G|apply grown_app]|].
    split; [exact (proj1 G)|]. exists l. split; [apply object_last|]. right. exists tk, fk, ts. split; [exact K1|]. split; [exact K2|]. split; [|exact U].
    destruct Nt as (A & B & C). split; [exact A|]. split; [apply object_app; exact B|]. clear -C. rewrite Forall_forall in C |- *. intros t Ht. destruct (C t Ht) as (C1 & C2 & C3).
    split; [exact C1|]. split; [apply object_app; exact C2|]. destruct C3 as (D1 & D2 & D3 & D4). split; [exact D1|]. split; [apply object_app; exact D2|]. split; [exact D3|].
    clear -D4. induction D4; constructor; [now apply object_app|assumption].
Qed.
Lemma grown_but_of none a b : grown a b -> grown_but none 0 a b.
Proof. intros [L G]. split; [exact L|]. split; [auto|]. intros n x H. unfold object in *. rewrite G; [exact H|]. eapply object_lt; exact H. Qed.
Lemma grown_but_trans none i j a b c : grown_but none i a b -> grown_but none j b c -> grown_but none (i + j) a c.
Proof.
  intros (L1 & G1 & N1) (L2 & G2 & N2). split; [lia|]. split.
  - intros x Hx Nx. rewrite G2, G1 by (auto; lia). reflexivity.
  - intros n x H. replace (i + j + n) with (j + (i + n)) by lia. auto.
Qed.
Lemma incref_none none os h n b : object os none n b -> exists os', incref (St os h) none = Ok (St os' h) /\ grown_but none 1 os os'.
Proof.
  intros H. exists (bump os none). split; [exact (incref_ok (St os h) none n b H)|]. rewrite (bump_eq _ _ _ _ H).
  split; [rewrite put_obj_length; lia|]. split.
  - intros x Hx Nx. now apply put_obj_other.
  - intros m y K. destruct (object_fun _ _ _ _ _ _ H K) as [<- <-]. exact (object_put_same os none n b (S n, b) H).
Qed.
Lemma but_object none j a b r n x : grown_but none j a b -> r <> none -> object a r n x -> object b r n x.
Proof. intros (_ & G & _) N H. unfold object. rewrite G; auto. eapply object_lt; exact H. Qed.
Lemma but_list none j a b m l k items es : grown_but none j a b -> none < m -> new_list m a l k items es -> new_list m b l k items es.
Proof.
  intros G Hm (A & B & C & D). split; [exact A|]. split; [eapply but_object; [exact G|lia|exact B]|]. split; [exact C|].
  clear B. revert C. induction D as [|r e items es H D IH]; intros C; [constructor|]. inversion C; subst. constructor; [eapply but_object; [exact G|lia|exact H]|apply IH; assumption].
Qed.
Lemma less_list a m m' l k items es : m' <= m -> new_list m a l k items es -> new_list m' a l k items es.
Proof. intros H (A & B & C & D). split; [lia|]. split; [exact B|]. split; [|exact D]. eapply Forall_impl; [|exact C]. intros x Hx. cbv beta in *. lia. Qed.
Lemma but_stack none j a b m h r k e : grown_but none j a b -> none < m -> stack_object m a h r k e -> stack_object m b h r k e.
Proof.
  intros G Hm (A & l & B & C). split; [exact A|]. exists l. split; [eapply but_object; [exact G|lia|exact B]|].
  destruct C as [(fk & items & es & C1 & C2 & C3)|(tk & fk & ts & C1 & C2 & (T1 & T2 & T3) & C4)].
  - left. exists fk, items, es. split; [exact C1|]. split; [eapply but_list; eassumption|exact C3].
  - right. exists tk, fk, ts. split; [exact C1|]. split; [exact C2|]. split; [|exact C4].
    split; [exact T1|]. split; [eapply but_object; [exact G|lia|exact T2]|]. eapply Forall_impl; [|exact T3]. intros t (H1 & H2 & H3).
    split; [exact H1|]. split; [eapply but_object; [exact G|lia|exact H2]|eapply but_list; eassumption].
Qed.
Lemma less_stack a m m' h r k e : m' <= m -> stack_object m a h r k e -> stack_object m' a h r k e.
Proof.
  intros H (A & l & B & C). split; [lia|]. exists l. split; [exact B|].
  destruct C as [(fk & items & es & C1 & C2 & C3)|(tk & fk & ts & C1 & C2 & (T1 & T2 & T3) & C4)].
  - left. exists fk, items, es. split; [exact C1|]. split; [eapply less_list; eassumption|exact C3].
  - right. exists tk, fk, ts. split; [exact C1|]. split; [exact C2|]. split; [|exact C4].
    split; [lia|]. split; [exact T2|]. eapply Forall_impl; [|exact T3]. intros t (H1 & H2 & H3). split; [lia|]. split; [exact H2|eapply less_list; eassumption].
Qed.

Lemma one_same x : count_occ Nat.eq_dec [x] x = 1.
Proof. cbn. destruct (Nat.eq_dec x x); congruence. Qed.
Lemma one_other x y : x <> y -> count_occ Nat.eq_dec [x] y = 0.
Proof. cbn. destruct (Nat.eq_dec x y); congruence. Qed.
Lemma report_wrapped none os h c scal component oss pks sk sts auth cells type nn :
  object os none (S nn) PyOther -> report_with h c scal component oss pks sk sts auth cells -> NoDup cells ->
  number_of KReport scal (L "report_type") type -> traced type sk \/ untraced type ->
  exists os' r l items ro rs, report_to_python none (St os h) c = Ok (St os' h, r) /\ length os <= r /\ grown_but none (count_occ Nat.eq_dec [ro; rs] none) os os' /\
    object os' r 1 (PyStruct KReport c [Some l; Some ro; Some rs]) /\ new_list (length os) os' l KRpm items pks /\ os_part (length os) os' none ro oss /\
    (traced type sk -> stack_part (length os) os' h none rs sk sts) /\ (untraced type -> rs = none).
Proof.
  intros Hn (pc & po & pp & ps & pa & raw & n & fc & Hc & Oc & Oo & Lo & Op & Os & Ls & Oa & ->) N T TT.
  apply NoDup_cons_iff in N as [_ N]. apply NoDup_app_inv in N as (_ & N & _). apply NoDup_app_inv in N as (_ & N & _).
  apply NoDup_app_inv in N as (Np & N & _). apply NoDup_app_inv in N as (Ns & _ & _).
  pose proof (object_lt _ _ _ _ Hn) as Ln.
  unfold report_to_python. cbn [mem]. unfold get. rewrite Hc. cbn [bind].
  (* the operating system *)
  assert (A : exists os1 ro, match po with Some a => Ok (new_obj (St os h) (PyStruct KOs a [])) | None => do st <- incref (St os h) none; Ok (st, none) end = Ok (St os1 h, ro) /\
    grown_but none (count_occ Nat.eq_dec [ro] none) os os1 /\ os_part (length os) os1 none ro oss).
  { destruct oss as [|e oss].
    - inversion Oo; subst. destruct (incref_none none os h _ _ Hn) as (os1 & E & G). exists os1, none. rewrite E. cbn [bind]. split; [reflexivity|]. split; [rewrite one_same; exact G|]. left. auto.
    - inversion Oo; subst. exists (os ++ [Some (1, PyStruct KOs (e_addr e) [])]), (length os). split; [reflexivity|]. split; [rewrite one_other by lia; apply grown_but_of, grown_app|].
      right. split; [lia|]. exists e. split; [|apply object_last]. destruct oss; [reflexivity|cbn in Lo; lia]. }
  destruct A as (os1 & ro & -> & G1 & P1). cbn [bind].
  destruct (wrapped_list KRpm os1 h pp pks Op Np) as (os2 & l & items & -> & G2 & Nl & _). cbn [bind mem]. apply (grown_but_of none) in G2.
  apply (less_list _ _ (length os)) in Nl; [|exact (proj1 G1)].
  pose proof (grown_but_trans none _ _ _ _ _ G1 G2) as G12. pose proof (proj2 (proj2 G12) _ _ Hn) as On2.
  rewrite (type_loaded _ _ _ _ _ _ _ _ _ Hc T). cbn [bind].
  assert (B : exists os3 rs, match ps with
      | Some a => match stacktrace_type type with Some k => stack_to_python (St os2 h) k a | None => do st <- incref (St os2 h) none; Ok (st, none) end
      | None => do st <- incref (St os2 h) none; Ok (st, none) end = Ok (St os3 h, rs) /\
    grown_but none (count_occ Nat.eq_dec [rs] none) os2 os3 /\ (traced type sk -> stack_part (length os) os3 h none rs sk sts) /\ (untraced type -> rs = none)).
  { destruct (incref_none none os2 h _ _ On2) as (os3 & E & G).
    rewrite <- (one_same none) in G.
    destruct sts as [|e sts].
    - inversion Os; subst. exists os3, none. rewrite E. cbn [bind]. split; [reflexivity|]. split; [exact G|]. split; [intros _; left; auto|reflexivity].
    - inversion Os as [|? nx ? ? Oe Or]; subst. assert (sts = []) as -> by (destruct sts; [reflexivity|cbn in Ls; lia]). inversion Or; subst.
      destruct (stacktrace_type type) as [k|] eqn:K.
      + (* Python looks at the type of the report only *)
        assert (Tk : traced type k) by now apply traced_iff.
        assert (k = sk) as <-. { destruct TT as [T2|U]; [|destruct (U k Tk)]. apply traced_iff in T2. congruence. }
        destruct (stack_to_python_ok os2 h k type e Tk Oe) as (os4 & rs & E4 & G4 & S4). { cbn [foot map concat] in Ns. now rewrite app_nil_r in Ns. }
        exists os4, rs. split; [exact E4|]. split; [rewrite one_other by (destruct S4 as [S4 _], G12 as [G12 _]; lia); now apply grown_but_of|]. split.
        * intros _. right. exists e. split; [reflexivity|]. eapply less_stack; [|exact S4]. exact (proj1 G12).
        * intros U. destruct (U k Tk).
      + exists os3, none. rewrite E. cbn [bind]. split; [reflexivity|]. split; [exact G|]. split; [|reflexivity]. intros Tr. apply traced_iff in Tr. congruence. }
  destruct B as (os3 & rs & -> & G3 & S3 & U3). cbn [bind new_obj objs mem].
  pose proof (grown_but_trans none _ _ _ _ _ G12 G3) as G13.
  pose proof (grown_but_of none _ _ (grown_app os3 [Some (1, PyStruct KReport c [Some l; Some ro; Some rs])])) as G4.
  exists (os3 ++ [Some (1, PyStruct KReport c [Some l; Some ro; Some rs])]), (length os3), l, items, ro, rs.
  split; [reflexivity|]. split; [exact (proj1 G13)|]. split.
  { assert (Q : count_occ Nat.eq_dec [ro] none + 0 + count_occ Nat.eq_dec [rs] none + 0 = count_occ Nat.eq_dec [ro; rs] none).
    { cbn [count_occ]. destruct (Nat.eq_dec ro none), (Nat.eq_dec rs none); reflexivity. }
    refine (eq_ind _ (fun j => grown_but none j os _) _ _ Q). eapply grown_but_trans; [exact G13|exact G4]. }
  split; [apply object_last|].
  split; [eapply but_list; [exact G4|exact Ln|]; eapply but_list; [exact G3|exact Ln|exact Nl]|].
  split.
  { destruct P1 as [P1|(P1 & e & P2 & P3)]; [left; exact P1|right]. split; [exact P1|]. exists e. split; [exact P2|].
    eapply (but_object none _ os3); [exact G4|lia|]. eapply (but_object none _ os2); [exact G3|lia|]. eapply (but_object none _ os1); [exact G2|lia|exact P3]. }
  split; [|exact U3]. intros Tr. destruct (S3 Tr) as [S4|(e & S4 & S5)]; [left; exact S4|right]. exists e. split; [exact S4|]. eapply but_stack; [exact G4|exact Ln|exact S5].
Qed.
