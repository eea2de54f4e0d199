(** * Proofs: report objects in Python. *)
From Verif Require Import Base UtilsModel UtilsProofs SystemModel HeapModel HeapSpec HeapProofs HeapProofs2 HeapListModel PyModel PySpec PyProofs PyProofs2 PyProofs3 PyProofs4 PyProofs9
  PyAttrModel PyAttrSpec PyAttrProofs PyAttrProofs4 PyReportModel PyReportSpec.
Open Scope nat_scope.

Lemma traced_iff type k : stacktrace_type type = Some k <-> traced type k.
Proof.
  unfold traced. split.
  - intros H. destruct type as [|p|p]; try discriminate. repeat (destruct p as [p|p|]; try discriminate); injection H as <-; cbn; tauto.
  - cbn. intros [E|[E|[E|[E|[E|[]]]]]]; injection E as <- <-; reflexivity.
Qed.
Lemma untraced_iff type : untraced type <-> stacktrace_type type = None.
Proof.
  unfold untraced. split.
  - intros H. destruct (stacktrace_type type) as [k|] eqn:E; [|reflexivity]. apply traced_iff in E. destruct (H k E).
  - intros H k K. apply traced_iff in K. congruence.
Qed.
Lemma type_loaded h c scal strs kids arr raw n type : nth_error h c = Some (CObj KReport scal strs kids arr raw n) ->
  number_of KReport scal (L "report_type") type -> load_scalar h c (L "report_type") TEnum = Ok type.
Proof.
  intros Hc (j & Hj & Ej). apply type_pos in Hj. subst j. unfold load_scalar, get. rewrite Hc. cbn [bind].
  change (offset KReport (L "report_type") TEnum) with (Ok 1). cbn [bind]. unfold load. rewrite Ej. reflexivity.
Qed.
Section Prepare.
Variables (h : heap) (c : addr) (scal : list Z) (pc po pp ps pa : option addr) (raw : list (option addr)) (n : option addr).
Notation cell po ps := (CObj KReport scal [pc] [po; pp; ps; pa] None raw n).
Hypothesis Hc : nth_error h c = Some (cell po ps).
Lemma set_os_ok p : set_os h c p = Ok (put h c (cell p ps)).
Proof. clear -Hc. unfold set_os, get. rewrite Hc. cbn [bind]. unfold set_cell, get. rewrite Hc. reflexivity. Qed.
Lemma set_stacktrace_ok p : set_stacktrace h c p = Ok (put h c (cell po p)).
Proof. clear -Hc. unfold set_stacktrace, get. rewrite Hc. cbn [bind]. unfold set_cell, get. rewrite Hc. reflexivity. Qed.
Lemma put_here x : nth_error (put h c x) c = Some x.
Proof. clear -Hc. apply put_same. apply nth_error_Some. congruence. Qed.
End Prepare.
Definition addr_of (es : list entry) : option addr := match es with [] => None | e :: _ => Some (e_addr e) end.
Lemma part_list h k es : Forall (own h k None) es -> length es <= 1 -> own_list h k (addr_of es) es.
Proof. intros F L. destruct es as [|e [|]]; [constructor| |cbn in L; lia]. inversion F; subst. cbn. econstructor; [eassumption|constructor]. Qed.

Lemma type_right os h r k c at_ : alive os r (PyStruct k c at_) -> has_type (St os h) r k = Ok true /\ wrapped (St os h) r = Ok c.
Proof.
  intros [m H]. unfold has_type, wrapped. rewrite (obj_ok (St os h) r _ _ H). cbn [bind]. split; [|reflexivity]. f_equal. destruct k; reflexivity.
Qed.
Lemma os_prepare_ok none os h c scal pc po pp ps pa raw n ro oss :
  nth_error h c = Some (CObj KReport scal [pc] [po; pp; ps; pa] None raw n) -> part os none ro KOs oss ->
  os_prepare none (St os h) c (Some ro) = Ok (St os (put h c (CObj KReport scal [pc] [addr_of oss; pp; ps; pa] None raw n)), true).
Proof.
  intros Hc [[-> ->]|(Hn & e & at_ & -> & A)]; unfold os_prepare; cbn [mem].
  - rewrite Nat.eqb_refl, (set_os_ok _ _ _ _ _ _ _ _ _ _ Hc). reflexivity.
  - apply Nat.eqb_neq in Hn. rewrite Hn. destruct (type_right os h ro _ _ _ A) as [E1 E2]. rewrite E1. cbn [bind]. rewrite E2. cbn [bind].
    rewrite (set_os_ok _ _ _ _ _ _ _ _ _ _ Hc). reflexivity.
Qed.
Lemma trace_prepare_ok none os h c scal pc po pp ps pa raw n rs type sk sts :
  nth_error h c = Some (CObj KReport scal [pc] [po; pp; ps; pa] None raw n) -> number_of KReport scal (L "report_type") type ->
  trace_part os none rs type sk sts ->
  trace_prepare none (St os h) c (Some rs) = Ok (St os (put h c (CObj KReport scal [pc] [po; pp; addr_of sts; pa] None raw n)), true).
Proof.
  intros Hc T H. unfold trace_prepare; cbn [mem]. rewrite (type_loaded _ _ _ _ _ _ _ _ _ Hc T). cbn [bind].
  destruct H as [[K [[-> ->]|(Hn & e & at_ & -> & A)]]|[U ->]].
  - rewrite Nat.eqb_refl, (set_stacktrace_ok _ _ _ _ _ _ _ _ _ _ Hc). reflexivity.
  - apply Nat.eqb_neq in Hn. rewrite Hn. apply traced_iff in K. rewrite K. unfold stacktrace_prepare.
    destruct (type_right os h rs _ _ _ A) as [E1 E2]. rewrite E1. cbn [bind]. rewrite E2. cbn [bind mem].
    rewrite (set_stacktrace_ok _ _ _ _ _ _ _ _ _ _ Hc). reflexivity.
  - apply untraced_iff in U. rewrite U, (set_stacktrace_ok _ _ _ _ _ _ _ _ _ _ Hc). cbn [bind]. now destruct (Nat.eqb rs none).
Qed.
Lemma put_twice h c x y : put (put h c x) c y = put h c y.
Proof.
  apply nth_ext_eq. intros i. destruct (Nat.eq_dec i c) as [->|N]; [|now rewrite !put_other by assumption].
  destruct (Nat.lt_ge_cases c (length h)) as [L|L]; [rewrite !put_same; rewrite ?put_length; auto|].
  rewrite (proj2 (nth_error_None _ _)) by (rewrite !put_length; exact L). symmetry. apply nth_error_None. now rewrite put_length.
Qed.
Lemma incl_same f g h h' : same_outside g h h' -> (forall x, In x f -> ~ In x g) -> same_on f h h'.
Proof. intros S D x Hx. apply S. auto. Qed.

Lemma report_prepare_ok none os h r c l items ro rs scal component oss pks sk sts auth cells type :
  alive os r (PyStruct KReport c [Some l; Some ro; Some rs]) -> py_list os l KRpm items pks -> part os none ro KOs oss ->
  number_of KReport scal (L "report_type") type -> trace_part os none rs type sk sts ->
  unlinked_report h c scal component oss pks sk sts auth cells -> NoDup cells ->
  exists h', report_prepare none (St os h) r = Ok (St os h', true) /\ report_with h' c scal component oss pks sk sts auth cells /\
    same_outside (c :: map e_addr pks) h h' /\ length h' = length h.
Proof.
  intros A Pl Po T Pt (pc & po & pp & ps & pa & raw & n & fc & Hc & Oc & Fo & Lo & Fp & Ep & Fs & Ls & Oa & ->) N.
  apply NoDup_cons_iff in N as [Nc N]. apply NoDup_app_inv in N as (Nfc & N & D1). apply NoDup_app_inv in N as (No & N & D2).
  apply NoDup_app_inv in N as (Np & N & D3). apply NoDup_app_inv in N as (Ns & Na & D4). rewrite !in_app_iff in Nc.
  destruct (rpms_prepare_ok os h r c l items pks [Some ro; Some rs] scal [pc] po pp ps pa None raw n A Pl Hc Fp) as (h1 & p' & E1 & Hc1 & Op & S1 & L1).
  { constructor; [tauto|exact Np]. } { exact Ep. }
  assert (In_foot : forall x, In x (map e_addr pks) -> In x (foot pks)).
  { intros x Hx. apply in_map_iff in Hx as (e & <- & Ie). rewrite Forall_forall in Fp. destruct (Fp e Ie) as [m O]. unfold foot. apply in_concat. exists (e_foot e).
    split; [now apply in_map|]. inversion O; subst. now left. }
  set (h2 := put h1 c (CObj KReport scal [pc] [addr_of oss; p'; ps; pa] None raw n)).
  set (h3 := put h2 c (CObj KReport scal [pc] [addr_of oss; p'; addr_of sts; pa] None raw n)).
  assert (Hc2 : nth_error h2 c = Some (CObj KReport scal [pc] [addr_of oss; p'; ps; pa] None raw n)) by exact (put_here _ _ _ _ _ _ _ _ _ _ Hc1 _).
  assert (Hc3 : nth_error h3 c = Some (CObj KReport scal [pc] [addr_of oss; p'; addr_of sts; pa] None raw n)) by exact (put_here _ _ _ _ _ _ _ _ _ _ Hc2 _).
  assert (S3 : forall x, x <> c -> nth_error h3 x = nth_error h1 x) by (intros x Hx; unfold h3, h2; now rewrite !put_other by assumption).
  assert (Same : forall f, ~ In c f -> (forall x, In x f -> ~ In x (foot pks)) -> same_on f h h3).
  { intros f Hf Hd x Hx. rewrite S3 by (intros ->; tauto). apply S1. intros [->|I]; [tauto|]. exact (Hd x Hx (In_foot x I)). }
  exists h3. split; [|split; [|split]].
  - unfold report_prepare. rewrite E1. cbn [bind]. destruct A as [m A]. rewrite (obj_ok (St os h1) r _ _ A). cbn [bind].
    rewrite (os_prepare_ok none os h1 c scal pc po p' ps pa raw n ro oss Hc1 Po). cbn [bind].
    exact (trace_prepare_ok none os h2 c scal pc (addr_of oss) p' ps pa raw n rs type sk sts Hc2 T Pt).
  - exists pc, (addr_of oss), p', (addr_of sts), pa, raw, n, fc. split; [exact Hc3|].
    assert (F : forall k es, Forall (own h k None) es -> ~ In c (foot es) -> (forall x, In x (foot es) -> ~ In x (foot pks)) -> Forall (own h3 k None) es).
    { intros k es Fe Hn Hd. assert (Sm := Same _ Hn Hd). rewrite Forall_forall in Fe |- *. intros e Ie. apply (own_same h h3 k None e (Fe e Ie)). intros x Hx. apply Sm. unfold foot. apply in_concat. exists (e_foot e). split; [now apply in_map|exact Hx]. }
    split. { eapply own_strs_same; [exact Oc|]. apply Same; [tauto|]. intros x Hx Hp. apply (D1 x Hx). rewrite !in_app_iff. tauto. }
    split. { apply part_list; [|exact Lo]. apply F; [exact Fo|tauto|]. intros x Hx Hp. apply (D2 x Hx). rewrite !in_app_iff. tauto. }
    split; [exact Lo|]. split. { eapply own_list_same; [exact Op|]. intros x Hx. apply S3. intros ->. tauto. }
    split. { apply part_list; [|exact Ls]. apply F; [exact Fs|tauto|]. intros x Hx Hp. apply (D3 x Hp). rewrite !in_app_iff. tauto. }
    split; [exact Ls|]. split; [|reflexivity]. eapply own_list_same; [exact Oa|]. apply Same; [tauto|]. intros x Hx Hp. apply (D3 x Hp). rewrite !in_app_iff. tauto.
  - intros x Hx. rewrite S3 by (intros ->; apply Hx; now left). now apply S1.
  - unfold h3, h2. now rewrite !put_length.
Qed.
