(** * Proofs: a wrapped report linked again; a report object going away; auth and str. *)
From Verif Require Import Base UtilsModel UtilsProofs SystemModel HeapModel HeapSpec HeapProofs HeapProofs2 HeapListModel HeapListSpec HeapListProofs HeapListProofs2 HeapListProofs5 PyModel PySpec
  PyProofs PyProofs2 PyProofs3 PyProofs4 PyProofs8 PyProofs9 PyAttrModel PyAttrSpec PyAttrProofs PyAttrProofs4 PyReportModel PyReportSpec PyReportProofs PyReportProofs2.
Open Scope nat_scope.

(** ** There and back *)
Lemma stack_part_part m os h none r k es : none < m -> stack_part m os h none r k es -> part os none r k es.
Proof. intros Hm [H|(e & -> & Hr & l & H & _)]; [left; exact H|right]. split; [lia|]. exists e, [Some l]. split; [reflexivity|]. exists 0. exact H. Qed.
Lemma os_part_part m os none r es : none < m -> os_part m os none r es -> part os none r KOs es.
Proof. intros Hm [H|(Hr & e & -> & H)]; [left; exact H|right]. split; [lia|]. exists e, []. split; [reflexivity|]. exists 0. exact H. Qed.
Lemma there_and_back none os h c scal component oss pks sk sts auth cells type nn :
  object os none (S nn) PyOther -> report_with h c scal component oss pks sk sts auth cells -> NoDup cells ->
  number_of KReport scal (L "report_type") type -> traced type sk ->
  exists os' r h', report_to_python none (St os h) c = Ok (St os' h, r) /\ report_prepare none (St os' h) r = Ok (St os' h', true) /\
    report_with h' c scal component oss pks sk sts auth cells.
Proof.
  intros Hn R N T K. destruct (report_wrapped none os h c scal component oss pks sk sts auth cells type nn Hn R N T (or_introl K))
    as (os' & r & l & items & ro & rs & E & _ & _ & Hr & Hl & Ho & Hs & _). pose proof (object_lt _ _ _ _ Hn) as Ln.
  destruct (report_prepare_ok none os' h r c l items ro rs scal component oss pks sk sts auth cells type) as (h' & E' & R' & _).
  - exists 0. exact Hr.
  - eapply new_py_list; exact Hl.
  - eapply os_part_part; eassumption.
  - exact T.
  - left. split; [exact K|]. eapply stack_part_part; [exact Ln|]. exact (Hs K).
  - now apply with_unlinked.
  - exact N.
  - eauto 8.
Qed.
(** A report of another type loses its stack trace. *)
Lemma trace_lost none os h c scal component oss pks sk sts auth cells type nn :
  object os none (S nn) PyOther -> report_with h c scal component oss pks sk sts auth cells -> NoDup cells ->
  number_of KReport scal (L "report_type") type -> untraced type ->
  exists os' r h' cells', report_to_python none (St os h) c = Ok (St os' h, r) /\ report_prepare none (St os' h) r = Ok (St os' h', true) /\
    report_with h' c scal component oss pks sk [] auth cells'.
Proof.
  intros Hn R N T K. destruct (report_wrapped none os h c scal component oss pks sk sts auth cells type nn Hn R N T (or_intror K))
    as (os' & r & l & items & ro & rs & E & _ & _ & Hr & Hl & Ho & _ & Hs). pose proof (object_lt _ _ _ _ Hn) as Ln.
  apply with_unlinked in R. destruct R as (pc & po & pp & ps & pa & raw & n & fc & Hc & Oc & Fo & Lo & Fp & Ep & Fs & Ls & Oa & ->).
  destruct (report_prepare_ok none os' h r c l items ro rs scal component oss pks sk [] auth (c :: fc ++ foot oss ++ foot pks ++ foot [] ++ foot auth) type) as (h' & E' & R' & _).
  - exists 0. exact Hr.
  - eapply new_py_list; exact Hl.
  - eapply os_part_part; eassumption.
  - exact T.
  - right. auto.
  - exists pc, po, pp, ps, pa, raw, n, fc. split; [exact Hc|]. split; [exact Oc|]. split; [exact Fo|]. split; [exact Lo|]. split; [exact Fp|]. split; [exact Ep|].
    split; [constructor|]. split; [cbn; lia|]. split; [exact Oa|reflexivity].
  - cbn [foot map concat app]. apply NoDup_cons_iff in N as [Nc N]. apply NoDup_app_inv in N as (N1 & N & D1). apply NoDup_app_inv in N as (N2 & N & D2).
    apply NoDup_app_inv in N as (N3 & N & D3). apply NoDup_app_inv in N as (_ & N4 & _). rewrite !in_app_iff in Nc.
    constructor; [rewrite !in_app_iff; tauto|]. apply NoDup_app2; [exact N1| |intros x H1 H2; apply (D1 x H1); rewrite !in_app_iff in *; tauto].
    apply NoDup_app2; [exact N2| |intros x H1 H2; apply (D2 x H1); rewrite !in_app_iff in *; tauto].
    apply NoDup_app2; [exact N3|exact N4|intros x H1 H2; apply (D3 x H1); rewrite !in_app_iff in *; tauto].
  - eauto 10.
Qed.

(** ** Going away *)
Lemma each_held f st rs :
  (forall x, In x rs -> exists n b, object (objs st) x n b /\ count_occ Nat.eq_dec rs x < n) ->
  exists os', each_ref (decref_in (S f)) st (map Some rs) = Ok (St os' (mem st)) /\ length os' = length (objs st) /\
    (forall x n b, object (objs st) x n b -> count_occ Nat.eq_dec rs x < n -> object os' x (n - count_occ Nat.eq_dec rs x) b) /\
    (forall x, ~ In x rs -> nth_error os' x = nth_error (objs st) x).
Proof.
  revert st. induction rs as [|r rs IH]; intros [os h] H; cbn [objs mem] in *.
  - exists os. split; [reflexivity|]. split; [reflexivity|]. split; [|reflexivity]. intros x n b Hx _. cbn [count_occ]. now rewrite Nat.sub_0_r.
  - destruct (H r (or_introl eq_refl)) as (n & b & Hr & Hc). cbn [count_occ] in Hc. destruct (Nat.eq_dec r r) as [_|]; [|congruence].
    destruct n as [|[|n]]; try lia.
    destruct (IH (St (put_obj os r (Some (S n, b))) h)) as (os' & E & Ln & K1 & K2).
    { intros x Hx. cbn [objs]. destruct (Nat.eq_dec x r) as [->|Ne].
      - exists (S n), b. split; [exact (object_put_same os r _ _ (S n, b) Hr)|lia].
      - destruct (H x (or_intror Hx)) as (m & c & Ho & Hm). exists m, c. split; [now apply object_put|]. cbn [count_occ] in Hm. destruct (Nat.eq_dec r x); [congruence|exact Hm]. }
    cbn [objs mem] in *. exists os'. split; [|split; [|split]].
    + cbn [map each_ref]. cbn [decref_in]. rewrite (obj_ok (St os h) r _ _ Hr). cbn [bind]. unfold set_obj; cbn [objs mem]. exact E.
    + rewrite Ln. apply put_obj_length.
    + intros x m c Hx Hm. cbn [count_occ] in *. destruct (Nat.eq_dec r x) as [<-|Ne].
      * destruct (object_fun _ _ _ _ _ _ Hr Hx) as [<- <-]. replace (S (S n) - S (count_occ Nat.eq_dec rs r)) with (S n - count_occ Nat.eq_dec rs r) by lia.
        apply K1; [exact (object_put_same os r _ _ (S n, b) Hr)|lia].
      * apply K1; [apply object_put; [exact Hx|congruence]|exact Hm].
    + intros x Hx. rewrite K2 by (intros I; apply Hx; now right). apply put_obj_other. intros ->. apply Hx. now left.
Qed.
Lemma report_gone os h r c rs scal component oss pks sk sts auth cells : length rs = 3 ->
  object os r 1 (PyStruct KReport c (map Some rs)) -> ~ In r rs ->
  (forall x, In x rs -> exists n b, object os x n b /\ count_occ Nat.eq_dec rs x < n) ->
  unlinked_report h c scal component oss pks sk sts auth cells -> Forall no_array auth -> NoDup cells ->
  exists os' h', decref (St os h) r = Ok (St os' h') /\ length os' = length os /\ nth_error os' r = Some None /\
    (forall x n b, x <> r -> object os x n b -> count_occ Nat.eq_dec rs x < n -> object os' x (n - count_occ Nat.eq_dec rs x) b) /\
    (forall x, x <> r -> ~ In x rs -> nth_error os' x = nth_error os x) /\
    exists f, freed_all f h h' /\ (forall x, In x f <-> In x cells /\ ~ In x (foot oss ++ foot pks ++ foot sts)).
Proof.
  intros L3 Hr Nr H (pc & po & pp & ps & pa & raw & n & fc & Hc & Oc & _ & _ & _ & _ & _ & _ & Oa & ->) Na N.
  pose proof (object_lt _ _ _ _ Hr) as Lr.
  apply NoDup_cons_iff in N as [Nc N]. apply NoDup_app_inv in N as (N1 & N & D1). apply NoDup_app_inv in N as (N2 & N & D2).
  apply NoDup_app_inv in N as (N3 & N & D3). apply NoDup_app_inv in N as (N4 & N5 & D4). rewrite !in_app_iff in Nc.
  set (h1 := put h c (CObj KReport scal [pc] [None; None; None; pa] None raw n)).
  assert (La : c < length h) by (apply nth_error_Some; congruence).
  assert (E1 : clear h c [true; true; true] = Ok h1).
  { unfold clear, get. rewrite Hc. cbn [bind clear_kids]. unfold set_cell, get. rewrite Hc. reflexivity. }
  assert (S1 : forall x, x <> c -> nth_error h1 x = nth_error h x) by (intros x Hx; unfold h1; apply put_other; congruence).
  destruct (report_free_ok h1 c component [] [] [] auth (c :: fc ++ foot auth)) as (h2 & E2 & L2 & So & F2).
  { exists scal, pc, None, None, None, pa, raw, n, fc, KCoreStack. split; [unfold h1; apply put_same; exact La|].
    split; [eapply own_strs_same; [exact Oc|]; intros x Hx; apply S1; intros ->; tauto|].
    split; [constructor|]. split; [cbn; lia|]. split; [constructor|]. split; [constructor|]. split; [exists []; constructor|]. split; [left; reflexivity|].
    split; [constructor|]. split; [cbn; lia|]. split; [eapply own_list_same; [exact Oa|]; intros x Hx; apply S1; intros ->; tauto|]. split; [exact Na|reflexivity]. }
  { constructor; [rewrite in_app_iff; tauto|]. apply NoDup_app2; [exact N1|exact N5|]. intros x H1 H2. apply (D1 x H1). rewrite !in_app_iff. tauto. }
  destruct (each_held (length os - 1) (St (put_obj os r (Some (0, PyStruct KReport c (map Some rs)))) h) rs) as (os1 & E3 & L1 & K1 & K2).
  { intros x Hx. destruct (H x Hx) as (m & b & Ho & Hm). exists m, b. split; [|exact Hm]. cbn [objs]. apply object_put; [exact Ho|]. intros ->. tauto. }
  cbn [objs mem] in *. rewrite put_obj_length in L1.
  exists (put_obj os1 r None), h2. split; [|split; [|split; [|split; [|split]]]].
  - unfold decref. cbn [objs]. replace (S (length os)) with (S (S (length os - 1))) by lia.
    remember (S (length os - 1)) as g eqn:Eg. cbn [decref_in]. rewrite (obj_ok (St os h) r _ _ Hr). cbn [bind released]. unfold set_obj at 1. cbn [objs mem].
    replace (firstn 3 (map Some rs)) with (map Some rs) by (rewrite firstn_all2; [reflexivity|rewrite map_length, L3; lia]).
    rewrite E3. cbn [bind mem]. rewrite E1. cbn [bind struct_free]. rewrite E2. reflexivity.
  - rewrite put_obj_length. exact L1.
  - apply put_obj_same. rewrite L1. exact Lr.
  - intros x m b Hx Ho Hm. apply object_put; [|exact Hx]. apply K1; [now apply object_put|exact Hm].
  - intros x Hx Hn. rewrite put_obj_other by exact Hx. rewrite K2 by exact Hn. now apply put_obj_other.
  - exists (c :: fc ++ foot auth). split.
    + split; [unfold h1 in L2; rewrite put_length in L2; exact L2|]. split; [|exact F2]. intros x Hx. rewrite So by exact Hx. apply S1. intros ->. apply Hx. now left.
    + intros x. cbn [In]. rewrite !in_app_iff. split.
      * intros [<-|[I|I]]; (split; [tauto|]).
        -- tauto.
        -- intros J. apply (D1 x I). rewrite !in_app_iff. tauto.
        -- intros [J|[J|J]]; [apply (D2 x J)|apply (D3 x J)|apply (D4 x J)]; rewrite ?in_app_iff; tauto.
      * tauto.
Qed.

(** ** auth *)
Lemma text_eqb_iff a b : text_eqb a b = true <-> a = b.
Proof.
  revert b. induction a as [|x a IH]; intros [|y b]; cbn [text_eqb]; try (split; [discriminate|congruence]); [tauto|].
  rewrite andb_true_iff, Z.eqb_eq, IH. split; [intros [-> ->]; reflexivity|intros E; injection E as -> ->; auto].
Qed.
Lemma dict_set_in d k v : NoDup (map fst d) ->
  forall key val, In (key, val) (dict_set d k v) <-> key = k /\ val = v \/ key <> k /\ In (key, val) d.
Proof.
  induction d as [|[k0 v0] d IH]; intros N key val; cbn [dict_set].
  - cbn [In]. split; [intros [E|[]]; injection E as -> ->; auto|intros [[-> ->]|[_ []]]; auto].
  - cbn [map fst] in N. apply NoDup_cons_iff in N as [N0 N]. destruct (text_eqb k0 k) eqn:E.
    + apply text_eqb_iff in E. subst k0. cbn [In]. split.
      * intros [E|I]; [injection E as -> ->; auto|]. right. split; [|auto]. intros ->. apply N0. apply in_map_iff. exists (k, val). auto.
      * intros [[-> ->]|[Ne [E|I]]]; [auto|injection E as -> ->; congruence|auto].
    + assert (Ne : k0 <> k) by (intros ->; rewrite (proj2 (text_eqb_iff k k) eq_refl) in E; discriminate).
      cbn [In]. rewrite (IH N). split; [intros [Q|[Q|Q]]; [injection Q as <- <-; auto|auto|tauto]|tauto].
Qed.
Lemma dict_set_keys d k v x : In x (map fst (dict_set d k v)) <-> x = k \/ In x (map fst d).
Proof.
  induction d as [|[k0 v0] d IH]; cbn [dict_set map fst In]; [intuition|]. destruct (text_eqb k0 k) eqn:E; cbn [map fst In]; [|rewrite IH; tauto].
  apply text_eqb_iff in E. subst. intuition.
Qed.
Lemma dict_set_nodup d k v : NoDup (map fst d) -> NoDup (map fst (dict_set d k v)).
Proof.
  induction d as [|[k0 v0] d IH]; cbn [dict_set map fst]; intros N; [repeat constructor; intros []|]. apply NoDup_cons_iff in N as [N0 N].
  destruct (text_eqb k0 k) eqn:E; cbn [map fst]; constructor; auto. rewrite dict_set_keys. intros [->|I]; [|tauto]. rewrite (proj2 (text_eqb_iff k k) eq_refl) in E. discriminate.
Qed.
Lemma last_with_snoc ps k v key val : last_with (ps ++ [(k, v)]) key val <-> key = k /\ val = v \/ key <> k /\ last_with ps key val.
Proof.
  split.
  - intros (a & b & E & Hb). destruct b as [|p b] using rev_ind.
    + apply app_inj_tail in E as [_ E]. injection E as -> ->. auto.
    + clear IHb. rewrite app_comm_cons, app_assoc in E. apply app_inj_tail in E as [E E2]. subst p. rewrite map_app, in_app_iff in Hb. cbn in Hb.
      right. split; [intros ->; tauto|]. exists a, b. split; [exact E|]. tauto.
  - intros [[-> ->]|(Ne & a & b & -> & Hb)].
    + exists ps, []. auto.
    + exists a, (b ++ [(k, v)]). rewrite <- app_assoc. split; [reflexivity|]. rewrite map_app, in_app_iff. cbn. intros [I|[->|[]]]; tauto.
Qed.
Lemma dict_of_snoc ps d k v : dict_of ps d -> dict_of (ps ++ [(k, v)]) (dict_set d k v).
Proof. intros [N H]. split; [now apply dict_set_nodup|]. intros key val. rewrite (dict_set_in _ _ _ N), last_with_snoc, H. reflexivity. Qed.

Lemma auth_cell h n e k v : own h KAuth n e -> entry_texts e k v ->
  exists scal pv pk kids arr raw, nth_error h (e_addr e) = Some (CObj KAuth scal [Some pv; Some pk] kids arr raw n) /\ get_str h pv = Ok v /\ get_str h pk = Ok k.
Proof.
  intros O (scal & kids & E). inversion O as [? ? ? ps ? ? ks ? ? arr ? ? raw ? Hc Lp Os Oa Ok_]; subst. cbn [e_val fst snd] in E. injection E as <- -> -> _. clear Oa Ok_.
  inversion Os as [|? ? ? Q|pv ? ps1 ? ? Hv Os1]; subst. inversion Os1 as [|? ? ? Q|pk ? ps2 ? ? Hk Os2]; subst. inversion Os2; subst.
  eexists _, pv, pk, ks, arr, raw. split; [exact Hc|]. unfold get_str, get. rewrite Hv, Hk. auto.
Qed.
Lemma auth_loop_ok h : forall auth fuel p ps d pairs, own_list h KAuth p auth -> length auth <= fuel -> Forall2 decoded auth pairs -> dict_of ps d ->
  exists d', auth_loop fuel h p d = Ok (Some d') /\ dict_of (ps ++ pairs) d'.
Proof.
  induction auth as [|e auth IH]; intros fuel p ps d pairs O Lf F D.
  - inversion O; subst. inversion F; subst. exists d. rewrite app_nil_r. split; [destruct fuel; reflexivity|exact D].
  - inversion O as [|? ? ? ? Oe Or]; subst. inversion F as [|? [kt vt] ? pairs' (k & v & T & Uk & Uv) F']; subst. cbn [fst snd] in *.
    destruct fuel as [|fuel]; [cbn in Lf; lia|]. cbn in Lf. destruct (auth_cell _ _ _ _ _ Oe T) as (scal & pv & pk & kids & arr & raw & Hc & Hv & Hk).
    cbn [auth_loop]. unfold get at 1. rewrite Hc. cbn [bind]. rewrite Hv. cbn [bind]. apply from_utf8_iff in Uv, Uk. rewrite Uv, Hk. cbn [bind]. rewrite Uk.
    destruct (IH fuel _ (ps ++ [(kt, vt)]) (dict_set d kt vt) pairs' Or ltac:(lia) F' (dict_of_snoc _ _ _ _ D)) as (d' & E & D'). exists d'. split; [exact E|]. now rewrite <- app_assoc in D'.
Qed.
Lemma auth_fuel h c scal component oss pks sk sts auth cells : report_with h c scal component oss pks sk sts auth cells -> NoDup cells -> length auth <= length h.
Proof.
  intros (pc & po & pp & ps & pa & raw & n & fc & _ & _ & _ & _ & _ & _ & _ & Oa & ->) N.
  apply NoDup_cons_iff in N as [_ N]. apply NoDup_app_inv in N as (_ & N & _). apply NoDup_app_inv in N as (_ & N & _).
  apply NoDup_app_inv in N as (_ & N & _). apply NoDup_app_inv in N as (_ & N & _). eapply own_list_bound; eassumption.
Qed.
Lemma auth_ok h c scal component oss pks sk sts auth cells pairs : report_with h c scal component oss pks sk sts auth cells -> NoDup cells ->
  Forall2 decoded auth pairs -> exists d, py_get_auth h c = Ok (Some d) /\ dict_of pairs d.
Proof.
  intros R N F. pose proof (auth_fuel _ _ _ _ _ _ _ _ _ _ R N) as Lf. destruct R as (pc & po & pp & ps & pa & raw & n & fc & Hc & _ & _ & _ & _ & _ & _ & Oa & _).
  unfold py_get_auth, get. rewrite Hc. cbn [bind]. apply (auth_loop_ok h auth (length h) pa [] [] pairs Oa Lf F).
  split; [constructor|]. intros key val. split; [intros []|intros (a & b & E & _); destruct a; discriminate].
Qed.
Lemma auth_loop_bad h : forall auth fuel p d, own_list h KAuth p auth -> length auth <= fuel -> Forall (fun e => exists k v, entry_texts e k v) auth ->
  Exists (fun e => forall q, ~ decoded e q) auth -> auth_loop fuel h p d = Ok None.
Proof.
  induction auth as [|e auth IH]; intros fuel p d O Lf F X; [inversion X|].
  inversion O as [|? ? ? ? Oe Or]; subst. inversion F as [|? ? (k & v & T) F']; subst.
  destruct fuel as [|fuel]; [cbn in Lf; lia|]. cbn in Lf. destruct (auth_cell _ _ _ _ _ Oe T) as (scal & pv & pk & kids & arr & raw & Hc & Hv & Hk).
  cbn [auth_loop]. unfold get at 1. rewrite Hc. cbn [bind]. rewrite Hv. cbn [bind]. destruct (from_utf8 v) as [vt|] eqn:Ev; [|reflexivity]. rewrite Hk. cbn [bind].
  destruct (from_utf8 k) as [kt|] eqn:Ek; [|reflexivity]. apply IH; [exact Or|lia|exact F'|]. inversion X as [? ? B|]; subst; [|assumption].
  destruct (B (kt, vt)). exists k, v. split; [exact T|]. split; apply from_utf8_iff; assumption.
Qed.
Lemma auth_bad h c scal component oss pks sk sts auth cells : report_with h c scal component oss pks sk sts auth cells -> NoDup cells ->
  Forall (fun e => exists k v, entry_texts e k v) auth -> Exists (fun e => forall q, ~ decoded e q) auth -> py_get_auth h c = Ok None.
Proof.
  intros R N F X. pose proof (auth_fuel _ _ _ _ _ _ _ _ _ _ R N) as Lf. destruct R as (pc & po & pp & ps & pa & raw & n & fc & Hc & _ & _ & _ & _ & _ & _ & Oa & _).
  unfold py_get_auth, get. rewrite Hc. cbn [bind]. now apply (auth_loop_bad h auth).
Qed.

(** ** str *)
Lemma str_ok h c scal component oss pks sk sts auth cells i : report_with h c scal component oss pks sk sts auth cells ->
  number_of KReport scal (L "report_type") (Z.of_nat i) -> forall w, nth_error type_words i = Some w ->
  exists x, py_report_str h c = Ok x /\
    forall t, x = Some t <-> utf8 t (L "Report, type: " ++ L w ++ match component with None => [] | Some s => L ", component: " ++ s end).
Proof.
  intros (pc & po & pp & ps & pa & raw & n & fc & Hc & Oc & _) T w Hw.
  unfold py_report_str. rewrite (type_loaded _ _ _ _ _ _ _ _ _ Hc T). cbn [bind]. unfold get at 1. rewrite Hc. cbn [bind]. rewrite Nat2Z.id.
  assert (E : sr_report_type_to_string i = L w). { do 8 (destruct i as [|i]; [vm_compute in Hw; injection Hw as <-; reflexivity|]). destruct i; discriminate. }
  rewrite E. destruct component as [s|].
  - inversion Oc as [| |a ? ? ? ? Ha]; subst. assert (G : get_str h a = Ok s) by (unfold get_str, get; rewrite Ha; reflexivity). rewrite G. cbn [bind].
    eexists. split; [reflexivity|]. intros t. apply from_utf8_iff.
  - inversion Oc; subst. cbn [bind]. eexists. split; [reflexivity|]. intros t. apply from_utf8_iff.
Qed.

(** ** to_json *)
Lemma to_json_ok none (print : heap -> addr -> res str) os h r c l items ro rs scal component oss pks sk sts auth cells type :
  alive os r (PyStruct KReport c [Some l; Some ro; Some rs]) -> py_list os l KRpm items pks -> part os none ro KOs oss ->
  number_of KReport scal (L "report_type") type -> trace_part os none rs type sk sts ->
  unlinked_report h c scal component oss pks sk sts auth cells -> NoDup cells ->
  exists h', report_with h' c scal component oss pks sk sts auth cells /\ same_outside (c :: map e_addr pks) h h' /\ length h' = length h /\
    forall text, print h' c = Ok text -> exists x, py_to_json none print (St os h) r = Ok (St os h', x) /\ forall t, x = Some t <-> utf8 t text.
Proof.
  intros A Pl Po T Pt U N. destruct (report_prepare_ok none os h r c l items ro rs scal component oss pks sk sts auth cells type A Pl Po T Pt U N) as (h' & E & R & S1 & L1).
  exists h'. split; [exact R|]. split; [exact S1|]. split; [exact L1|]. intros text Ht. unfold py_to_json. rewrite E. cbn [bind].
  destruct (type_right os h' r _ _ _ A) as [_ E2]. rewrite E2. cbn [bind mem]. rewrite Ht. cbn [bind]. eexists. split; [reflexivity|]. intros t. apply from_utf8_iff.
Qed.
Lemma to_json_exception none print st r st' : report_prepare none st r = Ok (st', false) -> py_to_json none print st r = Ok (st', None).
Proof. intros E. unfold py_to_json. rewrite E. reflexivity. Qed.
Lemma to_json_wrong_os none (print : heap -> addr -> res str) os h r c l items ro at_ pks scal pc po pp ps pa raw n :
  alive os r (PyStruct KReport c [Some l; Some ro; at_]) -> py_list os l KRpm items pks -> ro <> none -> wrong os ro KOs ->
  nth_error h c = Some (CObj KReport scal [pc] [po; pp; ps; pa] None raw n) -> Forall (fun e => exists m, own h KRpm m e) pks -> NoDup (c :: foot pks) ->
  (pks = [] -> pp = None) ->
  exists h', py_to_json none print (St os h) r = Ok (St os h', None) /\ same_outside (c :: map e_addr pks) h h' /\ length h' = length h.
Proof.
  intros A Pl Hn W Hc Fp N Ep. destruct (wrong_os none os h r c l items ro at_ pks scal pc po pp ps pa raw n A Pl Hn W Hc Fp N Ep) as (h' & E & S1).
  exists h'. split; [now apply to_json_exception|exact S1].
Qed.
Lemma to_json_wrong_stack none (print : heap -> addr -> res str) os h r c l items ro rs oss pks scal pc po pp ps pa raw n type k :
  alive os r (PyStruct KReport c [Some l; Some ro; Some rs]) -> py_list os l KRpm items pks -> part os none ro KOs oss ->
  number_of KReport scal (L "report_type") type -> traced type k -> rs <> none -> wrong os rs k ->
  nth_error h c = Some (CObj KReport scal [pc] [po; pp; ps; pa] None raw n) -> Forall (fun e => exists m, own h KRpm m e) pks -> NoDup (c :: foot pks) ->
  (pks = [] -> pp = None) ->
  exists h', py_to_json none print (St os h) r = Ok (St os h', None) /\ same_outside (c :: map e_addr pks) h h' /\ length h' = length h.
Proof.
  intros A Pl Po T K Hn W Hc Fp N Ep. destruct (wrong_stack none os h r c l items ro rs oss pks scal pc po pp ps pa raw n type k A Pl Po T K Hn W Hc Fp N Ep) as (h' & E & S1).
  exists h'. split; [now apply to_json_exception|exact S1].
Qed.

(** ** Report() *)
Lemma put_end h x t y : put (h ++ x :: t) (length h) y = h ++ y :: t.
Proof. induction h as [|z h IH]; cbn; [reflexivity|]. now rewrite IH. Qed.
Lemma report_made none os h nn : object os none (S nn) PyOther ->
  exists os' h' r c l ro e, py_report_new none (St os h) = Ok (St os' h', r) /\ length os <= r /\ grown_but none 1 os os' /\ (exists cells, h' = h ++ cells) /\
    object os' r 1 (PyStruct KReport c [Some l; Some ro; Some none]) /\ object os' l 1 (PyList []) /\ object os' ro 1 (PyStruct KOs (e_addr e) []) /\
    e_val e = Val [0%Z] [None; None; None; None; None; None] None [] /\
    report_with h' c [2; 0; 0; 1; 0]%Z None [e] [] KCoreStack [] [] [c; e_addr e] /\ NoDup [c; e_addr e].
Proof.
  intros Hn. set (cr o := CObj KReport [2; 0; 0; 1; 0]%Z [None] [o; None; None; None] None [] None).
  set (co := CObj KOs [0]%Z [None; None; None; None; None; None] [] None [] None). set (h' := h ++ [cr (Some (S (length h))); co]).
  set (e := (S (length h), Val [0%Z] [None; None; None; None; None; None] None [], [S (length h)]) : entry).
  assert (Hc : nth_error h' (length h) = Some (cr (Some (S (length h))))) by (unfold h'; rewrite nth_error_app2, Nat.sub_diag by lia; reflexivity).
  assert (Ho : nth_error h' (S (length h)) = Some co) by (unfold h'; rewrite nth_error_app2 by lia; replace (S (length h) - length h) with 1 by lia; reflexivity).
  assert (R : report_with h' (length h) [2; 0; 0; 1; 0]%Z None [e] [] KCoreStack [] [] [length h; S (length h)]).
  { exists None, (Some (S (length h))), None, None, None, [], None, []. split; [exact Hc|]. split; [repeat constructor|]. split.
    { apply (ol_cons h' KOs None e); [|constructor]. unfold e. change [S (length h)] with (S (length h) :: [] ++ [] ++ []).
      eapply (own_obj h' KOs (S (length h)) [0%Z] [None; None; None; None; None; None]); [exact Ho|reflexivity|repeat constructor|constructor|constructor]. }
    split; [cbn; lia|]. split; [constructor|]. split; [constructor|]. split; [cbn; lia|]. split; [constructor|reflexivity]. }
  assert (N : NoDup [length h; S (length h)]) by (repeat constructor; cbn; lia).
  destruct (report_wrapped none os h' (length h) _ _ _ _ _ _ _ _ 0 nn Hn R N) as (os' & r & l & items & ro & rs & E & Hr & G & Or & Ol & Po & _ & U).
  { exists 1. split; reflexivity. } { right. intros k K. cbn in K. destruct K as [K|[K|[K|[K|[K|[]]]]]]; discriminate. }
  rewrite U in * by (intros k K; cbn in K; destruct K as [K|[K|[K|[K|[K|[]]]]]]; discriminate).
  pose proof (object_lt _ _ _ _ Hn) as Ln.
  destruct Po as [[_ Po]|(Lo & e' & Ee & Po)]; [discriminate|]. injection Ee as <-.
  exists os', h', r, (length h), l, ro, e. split; [|split; [exact Hr|split; [|split; [eexists; reflexivity|split; [exact Or|split; [|split; [exact Po|split; [reflexivity|split; [exact R|exact N]]]]]]]]].
  - unfold py_report_new, alloc. cbn [mem]. rewrite (set_os_ok ((h ++ [cr None]) ++ [co]) (length h) [2; 0; 0; 1; 0]%Z None None None None None [] None).
    + cbn [bind]. replace (put _ _ _) with h'; [exact E|]. symmetry. rewrite app_length. cbn [length]. rewrite Nat.add_1_r, <- app_assoc. cbn [app].
      rewrite put_end. reflexivity.
    + rewrite <- app_assoc. cbn [app]. rewrite nth_error_app2, Nat.sub_diag by lia. reflexivity.
  - cbn [count_occ] in G. destruct (Nat.eq_dec ro none) as [->|_]; [lia|]. destruct (Nat.eq_dec none none); [exact G|congruence].
  - destruct Ol as (_ & Ol & _ & F). inversion F; subst. exact Ol.
Qed.
