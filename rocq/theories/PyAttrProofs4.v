From Verif Require Import Base HeapModel HeapSpec HeapProofs SystemModel SystemSpec SystemProofs SystemProofs2 PyAttrModel PyAttrSpec PyAttrProofs PyAttrProofs2 PyAttrProofs3.
Open Scope nat_scope.
Section C.
Variable constant : str -> str.

(** The same for a structure that owns others. *)
Lemma set_owned h k n e scal ss sarr vss name d v x : In (name, d) (documented k) -> own h k n e -> separate (e_foot e) -> k <> KReport ->
  e_val e = Val scal ss sarr vss -> length scal = length (number_members k) -> accepts d v x ->
  exists h' e' scal' ss', setattr h k (e_addr e) name (Some v) = Some (Ok (h', true)) /\ own h' k n e' /\ separate (e_foot e') /\
    e_addr e' = e_addr e /\ e_val e' = Val scal' ss' sarr vss /\ shows k scal' ss' d (Some x) /\
    (forall d' y, member d' <> member d -> shows k scal' ss' d' y <-> shows k scal ss d' y) /\
    (forall a, a < length h -> ~ In a (e_foot e) -> nth_error h' a = nth_error h a) /\
    (forall a, In a (e_foot e) -> ~ In a (e_foot e') -> freed h' a) /\ (forall a, In a (e_foot e') -> In a (e_foot e) \/ a = length h).
Proof.
  intros I O Sep NR Ev Ls A. destruct (own_inv h k n e O) as (scal0 & ps & ss0 & fs & ks & vss0 & fk & arr & sarr0 & fa & raw & Ev0 & Ef & Ec & Lp & Os & Oa & Ok).
  rewrite Ev in Ev0. injection Ev0 as <- <- <- <-. unfold separate in Sep. rewrite Ef in Sep. apply NoDup_cons_iff in Sep as [N0 Sep].
  assert (St : structure h (e_addr e) k scal ss fs ks arr raw n).
  { split; [exact Ls|]. split; [|split; [intros Q; apply N0; apply in_or_app; left; exact Q|split; [exact (proj1 (NoDup_app_inv _ _ _ Sep))|exists ps; split; assumption]]].
    assert (length ps = length ss) as Lq by (clear - Os; induction Os; cbn; congruence). rewrite <- Lq, Lp. destruct k; try reflexivity. contradiction. }
  destruct (set_ok h (e_addr e) k name d scal ss fs ks arr raw n v x St I A) as (h' & scal' & ss' & fs' & E & St' & Sh & Ot & Sm & Fr & Nw & Lh).
  destruct St' as (Ls' & Lt' & Nc' & Nd' & ps' & Ec' & Os').
  assert (V : forall y, In y (fa ++ fk) -> y < length h).
  { intros y Hy. apply (own_valid h k n e O). rewrite Ef. right. apply in_or_app. right. exact Hy. }
  assert (Sk : same_on (fa ++ fk) h h').
  { intros y Hy. apply Sm; [exact (V y Hy)|intros ->; apply N0; apply in_or_app; right; exact Hy|]. intros Hf. exact (proj2 (proj2 (NoDup_app_inv _ _ _ Sep)) y Hf Hy). }
  exists h', (e_addr e, Val scal' ss' sarr vss, e_addr e :: fs' ++ fa ++ fk), scal', ss'. split; [exact E|].
  assert (O' : own h' k n (e_addr e, Val scal' ss' sarr vss, e_addr e :: fs' ++ fa ++ fk)).
  { econstructor; [exact Ec'| |exact Os'| |].
    - assert (length ps' = length ss') as Lq by (clear - Os'; induction Os'; cbn; congruence). rewrite Lq, Lt'. destruct k; try reflexivity. contradiction.
    - eapply own_arr_same; [exact Oa|]. intros y Hy. apply Sk. apply in_or_app. left. exact Hy.
    - eapply own_kids_same; [exact Ok|]. intros y Hy. apply Sk. apply in_or_app. right. exact Hy. }
  split; [exact O'|]. assert (Ns : forall y, In y fs' -> ~ In y (fa ++ fk)).
  { intros y Hy Hy2. destruct (Nw y Hy) as [Hf| ->]; [exact (proj2 (proj2 (NoDup_app_inv _ _ _ Sep)) y Hf Hy2)|]. pose proof (V _ Hy2). lia. }
  split.
  { constructor; [|apply NoDup_app2; [exact Nd'|exact (proj1 (proj2 (NoDup_app_inv _ _ _ Sep)))|exact Ns]].
    intros Q. apply in_app_or in Q as [Q|Q]; [exact (Nc' Q)|]. apply N0. apply in_or_app. right. exact Q. }
  split; [reflexivity|]. split; [reflexivity|]. split; [exact Sh|]. split; [exact Ot|]. cbn [e_foot snd]. rewrite Ef. split; [|split].
  - intros a Ha Hn. apply Sm; [exact Ha|intros ->; apply Hn; left; reflexivity|intros Q; apply Hn; right; apply in_or_app; left; exact Q].
  - intros a [<-|Ha] Hn; [exfalso; apply Hn; left; reflexivity|]. apply in_app_or in Ha as [Ha|Ha]; [|exfalso; apply Hn; right; apply in_or_app; right; exact Ha].
    destruct (Fr a Ha) as [[Q _]|[_ Q]]; [exfalso; apply Hn; right; apply in_or_app; left; exact Q|exact Q].
  - intros a [<-|Ha]; [left; left; reflexivity|]. apply in_app_or in Ha as [Ha|Ha]; [destruct (Nw a Ha) as [Q|Q]; [left; right; apply in_or_app; left; exact Q|right; exact Q]|left; right; apply in_or_app; right; exact Ha].
Qed.

(** The type of a report. *)
Definition rep_type := L "report_type".
Definition rep_version := L "report_version".
Lemma type_find : find_attr (attributes KReport) rep_type = Some (AType, L "report_type"). Proof. vm_compute. reflexivity. Qed.
Lemma type_offset : offset KReport (L "report_type") TEnum = Ok 1. Proof. vm_compute. reflexivity. Qed.
Lemma type_pos i : nth_error (number_members KReport) i = Some (L "report_type") <-> i = 1.
Proof. split; [|intros ->; reflexivity]. intros H. do 5 (destruct i as [|i]; [try reflexivity; vm_compute in H; discriminate H|]). destruct i; discriminate. Qed.
Lemma type_shown h c scal ss fs kids arr raw n z i t : structure h c KReport scal ss fs kids arr raw n -> number_of KReport scal (L "report_type") z ->
  z = Z.of_nat i -> nth_error PyAttrSpec.type_names i = Some t -> getattr constant h KReport c rep_type = Some (Ok (Some (VStr t))).
Proof.
  intros (Ls & _ & _ & _ & ps & Ec & _) (j & Hj & Ej) -> Hi. apply type_pos in Hj. subst j. unfold getattr. rewrite type_find. cbn [getter]. unfold load_scalar, get. rewrite Ec. cbn [bind]. rewrite type_offset. cbn [bind]. unfold load. rewrite Ej. cbn [bind].
  rewrite Nat2Z.id. do 8 (destruct i as [|i]; [vm_compute in Hi; injection Hi as <-; vm_compute; reflexivity|]). destruct i; discriminate.
Qed.
Lemma type_shape t i : nth_error PyAttrSpec.type_names (S i) = Some t -> i < 7 /\ exists s, as_utf8 t = Some s /\ sr_report_type_from_string (Some (c_string s)) = S i.
Proof.
  intros H. assert (i < 7) by (assert (S i < length PyAttrSpec.type_names) by (apply nth_error_Some; congruence); change (length PyAttrSpec.type_names) with 8 in *; lia). split; [assumption|].
  exists (nth (S i) report_types []). do 7 (destruct i as [|i]; [vm_compute in H; injection H as <-; split; vm_compute; reflexivity|]). lia.
Qed.
Lemma type_set h c scal ss fs kids arr raw n i t : structure h c KReport scal ss fs kids arr raw n -> nth_error PyAttrSpec.type_names (S i) = Some t ->
  exists h' scal', setattr h KReport c rep_type (Some (VStr t)) = Some (Ok (h', true)) /\ structure h' c KReport scal' ss fs kids arr raw n /\
    number_of KReport scal' (L "report_type") (Z.of_nat (S i)) /\
    (forall m z, m <> L "report_type" -> number_of KReport scal' m z <-> number_of KReport scal m z) /\ same_outside [c] h h'.
Proof.
  intros St Hi. destruct (type_shape t i Hi) as (_ & s & Es & Ef).
  destruct (in_nth _ scal 1 (L "report_type") (proj2 (type_pos 1) eq_refl) ltac:(destruct St as (Ls & _); lia)) as [w Ew].
  destruct (number_written h c KReport scal ss fs kids arr raw n (L "report_type") TEnum 1 w (Z.of_nat (S i)) St type_offset Ew) as (h' & E & St' & So & Lh).
  exists h', (store scal 1 (Z.of_nat (S i))). unfold setattr. rewrite type_find. cbn [setter]. rewrite Es, Ef, E. cbn [bind]. split; [reflexivity|]. split; [exact St'|]. split; [|split; [|exact So]].
  - exists 1. split; [reflexivity|]. exact (nth_store_same _ _ _ _ Ew).
  - intros m z Nm. unfold number_of. split; intros (j & A & B); exists j; (split; [exact A|]); rewrite nth_store_other in *; try exact B; intros Q; apply Nm; rewrite <- Q in A; change (Some (L "report_type") = Some m) in A; congruence.
Qed.
Lemma as_utf8_text t s : py_text t -> as_utf8 t = Some s -> utf8 t s.
Proof. intros P E. exact (as_utf8_ok t s P E). Qed.
Lemma type_refused h c v : (forall i t, nth_error PyAttrSpec.type_names (S i) = Some t -> v <> VStr t) -> (forall t, v = VStr t -> py_text t /\ ~ In 0%Z t) ->
  setattr h KReport c rep_type (Some v) = Some (Ok (h, false)).
Proof.
  intros H P. unfold setattr. rewrite type_find. cbn [setter]. destruct v as [| | |t|]; try reflexivity. destruct (P t eq_refl) as [Pt Nz].
  destruct (as_utf8 t) as [s|] eqn:Es; [|reflexivity]. pose proof (as_utf8_ok t s Pt Es) as U.
  assert (C : c_string s = s). { apply c_string_id. apply (utf8_no_nul t); [exact U|]. apply Forall_forall. intros y Hy ->. contradiction. }
  rewrite C. destruct (sr_report_type_from_string (Some s)) as [|ty] eqn:E; [reflexivity|]. exfalso.
  assert (Q : exists i t', nth_error PyAttrSpec.type_names (S i) = Some t' /\ as_utf8 t' = Some s).
  { apply type_from in E as [(name & I & En)|[E _]]; [|discriminate]. injection En as ->. exists ty, (map ord name).
    cbn [In SystemSpec.type_names] in I. repeat (destruct I as [I|I]; [injection I as <- <-; split; vm_compute; reflexivity|]). destruct I. }
  destruct Q as (i & t' & Hi & Et'). apply (H i t' Hi). f_equal.
  assert (from_utf8 s = Some t) by (apply from_utf8_iff; exact U). assert (from_utf8 s = Some t') by (apply from_utf8_iff; apply as_utf8_ok; [|exact Et'];
    do 7 (destruct i as [|i]; [vm_compute in Hi; injection Hi as <-; repeat (apply Forall_cons; [lia|]); apply Forall_nil|]); destruct i; discriminate). congruence.
Qed.

(** The version of a report cannot be changed. *)
Lemma version_fixed h c v : setattr h KReport c rep_version v = Some (Ok (h, false)).
Proof. unfold setattr. destruct v; reflexivity. Qed.
Lemma version_shown h c scal ss fs kids arr raw n z : structure h c KReport scal ss fs kids arr raw n -> number_of KReport scal (L "report_version") z ->
  getattr constant h KReport c rep_version = Some (Ok (Some (VInt z))).
Proof.
  intros (Ls & _ & _ & _ & ps & Ec & _) (j & Hj & Ej). unfold getattr. change (find_attr (attributes KReport) rep_version) with (Some (AVersion, L "report_version")). cbn [getter].
  unfold load_scalar, get. rewrite Ec. cbn [bind]. change (offset KReport (L "report_version") TU32) with (Ok 0). cbn [bind]. unfold load.
  assert (j = 0) as -> by (do 5 (destruct j as [|j]; [try reflexivity; vm_compute in Hj; discriminate Hj|]); destruct j; discriminate). rewrite Ej. reflexivity.
Qed.
(** The name and version of the reporter: constants, to begin with. *)
Lemma reporter_shown h c scal ps kids arr raw n name : In name [L "reporter_name"; L "reporter_version"] ->
  nth_error h c = Some (CObj KReport scal ps kids arr raw n) -> forall i, nth_error [L "reporter_name"; L "reporter_version"] i = Some name -> 
  (nth_error raw i = Some None -> forall t, utf8 t (constant name) -> getattr constant h KReport c name = Some (Ok (Some (VStr t)))) /\
  (forall a s t, nth_error raw i = Some (Some a) -> nth_error h a = Some (CStr s) -> utf8 t s -> getattr constant h KReport c name = Some (Ok (Some (VStr t)))).
Proof.
  intros Hn Ec i Hi. assert (F : find_attr (attributes KReport) name = Some (AString, name) /\ pos (strings KReport) name = None /\ pos (constants KReport) name = Some i).
  { destruct i as [|[|i]]; cbn in Hi; [injection Hi as <-; vm_compute; auto..|destruct i; discriminate]. }
  destruct F as (F & P1 & P2). unfold getattr. rewrite F. cbn [getter]. unfold load_string, get. rewrite Ec. cbn [bind]. rewrite P1, P2. unfold load. split.
  - intros R t U. rewrite R. cbn [bind]. apply from_utf8_iff in U. rewrite U. reflexivity.
  - intros a s t R Es U. rewrite R. cbn [bind]. unfold get_str, get. rewrite Es. cbn [bind]. apply from_utf8_iff in U. rewrite U. reflexivity.
Qed.
End C.

(** ** What does not hold *)
Definition js_frame_heap : heap := [CObj KJsFrame [3; 7]%Z [None; None] [] None [] None].
Lemma js_frame_is : structure js_frame_heap 0 KJsFrame [3; 7]%Z [None; None] [] [] None [] None.
Proof. split; [reflexivity|]. split; [reflexivity|]. split; [intros []|]. split; [constructor|]. exists [None; None]. split; [reflexivity|repeat constructor]. Qed.
Lemma js_find : find_attr (attributes KJsFrame) (L "file_line") = Some (AUint32, L "file_line"). Proof. vm_compute. reflexivity. Qed.
Lemma u32_wraps : forall constant, exists h', setattr js_frame_heap KJsFrame 0 (L "file_line") (Some (VInt (u32 + 2))) = Some (Ok (h', true)) /\
  getattr constant h' KJsFrame 0 (L "file_line") = Some (Ok (Some (VInt 1))).
Proof. intros. eexists. split; vm_compute; reflexivity. Qed.
Definition core_frame_heap : heap := [CObj KCoreFrame [3; 7; 0]%Z [None; None; None; None] [] None [] None].
Lemma u64_wraps : forall constant, (exists h', setattr core_frame_heap KCoreFrame 0 (L "address") (Some (VInt u64)) = Some (Ok (h', true)) /\
    getattr constant h' KCoreFrame 0 (L "address") = Some (Ok (Some VNone))) /\
  (exists h', setattr core_frame_heap KCoreFrame 0 (L "address") (Some (VInt (-2))) = Some (Ok (h', true)) /\
    getattr constant h' KCoreFrame 0 (L "address") = Some (Ok (Some (VInt (u64 - 1))))) /\
  (exists h', setattr core_frame_heap KCoreFrame 0 (L "address") (Some (VInt (2 ^ 70 + 5))) = Some (Ok (h', true)) /\
    getattr constant h' KCoreFrame 0 (L "address") = Some (Ok (Some (VInt 5)))).
Proof. intros. repeat split; eexists; split; vm_compute; reflexivity. Qed.
Lemma nul_cuts : forall constant, exists h', setattr js_frame_heap KJsFrame 0 (L "file_name") (Some (VStr [97; 0; 98]%Z)) = Some (Ok (h', true)) /\
  getattr constant h' KJsFrame 0 (L "file_name") = Some (Ok (Some (VStr [97]%Z))).
Proof. intros. exists [CObj KJsFrame [3; 7]%Z [Some 1; None] [] None [] None; CStr (L "a")]. split; vm_compute; reflexivity. Qed.
Lemma raising_truth : forall constant, exists h', setattr core_frame_heap KCoreFrame 0 (L "fingerprint_hashed") (Some (VOther None)) = Some (Ok (h', true)) /\
  getattr constant h' KCoreFrame 0 (L "fingerprint_hashed") = Some (Ok (Some (VBool true))).
Proof. intros. eexists. split; vm_compute; reflexivity. Qed.
Lemma constant_freed h c scal ps kids arr n r1 r2 name i t : nth_error h c = Some (CObj KReport scal ps kids arr [r1; r2] n) ->
  nth_error [L "reporter_name"; L "reporter_version"] i = Some name -> nth_error [r1; r2] i = Some None -> storable t ->
  setattr h KReport c name (Some (VStr t)) = Some UB.
Proof.
  intros Ec Hi R St. destruct (as_utf8_some t St) as (s' & _ & Es').
  assert (F : find_attr (attributes KReport) name = Some (AString, name) /\ pos (strings KReport) name = None /\ pos (constants KReport) name = Some i).
  { destruct i as [|[|i]]; cbn in Hi; [injection Hi as <-; vm_compute; auto..|destruct i; discriminate]. }
  destruct F as (F & P1 & P2). unfold setattr. rewrite F. cbn [setter]. rewrite Es'. unfold replace_string, get. rewrite Ec. cbn [bind]. rewrite P1, P2. unfold load. rewrite R. reflexivity.
Qed.
Lemma encodes t : py_text t ->
  ((forall c, In c t -> ~ surrogate c) -> exists s, utf8 t s /\ as_utf8 t = Some s) /\ (forall c, In c t -> surrogate c -> as_utf8 t = None).
Proof.
  intros P. split; [|intros c; exact (as_utf8_none t c)]. intros N. assert (exists s, as_utf8 t = Some s) as [s E].
  { clear P. induction t as [|c t IH]; [eexists; reflexivity|]. destruct IH as [s E]; [intros d Hd; apply N; right; exact Hd|]. cbn [as_utf8]. rewrite E.
    assert (exists b, utf8_char c = Some b) as [b Eb].
    { unfold utf8_char. specialize (N c (or_introl eq_refl)). unfold surrogate in N. destruct (Z.ltb_spec c 128); [eexists; reflexivity|]. destruct (Z.ltb_spec c 2048); [eexists; reflexivity|].
      destruct (Z.ltb_spec c 65536); [|eexists; reflexivity]. destruct (Z.leb_spec 55296 c); destruct (Z.ltb_spec c 57344); cbn [andb]; try (eexists; reflexivity). lia. }
    rewrite Eb. eexists. reflexivity. }
  exists s. split; [exact (as_utf8_ok t s P E)|exact E].
Qed.
Lemma read_ok constant h c k name d scal ss fs kids arr raw n :
  structure h c k scal ss fs kids arr raw n -> In (name, d) (documented k) ->
  exists x, getattr constant h k c name = Some (Ok x) /\ forall y, shows k scal ss d y <-> y = x.
Proof.
  intros S I. destruct (getter_ok constant h c k name d scal ss fs kids arr raw n S I) as (x & E & Sh). exists x. split; [exact E|]. intros y. split; [|intros ->; exact Sh].
  intros Sy. exact (shows_fun k scal ss d y x Sy Sh).
Qed.
