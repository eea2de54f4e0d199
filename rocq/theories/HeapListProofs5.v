From Verif Require Import Base Types ParseProofs CmpModel CmpSpec RpmModel HeapModel HeapSpec HeapProofs HeapProofs2 HeapProofs3 HeapListModel HeapListSpec HeapListProofs HeapListProofs2 HeapListProofs3.
Open Scope nat_scope.

Lemma os_free_ok h p l : own_list h KOs p l -> length l <= 1 -> Forall no_array l -> NoDup (foot l) ->
  exists h', operating_system_free h p = Ok h' /\ freed_all (foot l) h h'.
Proof.
  intros O B A N. destruct l as [|e [|? ?]]; [|inversion O as [|? n ? ? Oe Ol]; subst|cbn in B; lia].
  - inversion O; subst. exists h. split; [reflexivity|apply freed_nil].
  - inversion A as [|? ? A1 _]; subst. rewrite foot_cons in *. cbn [foot map concat] in *. rewrite app_nil_r in *.
    destruct (own_inv _ _ _ _ Oe) as (scal & ps & ss & fs & ks & vss & fk & arr & sarr & fa & raw & Ev & Ef & Hc & Lp & Os & Oa & Ok').
    unfold no_array in A1. rewrite Ev in A1. destruct sarr; [contradiction|]. inversion Oa; subst. inversion Ok'; subst. cbn [app] in Ef. rewrite app_nil_r in Ef.
    unfold operating_system_free. rewrite (get_live _ _ _ Hc) by discriminate. cbn [bind]. rewrite Ef in *. apply NoDup_cons_iff in N as [Na Ns].
    destruct (free_strs_ok (str_ops KOs) ps ss fs h Os Ns Lp (all_free_kinds KOs)) as (h1 & E1 & F1). rewrite E1. cbn [bind].
    assert (Hc1 : nth_error h1 (e_addr e) = Some (CObj KOs scal ps [] None raw n)) by (destruct F1 as (_ & So & _); rewrite So by exact Na; exact Hc).
    destruct (g_free_ok _ _ _ Hc1 ltac:(discriminate)) as (h2 & E2 & F2). exists h2. split; [exact E2|].
    eapply freed_equiv; [|exact (freed_app _ _ _ _ _ F1 F2)]. intro x. rewrite in_app_iff. cbn [In]. tauto.
Qed.
Lemma auth_free_ok : forall l fuel h p, own_list h KAuth p l -> Forall no_array l -> NoDup (foot l) -> length l <= fuel ->
  exists h', auth_free fuel h p = Ok h' /\ freed_all (foot l) h h'.
Proof.
  induction l as [|e l IH]; intros fuel h p O A N Lf; inversion O as [|? n ? ? Oe Ol]; subst.
  - exists h. split; [destruct fuel; reflexivity|apply freed_nil].
  - destruct fuel as [|fuel]; [cbn in Lf; lia|]. apply Forall_cons_iff in A as [A1 A2]. cbn [auth_free].
    destruct (own_inv _ _ _ _ Oe) as (scal & ps & ss & fs & ks & vss & fk & arr & sarr & fa & raw & Ev & Ef & Hc & Lp & Os & Oa & Ok').
    unfold no_array in A1. rewrite Ev in A1. destruct sarr; [contradiction|]. inversion Oa; subst. inversion Ok'; subst. cbn [app] in Ef. rewrite app_nil_r in Ef.
    rewrite (get_live _ _ _ Hc) by discriminate. cbn [bind]. destruct ps as [|v [|k [|? ?]]]; try discriminate Lp.
    rewrite foot_cons in N |- *. apply NoDup_app_inv in N as (Ne & Nl & D). rewrite Ef in Ne, D. apply NoDup_cons_iff in Ne as [Na Ns].
    destruct (own_strs_split _ _ _ _ _ Os) as (s1 & ss1 & f1 & g1 & -> & -> & O1 & O2). apply NoDup_app_inv in Ns as (N1 & N2 & D12).
    destruct (free_opt_ok _ _ _ _ O1) as (h1 & E1 & F1). rewrite E1. cbn [bind].
    destruct (own_strs_split _ _ _ _ _ O2) as (s2 & ss2 & f2 & g2 & -> & -> & O2' & O3). inversion O3; subst. rewrite app_nil_r in *.
    assert (O21 : own_strs h1 [k] [s2] f2).
    { eapply own_strs_same; [exact O2'|]. eapply freed_same_on; [exact F1|]. intros x I J. exact (D12 x J I). }
    destruct (free_opt_ok _ _ _ _ O21) as (h2 & E2 & F2). rewrite E2. cbn [bind]. assert (F12 := freed_app _ _ _ _ _ F1 F2).
    assert (Hc2 : nth_error h2 (e_addr e) = Some (CObj KAuth scal [v; k] [] None raw n)) by (destruct F12 as (_ & So & _); rewrite So by exact Na; exact Hc).
    destruct (g_free_ok _ _ _ Hc2 ltac:(discriminate)) as (h3 & E3 & F3). rewrite E3. cbn [bind]. assert (F13 := freed_app _ _ _ _ _ F12 F3).
    destruct (IH fuel h3 n) as (h4 & E4 & F4).
    + eapply own_list_same; [exact Ol|]. eapply freed_same_on; [exact F13|]. intros x I J. apply (D x); [|exact I]. rewrite !in_app_iff in J. cbn [In] in *. rewrite in_app_iff. tauto.
    + exact A2.
    + exact Nl.
    + cbn in Lf. lia.
    + exists h4. split; [exact E4|]. eapply freed_equiv; [|exact (freed_app _ _ _ _ _ F13 F4)]. intro x. rewrite Ef. rewrite !in_app_iff. cbn [In]. rewrite in_app_iff. tauto.
Qed.
Lemma stacktrace_free_ok h k p l : own_list h k p l -> length l <= 1 -> NoDup (foot l) ->
  exists h', stacktrace_free h p = Ok h' /\ freed_all (foot l) h h'.
Proof.
  intros O B N. destruct l as [|e [|? ?]]; [|inversion O as [|? n ? ? Oe Ol]; subst|cbn in B; lia].
  - inversion O; subst. exists h. split; [reflexivity|apply freed_nil].
  - rewrite foot_cons in *. cbn [foot map concat] in *. rewrite app_nil_r in *. unfold stacktrace_free. rewrite (own_kind _ _ _ _ Oe). cbn [bind].
    exact (sr_free_ok _ _ _ _ Oe N).
Qed.

Lemma report_free_ok h r c os pk st au cells : report_is h r c os pk st au cells -> separate cells ->
  exists h', sr_report_free h r = Ok h' /\ length h' = length h /\ same_outside cells h h' /\ (forall x, In x cells -> freed h' x).
Proof.
  intros (scal & pc & po & pp & ps & pa & raw & n & fc & k & Hc & Oc & Oo & Bo & Ao & Op & (pl & Pp) & _ & Os & Bs & Oa & Aa & ->) N.
  unfold separate in N. apply NoDup_cons_iff in N as [Nr N]. apply NoDup_app_inv in N as (Nc & N & Dc). apply NoDup_app_inv in N as (No & N & Do).
  apply NoDup_app_inv in N as (Np & N & Dp). apply NoDup_app_inv in N as (Ns & Na & Ds).
  unfold sr_report_free. rewrite (get_live _ _ _ Hc) by discriminate. cbn [bind].
  destruct (free_opt_ok _ _ _ _ Oc) as (h1 & E1 & F1). rewrite E1. cbn [bind].
  destruct (os_free_ok h1 po os) as (h2 & E2 & F2); [|assumption|assumption|assumption|].
  { eapply own_list_same; [exact Oo|]. eapply freed_same_on; [exact F1|]. intros x I J. apply (Dc x J). rewrite !in_app_iff. tauto. }
  rewrite E2. cbn [bind]. assert (G2 := freed_app _ _ _ _ _ F1 F2).
  destruct (sr_package_free_ok h2 pp pk pl) as (h3 & E3 & F3); [|assumption|assumption|].
  { eapply own_list_same; [exact Op|]. eapply freed_same_on; [exact G2|]. intros x I. rewrite in_app_iff. intros [J|J]; [apply (Dc x J)|apply (Do x J)]; rewrite !in_app_iff; tauto. }
  rewrite E3. cbn [bind]. assert (G3 := freed_app _ _ _ _ _ G2 F3).
  destruct (stacktrace_free_ok h3 k ps st) as (h4 & E4 & F4); [|assumption|assumption|].
  { eapply own_list_same; [exact Os|]. eapply freed_same_on; [exact G3|]. intros x I. rewrite !in_app_iff. intros [[J|J]|J]; [apply (Dc x J)|apply (Do x J)|apply (Dp x J)]; rewrite !in_app_iff; tauto. }
  rewrite E4. cbn [bind]. assert (G4 := freed_app _ _ _ _ _ G3 F4).
  assert (Oa4 : own_list h4 KAuth pa au).
  { eapply own_list_same; [exact Oa|]. eapply freed_same_on; [exact G4|]. intros x I. rewrite !in_app_iff.
    intros [[[J|J]|J]|J]; [apply (Dc x J)|apply (Do x J)|apply (Dp x J)|apply (Ds x J)]; rewrite ?in_app_iff; tauto. }
  destruct (auth_free_ok au (length h4) h4 pa Oa4 Aa Na (own_list_bound _ _ _ _ Oa4 Na)) as (h5 & E5 & F5). rewrite E5. cbn [bind].
  assert (G5 := freed_app _ _ _ _ _ G4 F5).
  destruct (g_free_ok h5 r (CObj KReport scal [pc] [po; pp; ps; pa] None raw n)) as (h6 & E6 & F6); [|discriminate|].
  { destruct G5 as (_ & So & _). rewrite So; [exact Hc|]. rewrite !in_app_iff in *. tauto. }
  exists h6. split; [exact E6|]. eapply freed_equiv; [|exact (freed_app _ _ _ _ _ G5 F6)]. intro x. cbn [In]. rewrite !in_app_iff. cbn [In]. tauto.
Qed.

Lemma add_auth_ok h r c os pk st au cells key value k v fk fv : report_is h r c os pk st au cells -> separate cells ->
  own_strs h [key] [k] fk -> own_strs h [value] [v] fv ->
  exists h' e cells', sr_report_add_auth h r key value = Ok h' /\ e_val e = Val [] [v; k] None [] /\
    report_is h' r c os pk st (e :: au) cells' /\ separate cells' /\
    (forall x, In x cells' <-> In x cells \/ length h <= x < length h') /\ length h <= length h' /\
    (forall x, x < length h -> x <> r -> nth_error h' x = nth_error h x).
Proof.
  intros (scal & pc & po & pp & ps & pa & raw & n & fc & sk & Hc & Oc & Oo & Bo & Ao & Op & Pp & Sk & Os & Bs & Oa & Aa & ->) N Ok' Ov.
  unfold sr_report_add_auth, alloc. set (h0 := h ++ [_]). assert (X0 : ext h h0) by apply ext_alloc.
  destruct (dup_opt h0 _ _ _ (ext_strs _ _ _ _ _ X0 Ok')) as (h1 & q1 & k1 & D1 & X1 & W1 & F1). rewrite D1. cbn [bind]. assert (Y1 := ext_trans _ _ _ X0 X1).
  destruct (dup_opt h1 _ _ _ (ext_strs _ _ _ _ _ Y1 Ov)) as (h2 & q2 & k2 & D2 & X2 & W2 & F2). rewrite D2. cbn [bind]. assert (Y2 := ext_trans _ _ _ Y1 X2).
  assert (Lr := live_lt _ _ _ Hc). assert (Hr2 : nth_error h2 r = Some (CObj KReport scal [pc] [po; pp; ps; pa] None raw n)) by (rewrite (proj2 Y2) by exact Lr; exact Hc).
  rewrite (get_live _ _ _ Hr2) by discriminate. cbn [bind].
  assert (L0 : length h0 = S (length h)) by (unfold h0; rewrite app_length; cbn; lia). assert (L1 := proj1 X1). assert (L2 := proj1 X2).
  assert (Hm : nth_error h2 (length h) = Some (CObj KAuth [] [None; None] [] None [] None)).
  { rewrite (proj2 (ext_trans _ _ _ X1 X2)) by lia. apply alloc_at. }
  rewrite (set_live _ _ _ _ Hm) by discriminate. cbn [bind].
  set (h3 := put h2 (length h) _). assert (Hr3 : nth_error h3 r = Some (CObj KReport scal [pc] [po; pp; ps; pa] None raw n)) by (unfold h3; rewrite put_other by lia; exact Hr2).
  rewrite (set_live _ _ _ _ Hr3) by discriminate. set (h4 := put h3 r _).
  assert (L4 : length h4 = length h2) by (unfold h4, h3; rewrite !put_length; reflexivity).
  assert (Ws : own_strs h2 [q2; q1] [v; k] (k2 ++ k1)).
  { change [q2; q1] with ([q2] ++ [q1]). change [v; k] with ([v] ++ [k]). apply strs_app; [exact W2|exact (ext_strs _ _ _ _ _ X2 W1)]. }
  assert (V1 : forall x, In x k1 -> S (length h) <= x < length h2) by (intros x I; apply F1 in I; lia).
  assert (V2 : forall x, In x k2 -> S (length h) <= x < length h2) by (intros x I; apply F2 in I; lia).
  assert (Same : forall x, x < length h -> x <> r -> nth_error h4 x = nth_error h x).
  { intros x Hx Nx. unfold h4. rewrite put_other by exact Nx. unfold h3. rewrite put_other by lia. apply Y2. exact Hx. }
  assert (V : forall x, In x (r :: fc ++ foot os ++ foot pk ++ foot st ++ foot au) -> x < length h).
  { intros x. cbn [In]. rewrite !in_app_iff. intros [<-|[I|[I|[I|[I|I]]]]]; [exact Lr|exact (own_strs_valid _ _ _ _ Oc x I)|exact (own_list_valid _ _ _ _ Oo x I)|exact (own_list_valid _ _ _ _ Op x I)|exact (own_list_valid _ _ _ _ Os x I)|exact (own_list_valid _ _ _ _ Oa x I)]. }
  assert (N' := N). apply NoDup_cons_iff in N' as [Nr N'].
  assert (So : forall f, (forall x, In x f -> In x (fc ++ foot os ++ foot pk ++ foot st ++ foot au)) -> same_on f h h4).
  { intros f Hf x I. specialize (Hf x I). apply Same; [apply V; now right|]. intros ->. contradiction. }
  exists h4, (length h, Val [] [v; k] None [], length h :: (k2 ++ k1) ++ [] ++ []). eexists. split; [reflexivity|]. split; [reflexivity|]. split; [|split; [|split; [|split; [lia|exact Same]]]].
  - exists scal, pc, po, pp, ps, (Some (length h)), raw, n, fc, sk. split; [unfold h4; apply put_same; unfold h3; rewrite put_length; lia|].
    split; [eapply own_strs_same; [exact Oc|apply So; intros x I; rewrite !in_app_iff; tauto]|].
    split; [eapply own_list_same; [exact Oo|apply So; intros x I; rewrite !in_app_iff; tauto]|]. split; [exact Bo|]. split; [exact Ao|].
    split; [eapply own_list_same; [exact Op|apply So; intros x I; rewrite !in_app_iff; tauto]|]. split; [exact Pp|]. split; [exact Sk|].
    split; [eapply own_list_same; [exact Os|apply So; intros x I; rewrite !in_app_iff; tauto]|]. split; [exact Bs|].
    split; [|split; [constructor; [exact I|exact Aa]|reflexivity]].
    change (Some (length h)) with (Some (e_addr (length h, Val [] [v; k] None [], length h :: (k2 ++ k1) ++ [] ++ []))).
    econstructor; [|eapply own_list_same; [exact Oa|apply So; intros x I; rewrite !in_app_iff; tauto]].
    eapply own_obj; [| | |constructor|constructor].
    + unfold h4. rewrite put_other by lia. unfold h3. apply put_same. lia.
    + reflexivity.
    + eapply own_strs_same; [exact Ws|]. intros x I. unfold h4, h3. rewrite !put_other; [reflexivity| |]; apply in_app_iff in I as [I|I]; try (specialize (V1 x I)); try (specialize (V2 x I)); lia.
  - rewrite foot_cons. cbn [e_foot snd]. rewrite !app_nil_r.
    eapply (Permutation_NoDup (l := (length h :: k2 ++ k1) ++ r :: fc ++ foot os ++ foot pk ++ foot st ++ foot au)).
    + set (A := length h :: k2 ++ k1). rewrite Permutation_app_comm. rewrite <- app_comm_cons. constructor. rewrite <- !app_assoc. do 4 apply Permutation_app_head. apply Permutation_app_comm.
    + apply NoDup_app2; [|exact N|].
      * constructor; [rewrite in_app_iff; intros [I|I]; [specialize (V2 _ I)|specialize (V1 _ I)]; lia|]. apply NoDup_app2; [apply F2|apply F1|].
        intros x I J. apply F2 in I. apply F1 in J. lia.
      * intros x I J. specialize (V x J). cbn [In] in I. rewrite in_app_iff in I. destruct I as [<-|[I|I]]; [|specialize (V2 x I)|specialize (V1 x I)]; lia.
  - intros x. rewrite foot_cons. cbn [e_foot snd]. rewrite !app_nil_r. rewrite L4.
    assert (K : In x (length h :: k2 ++ k1) <-> length h <= x < length h2).
    { cbn [In]. rewrite in_app_iff. destruct F1 as [_ F1], F2 as [_ F2]. rewrite F1, F2. lia. }
    rewrite <- K. cbn [In]. rewrite !in_app_iff. cbn [In]. rewrite !in_app_iff. tauto.
Qed.
