From Verif Require Import Base Types CrashModel CrashSpec TextModel NormModel NormSpec NormProofs2 HeapModel HeapSpec HeapProofs HeapProofs2 HeapProofs3 HeapListModel HeapListSpec HeapListProofs HeapListProofs3 PyModel PySpec PyProofs PyProofs2 PyProofs3 PyProofs4 PyProofs6 PyProofs7 PyAttrModel PyAttrSpec PyBaseModel PyBaseSpec PyBaseProofs PyBaseProofs2 PyBaseProofs3 PyMethSpec PyMethProofs2 PyGdbModel PyGdbSpec PyGdbProofs PyGdbProofs2 PyGdbProofs3 PyGdbProofs4 PyGdbProofs5 PyGdbProofs6.
Open Scope nat_scope.

(** ** normalize *)
Lemma own_linked h n e : own h KGdbStack n e -> exists ts libs, linked_gdb h n e ts libs.
Proof.
  intros O. destruct (own_inv _ _ _ _ O) as (scal & ps & ss & fs & ks & vss & fk & arr & sarr & fa & raw & Ev & Ef & Hc & Lp & Os & Oa & Ok'). cbn [kid_ops str_ops length] in *.
  destruct ps; [|discriminate Lp]. inversion Os; subst. inversion Ok' as [|? ? ? pc ? crash ? ? Oc Lc Ok1]; subst. inversion Ok1 as [|? ? ? pt ? ts ? ? Ot Lt Ok2]; subst. inversion Ok2 as [|? ? ? pl ? libs ? ? Ol Ll Ok3]; subst. inversion Ok3; subst.
  exists ts, libs, scal, pc, pt, pl, crash, arr, sarr, fa, raw. rewrite app_nil_r in Ef. split; [exact Hc|]. split; [exact Oa|]. split; [exact Oc|]. split; [exact (Lc eq_refl)|]. split; [exact Ot|]. split; [exact Ol|]. split; [exact Ev|exact Ef].
Qed.
Lemma normalize_ok normalize os h r lt ll at_ m ml n e ts items libs s s' : py_gdb os h r lt ll at_ m ml n e ts items libs s -> turns normalize (e_val e) s' -> gs_libs s' = gs_libs s ->
  exists os' h' e' lt' ts', gdb_normalize normalize (St os h) r = Ok (St os' h', Value tt) /\ py_gdb os' h' r lt' ll at_ m 1 n e' ts' items libs s' /\ e_addr e' = e_addr e /\
    rebuilt os os' h h' r lt ml ts e' lt' ts' (e_addr e :: threads_cells ts ++ map e_addr libs) /\ (forall x, In x (e_foot e') -> In x (e_foot e) \/ length h <= x).
Proof.
  intros (Hr & Hm & Hlt & Hml & Th & Nd & Pl & U & Ne & I) Tn Els.
  assert (A : alive os r (PyStruct KGdbStack (e_addr e) (Some lt :: Some ll :: at_))) by (destruct m as [|m']; [lia|]; exists m'; exact Hr).
  destruct (gdb_prepare_again _ _ _ _ _ _ _ _ _ _ _ A Th Pl U Ne) as (h1 & Ep & Ln & Un & Sm & Len). pose proof (linked_own _ _ _ _ _ Ln) as O.
  destruct (dup_fresh _ _ _ _ O Ne) as (h2 & d & Ed & Od & Vd & Ndd & Fd & L2 & X2).
  destruct (Tn h2 d Od Ndd Vd) as (h3 & d3 & En & Od3 & Ea3 & Nd3 & I3 & (L3 & S3 & Nw3 & Fr3 & Al3)).
  assert (X3 : forall x, x < length h1 -> nth_error h3 x = nth_error h1 x) by (intros x Lx; rewrite S3; [apply X2; exact Lx|lia|intros J; apply Fd in J; lia]).
  assert (Fd3 : forall x, In x (e_foot d3) -> length h1 <= x < length h3) by (intros x J; apply Nw3 in J as [J|J]; [apply Fd in J; lia|lia]).
  destruct (own_linked _ _ _ Od3) as (ds & dl & scd & pcd & pd & pld & crd & ard & srd & fad & rwd & Hcd & Oad & Ocd & Lcd & Otd & Old & Evd & Efd).
  destruct (linked_parts _ _ _ _ _ Ln Ne) as (Nt & Na & Nal & Nl & D & Vt & _).
  unfold gdb_normalize. rewrite Ep. cbn [bind negb]. rewrite (obj_ok (St os h1) r _ _ Hr). cbn [bind mem]. rewrite Ed. cbn [bind]. rewrite En. cbn [bind]. unfold with_mem at 1. cbn [objs].
  destruct (list_replaced os h1 r lt ll at_ m ml e ts items libs Hr Hlt Hml Th Nd Pl Un h3 Nt) as (os1 & h4 & f & Edec & Fr & If & New); [intros x Ix; apply X3, Vt, Ix|].
  rewrite Edec. cbn [bind mem]. pose proof Fr as (L4 & S4 & Fr4).
  assert (Sub : forall x, In x f -> In x (foot (map pt_entry ts))) by (intros x Ix; eapply threads_lost_foot; [exact Th|exact Un|]; apply If; exact Ix).
  assert (X4 : forall x, ~ In x (foot (map pt_entry ts)) -> nth_error h4 x = nth_error h3 x) by (intros x Nx; apply S4; intros J; apply Nx, Sub, J).
  assert (Y4 : forall x, length h1 <= x -> nth_error h4 x = nth_error h3 x) by (intros x Lx; apply X4; intros J; apply Vt in J; lia).
  assert (Ld : length h1 <= e_addr d3 < length h3) by (apply Fd3; rewrite Efd; left; reflexivity).
  (* the two structures *)
  rewrite <- Ea3. unfold stack_lists. assert (Hcd4 : nth_error h4 (e_addr d3) = Some (CObj KGdbStack scd [] [pcd; pd; pld] ard rwd None)) by (rewrite Y4 by lia; exact Hcd).
  rewrite (get_live _ _ _ Hcd4) by discriminate. cbn [bind].
  destruct Ln as (scal & pc & p & pl & crash & arr & sarr & fa & raw & Hc & Oa & Oc & Lc & Ot & Ol & Ev & Ef).
  assert (Le : e_addr e < length h1) by (apply nth_error_Some; congruence).
  assert (Hc4 : nth_error h4 (e_addr e) = Some (CObj KGdbStack scal [] [pc; p; pl] arr raw n)) by (rewrite X4 by exact Na; rewrite X3 by exact Le; exact Hc).
  unfold set_stack_lists at 1. rewrite (get_live _ _ _ Hc4) by discriminate. cbn [bind]. rewrite (set_live _ _ _ _ Hc4) by discriminate. cbn [bind].
  set (h5 := put h4 (e_addr e) (CObj KGdbStack scd [] [pcd; pd; pl] arr raw n)).
  assert (L4e : e_addr e < length h4) by (apply nth_error_Some; congruence). assert (L4d : e_addr d3 < length h4) by (apply nth_error_Some; congruence).
  assert (Hcd5 : nth_error h5 (e_addr d3) = Some (CObj KGdbStack scd [] [pcd; pd; pld] ard rwd None)) by (unfold h5; rewrite put_other by lia; exact Hcd4).
  unfold set_stack_lists. rewrite (get_live _ _ _ Hcd5) by discriminate. cbn [bind]. rewrite (set_live _ _ _ _ Hcd5) by discriminate. cbn [bind].
  set (h6 := put h5 (e_addr d3) (CObj KGdbStack scd [] [None; None; pld] ard rwd None)).
  assert (L6 : length h6 = length h3) by (unfold h6, h5; rewrite !put_length; exact L4).
  assert (X6 : forall x, x <> e_addr e -> x <> e_addr d3 -> nth_error h6 x = nth_error h4 x) by (intros x N1 N2; unfold h6, h5; rewrite !put_other by congruence; reflexivity).
  (* the copy without its threads *)
  rewrite Efd in Nd3. apply NoDup_cons_iff in Nd3 as [Nad Nd3]. apply NoDup_app_inv in Nd3 as (Nfad & Nd3 & Dd0). apply NoDup_app_inv in Nd3 as (Ncd & Nd3 & Dd1). apply NoDup_app_inv in Nd3 as (Ntd & Nld & Dd2). rewrite !in_app_iff in Nad.
  assert (Inn : forall x, In x fad \/ In x (foot crd) \/ In x (foot ds) \/ In x (foot dl) -> length h1 <= x < length h3) by (intros x Hx; apply Fd3; rewrite Efd; right; rewrite !in_app_iff; tauto).
  assert (K6 : forall g, (forall x, In x g -> (In x fad \/ In x (foot crd) \/ In x (foot ds) \/ In x (foot dl))) -> same_on g h3 h6).
  { intros g Hg x Ix. pose proof (Hg x Ix) as Hx. pose proof (Inn x Hx). rewrite X6; [apply Y4; lia|lia|]. intros ->. tauto. }
  set (dx := (e_addr d3, Val scd [] srd [[]; []; map e_val dl], e_addr d3 :: fad ++ foot dl)).
  assert (Odx : own h6 KGdbStack None dx).
  { unfold dx. change (e_addr d3 :: fad ++ foot dl) with (e_addr d3 :: [] ++ fad ++ (foot (@nil entry) ++ foot (@nil entry) ++ foot dl)).
    eapply (own_obj h6 KGdbStack (e_addr d3) scd [] [] [] [None; None; pld]); [unfold h6; apply put_same; unfold h5; rewrite put_length; exact L4d|reflexivity|constructor|eapply own_arr_same; [exact Oad|apply K6; tauto]|].
    cbn [kid_ops]. apply (ok_cons h6 KGdbFrame false _ None _ []); [constructor|intros _; cbn; lia|]. apply (ok_cons h6 KGdbThread true _ None _ []); [constructor|discriminate|]. rewrite <- (app_nil_r (foot dl)). econstructor; [eapply own_list_same; [exact Old|apply K6; tauto]|discriminate|constructor]. }
  assert (Ndx : NoDup (e_foot dx)).
  { unfold dx. cbn [e_foot snd]. constructor; [rewrite in_app_iff; tauto|]. apply NoDup_app2; [exact Nfad|exact Nld|]. intros x J K. apply (Dd0 x J). rewrite !in_app_iff. tauto. }
  change (e_addr d3) with (e_addr dx) at 1. destruct (sr_free_ok _ _ _ _ Odx Ndx) as (h7 & E7 & (L7 & S7 & Fr7)). rewrite E7. cbn [bind]. unfold with_mem at 1. cbn [objs].
  assert (Fx : forall x, In x (e_foot dx) -> length h1 <= x /\ (x = e_addr d3 \/ In x fad \/ In x (foot dl))).
  { intros x J. unfold dx in J. cbn [e_foot snd In] in J. rewrite in_app_iff in J. split; [destruct J as [<-|J]; [lia|apply Inn; tauto]|]. destruct J as [<-|J]; tauto. }
  assert (K7 : forall g, (forall x, In x g -> In x (foot crd) \/ In x (foot ds)) -> same_on g h3 h7).
  { intros g Hg x Ix. pose proof (Hg x Ix) as Hx. rewrite S7; [apply (K6 [x]); [intros y [<-|[]]; tauto|left; reflexivity]|]. intros J. apply Fx in J as (_ & [->|[J|J]]); [tauto| |].
    - apply (Dd0 x J). rewrite !in_app_iff. tauto.
    - destruct Hx as [Hx|Hx]; [apply (Dd1 x Hx); rewrite in_app_iff; tauto|exact (Dd2 x Hx J)]. }
  assert (O7 : forall x, x < length h1 -> x <> e_addr e -> ~ In x (foot (map pt_entry ts)) -> nth_error h7 x = nth_error h1 x).
  { intros x Lx N1 N2. rewrite S7 by (intros J; apply Fx in J; lia). rewrite X6 by (try lia; exact N1). rewrite X4 by exact N2. apply X3. exact Lx. }
  assert (Hc7 : nth_error h7 (e_addr e) = Some (CObj KGdbStack scd [] [pcd; pd; pl] arr raw n)).
  { rewrite S7 by (intros J; apply Fx in J; lia). unfold h6. rewrite put_other by lia. unfold h5. apply put_same. exact L4e. }
  assert (Ot7 : own_list h7 KGdbThread pd ds) by (eapply own_list_same; [exact Otd|apply K7; tauto]).
  destruct (New h7 ds pd Ot7 Ntd) as (os2 & lt' & ts' & E8 & Em & U8 & Rr2 & Rr3 & Nt3 & Nn3 & Pl3 & Tl3 & G3).
  { cbn [stack_threads]. unfold gdb_threads. rewrite (get_live _ _ _ Hc7) by discriminate. reflexivity. }
  rewrite E8. cbn [bind]. rewrite (obj_ok (St os2 h7) r _ _ Rr2). cbn [bind replace_nth]. unfold set_obj. cbn [objs mem].
  set (os3 := put_obj os2 r (Some (m, PyStruct KGdbStack (e_addr e) (Some lt' :: Some ll :: at_)))) in *.
  set (e' := (e_addr e, Val scd [] sarr [map e_val crd; map e_val ds; map e_val libs], e_addr e :: fa ++ foot crd ++ foot ds ++ foot libs)).
  rewrite Ef in Ne. apply NoDup_cons_iff in Ne as [Nae Ne]. apply NoDup_app_inv in Ne as (Nfa & Ne & D0). apply NoDup_app_inv in Ne as (Nc & Ne & D1). rewrite !in_app_iff in Nae.
  assert (Va : forall x, In x fa -> x < length h1) by (intros x; eapply own_arr_valid; exact Oa). assert (Vl : forall x, In x (foot libs) -> x < length h1) by (intros x; eapply own_list_valid; exact Ol).
  assert (Nwd : forall x, In x (foot crd) \/ In x (foot ds) -> length h1 <= x) by (intros x Hx; apply Inn; tauto).
  assert (L17 : length h1 <= length h7) by lia.
  exists os3, h7, e', lt', ts'. split; [reflexivity|]. split; [|split; [reflexivity|split]].
  - split; [exact Rr3|]. split; [exact Hm|]. split; [apply Nt3|]. split; [lia|]. split; [eapply new_py_threads; exact Nt3|]. split; [exact Nn3|]. split; [exact Pl3|]. split; [|split].
    + exists scd, pcd, pd, pl, crd, arr, sarr, fa, raw. change (e_addr e') with (e_addr e). rewrite Em. split; [exact Hc7|]. split; [eapply own_arr_same; [exact Oa|]; intros x Ix; apply O7; [exact (Va x Ix)|intros ->; tauto|intros J; apply (D0 x Ix); rewrite !in_app_iff; tauto]|].
      split; [eapply own_list_same; [exact Ocd|apply K7; tauto]|]. split; [exact Lcd|]. split; [reflexivity|]. split; [reflexivity|]. split; [exact U8|]. split; [intros ->; cbn [map] in Em; subst ds; inversion Ot7; reflexivity|].
      split; [|intros ->; inversion Ol; reflexivity]. assert (Ol7 : own_list h7 KGdbLib pl libs) by (eapply own_list_same; [exact Ol|]; intros x Ix; apply O7; [exact (Vl x Ix)|intros ->; tauto|intros J; exact (D x J Ix)]). exact (own_list_each _ _ _ _ Ol7).
    + unfold e'. cbn [e_foot snd]. constructor; [rewrite !in_app_iff; intros [J|[J|[J|J]]]; try tauto; [specialize (Nwd (e_addr e) (or_introl J))|specialize (Nwd (e_addr e) (or_intror J))]; lia|].
      apply NoDup_app2; [exact Nfa| |].
      * apply NoDup_app2; [exact Ncd| |].
        -- apply NoDup_app2; [exact Ntd|exact Nl|]. intros x J K. specialize (Nwd x (or_intror J)). specialize (Vl x K). lia.
        -- intros x J K. rewrite in_app_iff in K. destruct K as [K|K]; [apply (Dd1 x J); rewrite in_app_iff; tauto|]. specialize (Nwd x (or_introl J)). specialize (Vl x K). lia.
      * intros x J K. rewrite !in_app_iff in K. specialize (Va x J). destruct K as [K|[K|K]]; [specialize (Nwd x (or_introl K)); lia|specialize (Nwd x (or_intror K)); lia|apply (D0 x J); rewrite !in_app_iff; tauto].
    + unfold e'. cbn [e_val fst snd]. destruct I3 as (_ & In3 & cs & vs & ls & Ek & Fc & Ft & Fl). rewrite Evd in Ek, In3. cbn [kids] in Ek. injection Ek as <- <- <-.
      destruct I as (_ & _ & cs0 & vs0 & ls0 & Ek0 & _ & _ & Fl0). rewrite Ev in Ek0. cbn [kids] in Ek0. injection Ek0 as _ _ <-.
      split; [reflexivity|]. split; [exact In3|]. do 3 eexists. split; [reflexivity|]. split; [exact Fc|]. split; [exact Ft|]. rewrite Els. exact Fl0.
  - split; [exact Nt3|]. split; [rewrite Em; intros x Ix; specialize (Nwd x (or_intror Ix)); lia|]. split; [exact Tl3|]. split; [exact G3|].
    assert (Gk : forall x, x < length h1 -> ~ In x [e_addr e] -> ~ threads_lost os ml ts x -> nth_error h7 x = nth_error h1 x).
    { intros x Lx Nx Nlo. assert (Nx' : x <> e_addr e) by (intros ->; apply Nx; left; reflexivity). rewrite S7 by (intros J; apply Fx in J; lia). rewrite X6 by (try lia; exact Nx'). rewrite S4 by (intros J; apply Nlo, If, J). apply X3. exact Lx. }
    split; [|split; [|split]].
    + intros x Lx Nx Nlo. rewrite <- Sm by exact Nx. apply Gk; [lia| |exact Nlo]. intros [<-|[]]. apply Nx. left. reflexivity.
    + intros x Lo. apply If in Lo. pose proof (Sub x Lo) as Jx. pose proof (Vt x Jx). unfold freed. rewrite S7 by (intros J; apply Fx in J; lia). rewrite X6; [apply Fr4; exact Lo|intros ->; contradiction|lia].
    + eapply (kept_ok os lt ml ts h1 h7 [e_addr e]); [exact Th|exact Un|exact Nt|intros x Ix [<-|[]]; contradiction|exact Gk].
    + intros x Lx. assert (Fh : In x (e_foot d3) \/ freed h3 x).
      { destruct (Nat.lt_ge_cases x (length h2)) as [L|L]; [|apply Al3; lia]. destruct (in_dec Nat.eq_dec x (e_foot d3)) as [K|K]; [left; exact K|]. right. apply Fr3; [apply Fd; lia|exact K]. }
      destruct (in_dec Nat.eq_dec x (e_foot dx)) as [K|K]; [right; right; apply Fr7; exact K|].
      destruct Fh as [J|J].
      * left. rewrite Efd in J. unfold dx in K. cbn [e_foot snd In] in K. rewrite in_app_iff in K. cbn [In] in J. rewrite !in_app_iff in J. unfold e'. cbn [e_foot snd In]. rewrite !in_app_iff. tauto.
      * right. right. unfold freed. rewrite S7 by exact K. rewrite X6; [rewrite Y4 by lia; exact J|lia|]. intros ->. unfold freed in J. congruence.
  - intros x J. unfold e' in J. cbn [e_foot snd In] in J. rewrite !in_app_iff in J. rewrite Ef. cbn [In]. rewrite !in_app_iff. destruct J as [J|[J|[J|[J|J]]]]; try tauto; right; [specialize (Nwd x (or_introl J))|specialize (Nwd x (or_intror J))]; lia.
Qed.
