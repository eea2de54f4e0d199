From Verif Require Import Base HeapModel HeapSpec HeapProofs HeapProofs2 HeapProofs3 HeapListModel HeapListSpec HeapListProofs HeapListProofs3 PyModel PySpec PyProofs PyProofs2 PyProofs3 PyProofs4 PyProofs5 PyProofs6 PyProofs7 PyMethSpec PyMethProofs2 PyGdbSpec PyGdbProofs PyGdbProofs2 PyGdbProofs3.
Open Scope nat_scope.

Lemma threads_left_same os os1 os1' lt ml ts : threads_left os os1 lt ml ts -> (forall x, x = lt \/ In x (concat (map pt_refs ts)) -> nth_error os1' x = nth_error os1 x) -> threads_left os os1' lt ml ts.
Proof.
  intros [T1 T2] G. split.
  - intros E. destruct (T1 E) as [H F]. split; [rewrite G by (left; reflexivity); exact H|]. rewrite Forall_forall in *. intros t It.
    eapply thread_left_same; [exact (F t It)|reflexivity|]. intros x Ix. symmetry. apply G. right. apply in_concat. exists (pt_refs t). split; [apply in_map; exact It|exact Ix].
  - intros E. destruct (T2 E) as [H F]. split; [unfold object; rewrite G by (left; reflexivity); exact H|]. rewrite Forall_forall in *. intros x Ix. rewrite G by (right; exact Ix). apply F. exact Ix.
Qed.
Lemma list_dup h k p e es : own_list h k (Some p) (e :: es) -> NoDup (foot (e :: es)) ->
  exists h' q ds, sr_dup k h p true = Ok (h', q) /\ own_list h' k (Some q) ds /\ map e_val ds = map e_val (e :: es) /\ NoDup (foot ds) /\
    (forall x, In x (foot ds) <-> length h <= x < length h') /\ length h <= length h' /\ (forall x, x < length h -> nth_error h' x = nth_error h x).
Proof.
  intros O N. pose proof O as O0. inversion O as [|? m ? ? Oe Ol]; subst. destruct (dup_ok (S (length h)) k h e m es true Oe (fun _ => Ol)) as (h' & r & ds & E & [Lx X] & Od & V & [F1 F2]).
  { rewrite foot_cons in N. enough (length (e_foot e ++ foot es) <= length h) by (rewrite app_length in *; lia). apply NoDup_bound; [exact N|]. intros x Ix. rewrite <- foot_cons in Ix. eapply own_list_valid; [exact O0|exact Ix]. }
  exists h', r, ds. split; [exact E|]. split; [exact Od|]. split; [exact V|]. split; [exact F1|]. split; [exact F2|]. split; [exact Lx|exact X].
Qed.

Lemma refs_old os lt tk fk ts x : py_threads os lt tk fk ts -> x = lt \/ In x (concat (map pt_refs ts)) -> exists n b, object os x (S n) b /\ forall c at_, b = PyStruct KGdbStack c at_ -> tk = KGdbStack \/ fk = KGdbStack.
Proof.
  intros [[n Hl] F] [->|I]; [exists n; eexists; split; [exact Hl|discriminate]|]. apply in_concat in I as (c & Ic & I). apply in_map_iff in Ic as (t & <- & It). rewrite Forall_forall in F.
  destruct (F t It) as [[m1 H1] [[m2 H2] F3]]. destruct I as [<-|[<-|I]].
  - exists m1. eexists. split; [exact H1|]. intros c at_ E. injection E as -> _ _. left. reflexivity.
  - exists m2. eexists. split; [exact H2|discriminate].
  - destruct (Forall2_in _ _ _ F3 _ I) as (f & _ & [m Hm]). exists m. eexists. split; [exact Hm|]. intros c at_ E. injection E as -> _ _. right. reflexivity.
Qed.

Section Rebuild.
  Variables (os : objects) (h : heap) (r lt ll : ref) (at_ : list (option ref)) (m ml : nat) (n : option addr) (e : entry) (ts : list py_thread) (items : list ref) (libs : list entry).
  Hypothesis Hr : object os r m (PyStruct KGdbStack (e_addr e) (Some lt :: Some ll :: at_)).
  Hypothesis Hlt : object os lt ml (PyList (map pt_ref ts)).
  Hypothesis Hml : 0 < ml.
  Hypothesis Th : py_threads os lt KGdbThread KGdbFrame ts.
  Hypothesis Nd : NoDup (lt :: ll :: map pt_list ts).
  Hypothesis Pl : py_list os ll KGdbLib items libs.
  Hypothesis Un : unlinked_threads h KGdbThread KGdbFrame ts.

  Lemma r_apart x : x = lt \/ In x (concat (map pt_refs ts)) -> x <> r.
  Proof.
    intros I ->. destruct (refs_old _ _ _ _ _ _ Th I) as (k & b & Hb & K). destruct (object_fun _ _ _ _ _ _ Hr Hb) as [_ <-]. destruct (K _ _ eq_refl); discriminate.
  Qed.
  Lemma lib_apart x : In x (ll :: items) -> x <> lt /\ ~ In x (concat (map pt_refs ts)) /\ x <> r.
  Proof.
    intros [<-|I].
    - split; [|split].
      + intros ->. inversion Nd as [|? ? Nx _]; subst. apply Nx. left. reflexivity.
      + intros I. apply in_concat in I as (c & Ic & I). apply in_map_iff in Ic as (t & <- & It). destruct Th as [_ F]. rewrite Forall_forall in F. destruct (F t It) as [[m1 H1] [_ F3]]. destruct Pl as [[ml' Hll] _].
        destruct I as [E|[E|I]].
        * rewrite E in H1. destruct (object_fun _ _ _ _ _ _ Hll H1) as [_ X]. discriminate X.
        * pose proof Nd as Q. apply NoDup_cons_iff in Q as [_ Q]. apply NoDup_cons_iff in Q as [Nx _]. apply Nx. rewrite <- E. apply in_map. exact It.
        * destruct (Forall2_in _ _ _ F3 _ I) as (f & _ & [mf Hf]). destruct (object_fun _ _ _ _ _ _ Hll Hf) as [_ X]. discriminate X.
      + intros ->. destruct Pl as [[ml' Hll] _]. destruct (object_fun _ _ _ _ _ _ Hll Hr) as [_ X]. discriminate X.
    - destruct Pl as [_ F]. destruct (Forall2_in _ _ _ F _ I) as (f & _ & [mf Hf]). split; [|split].
      + intros ->. destruct (object_fun _ _ _ _ _ _ Hf Hlt) as [_ X]. discriminate X.
      + intros J. apply in_concat in J as (c & Ic & J). apply in_map_iff in Ic as (t & <- & It). destruct Th as [_ Ft]. rewrite Forall_forall in Ft. destruct (Ft t It) as [[m1 H1] [[m2 H2] F3]].
        destruct J as [E|[E|J]].
        * rewrite E in H1. destruct (object_fun _ _ _ _ _ _ Hf H1) as [_ X]. discriminate X.
        * rewrite E in H2. destruct (object_fun _ _ _ _ _ _ Hf H2) as [_ X]. discriminate X.
        * destruct (Forall2_in _ _ _ F3 _ J) as (g & _ & [mg Hg]). destruct (object_fun _ _ _ _ _ _ Hf Hg) as [_ X]. discriminate X.
      + intros ->. destruct (object_fun _ _ _ _ _ _ Hf Hr) as [_ X]. discriminate X.
  Qed.
  Lemma threads_lost_foot x : threads_lost os ml ts x -> In x (foot (map pt_entry ts)).
  Proof.
    intros (_ & t & It & Lo). eapply in_foot; [apply in_map; exact It|]. unfold unlinked_threads in Un. rewrite Forall_forall in Un. destruct (Un t It) as [mt Ut].
    destruct Th as [_ F]. rewrite Forall_forall in F. destruct (F t It) as [_ [_ F3]]. eapply lost_in_foot; eassumption.
  Qed.

  (* the list of threads is given up; and then there is a new one for [ds] *)
  Lemma list_replaced h1 : NoDup (foot (map pt_entry ts)) -> same_on (foot (map pt_entry ts)) h h1 ->
    exists os1 h2 f, decref (St os h1) lt = Ok (St os1 h2) /\ freed_all f h1 h2 /\ (forall x, In x f <-> threads_lost os ml ts x) /\
      (forall h3 ds p, own_list h3 KGdbThread p ds -> NoDup (foot ds) -> stack_threads KGdbStack h3 (e_addr e) = Ok p ->
       exists os2 lt' ts', threads_to_python (St os1 h3) KGdbStack (e_addr e) = Ok (St os2 h3, lt') /\ map pt_entry ts' = ds /\ unlinked_threads h3 KGdbThread KGdbFrame ts' /\
         object os2 r m (PyStruct KGdbStack (e_addr e) (Some lt :: Some ll :: at_)) /\
         let os3 := put_obj os2 r (Some (m, PyStruct KGdbStack (e_addr e) (Some lt' :: Some ll :: at_))) in
         object os3 r m (PyStruct KGdbStack (e_addr e) (Some lt' :: Some ll :: at_)) /\ new_threads (length os) os3 lt' KGdbThread KGdbFrame ts' /\
         NoDup (lt' :: ll :: map pt_list ts') /\ py_list os3 ll KGdbLib items libs /\ threads_left os os3 lt ml ts /\
         (forall x, x < length os -> x <> r -> x <> lt -> (ml = 1 -> ~ In x (concat (map pt_refs ts))) -> nth_error os3 x = nth_error os x)).
  Proof.
    intros Nt Sm. inversion Nd as [|? ? Nlt Nd']; subst. inversion Nd' as [|? ? Nll Nd'']; subst.
    destruct (threads_given_up os h1 lt ml KGdbThread KGdbFrame ts Hlt Hml) as (os1 & h2 & f & E & L1 & Tl & G1 & F & If).
    { destruct Th as [_ Ft]. exact Ft. }
    { eapply threads_local; [exact Un|exact Sm]. }
    { exact Nt. }
    { constructor; [intros I; apply Nlt; right; exact I|exact Nd'']. }
    exists os1, h2, f. split; [exact E|]. split; [exact F|]. split; [exact If|]. intros h3 ds p Od Nds Es.
    unfold threads_to_python. cbn [thread_type frame_kind]. cbn [mem]. rewrite Es. cbn [bind]. unfold new_obj. cbn [objs mem].
    destruct (wrapped_threads_apart KGdbThread KGdbFrame os1 h3 p ds eq_refl Od Nds) as (os2 & ts' & E2 & G2 & Nt' & Em & U2 & Nn). rewrite E2. cbn [bind].
    exists os2, (length os1), ts'. split; [reflexivity|]. split; [exact Em|]. split; [exact U2|].
    assert (Lr : r < length os) by (eapply object_lt; exact Hr).
    assert (Rr : object os1 r m (PyStruct KGdbStack (e_addr e) (Some lt :: Some ll :: at_))).
    { unfold object. rewrite G1; [exact Hr| |].
      - intros X. apply (r_apart r); [left; exact X|reflexivity].
      - intros _ X. apply (r_apart r); [right; exact X|reflexivity]. }
    pose proof (grown_object _ _ _ _ _ G2 Rr) as Rr2. split; [exact Rr2|]. destruct G2 as [Lg Gg].
    set (os3 := put_obj os2 r (Some (m, PyStruct KGdbStack (e_addr e) (Some (length os1) :: Some ll :: at_)))). cbv zeta.
    assert (G3 : forall x, x < length os -> x <> r -> nth_error os3 x = nth_error os1 x).
    { intros x Lx Nx. unfold os3. rewrite put_obj_other by exact Nx. apply Gg. lia. }
    assert (Gn : forall x, length os <= x -> nth_error os3 x = nth_error os2 x) by (intros x Lx; unfold os3; apply put_obj_other; lia).
    split; [|split; [|split; [|split; [|split]]]].
    - unfold os3. exact (object_put_same os2 r _ _ (m, PyStruct KGdbStack (e_addr e) (Some (length os1) :: Some ll :: at_)) Rr2).
    - destruct Nt' as (B & Hl' & Ft'). rewrite L1 in B, Ft'. split; [lia|]. split; [unfold object; rewrite Gn by lia; exact Hl'|]. eapply Forall_impl; [|exact Ft'].
      intros t (B1 & H1 & (B2 & H2 & Bi & Fi)). split; [exact B1|]. split; [unfold object; rewrite Gn by lia; exact H1|]. split; [exact B2|]. split; [unfold object; rewrite Gn by lia; exact H2|]. split; [exact Bi|].
      clear - Bi Fi Gn. induction Fi as [|x y l k Hx Fi IH]; constructor; inversion Bi; subst; [unfold object; rewrite Gn by assumption; exact Hx|apply IH; assumption].
    - assert (Lll : ll < length os) by (destruct Pl as [[ml' Hll] _]; eapply object_lt; exact Hll). inversion Nn as [|? ? Na Nb]; subst. constructor; [intros [X|X]; [lia|contradiction]|]. constructor; [|exact Nb].
      intros I. apply in_map_iff in I as (t & Et & It). destruct Nt' as (_ & _ & Ft'). rewrite Forall_forall in Ft'. destruct (Ft' t It) as (_ & _ & (B' & _)). lia.
    - assert (Gl : forall x, In x (ll :: items) -> x < length os -> nth_error os3 x = nth_error os x).
      { intros x Ix Lx. destruct (lib_apart x Ix) as (N1 & N2 & N3). rewrite G3 by assumption. apply G1; [exact N1|intros _; exact N2]. }
      destruct Pl as [[ml' Hll] F']. split; [exists ml'; unfold object; rewrite Gl; [exact Hll|left; reflexivity|eapply object_lt; exact Hll]|].
      assert (Gi : forall x, In x items -> x < length os -> nth_error os3 x = nth_error os x) by (intros x Ix; apply Gl; right; exact Ix).
      clear - F' Gi. induction F' as [|x y l k [c Hx] F' IH]; constructor; [|apply IH; intros z Iz; apply Gi; right; exact Iz]. exists c. unfold object. rewrite Gi; [exact Hx|left; reflexivity|eapply object_lt; exact Hx].
    - eapply threads_left_same; [exact Tl|]. intros x Ix. apply G3; [|apply r_apart; exact Ix]. destruct (refs_old _ _ _ _ _ _ Th Ix) as (k & b & Hb & _). eapply object_lt; exact Hb.
    - intros x Lx Nx N1 N2. rewrite G3 by assumption. apply G1; assumption.
  Qed.

  Hypothesis Ln : linked_gdb h n e (map pt_entry ts) libs.
  Hypothesis Ne : NoDup (e_foot e).
  Lemma rebuild_ok : ts <> [] ->
    exists os' h' e' lt' ts', rebuild_threads (St os h) r = Ok (St os' h', true) /\
      e_addr e' = e_addr e /\ e_val e' = e_val e /\ NoDup (e_foot e') /\ unlinked_gdb h' n e' ts' libs /\ length h <= length h' /\
      object os' r m (PyStruct KGdbStack (e_addr e) (Some lt' :: Some ll :: at_)) /\ new_threads (length os) os' lt' KGdbThread KGdbFrame ts' /\
      NoDup (lt' :: ll :: map pt_list ts') /\ py_list os' ll KGdbLib items libs /\ (forall x, In x (foot (map pt_entry ts')) -> length h <= x) /\ threads_left os os' lt ml ts /\
      (forall x, x < length os -> x <> r -> x <> lt -> (ml = 1 -> ~ In x (concat (map pt_refs ts))) -> nth_error os' x = nth_error os x) /\
      (forall x, x < length h -> x <> e_addr e -> ~ threads_lost os ml ts x -> nth_error h' x = nth_error h x) /\ (forall x, threads_lost os ml ts x -> freed h' x) /\ (forall x, length h <= x < length h' -> In x (foot (map pt_entry ts'))).
  Proof.
    intros Nts. destruct Ln as (scal & pc & p & pl & crash & arr & sarr & fa & raw & Hc & Oa & Oc & Lc & Ot & Ol & Ev & Ef).
    rewrite Ef in Ne. inversion Ne as [|? ? Na N']; subst. apply NoDup_app_inv in N' as (Nfa & N' & D0). apply NoDup_app_inv in N' as (Nc & N' & D1). apply NoDup_app_inv in N' as (Nt & Nl & D2).
    rewrite !in_app_iff in Na.
    assert (exists a x l, p = Some a /\ map pt_entry ts = x :: l) as (a & x0 & l0 & -> & E0).
    { destruct ts as [|t us]; [congruence|]. cbn [map] in Ot. inversion Ot; subst. do 3 eexists. split; reflexivity. }
    unfold rebuild_threads. rewrite (obj_ok (St os h) r _ _ Hr). cbn [bind mem]. unfold gdb_threads. rewrite (get_live _ _ _ Hc) by discriminate. cbn [bind].
    rewrite E0 in Ot. destruct (list_dup h KGdbThread a x0 l0 Ot) as (h1 & q & ds & Ed & Od & Vd & Ndd & Fd & L1 & X1); [rewrite <- E0; exact Nt|]. rewrite <- E0 in Ot, Vd. rewrite Ed. cbn [bind].
    unfold with_mem. cbn [objs].
    assert (Vt : forall x, In x (foot (map pt_entry ts)) -> x < length h) by (intros x Ix; eapply own_list_valid; [exact Ot|exact Ix]).
    assert (Vc : forall x, In x (foot crash) -> x < length h) by (intros x Ix; eapply own_list_valid; [exact Oc|exact Ix]).
    assert (Vl : forall x, In x (foot libs) -> x < length h) by (intros x Ix; eapply own_list_valid; [exact Ol|exact Ix]).
    assert (Va : e_addr e < length h) by (apply nth_error_Some; congruence).
    (* memory after the old list is gone, and after the new threads are in place *)
    destruct (list_replaced h1 Nt) as (os1 & h2 & f & Edec & Fr & If & New); [intros x Ix; apply X1; apply Vt; exact Ix|]. rewrite Edec. cbn [bind mem].
    pose proof Fr as (L2 & S2 & Fr2).
    assert (Sub : forall x, In x f -> In x (foot (map pt_entry ts))) by (intros x Ix; apply threads_lost_foot; apply If; exact Ix).
    assert (X2 : forall x, x < length h -> ~ In x (foot (map pt_entry ts)) -> nth_error h2 x = nth_error h x).
    { intros x Lx Nx. rewrite S2 by (intros I; apply Nx, Sub, I). apply X1. exact Lx. }
    assert (Hc2 : nth_error h2 (e_addr e) = Some (CObj KGdbStack scal [] [pc; Some a; pl] arr raw n)) by (rewrite X2; [exact Hc|exact Va|tauto]).
    destruct (set_gdb_threads_ok' h2 (e_addr e) scal [] pc (Some a) pl arr raw n (Some q) Hc2) as (h3 & E3 & Hc3 & S3 & L3). rewrite E3. cbn [bind]. cbn [objs].
    assert (Od3 : own_list h3 KGdbThread (Some q) ds).
    { eapply own_list_same; [eapply own_list_same; [exact Od|]|].
      - eapply freed_same_on; [exact Fr|]. intros x Ix I. apply Fd in Ix. specialize (Vt x (Sub x I)). lia.
      - intros x Ix. apply S3. intros [<-|[]]. apply Fd in Ix. lia. }
    destruct (New h3 ds (Some q) Od3 Ndd) as (os2 & lt' & ts' & E4 & Em & U3 & Rr2 & Rr3 & Nt3 & Nn3 & Pl3 & Tl3 & G3).
    { cbn [stack_threads]. unfold gdb_threads. rewrite (get_live _ _ _ Hc3) by discriminate. reflexivity. }
    rewrite E4. cbn [bind]. rewrite (obj_ok (St os2 h3) r _ _ Rr2). cbn [bind replace_nth]. unfold set_obj. cbn [objs mem].
    set (os3 := put_obj os2 r (Some (m, PyStruct KGdbStack (e_addr e) (Some lt' :: Some ll :: at_)))) in *.
    assert (K3 : forall g, (forall x, In x g -> x < length h /\ x <> e_addr e /\ ~ In x (foot (map pt_entry ts))) -> same_on g h h3).
    { intros g Hg x Ix. destruct (Hg x Ix) as (H1 & H2 & H3). rewrite S3 by (intros [<-|[]]; congruence). apply X2; assumption. }
    assert (Kfa : same_on fa h h3).
    { apply K3. intros x Ix. split; [|split; [intros ->; tauto|intros I; apply (D0 x Ix); rewrite !in_app_iff; tauto]]. clear - Oa Ix. destruct Oa as [|b its ss Hb F]; [destruct Ix|].
      destruct Ix as [<-|Ix]; [apply nth_error_Some; congruence|]. destruct (Forall2_in _ _ _ F _ Ix) as (s & _ & Hs). apply nth_error_Some. congruence. }
    assert (Kc : same_on (foot crash) h h3) by (apply K3; intros x Ix; split; [exact (Vc x Ix)|split; [intros ->; tauto|intros I; apply (D1 x Ix); rewrite !in_app_iff; tauto]]).
    assert (Kl : same_on (foot libs) h h3) by (apply K3; intros x Ix; split; [exact (Vl x Ix)|split; [intros ->; tauto|intros I; exact (D2 x I Ix)]]).
    exists os3, h3, (e_addr e, e_val e, e_addr e :: fa ++ foot crash ++ foot ds ++ foot libs), lt', ts'. cbn [e_addr e_val e_foot fst snd] in *.
    split; [reflexivity|]. split; [reflexivity|]. split; [reflexivity|]. split; [|split; [|split; [lia|]]].
    - assert (Vfa : forall x, In x fa -> x < length h).
      { intros x Ix. clear - Oa Ix. destruct Oa as [|b its ss Hb F]; [destruct Ix|]. destruct Ix as [<-|Ix]; [apply nth_error_Some; congruence|]. destruct (Forall2_in _ _ _ F _ Ix) as (s & _ & Hs). apply nth_error_Some. congruence. }
      constructor.
      + rewrite !in_app_iff. intros [I|[I|[I|I]]]; try tauto. apply Fd in I. lia.
      + apply NoDup_app2; [exact Nfa| |].
        * apply NoDup_app2; [exact Nc| |].
          -- apply NoDup_app2; [exact Ndd|exact Nl|]. intros x I J. apply Fd in I. specialize (Vl x J). lia.
          -- intros x I J. apply in_app_iff in J as [J|J]; [apply Fd in J; specialize (Vc x I); lia|]. apply (D1 x I). rewrite in_app_iff. tauto.
        * intros x I J. rewrite !in_app_iff in J. destruct J as [J|[J|J]]; [apply (D0 x I); rewrite !in_app_iff; tauto|apply Fd in J; specialize (Vfa x I); lia|apply (D0 x I); rewrite !in_app_iff; tauto].
    - exists scal, pc, (Some q), pl, crash, arr, sarr, fa, raw. cbn [e_addr e_val e_foot fst snd]. rewrite Em.
      split; [exact Hc3|]. split; [eapply own_arr_same; eassumption|]. split; [eapply own_list_same; eassumption|]. split; [exact Lc|]. split; [rewrite Vd; exact Ev|]. split; [reflexivity|].
      split; [exact U3|]. split; [|split].
      + intros ->. cbn [map] in Em. subst ds. inversion Od3.
      + apply Forall_forall. intros g Ig. pose proof (own_list_each _ _ _ _ Ol) as Fl. rewrite Forall_forall in Fl. destruct (Fl g Ig) as [mg Og]. exists mg. eapply own_same; [exact Og|].
        intros x Ix. apply Kl. eapply in_foot; eassumption.
      + intros ->. inversion Ol; reflexivity.
    - split; [exact Rr3|]. split; [exact Nt3|]. split; [exact Nn3|]. split; [exact Pl3|]. split; [|split; [exact Tl3|split; [exact G3|split; [|split]]]].
      + intros x Ix. rewrite Em in Ix. apply Fd in Ix. lia.
      + intros x Lx Nx Nlo. rewrite S3 by (intros [<-|[]]; congruence). rewrite S2 by (intros I; apply Nlo, If, I). apply X1. exact Lx.
      + intros x Lo. unfold freed. rewrite S3; [apply Fr2, If, Lo|]. intros [<-|[]]. apply threads_lost_foot in Lo. tauto.
      + intros x Lx. rewrite Em. apply Fd. lia.
  Qed.
End Rebuild.
