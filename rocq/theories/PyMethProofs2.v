(** * Proofs: normalizing the Python object of a kernel oops. *)
From Verif Require Import Base Types UtilsModel NormTables CmpModel TextModel NormModel NormSpec NormProofs2 CrashModel FunsModel HeapModel HeapListModel HeapSpec HeapProofs HeapProofs2
  PyModel PySpec PyProofs PyProofs2 HeapListProofs3 PyProofs4 PyProofs5 PyProofs6 PyProofs7 PyProofs8 PyAttrModel PyAttrSpec PyBaseModel PyBaseSpec PyBaseProofs PyBaseProofs2 PyMethModel PyMethSpec PyMethProofs.
Open Scope nat_scope.

(** ** What the frames are *)
Lemma cut_is_frame v f : is_frame KKoopsFrame v (FKoops f) -> is_frame KKoopsFrame (cut_value v) (FKoops (koops_cut_suffix f)) /\
  listed (cut_value v) = match kf_module_name (koops_cut_suffix f) with
                         | None => match bsearch (kf_function_name (koops_cut_suffix f)) koops_blacklist with Ok b => b | _ => false end
                         | Some _ => false
                         end.
Proof.
  destruct v as [scal ss arr ks]. intros (_ & H1 & H2 & H3 & H4 & H5 & H6 & H7 & H8 & H9 & H10 & H11 & H12).
  assert (E3 : nth_error ss 0 = Some (kf_function_name f)).
  { destruct H3 as (i & Hi & Hs). destruct i as [|[|[|[|[|i]]]]]; try exact Hs; try discriminate Hi; destruct i; discriminate Hi. }
  assert (E6 : nth_error ss 1 = Some (kf_module_name f)).
  { destruct H6 as (i & Hi & Hs). destruct i as [|[|[|[|[|i]]]]]; try exact Hs; try discriminate Hi; destruct i; discriminate Hi. }
  destruct ss as [|fn ss]; [discriminate E3|]. injection E3 as ->. destruct ss as [|md ss]; [discriminate E6|]. injection E6 as ->.
  unfold koops_cut_suffix, cut_value, cut. destruct (kf_function_name f) as [s|] eqn:Ef.
  - destruct (strchrnul s ".") as [b [|c r]] eqn:Es.
    + cbn [fst]. assert (b = s) by (eapply span_nil_r; exact Es). subst b. unfold listed. rewrite ?Ef. split; [cbn [is_frame]; rewrite ?Ef; tauto|]. destruct (kf_module_name f); reflexivity.
    + cbn [fst]. split; [|cbn [kf_module_name kf_function_name listed]; destruct (kf_module_name f); reflexivity].
      assert (T : forall m t, is_text KKoopsFrame (Val scal (Some s :: kf_module_name f :: ss) arr ks) m t -> L m <> L "function_name" -> is_text KKoopsFrame (Val scal (Some b :: kf_module_name f :: ss) arr ks) m t).
      { intros m t ([|i] & Hi & Hs) Nm; [exfalso; apply Nm; injection Hi as Hi; symmetry; exact Hi|]. exists (S i). split; [exact Hi|exact Hs]. }
      assert (T0 : is_text KKoopsFrame (Val scal (Some b :: kf_module_name f :: ss) arr ks) "function_name" (Some b)) by (exists 0; split; reflexivity).
      split; [reflexivity|]. split; [exact H1|]. split; [exact H2|]. split; [exact T0|]. split; [exact H4|]. split; [exact H5|]. split; [apply T; [exact H6|discriminate]|]. split; [exact H7|].
      split; [apply T; [exact H8|discriminate]|]. split; [exact H9|]. split; [exact H10|]. split; apply T; (assumption || discriminate).
  - unfold listed. split; [cbn [is_frame]; rewrite ?Ef; tauto|]. rewrite ?Ef. destruct (kf_module_name f); reflexivity.
Qed.
Lemma kept_are_frames : forall es fs gs, Forall2 (is_frame KKoopsFrame) (map e_val es) (map FKoops fs) -> sr_normalize_koops_frames fs = Ok gs ->
  Forall2 (is_frame KKoopsFrame) (map e_val (kept_entries (map cut_entry es))) (map FKoops gs).
Proof.
  unfold sr_normalize_koops_frames. induction es as [|e es IH]; intros [|f fs] gs F E; inversion F as [|? ? ? ? Hf F']; subst.
  - injection E as <-. constructor.
  - destruct (cut_is_frame _ _ Hf) as [Hc Hl]. cbn [map koops_remove] in E. destruct (bsearch_ok (kf_function_name (koops_cut_suffix f))) as [b Eb]. rewrite Eb in E, Hl. cbn [bind] in E.
    destruct (koops_remove (map koops_cut_suffix fs)) as [r| |] eqn:Er; try discriminate E. cbn [bind] in E. specialize (IH fs r F' Er).
    unfold kept_entries in *. cbn [map filter]. change (e_val (cut_entry e)) with (cut_value (e_val e)). rewrite Hl.
    destruct (kf_module_name (koops_cut_suffix f)); [injection E as <-; cbn [negb map]; constructor; assumption|].
    destruct b; injection E as <-; cbn [negb map]; [exact IH|constructor; assumption].
Qed.

(** ** Giving up the old list *)
Lemma list_given_up os h l k ml items es : plain k -> object os l ml (PyList items) -> 0 < ml -> Forall2 (fun r e => alive os r (PyStruct k (e_addr e) [])) items es ->
  Forall (fun f => exists n, own h k n f) es -> NoDup (foot es) ->
  exists os' h' f, decref (St os h) l = Ok (St os' h') /\ length os' = length os /\ gave_up os os' l ml items /\
    (forall x, x <> l -> (ml = 1 -> ~ In x items) -> nth_error os' x = nth_error os x) /\
    freed_all f h h' /\ (forall x, In x f <-> ml = 1 /\ In x (dying os (combine items es))).
Proof.
  intros Pk Hl Hml F O N. assert (Nl : ~ In l items).
  { intros I. destruct (Forall2_in _ _ _ F _ I) as (e & _ & [m He]). destruct (object_fun _ _ _ _ _ _ Hl He) as [_ E]. discriminate E. }
  assert (Ll : l < length os) by (eapply object_lt; exact Hl).
  destruct ml as [|[|ml]]; [lia| |].
  - set (os1 := put_obj os l (Some (0, PyList items))).
    assert (G1 : forall r, In r items -> nth_error os1 r = nth_error os r) by (intros r Ir; apply put_obj_other; intros ->; contradiction).
    set (ps := combine items es). assert (Eps : map fst ps = items) by (eapply combine_fst; exact F). assert (Eps2 : map snd ps = es) by (eapply combine_snd; exact F).
    destruct (length os) as [|f] eqn:El; [lia|].
    destruct (release_items k f Pk (rev ps) os1 h) as (os2 & h2 & E2 & L2 & [Lo1 Lo2] & G2 & F2).
    { apply Forall_forall. intros q Iq. apply in_rev in Iq. pose proof (combine_all _ _ _ F) as Fa. rewrite Forall_forall in Fa. destruct (Fa q Iq) as [m Hm]. exists m.
      unfold object. rewrite G1; [exact Hm|]. rewrite <- Eps. apply in_map. exact Iq. }
    { apply Forall_forall. intros q Iq. apply in_rev in Iq. rewrite Forall_forall in O. apply O. rewrite <- Eps2. apply in_map. exact Iq. }
    { rewrite map_rev, Eps2. apply foot_rev_nodup. exact N. }
    rewrite map_rev, Eps in Lo1, Lo2, G2.
    assert (Lr : l < length os2) by (rewrite L2; unfold os1; rewrite put_obj_length; lia).
    exists (put_obj os2 l None), h2, (dying os1 (rev ps)). split; [|split; [|split; [|split; [|split]]]].
    + unfold decref. cbn [objs]. rewrite El. remember (S f) as fu. cbn [decref_in]. rewrite (obj_ok (St os h) l _ _ Hl). cbn [bind]. unfold set_obj. cbn [objs mem]. fold os1.
      rewrite <- Eps at 1. rewrite <- map_rev. rewrite E2. reflexivity.
    + rewrite put_obj_length, L2. unfold os1. rewrite put_obj_length. exact El.
    + split; [intros _; split; [apply put_obj_same; exact Lr|]|lia]. split.
      * intros x c b I Hx. unfold object. rewrite put_obj_other by (intros ->; contradiction). apply (Lo1 x c b); [apply in_rev; rewrite rev_involutive; exact I|]. unfold object. rewrite G1 by exact I. exact Hx.
      * intros x b I Hx. rewrite put_obj_other by (intros ->; contradiction). apply (Lo2 x b); [apply in_rev; rewrite rev_involutive; exact I|]. unfold object. rewrite G1 by exact I. exact Hx.
    + intros x Nx Ni. rewrite put_obj_other by exact Nx. rewrite G2 by (intros I; apply (Ni eq_refl); apply in_rev; exact I). apply put_obj_other. exact Nx.
    + exact F2.
    + intros x. rewrite dying_rev. rewrite (dying_same os os1); [split; [tauto|intros [_ ?]; assumption]|]. intros q Iq. apply G1. rewrite <- Eps. apply in_map. exact Iq.
  - exists (put_obj os l (Some (S ml, PyList items))), h, []. split; [unfold decref; apply decref_more; exact Hl|]. split; [apply put_obj_length|]. split; [|split; [|split]].
    + split; [lia|]. intros _. split; [cbn; apply (object_put_same os l _ _ (S ml, PyList items) Hl)|]. apply Forall_forall. intros x Ix. apply put_obj_other. intros ->. contradiction.
    + intros x Nx _. apply put_obj_other. exact Nx.
    + apply freed_nil.
    + intros x. split; [intros []|intros [? _]; discriminate].
Qed.

(** ** The method *)
Lemma dup_fresh k h n e : own h k n e -> NoDup (e_foot e) ->
  exists h' d, sr_dup k h (e_addr e) false = Ok (h', e_addr d) /\ own h' k None d /\ e_val d = e_val e /\ NoDup (e_foot d) /\
    (forall x, In x (e_foot d) <-> length h <= x < length h') /\ length h <= length h' /\ (forall x, x < length h -> nth_error h' x = nth_error h x).
Proof.
  intros O N. destruct (dup_ok (S (length h)) k h e n [] false O) as (h' & r & l' & E & [Lx X] & Ol & V & [F1 F2]); [discriminate| |].
  { enough (length (e_foot e) <= length h) by lia. apply NoDup_bound; [exact N|]. intros x. eapply own_valid; exact O. }
  destruct l' as [|d [|? ?]]; try discriminate V. injection V as V. inversion Ol as [|? m ? ? Od Ol']; subst. inversion Ol'; subst.
  cbn [foot map concat] in F1, F2. rewrite app_nil_r in F1, F2.
  exists h', d. split; [exact E|]. split; [exact Od|]. split; [exact V|]. split; [exact F1|]. split; [exact F2|]. split; [exact Lx|exact X].
Qed.
Lemma koops_open h n e : own h KKoopsStack n e -> exists scal ps ss fs p es arr sarr fa raw,
  e_val e = Val scal ss sarr [map e_val es] /\ e_foot e = e_addr e :: fs ++ fa ++ foot es /\
  nth_error h (e_addr e) = Some (CObj KKoopsStack scal ps [p] arr raw n) /\ length ps = length (str_ops KKoopsStack) /\
  own_strs h ps ss fs /\ own_arr h arr sarr fa /\ own_list h KKoopsFrame p es.
Proof.
  intros O. destruct (own_inv _ _ _ _ O) as (scal & ps & ss & fs & ks & vss & fk & arr & sarr & fa & raw & Ev & Ef & Hc & Lp & Os & Oa & Ok').
  cbn [kid_ops] in Ok'. inversion Ok' as [|? ? ? p ps' l vss' f' Ol _ On]; subst. inversion On; subst. rewrite app_nil_r in Ef.
  exists scal, ps, ss, fs, p, l, arr, sarr, fa, raw. tauto.
Qed.
Lemma own_koops_stack h a scal ps ss fs p es arr sarr fa raw n :
  nth_error h a = Some (CObj KKoopsStack scal ps [p] arr raw n) -> length ps = length (str_ops KKoopsStack) ->
  own_strs h ps ss fs -> own_arr h arr sarr fa -> own_list h KKoopsFrame p es ->
  own h KKoopsStack n (a, Val scal ss sarr [map e_val es], a :: fs ++ fa ++ foot es).
Proof.
  intros Hc Lp Os Oa Ol. replace (foot es) with (foot es ++ []) by apply app_nil_r.
  eapply own_obj; [exact Hc|exact Lp|exact Os|exact Oa|]. cbn [kid_ops]. econstructor; [exact Ol|discriminate|constructor].
Qed.
Lemma shared_item : forall (items : list ref) es i f i' f' x, NoDup (foot es) -> In (i, f) (combine items es) -> In (i', f') (combine items es) ->
  In x (e_foot f) -> In x (e_foot f') -> i = i' /\ f = f'.
Proof.
  induction items as [|j items IH]; intros es i f i' f' x N I I' H H'; [destruct I|]. destruct es as [|e es]; [destruct I|]. cbn [combine] in I, I'. rewrite foot_cons in N.
  apply NoDup_app_inv in N as (_ & N & D).
  assert (T : forall j g, In (j, g) (combine items es) -> In x (e_foot g) -> In x (foot es)) by (intros j' g Ig Hg; eapply in_foot; [eapply in_combine_r; exact Ig|exact Hg]).
  destruct I as [I|I], I' as [I'|I'].
  - injection I as <- <-. injection I' as <- <-. split; reflexivity.
  - injection I as <- <-. exfalso. apply (D x H). eapply T; eassumption.
  - injection I' as <- <-. exfalso. apply (D x H'). eapply T; eassumption.
  - eapply IH; eassumption.
Qed.
Lemma filter_foot (p : entry -> bool) es : NoDup (foot es) -> NoDup (foot (filter p es)) /\ (forall x, In x (foot (filter p es)) -> In x (foot es)).
Proof.
  induction es as [|e es IH]; intros N; [split; [exact N|tauto]|]. rewrite foot_cons in N. apply NoDup_app_inv in N as (Ne & N & D). destruct (IH N) as [N1 S1]. cbn [filter].
  destruct (p e).
  - rewrite !foot_cons. split; [apply NoDup_app2; [exact Ne|exact N1|intros x I1 I2; apply (D x I1), S1, I2]|]. intros x. rewrite !in_app_iff. intros [?|?]; [tauto|right; apply S1; assumption].
  - split; [exact N1|]. intros x I. rewrite foot_cons, in_app_iff. right. apply S1. exact I.
Qed.
Lemma dying_found os items es x : In x (dying os (combine items es)) -> exists i f b, In (i, f) (combine items es) /\ object os i 1 b /\ In x (e_foot f).
Proof.
  unfold dying. intros I. apply in_concat in I as (c & Ic & I). apply in_map_iff in Ic as ([i f] & <- & Ip). cbn [fst snd] in I.
  destruct (nth_error os i) as [[[[|[|?]] b]|]|] eqn:E; try destruct I. exists i, f, b. split; [exact Ip|]. split; [exact E|exact I].
Qed.
Lemma in_foot_inv x es : In x (foot es) -> exists e : entry, In e es /\ In x (e_foot e).
Proof. unfold foot. intros I. apply in_concat in I as (c & Ic & I). apply in_map_iff in Ic as (e & <- & Ie). exists e. split; assumption. Qed.

Lemma koops_normalize_py os h r l m ml items n e es s : py_koops os h r l m ml items n e es s ->
  exists os' h' l' items' e' es' gs, koops_normalize (St os h) r = Ok (St os' h', Value tt) /\ normalized_koops (ks_frames s) gs /\
    e_addr e' = e_addr e /\ numbers (e_val e') = numbers (e_val e) /\ py_koops os' h' r l' m 1 items' n e' es' (with_frames s gs) /\
    own h' KKoopsStack n e' /\ new_list (length os) os' l' KKoopsFrame items' es' /\ (forall x, In x (foot es') -> length h <= x) /\
    gave_up os os' l ml items /\
    (forall x, x < length os -> x <> r -> x <> l -> (ml = 1 -> ~ In x items) -> nth_error os' x = nth_error os x) /\
    (forall i f, In (i, f) (combine items es) -> (ml = 1 -> forall b, ~ object os i 1 b) -> exists k, own h' KKoopsFrame k f) /\
    (forall x, x < length h -> ~ In x (link_cells e es) -> (ml = 1 -> ~ In x (dying os (combine items es))) -> nth_error h' x = nth_error h x) /\
    (forall x, ml = 1 -> In x (dying os (combine items es)) -> freed h' x) /\
    (forall x, length h <= x < length h' -> In x (foot es') \/ freed h' x).
Proof.
  intros (Hr & Hm & Hl & Hml & F & U & N & T). destruct m as [|m]; [lia|]. destruct ml as [|ml]; [lia|].
  assert (Nrl : r <> l) by (intros ->; destruct (object_fun _ _ _ _ _ _ Hr Hl) as [_ E]; discriminate E).
  assert (Nri : ~ In r items).
  { intros I. destruct (Forall2_in _ _ _ F _ I) as (q & _ & [k Hq]). destruct (object_fun _ _ _ _ _ _ Hr Hq) as [_ E]. discriminate E. }
  assert (A : alive os r (PyStruct KKoopsStack (e_addr e) [Some l])) by (exists m; exact Hr). assert (P : py_list os l KKoopsFrame items es) by (split; [exists ml; exact Hl|exact F]).
  destruct (frames_prepare_again _ _ _ _ _ _ _ _ _ _ _ A P U N) as (h1 & E1 & U1).
  destruct (frames_prepare_ok _ _ _ _ _ _ _ _ _ _ _ A P U N) as (h1' & E1' & O1 & S1 & L1). rewrite E1 in E1'. injection E1' as <-.
  assert (Val0 : forall x, In x (link_cells e es) -> x < length h) by (intros x Ix; rewrite <- L1; eapply own_valid; [exact O1|]; eapply unlinked_cells; [exact U|exact Ix]).
  assert (Val1 : forall x, In x (e_foot e) -> x < length h1) by (intros x Ix; eapply own_valid; [exact O1|exact Ix]).
  destruct U1 as (scal & ps & p1 & ss & fs & arr & sarr & fa & raw & _ & Hc1 & Lp1 & Os1 & Oa1 & Ev & Ef & Fo1 & _).
  pose proof N as N0. unfold separate in N0. rewrite Ef in N0. inversion N0 as [|? ? Na N1]; subst. apply NoDup_app_inv in N1 as (Nfs & N1 & D1). apply NoDup_app_inv in N1 as (Nfa & Nes & D2). rewrite !in_app_iff in Na.
  (* the copy *)
  destruct (dup_fresh KKoopsStack h1 n e O1 N) as (h2 & d & E2 & Od & Vd & Nd & Fd & L2 & X2).
  destruct (koops_open _ _ _ Od) as (scald & psd & ssd & fsd & pd & ds & arrd & sarrd & fad & rawd & Evd & Efd & Hcd & Lpd & Osd & Oad & Old).
  pose proof Nd as Nd0. rewrite Efd in Nd0. inversion Nd0 as [|? ? Nad Nd1]; subst. apply NoDup_app_inv in Nd1 as (Nfsd & Nd1 & Dd1). apply NoDup_app_inv in Nd1 as (Nfad & Nds & Dd2). rewrite !in_app_iff in Nad.
  destruct (koops_normalized h2 (e_addr d) (fun p => CObj KKoopsStack scald psd (p :: []) arrd rawd None) ds) as (h3 & E3 & Td & S3 & L3 & Fr3).
  { exists pd, KKoopsStack, scald, psd, [], arrd, rawd, None. split; [reflexivity|]. split; [reflexivity|]. split; [exact Hcd|]. split; [exact Old|]. constructor; [tauto|exact Nds]. }
  set (es' := kept_entries (map cut_entry ds)) in *.
  destruct Td as (pd' & kd & scd & std & kdd & ard & rad & nxd & Erest & _ & Hcd3 & Old3 & Nd3). clear Erest kd scd std kdd ard rad nxd.
  assert (Sub : forall x, In x (foot es') -> In x (foot ds)).
  { intros x Ix. unfold es', kept_entries in Ix. apply filter_foot in Ix; [rewrite cut_foot in Ix; exact Ix|rewrite cut_foot; exact Nds]. }
  assert (New : forall x, In x (e_addr d :: fsd ++ fad ++ foot ds) -> length h1 <= x) by (intros x Ix; rewrite <- Efd in Ix; apply Fd in Ix; lia).
  assert (X3 : forall x, x < length h1 -> nth_error h3 x = nth_error h1 x).
  { intros x Hx. rewrite S3; [apply X2; exact Hx|]. intros I. enough (length h1 <= x) by lia. apply New. destruct I as [I|I]; [left; exact I|]. right. rewrite !in_app_iff. tauto. }
  (* the list *)
  assert (Fo3 : Forall (fun f => exists k, own h3 KKoopsFrame k f) es).
  { rewrite Forall_forall in *. intros f If. destruct (Fo1 f If) as [k Of]. exists k. eapply own_ext; [exact Of|exact X3]. }
  destruct (list_given_up os h3 l KKoopsFrame (S ml) items es) as (os4 & h4 & fr & E4 & Lo4 & Gu & G4 & Fr4 & Ifr); try assumption; try (split; reflexivity).
  destruct Fr4 as (L4 & S4 & Fr4).
  assert (Dy : forall x, In x fr -> In x (foot es)).
  { intros x Ix. apply Ifr in Ix as [_ Ix]. apply dying_in in Ix. erewrite combine_snd in Ix by exact F. exact Ix. }
  assert (Lowf : forall x, In x (foot es) -> x < length h1) by (intros x Ix; apply Val1; rewrite Ef; right; rewrite !in_app_iff; tauto).
  assert (Lowc : e_addr e < length h1) by (apply Val1; rewrite Ef; left; reflexivity).
  (* moving the frames *)
  assert (Hcd4 : nth_error h4 (e_addr d) = Some (CObj KKoopsStack scald psd [pd'] arrd rawd None)).
  { rewrite S4; [exact Hcd3|]. intros I. apply Dy, Lowf in I. specialize (New (e_addr d)). cbn [In] in New. lia. }
  assert (Hc4 : nth_error h4 (e_addr e) = Some (CObj KKoopsStack scal ps [p1] arr raw n)).
  { rewrite S4; [rewrite X3 by exact Lowc; exact Hc1|]. intros I. apply Dy in I. tauto. }
  destruct (set_frames_ok _ _ _ _ _ _ _ _ _ _ pd' Hc4) as (h5 & E5 & Hc5 & S5 & L5).
  assert (Nde : e_addr d <> e_addr e). { intros E. specialize (New (e_addr d)). cbn [In] in New. lia. }
  assert (Hcd5 : nth_error h5 (e_addr d) = Some (CObj KKoopsStack scald psd [pd'] arrd rawd None)).
  { rewrite S5; [exact Hcd4|]. intros [E|[]]. congruence. }
  destruct (set_frames_ok _ _ _ _ _ _ _ _ _ _ None Hcd5) as (h6 & E6 & Hcd6 & S6 & L6).
  assert (X6 : forall x, length h1 <= x -> x <> e_addr d -> nth_error h6 x = nth_error h3 x).
  { intros x Hx Nx. rewrite S6 by (intros [E|[]]; congruence). rewrite S5 by (intros [E|[]]; subst x; lia). apply S4. intros I. apply Dy, Lowf in I. lia. }
  assert (Od6 : own h6 KKoopsStack None (e_addr d, Val scald ssd sarrd [map e_val []], e_addr d :: fsd ++ fad ++ foot [])).
  { assert (Sm : forall g, incl g (fsd ++ fad) -> same_on g h2 h6).
    { intros g Hg x Ix. apply Hg in Ix. rewrite X6; [|apply New; right; rewrite !in_app_iff in *; tauto|intros ->; rewrite in_app_iff in Ix; tauto].
      apply S3. rewrite in_app_iff in Ix. intros [<-|I]; [tauto|]. destruct Ix as [Ix|Ix]; [apply (Dd1 x Ix); rewrite in_app_iff; tauto|apply (Dd2 x Ix I)]. }
    eapply own_koops_stack; [exact Hcd6|exact Lpd| | |constructor].
    - eapply own_strs_same; [exact Osd|]. apply Sm. intros x Ix. rewrite in_app_iff. tauto.
    - eapply own_arr_same; [exact Oad|]. apply Sm. intros x Ix. rewrite in_app_iff. tauto. }
  cbn [foot map concat] in Od6. rewrite app_nil_r in Od6.
  destruct (sr_free_ok _ _ _ _ Od6) as (h7 & E7 & L7 & S7 & Fr7).
  { unfold separate. cbn [e_foot snd]. constructor; [rewrite in_app_iff; tauto|]. apply NoDup_app2; [exact Nfsd|exact Nfad|]. intros x I1 I2. apply (Dd1 x I1). rewrite in_app_iff. tauto. }
  cbn [e_addr e_foot fst snd] in E7, S7, Fr7.
  assert (Xl : forall x, x < length h1 -> x <> e_addr e -> ~ In x fr -> nth_error h7 x = nth_error h1 x).
  { intros x Hx Nx Nf. rewrite S7; [|intros I; enough (length h1 <= x) by lia; apply New; destruct I as [I|I]; [left; exact I|right; rewrite !in_app_iff in *; tauto]].
    rewrite S6 by (intros [E|[]]; subst x; specialize (New (e_addr d)); cbn [In] in New; lia). rewrite S5 by (intros [E|[]]; congruence). rewrite S4 by exact Nf. apply X3. exact Hx. }
  assert (Hc7 : nth_error h7 (e_addr e) = Some (CObj KKoopsStack scal ps [pd'] arr raw n)).
  { rewrite S7; [|intros I; enough (length h1 <= e_addr e) by lia; apply New; destruct I as [I|I]; [left; exact I|right; rewrite !in_app_iff in *; tauto]].
    rewrite S6 by (intros [E|[]]; congruence). exact Hc5. }
  assert (Xh : forall x, In x (foot ds) -> nth_error h7 x = nth_error h3 x).
  { intros x Ix. rewrite S7; [apply X6; [apply New; right; rewrite !in_app_iff; tauto|intros ->; tauto]|].
    intros [<-|I]; [tauto|]. rewrite in_app_iff in I. destruct I as [I|I]; [apply (Dd1 x I); rewrite in_app_iff; tauto|apply (Dd2 x I Ix)]. }
  assert (Ol7 : own_list h7 KKoopsFrame pd' es').
  { eapply own_list_same; [exact Old3|]. intros x Ix. apply Xh, Sub, Ix. }
  assert (Nes' : NoDup (foot es')) by (inversion Nd3; assumption).
  destruct (wrapped_list KKoopsFrame os4 h7 pd' es' Ol7 Nes') as (os5 & l' & items' & E8 & [G8a G8] & (B8 & Hl8 & Bi8 & Fi8) & _).
  assert (Lr : r < length os) by (eapply object_lt; exact Hr).
  assert (Hr5 : object os5 r (S m) (PyStruct KKoopsStack (e_addr e) [Some l])).
  { unfold object. rewrite G8 by lia. rewrite G4; [exact Hr|exact Nrl|intros _; exact Nri]. }
  set (os6 := put_obj os5 r (Some (S m, PyStruct KKoopsStack (e_addr e) [Some l']))).
  set (e' := (e_addr e, Val scal ss sarr [map e_val es'], e_addr e :: fs ++ fa ++ foot es') : entry).
  destruct (koops_normalize_ok (ks_frames s)) as (ms & gs & Cut & En & Kp).
  assert (Hl6 : object os6 l' 1 (PyList items')) by (apply object_put; [exact Hl8|lia]).
  assert (Fi6 : Forall2 (fun r e => object os6 r 2 (PyStruct KKoopsFrame (e_addr e) [])) items' es').
  { clear - Fi8 Bi8 Lr Lo4. induction Fi8; [constructor|]. inversion Bi8; subst. constructor; [apply object_put; [assumption|lia]|apply IHFi8; assumption]. }
  assert (Os7 : own_strs h7 ps ss fs).
  { eapply own_strs_same; [exact Os1|]. intros x Ix. apply Xl; [apply Val1; rewrite Ef; right; rewrite !in_app_iff; tauto|intros ->; tauto|].
    intros I. apply (D1 x Ix). rewrite in_app_iff. right. apply Dy, I. }
  assert (Oa7 : own_arr h7 arr sarr fa).
  { eapply own_arr_same; [exact Oa1|]. intros x Ix. apply Xl; [apply Val1; rewrite Ef; right; rewrite !in_app_iff; tauto|intros ->; tauto|]. intros I. apply (D2 x Ix), Dy, I. }
  assert (O7 : own h7 KKoopsStack n e') by (apply (own_koops_stack h7 (e_addr e) scal ps ss fs pd' es' arr sarr fa raw n); assumption).
  exists os6, h7, l', items', e', es', gs.
  split; [|split; [exists ms; split; assumption|split; [reflexivity|split; [rewrite Ev; reflexivity|split; [|split; [exact O7|split; [|split; [|split; [|split; [|split; [|split; [|split]]]]]]]]]]]].
  - unfold koops_normalize. rewrite E1. cbn [bind negb]. rewrite (obj_ok (St os h1) r _ _ Hr). cbn [bind mem]. rewrite E2. cbn [bind]. rewrite E3. cbn [bind]. unfold with_mem. cbn [objs]. rewrite E4. cbn [bind mem].
    unfold thread_frames at 1. rewrite (get_live _ _ _ Hcd4) by discriminate. cbn [bind]. rewrite E5. cbn [bind]. rewrite E6. cbn [bind]. rewrite E7. cbn [bind objs].
    unfold frames_to_python. cbn [mem]. unfold thread_frames. rewrite (get_live _ _ _ Hc7) by discriminate. cbn [bind]. rewrite E8. cbn [bind]. rewrite (obj_ok (St os5 h7) r _ _ Hr5). cbn [bind]. reflexivity.
  - split; [apply (object_put_same os5 r _ _ (S m, PyStruct KKoopsStack (e_addr e) [Some l']) Hr5)|]. split; [exact Hm|]. split; [exact Hl6|]. split; [lia|].
    split; [eapply Forall2_weaken; [|exact Fi6]; intros x y Hx; exists 1; exact Hx|]. split; [|split].
    + exists scal, ps, pd', ss, fs, arr, sarr, fa, raw. split; [reflexivity|]. split; [exact Hc7|]. split; [exact Lp1|]. split; [exact Os7|]. split; [exact Oa7|]. split; [reflexivity|]. split; [reflexivity|].
      split; [|intros En'; rewrite En' in Ol7; inversion Ol7; reflexivity]. apply Forall_forall. intros f If. apply seg_list in Ol7. eapply entry_own; [exact Ol7|exact If].
    + unfold separate, e'. cbn [e_foot snd]. assert (Nw : forall x, In x (foot es') -> length h1 <= x) by (intros x Ix; apply New; right; rewrite !in_app_iff; right; right; apply Sub, Ix).
      assert (Ol : forall x, In x (e_addr e :: fs ++ fa) -> x < length h1) by (intros x Ix; apply Val1; rewrite Ef; destruct Ix as [Ix|Ix]; [left; exact Ix|right; rewrite !in_app_iff in *; tauto]).
      constructor; [intros I; apply in_app_iff in I as [I|I]; [tauto|]; apply in_app_iff in I as [I|I]; [tauto|apply Nw in I; lia]|].
      apply NoDup_app2; [exact Nfs| |].
      * apply NoDup_app2; [exact Nfa|exact Nes'|]. intros x I1 I2. apply Nw in I2. assert (x < length h1) by (apply Ol; right; apply in_app_iff; tauto). lia.
      * intros x I1 I2. apply in_app_iff in I2 as [I2|I2]; [apply (D1 x I1); apply in_app_iff; tauto|]. apply Nw in I2. assert (x < length h1) by (apply Ol; right; apply in_app_iff; tauto). lia.
    + destruct T as (_ & T1 & T2 & T3 & T4 & vs & T5 & T6). rewrite Ev in T1, T2, T3, T4, T5. rewrite Vd, Ev in Evd. injection Evd as Ea Eb Ec Ed. injection T5 as <-.
      split; [reflexivity|]. split; [exact T1|]. split; [exact T2|]. split; [exact T3|]. split; [exact T4|]. exists (map e_val es'). split; [reflexivity|].
      cbn [with_frames ks_frames]. apply (kept_are_frames ds (ks_frames s)); [rewrite <- Ed; exact T6|exact En].
  - split; [lia|]. split; [exact Hl6|]. split; [|exact Fi6]. eapply Forall_impl; [|exact Bi8]. intros x Hx. cbn beta in Hx. lia.
  - intros x Ix. rewrite <- L1. apply New. right. rewrite !in_app_iff. right. right. apply Sub, Ix.
  - assert (Gi : forall x, x < length os -> x <> r -> nth_error os6 x = nth_error os4 x) by (intros x Hx Nx; unfold os6; rewrite put_obj_other by exact Nx; apply G8; lia).
    assert (Li : forall x, In x items -> x < length os /\ x <> r).
    { intros x Ix. destruct (Forall2_in _ _ _ F _ Ix) as (q & _ & [k Hq]). split; [eapply object_lt; exact Hq|intros ->; contradiction]. }
    assert (Ll : l < length os) by (eapply object_lt; exact Hl).
    destruct Gu as [Gu1 Gu2]. split.
    + intros Em. destruct (Gu1 Em) as [Ga [Gb Gc]]. split; [rewrite Gi by (assumption || congruence); exact Ga|]. split.
      * intros x c b Ix Hx. unfold object. destruct (Li x Ix). rewrite Gi by assumption. apply (Gb x c b Ix Hx).
      * intros x b Ix Hx. destruct (Li x Ix). rewrite Gi by assumption. apply (Gc x b Ix Hx).
    + intros Em. destruct (Gu2 Em) as [Ga Gb]. split; [unfold object; rewrite Gi by (assumption || congruence); exact Ga|]. rewrite Forall_forall in *. intros x Ix. destruct (Li x Ix). rewrite Gi by assumption. apply Gb, Ix.
  - intros x Hx N1' N2' N3'. unfold os6. rewrite put_obj_other by exact N1'. rewrite G8 by lia. apply G4; assumption.
  - intros i f If Hi. rewrite Forall_forall in Fo1. destruct (Fo1 f) as [k Of]; [eapply in_combine_r; exact If|]. exists k. eapply own_same; [exact Of|].
    assert (Ff : forall x, In x (e_foot f) -> In x (foot es)) by (intros x Ix; eapply in_foot; [eapply in_combine_r; exact If|exact Ix]).
    intros x Ix. apply Xl; [apply Lowf, Ff, Ix|intros ->; apply Ff in Ix; tauto|]. intros I. apply Ifr in I as [Em I]. apply dying_found in I as (i' & f' & b & If' & Hb & Ix').
    destruct (shared_item items es i f i' f' x Nes If If' Ix Ix') as [-> ->]. apply (Hi Em b Hb).
  - intros x Hx Nl' Nd'. rewrite <- L1 in Hx. rewrite Xl; [apply S1; exact Nl'|exact Hx|intros ->; apply Nl'; left; reflexivity|]. intros I. apply Ifr in I as [Em I]. apply (Nd' Em I).
  - intros x Em Ix. assert (I : In x fr) by (apply Ifr; split; assumption). specialize (Fr4 x I). unfold freed in *. assert (Hx : x < length h1) by (apply Lowf, Dy, I).
    rewrite S7; [|intros I'; enough (length h1 <= x) by lia; apply New; destruct I' as [I'|I']; [left; exact I'|right; rewrite !in_app_iff in *; tauto]].
    rewrite S6 by (intros [E|[]]; subst x; specialize (New (e_addr d)); cbn [In] in New; lia). rewrite S5 by (intros [E|[]]; subst x; apply Dy in I; tauto). exact Fr4.
  - intros x [Hx1 Hx2]. assert (Ix : In x (e_foot d)) by (apply Fd; lia). rewrite Efd in Ix.
    destruct Ix as [Ix|Ix]; [right; apply Fr7; left; exact Ix|]. rewrite app_assoc, in_app_iff in Ix. destruct Ix as [Ix|Ix]; [right; apply Fr7; right; exact Ix|].
    pose proof Ix as Ix0. rewrite <- cut_foot in Ix. apply in_foot_inv in Ix as (g & Ig & Ix). destruct (listed (e_val g)) eqn:Eg.
    + right. unfold freed. rewrite Xh by exact Ix0. eapply Fr3; eassumption.
    + left. eapply in_foot; [|exact Ix]. unfold es', kept_entries. apply filter_In. split; [exact Ig|]. rewrite Eg. reflexivity.
Qed.
