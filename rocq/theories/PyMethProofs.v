(** * Proofs for PyMethModel.v: normalizing a kernel oops in memory. *)
From Verif Require Import Base Types UtilsModel NormTables NormModel NormSpec NormProofs2 HeapModel HeapSpec HeapProofs HeapProofs2 HeapProofs3 HeapListModel PyModel PyMethModel.
Open Scope nat_scope.

(** ** Cutting names *)
Definition cut (s : str) : str := fst (strchrnul s ".").
Definition cut_value (v : value) : value :=
  match v with
  | Val scal (Some s :: ss) arr ks => Val scal (Some (cut s) :: ss) arr ks
  | _ => v
  end.
Definition cut_entry (e : entry) : entry := (e_addr e, cut_value (e_val e), e_foot e).
Lemma cut_foot es : foot (map cut_entry es) = foot es.
Proof. unfold foot. rewrite map_map. reflexivity. Qed.
Lemma span_nil_r (f : ascii -> bool) s b : span f s = (b, []) -> b = s.
Proof.
  revert b. induction s as [|c s IH]; cbn [span]; intros b H; [congruence|]. destruct (f c); [|discriminate]. destruct (span f s) as [x y] eqn:E. injection H as <- ->. f_equal. apply IH. reflexivity.
Qed.
Lemma koops_frame_open h n e : own h KKoopsFrame n e ->
  exists a fn md r rs raw scal ss fs arr sarr fa, nth_error h a = Some (CObj KKoopsFrame scal (fn :: md :: r) [] arr raw n) /\
    e = (a, Val scal ss sarr [], a :: fs ++ fa) /\ own_strs h (fn :: md :: r) ss fs /\ own_arr h arr sarr fa /\ length (fn :: md :: r) = 5 /\ rs = r.
Proof.
  intros O. inversion O as [k a scal ps ss fs ks vss fk arr sarr fa raw n' Hc Lp Os Oa Ok' E1 E2 E3]; subst. cbn [kid_ops] in Ok'. inversion Ok'; subst.
  destruct ps as [|fn [|md r]]; try discriminate Lp. exists a, fn, md, r, r, raw, scal, ss, fs, arr, sarr, fa. rewrite app_nil_r.
  repeat (split; [assumption || reflexivity|]). reflexivity.
Qed.
Lemma own_koops h a fn md r raw scal ss fs arr sarr fa n : nth_error h a = Some (CObj KKoopsFrame scal (fn :: md :: r) [] arr raw n) ->
  own_strs h (fn :: md :: r) ss fs -> own_arr h arr sarr fa -> length (fn :: md :: r) = 5 -> own h KKoopsFrame n (a, Val scal ss sarr [], a :: fs ++ fa).
Proof.
  intros Hc Os Oa Lp. replace (fs ++ fa) with (fs ++ fa ++ []) by (rewrite app_nil_r; reflexivity).
  eapply own_obj; [exact Hc|exact Lp|exact Os|exact Oa|constructor].
Qed.
Lemma cut_one h n e : own h KKoopsFrame n e -> NoDup (e_foot e) ->
  exists fn md h', koops_names h (e_addr e) = Ok (fn, md) /\
    match fn with
    | None => Ok h
    | Some f => do s <- get_str h f; match strchrnul s "." with (_, []) => Ok h | (before, _) => set_cell h f (CStr before) end
    end = Ok h' /\ own h' KKoopsFrame n (cut_entry e) /\ same_outside (e_foot e) h h' /\ length h' = length h.
Proof.
  intros O N. destruct (koops_frame_open _ _ _ O) as (a & fn & md & r & _ & raw & scal & ss & fs & arr & sarr & fa & Hc & Ee & Os & Oa & Lp & _). subst e. cbn [e_addr e_foot e_val fst snd] in *.
  exists fn, md. unfold koops_names. rewrite (get_live _ _ _ Hc) by discriminate. cbn [bind].
  inversion Os as [|ps ss' f Os'|f s ps ss' fs' Hs Os']; subst.
  - exists h. split; [reflexivity|]. split; [reflexivity|]. split; [exact O|]. split; [intros x _; reflexivity|reflexivity].
  - unfold get_str. rewrite (get_live _ _ _ Hs) by discriminate. cbn [bind]. unfold cut_entry. cbn [e_addr e_foot e_val fst snd cut_value]. unfold cut.
    destruct (strchrnul s ".") as [before [|c rest]] eqn:Ec.
    + apply span_nil_r in Ec. subst before. exists h. split; [reflexivity|]. split; [reflexivity|]. split; [exact O|]. split; [intros x _; reflexivity|reflexivity].
    + rewrite (set_live _ _ _ _ Hs) by discriminate. eexists. split; [reflexivity|]. split; [reflexivity|].
      assert (Lf : f < length h) by (apply nth_error_Some; congruence).
      inversion N as [|? ? Na N1]; subst. cbn [app] in N1, Na. inversion N1 as [|? ? Nf N2]; subst. cbn [In] in Na. rewrite in_app_iff in Na, Nf.
      assert (Sm : forall g, ~ In f g -> same_on g h (put h f (CStr before))) by (intros g Hg x Ix; apply put_other; intros ->; contradiction).
      split; [|split; [|apply put_length]].
      * cbn [fst]. eapply own_koops; [rewrite put_other by (intros E; apply Na; left; congruence); exact Hc| | |exact Lp].
        -- constructor; [apply put_same; exact Lf|]. eapply own_strs_same; [exact Os'|]. apply Sm. tauto.
        -- eapply own_arr_same; [exact Oa|]. apply Sm. tauto.
      * intros x Hx. apply put_other. intros ->. apply Hx. cbn [In app]. tauto.
Qed.
Lemma cut_names_ok : forall es fuel h p, own_list h KKoopsFrame p es -> NoDup (foot es) -> length es <= fuel ->
  exists h', cut_names fuel h p = Ok h' /\ own_list h' KKoopsFrame p (map cut_entry es) /\ same_outside (foot es) h h' /\ length h' = length h.
Proof.
  induction es as [|e es IH]; intros fuel h p O N Lf; inversion O as [|? n ? ? Oe Ol]; subst.
  - exists h. split; [destruct fuel; reflexivity|]. split; [constructor|]. split; [intros x _; reflexivity|reflexivity].
  - destruct fuel as [|fuel]; [cbn in Lf; lia|]. rewrite foot_cons in N. apply NoDup_app_inv in N as (Ne & N & D).
    destruct (cut_one h n e Oe Ne) as (fn & md & h1 & E0 & E1 & O1 & S1 & L1). cbn [cut_names]. rewrite E0. cbn [bind]. rewrite E1. cbn [bind].
    pose proof (own_next _ _ _ _ O1) as En. cbn [cut_entry e_addr fst] in En. change (fst (fst e)) with (e_addr e) in En. rewrite En. cbn [bind].
    destruct (IH fuel h1 n) as (h2 & E2 & O2 & S2 & L2); [|exact N|cbn in Lf; lia|].
    { eapply own_list_same; [exact Ol|]. intros x Ix. apply S1. intros I. exact (D x I Ix). }
    exists h2. split; [exact E2|]. split.
    { cbn [map]. change (e_addr e) with (e_addr (cut_entry e)). econstructor; [|exact O2]. eapply own_same; [exact O1|]. intros x Ix. apply S2. exact (D x Ix). }
    split; [|lia]. intros x Hx. rewrite foot_cons, in_app_iff in Hx. rewrite S2 by tauto. apply S1. tauto.
Qed.

(** ** Removing frames *)
Definition listed (v : value) : bool :=
  match v with
  | Val _ (name :: None :: _) _ _ => match bsearch name koops_blacklist with Ok b => b | _ => false end
  | _ => false
  end.
Lemma bsearch_ok name : exists b, bsearch name koops_blacklist = Ok b.
Proof. destruct (bsearch_correct koops_blacklist name blacklist_increasing) as (b & E & _). exists b. exact E. Qed.
Lemma names_listed h n e : own h KKoopsFrame n e -> exists fn md name b, koops_names h (e_addr e) = Ok (fn, md) /\ opt_str h fn = Ok name /\
  bsearch name koops_blacklist = Ok b /\ listed (e_val e) = match md with None => b | Some _ => false end.
Proof.
  intros O. destruct (koops_frame_open _ _ _ O) as (a & fn & md & r & _ & raw & scal & ss & fs & arr & sarr & fa & Hc & Ee & Os & Oa & Lp & _). subst e. cbn [e_addr e_foot e_val fst snd] in *.
  unfold koops_names. rewrite (get_live _ _ _ Hc) by discriminate. cbn [bind].
  assert (K : exists name md' ss', ss = name :: md' :: ss' /\ opt_str h fn = Ok name /\ (md = None <-> md' = None)).
  { inversion Os as [|ps ss' f Os'|f s ps ss' fs' Hs Os']; subst; inversion Os' as [|ps2 ss2 f2 Os2|f2 s2 ps2 ss2 fs2 Hs2 Os2]; subst; eexists _, _, _; (split; [reflexivity|]);
      unfold opt_str, get_str; try rewrite (get_live _ _ _ Hs) by discriminate; (split; [reflexivity|]); split; congruence. }
  destruct K as (name & md' & ss' & -> & E1 & E2). destruct (bsearch_ok name) as (b & Eb). exists fn, md, name, b. repeat (split; [assumption || reflexivity|]).
  cbn [listed]. destruct md as [m|], md' as [m'|]; try reflexivity; [destruct E2 as [_ E2]; discriminate (E2 eq_refl)|destruct E2 as [E2 _]; discriminate (E2 eq_refl)|rewrite Eb; reflexivity].
Qed.
Definition kept_entries (es : list entry) : list entry := filter (fun e => negb (listed (e_val e))) es.
Definition head_addr (es : list entry) : option addr := option_map e_addr (hd_error es).
Lemma own_list_head h k p es : own_list h k p es -> p = head_addr es.
Proof. intros O. inversion O; reflexivity. Qed.
Lemma thread_tail h t rest fk done es : thread_is h t rest fk (done ++ es) -> own_list h fk (head_addr es) es /\ NoDup (t :: foot (done ++ es)).
Proof.
  intros (p & k & scal & strs & kids & arr & raw & next & _ & _ & _ & Ol & N). split; [|exact N]. apply seg_list, seg_app in Ol as (m & _ & Ol). apply seg_list in Ol.
  rewrite (own_list_head _ _ _ _ Ol) in Ol at 1. exact Ol.
Qed.
Lemma remove_listed_ok t rest : forall es done fuel h, thread_is h t rest KKoopsFrame (done ++ es) -> length es <= fuel ->
  exists h', remove_listed fuel h t (head_addr es) = Ok h' /\ thread_is h' t rest KKoopsFrame (done ++ kept_entries es) /\
    same_outside (t :: foot (done ++ es)) h h' /\ length h' = length h /\
    (forall e x, In e es -> listed (e_val e) = true -> In x (e_foot e) -> freed h' x).
Proof.
  induction es as [|e es IH]; intros done fuel h T Lf.
  - exists h. split; [destruct fuel; reflexivity|]. split; [exact T|]. split; [intros x _; reflexivity|]. split; [reflexivity|]. intros ? ? [].
  - destruct fuel as [|fuel]; [cbn in Lf; lia|]. destruct (thread_tail _ _ _ _ _ _ T) as [Ol N]. inversion Ol as [|? n ? ? Oe Ol' E1 E2]; subst.
    destruct (names_listed _ _ _ Oe) as (fn & md & name & b & Ek & Es & Eb & El). cbn [head_addr hd_error option_map remove_listed].
    rewrite (own_next _ _ _ _ Oe). cbn [bind]. rewrite Ek. cbn [bind]. rewrite Es. cbn [bind]. rewrite Eb. cbn [bind]. rewrite (own_list_head _ _ _ _ Ol').
    cbn [kept_entries filter]. fold (kept_entries es).
    assert (Step : forall h1, thread_is h1 t rest KKoopsFrame ((done ++ [e]) ++ es) -> h1 = h -> listed (e_val e) = false ->
      exists h', remove_listed fuel h1 t (head_addr es) = Ok h' /\ thread_is h' t rest KKoopsFrame (done ++ (if negb (listed (e_val e)) then e :: kept_entries es else kept_entries es)) /\
        same_outside (t :: foot (done ++ e :: es)) h h' /\ length h' = length h /\
        (forall e0 x, In e0 (e :: es) -> listed (e_val e0) = true -> In x (e_foot e0) -> freed h' x)).
    { intros h1 T1 -> Ln. rewrite Ln. cbn [negb]. destruct (IH (done ++ [e]) fuel h T1) as (h' & E & T' & S' & L' & F'); [cbn in Lf; lia|].
      rewrite <- !app_assoc in T', S'. cbn [app] in T', S'. exists h'. split; [exact E|]. split; [exact T'|]. split; [exact S'|]. split; [exact L'|].
      intros e0 x [<-|I] He; [congruence|apply F'; assumption]. }
    assert (T1 : thread_is h t rest KKoopsFrame ((done ++ [e]) ++ es)) by (rewrite <- app_assoc; exact T).
    destruct md as [m|]; [cbn [bind]; apply Step; [exact T1|reflexivity|exact El]|].
    destruct b; [|cbn [bind]; apply Step; [exact T1|reflexivity|exact El]].
    destruct (thread_remove_frame_ok _ _ _ _ _ _ _ T) as (h1 & Er & T2 & F1 & S1 & L1). rewrite Er. cbn [bind]. rewrite El. cbn [negb].
    destruct (IH done fuel h1 T2) as (h' & E & T' & S' & L' & F'); [cbn in Lf; lia|]. exists h'. split; [exact E|]. split; [exact T'|]. split; [|split; [lia|]].
    { intros x Hx. cbn [In] in Hx. rewrite foot_app, foot_cons, !in_app_iff in Hx. rewrite S'; [apply S1|]; cbn [In]; rewrite foot_app, ?foot_cons, !in_app_iff; tauto. }
    { intros e0 x [<-|I] He Ix; [|eapply F'; eassumption]. unfold freed. rewrite S'; [apply F1; exact Ix|].
      cbn [In]. rewrite foot_app, in_app_iff. inversion N as [|? ? Nt N']; subst. rewrite foot_app, foot_cons in N', Nt. rewrite !in_app_iff in Nt.
      apply NoDup_app_inv in N' as (_ & N' & D1). apply NoDup_app_inv in N' as (_ & _ & D2).
      intros [<-|[I|I]]; [tauto| |exact (D2 x Ix I)]. apply (D1 x I). apply in_app_iff. left. exact Ix. }
Qed.

(** ** The whole function *)
Lemma koops_normalized h t rest es : thread_is h t rest KKoopsFrame es ->
  exists h', sr_normalize_koops_stacktrace h t = Ok h' /\ thread_is h' t rest KKoopsFrame (kept_entries (map cut_entry es)) /\
    same_outside (t :: foot es) h h' /\ length h' = length h /\
    (forall e x, In e (map cut_entry es) -> listed (e_val e) = true -> In x (e_foot e) -> freed h' x).
Proof.
  intros T. pose proof (thread_len _ _ _ _ _ T) as B. destruct (thread_frames_ok _ _ _ _ _ T) as (p & Ep & Ol & Ht).
  unfold sr_normalize_koops_stacktrace. rewrite Ep. cbn [bind].
  assert (N : NoDup (t :: foot es)) by (destruct T as (? & ? & ? & ? & ? & ? & ? & ? & _ & _ & _ & _ & N); exact N). inversion N as [|? ? Nt N']; subst.
  destruct (cut_names_ok es (length h) h p Ol N') as (h1 & E1 & O1 & S1 & L1); [lia|]. rewrite E1. cbn [bind].
  assert (T1 : thread_is h1 t rest KKoopsFrame ([] ++ map cut_entry es)).
  { destruct T as (p' & k & scal & strs & kids & arr & raw & next & Er & Hk & Hc & Ol' & _). exists p', k, scal, strs, kids, arr, raw, next. split; [exact Er|]. split; [exact Hk|].
    split; [rewrite S1 by exact Nt; exact Hc|]. cbn [app]. rewrite cut_foot. split; [|exact N]. subst rest.
    rewrite (own_list_head _ _ _ _ Ol'). rewrite (own_list_head _ _ _ _ Ol) in O1. exact O1. }
  destruct (thread_frames_ok _ _ _ _ _ T1) as (p1 & Ep1 & Ol1 & _). rewrite Ep1. cbn [bind].
  rewrite (own_list_head _ _ _ _ Ol1). destruct (remove_listed_ok t rest (map cut_entry es) [] (length h1) h1 T1) as (h2 & E2 & T2 & S2 & L2 & F2).
  { rewrite map_length. lia. }
  exists h2. split; [exact E2|]. split; [exact T2|]. split; [|split; [lia|exact F2]].
  intros x Hx. cbn [app] in S2. rewrite S2; [apply S1; intros I; apply Hx; right; exact I|]. cbn [In]. rewrite cut_foot. exact Hx.
Qed.
