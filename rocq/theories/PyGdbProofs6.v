From Verif Require Import Base Types CrashModel CrashSpec TextModel NormModel NormSpec NormProofs2 HeapModel HeapSpec HeapProofs HeapProofs2 HeapProofs3 HeapListModel HeapListSpec HeapListProofs HeapListProofs3 PyModel PySpec PyProofs PyProofs2 PyProofs3 PyProofs4 PyProofs6 PyProofs7 PyAttrModel PyAttrSpec PyBaseModel PyBaseSpec PyBaseProofs PyBaseProofs2 PyBaseProofs3 PyMethSpec PyGdbModel PyGdbSpec PyGdbProofs PyGdbProofs2 PyGdbProofs3 PyGdbProofs4 PyGdbProofs5.
Open Scope nat_scope.

(** ** What is still in use stays *)
Lemma in_one {A} (f : A -> list addr) : forall l x a b, NoDup (concat (map f l)) -> In a l -> In b l -> In x (f a) -> In x (f b) -> a = b.
Proof.
  induction l as [|y l IH]; intros x a b N Ia Ib Ha Hb; [destruct Ia|]. cbn [map concat] in N. apply NoDup_app_inv in N as (N1 & N2 & D).
  assert (R : forall c, In c l -> In x (f c) -> In x (concat (map f l))) by (intros c Ic Hc; apply in_concat; exists (f c); split; [apply in_map; exact Ic|exact Hc]).
  destruct Ia as [<-|Ia], Ib as [<-|Ib]; [reflexivity| | |eapply IH; eassumption].
  - exfalso. exact (D x Ha (R b Ib Hb)).
  - exfalso. exact (D x Hb (R a Ia Ha)).
Qed.
Lemma unlinked_valid h tk fk n e es x : unlinked_thread h tk fk n e es -> In x (e_foot e) -> x < length h.
Proof.
  intros (scal & ps & p & ss & fs & arr & sarr & fa & raw & Hk & Hc & Lp & Os & Oa & Ev & Ef & Fo & He) I. rewrite Ef in I. destruct I as [<-|I]; [apply nth_error_Some; congruence|].
  rewrite !in_app_iff in I. destruct I as [I|[I|I]]; [eapply own_strs_valid; eassumption|eapply own_arr_valid; eassumption|].
  unfold foot in I. apply in_concat in I as (c & Ic & I). apply in_map_iff in Ic as (f & <- & If). rewrite Forall_forall in Fo. destruct (Fo f If) as [m O]. eapply own_valid; eassumption.
Qed.
Lemma NoDup_concat_in {A} (l : list (list A)) a : NoDup (concat l) -> In a l -> NoDup a.
Proof. induction l as [|b l IH]; intros N I; [destruct I|]. cbn [concat] in N. apply NoDup_app_inv in N as (N1 & N2 & _). destruct I as [<-|I]; auto. Qed.
Lemma kept_ok os lt ml ts h h' ch : py_threads os lt KGdbThread KGdbFrame ts -> unlinked_threads h KGdbThread KGdbFrame ts -> NoDup (foot (map pt_entry ts)) ->
  (forall x, In x (foot (map pt_entry ts)) -> ~ In x ch) -> (forall x, x < length h -> ~ In x ch -> ~ threads_lost os ml ts x -> nth_error h' x = nth_error h x) -> kept os h' ml ts.
Proof.
  intros [_ Ft] U N Nc K. unfold kept. rewrite Forall_forall. intros t It. unfold unlinked_threads in U. rewrite Forall_forall in U, Ft. destruct (U t It) as [m Ut]. destruct (Ft t It) as [_ [_ Fi]].
  assert (Nt : NoDup (concat (map (fun t => e_foot (pt_entry t)) ts))) by (rewrite <- (map_map pt_entry e_foot); exact N).
  assert (If : forall x, In x (e_foot (pt_entry t)) -> In x (foot (map pt_entry ts))) by (intros x Ix; eapply in_foot; [apply in_map; exact It|exact Ix]).
  assert (Lt : forall x, In x (e_foot (pt_entry t)) -> threads_lost os ml ts x -> ml = 1 /\ thread_lost os t x).
  { intros x Ix (E & u & Iu & Lo). split; [exact E|]. destruct (U u Iu) as [mu Uu]. destruct (Ft u Iu) as [_ [_ Fu]]. pose proof (lost_in_foot _ _ _ _ _ _ _ Fu Uu Lo) as Ju.
    rewrite (in_one _ _ x t u Nt It Iu Ix Ju). exact Lo. }
  assert (Vt : forall x, In x (e_foot (pt_entry t)) -> x < length h) by (intros x Ix; eapply unlinked_valid; [exact Ut|exact Ix]).
  split.
  - intros NL. exists m. eapply unlinked_local; [exact Ut|]. intros x Ix. apply K; [exact (Vt x Ix)|apply Nc, If, Ix|]. intros Lo. apply Lt in Lo as (E & S1 & _); [|exact Ix]. apply NL. split; [exact E|exact S1].
  - intros r f Irf NL. destruct Ut as (scal & ps & p & ss & fs & arr & sarr & fa & raw & Hk & Hc & Lp & Os & Oa & Ev & Ef & Fo & He). pose proof (in_combine_r _ _ _ _ Irf) as If'.
    rewrite Forall_forall in Fo. destruct (Fo f If') as [mf Of]. exists mf. eapply own_same; [exact Of|]. intros x Ix.
    assert (Jf : In x (foot (pt_frames t))) by (eapply in_foot; eassumption). assert (Jx : In x (e_foot (pt_entry t))) by (rewrite Ef; right; rewrite !in_app_iff; tauto).
    apply K; [exact (Vt x Jx)|apply Nc, If, Jx|]. intros Lo. apply Lt in Lo as (E & S1 & [[_ NI]|[S2 D]]); [contradiction| |exact Jx]. apply NL. split; [exact E|]. split; [exact S1|]. split; [exact S2|].
    unfold dying in D. apply in_concat in D as (c & Ic & Hc'). apply in_map_iff in Ic as (q & Eq & Iq).
    assert (Nf : NoDup (concat (map (fun q => e_foot (snd q)) (combine (pt_items t) (pt_frames t))))).
    { rewrite <- (map_map snd e_foot). rewrite (combine_snd _ _ _ Fi). assert (Na : NoDup (e_foot (pt_entry t))) by (eapply NoDup_concat_in; [exact Nt|apply in_map_iff; exists t; split; [reflexivity|exact It]]).
      rewrite Ef in Na. apply NoDup_cons_iff in Na as [_ Na]. apply NoDup_app_inv in Na as (_ & Na & _). apply NoDup_app_inv in Na as (_ & Na & _). exact Na. }
    destruct (nth_error os (fst q)) as [[[[|[|c']] b]|]|] eqn:Q; subst c; try destruct Hc'.
    assert (q = (r, f)) as -> by (symmetry; eapply (in_one (fun q => e_foot (snd q))); [exact Nf|exact Irf|exact Iq|exact Ix|exact Hc']).
    exists b. exact Q.
Qed.

(** ** to_short_text *)
Lemma linked_parts h n e ts libs : linked_gdb h n e ts libs -> NoDup (e_foot e) -> NoDup (foot ts) /\ ~ In (e_addr e) (foot ts) /\ ~ In (e_addr e) (foot libs) /\ NoDup (foot libs) /\
  (forall x, In x (foot ts) -> ~ In x (foot libs)) /\ (forall x, In x (foot ts) -> x < length h) /\ incl (foot ts) (e_foot e).
Proof.
  intros (scal & pc & p & pl & crash & arr & sarr & fa & raw & Hc & Oa & Oc & Lc & Ot & Ol & Ev & Ef) N. rewrite Ef in N. apply NoDup_cons_iff in N as [Na N]. apply NoDup_app_inv in N as (_ & N & _). apply NoDup_app_inv in N as (_ & N & _).
  apply NoDup_app_inv in N as (Nt & Nl & D). rewrite !in_app_iff in Na. split; [exact Nt|]. split; [tauto|]. split; [tauto|]. split; [exact Nl|]. split; [exact D|]. split; [intros x Ix; eapply own_list_valid; [exact Ot|exact Ix]|]. intros x Ix. rewrite Ef. right. rewrite !in_app_iff. tauto.
Qed.
(** The list is rebuilt from what is linked, [h1]; [h] is the memory before. *)
Lemma rebuild_gdb os h h1 r lt ll at_ m ml n e ts items libs s ch :
  object os r m (PyStruct KGdbStack (e_addr e) (Some lt :: Some ll :: at_)) -> 0 < m -> object os lt ml (PyList (map pt_ref ts)) -> 0 < ml ->
  py_threads os lt KGdbThread KGdbFrame ts -> NoDup (lt :: ll :: map pt_list ts) -> py_list os ll KGdbLib items libs ->
  unlinked_threads h1 KGdbThread KGdbFrame ts -> linked_gdb h1 n e (map pt_entry ts) libs -> NoDup (e_foot e) -> is_stack KGdbStack (e_val e) (SGdb s) -> ts <> [] ->
  length h <= length h1 -> (forall x, x < length h -> ~ In x ch -> nth_error h1 x = nth_error h x) -> In (e_addr e) ch ->
  exists os' h' e' lt' ts', rebuild_threads (St os h1) r = Ok (St os' h', true) /\ py_gdb os' h' r lt' ll at_ m 1 n e' ts' items libs s /\ e_addr e' = e_addr e /\ length h1 <= length h' /\
    ((forall x, length h <= x < length h1 -> In x (foot (map pt_entry ts)) \/ freed h1 x) -> rebuilt os os' h h' r lt ml ts e' lt' ts' ch) /\ (forall x, x < length h1 -> x <> e_addr e -> ~ In x (foot (map pt_entry ts)) -> nth_error h' x = nth_error h1 x).
Proof.
  intros Hr Hm Hlt Hml Th Nd Pl Un Ln Ne I Nts L1 X1 Ice.
  destruct (linked_parts _ _ _ _ _ Ln Ne) as (Nt & Na & _ & _ & _ & _ & _).
  destruct (rebuild_ok os h1 r lt ll at_ m ml n e ts items libs Hr Hlt Hml Th Nd Pl Un Ln Ne Nts) as (os' & h' & e' & lt' & ts' & E & Ea & Ev & Ne' & U' & L' & Hr' & Nt' & Nd' & Pl' & Fd & Tl & Go & Gh & Fr & Al).
  exists os', h', e', lt', ts'. split; [exact E|]. split; [|split; [exact Ea|split; [exact L'|split]]].
  - split; [rewrite Ea; exact Hr'|]. split; [exact Hm|]. split; [apply Nt'|]. split; [lia|]. split; [eapply new_py_threads; exact Nt'|]. split; [exact Nd'|]. split; [exact Pl'|]. split; [exact U'|]. split; [exact Ne'|].
    rewrite Ev. exact I.
  - intros Alh. split; [exact Nt'|]. split; [intros x Ix; apply Fd in Ix; lia|]. split; [exact Tl|]. split; [exact Go|]. split; [|split; [exact Fr|split]].
    + intros x Lx Nx Nl. rewrite <- X1 by assumption. apply Gh; [lia|intros ->; contradiction|exact Nl].
    + eapply (kept_ok os lt ml ts h1 h' [e_addr e]); [exact Th|exact Un|exact Nt| |].
      * intros x Ix [<-|[]]. contradiction.
      * intros x Lx Nx Nl. apply Gh; [exact Lx|intros ->; apply Nx; left; reflexivity|exact Nl].
    + intros x Lx. destruct (Nat.lt_ge_cases x (length h1)) as [L|L].
      * destruct (Alh x) as [J|J]; [lia|tauto|]. destruct (in_dec Nat.eq_dec x (foot (map pt_entry ts))) as [K|K]; [tauto|]. right. right. unfold freed. rewrite Gh; [exact J|exact L| |].
        -- intros ->. destruct (own_inv _ _ _ _ (linked_own _ _ _ _ _ Ln)) as (? & ? & ? & ? & ? & ? & ? & ? & ? & ? & ? & _ & _ & Hc & _). unfold freed in J. congruence.
        -- intros Lo. apply K. eapply threads_lost_foot; eassumption.
      * left. assert (J : In x (foot (map pt_entry ts'))) by (apply Al; lia). destruct U' as (? & ? & ? & ? & ? & ? & ? & ? & ? & _ & _ & _ & _ & _ & Ef' & _). rewrite Ef'. right. rewrite !in_app_iff. tauto.
  - intros x Lx Nx Nf. apply Gh; [exact Lx|exact Nx|]. intros Lo. apply Nf. eapply threads_lost_foot; eassumption.
Qed.

Lemma gdb_short_text_found h n e s max : own h KGdbStack n e -> NoDup (e_foot e) -> is_stack KGdbStack (e_val e) (SGdb s) -> short_text h (e_addr e) max = sr_stacktrace_to_short_text (SGdb s) max.
Proof.
  intros O N I. unfold short_text. rewrite (own_kind _ _ _ _ O). cbn [bind]. rewrite (load_stack_ok _ _ _ _ _ O N I). reflexivity.
Qed.
Lemma gdb_no_threads s max out : sr_stacktrace_to_short_text (SGdb s) max = Ok (Some out) -> gs_threads s <> [].
Proof. intros E K. cbn [sr_stacktrace_to_short_text] in E. unfold sr_gdb_stacktrace_to_short_text, sr_gdb_stacktrace_find_crash_thread in E. rewrite K in E. discriminate E. Qed.
Lemma threads_of h n e ts libs s : unlinked_gdb h n e ts libs -> is_stack KGdbStack (e_val e) (SGdb s) -> Forall2 (is_thread KGdbThread) (map e_val (map pt_entry ts)) (map TGdb (gs_threads s)).
Proof.
  intros (scal & pc & p & pl & crash & arr & sarr & fa & raw & Hc & Oa & Oc & Lc & Ev & Ef & U & He & Fo & Hel) I.
  destruct I as (_ & _ & cs & ts' & ls & Ek & _ & Ft & _). rewrite Ev in Ek. cbn [kids] in Ek. injection Ek as _ <- _. exact Ft.
Qed.
Lemma short_text_ok os h r lt ll at_ m ml n e ts items libs s max x : py_gdb os h r lt ll at_ m ml n e ts items libs s -> (-2147483648 <= max <= 2147483647)%Z ->
  sr_gdb_stacktrace_to_short_text s max = Ok x ->
  match x with
  | Some out => exists os' h' a e' lt' ts', gdb_to_short_text (St os h) r max = Ok (St os' h', a) /\ gives_text a out /\
      py_gdb os' h' r lt' ll at_ m 1 n e' ts' items libs s /\ e_addr e' = e_addr e /\ rebuilt os os' h h' r lt ml ts e' lt' ts' (e_addr e :: threads_cells ts ++ map e_addr libs)
  | None => exists h', gdb_to_short_text (St os h) r max = Ok (St os h', Raise LookupError) /\ own h' KGdbStack n e /\ same_outside (e_addr e :: threads_cells ts ++ map e_addr libs) h h' /\ length h' = length h
  end.
Proof.
  intros (Hr & Hm & Hlt & Hml & Th & Nd & Pl & U & Ne & I) Bm Ex.
  assert (A : alive os r (PyStruct KGdbStack (e_addr e) (Some lt :: Some ll :: at_))) by (destruct m as [|m']; [lia|]; exists m'; exact Hr).
  destruct (gdb_prepare_again _ _ _ _ _ _ _ _ _ _ _ A Th Pl U Ne) as (h1 & Ep & Ln & Un & Sm & Len). pose proof (linked_own _ _ _ _ _ Ln) as O.
  assert (W : wrapped (St os h1) r = Ok (e_addr e)) by (unfold wrapped; rewrite (obj_ok (St os h1) r _ _ Hr); reflexivity).
  unfold gdb_to_short_text. rewrite Ep. cbn [bind negb]. rewrite (c_int_ok max) by lia. cbn [negb]. rewrite W. cbn [bind mem]. rewrite (gdb_short_text_found _ _ _ _ max O Ne I). cbn [sr_stacktrace_to_short_text]. rewrite Ex. cbn [bind].
  destruct x as [out|].
  - assert (Nts : ts <> []).
    { intros ->. apply (gdb_no_threads s max out); [exact Ex|]. pose proof (threads_of _ _ _ _ _ _ U I) as F. cbn [map] in F. inversion F as [E|]. destruct (gs_threads s); [reflexivity|discriminate]. }
    destruct (rebuild_gdb os h h1 r lt ll at_ m ml n e ts items libs s (e_addr e :: threads_cells ts ++ map e_addr libs) Hr Hm Hlt Hml Th Nd Pl Un Ln Ne I Nts) as (os' & h' & e' & lt' & ts' & Er & Py & Ea & L' & Rb & _).
    { lia. } { intros x Lx Nx. apply Sm. exact Nx. } { left. reflexivity. }
    exists os', h', (py_string out), e', lt', ts'. rewrite Er. cbn [bind]. split; [reflexivity|]. split; [apply py_string_gives|]. split; [exact Py|]. split; [exact Ea|apply Rb; intros x Lx; lia].
  - exists h1. split; [reflexivity|]. split; [exact O|]. split; [exact Sm|exact Len].
Qed.
Lemma short_text_range os h r lt ll at_ m ml n e ts items libs s max : py_gdb os h r lt ll at_ m ml n e ts items libs s -> ~ (-2147483648 <= max <= 2147483647)%Z ->
  exists h', gdb_to_short_text (St os h) r max = Ok (St os h', Raise OverflowError) /\ own h' KGdbStack n e /\ same_outside (e_addr e :: threads_cells ts ++ map e_addr libs) h h' /\ length h' = length h.
Proof.
  intros (Hr & Hm & Hlt & Hml & Th & Nd & Pl & U & Ne & I) Bm.
  assert (A : alive os r (PyStruct KGdbStack (e_addr e) (Some lt :: Some ll :: at_))) by (destruct m as [|m']; [lia|]; exists m'; exact Hr).
  destruct (gdb_prepare_again _ _ _ _ _ _ _ _ _ _ _ A Th Pl U Ne) as (h1 & Ep & Ln & Un & Sm & Len). pose proof (linked_own _ _ _ _ _ Ln) as O.
  exists h1. unfold gdb_to_short_text. rewrite Ep. cbn [bind negb]. assert (is_c_int max = false) as -> by (unfold is_c_int; lia). cbn [negb]. split; [reflexivity|]. split; [exact O|]. split; [exact Sm|exact Len].
Qed.

(** ** set_libnames *)
Lemma all_named ls : Forall (fun l => gl_soname l <> None) ls -> forall gs, exists fss, Forall2 (fun g fs => sr_gdb_thread_set_libnames ls (gt_frames g) = Ok fs) gs fss /\ Forall2 (fun g fs => Forall2 (labelled ls) (gt_frames g) fs) gs fss.
Proof.
  intros F. induction gs as [|g gs (fss & F1 & F2)]; [exists []; split; constructor|]. pose proof (set_libnames_ok ls (gt_frames g)) as K.
  destruct (sr_gdb_thread_set_libnames ls (gt_frames g)) as [fs| |] eqn:E; [|destruct K|].
  - exists (fs :: fss). split; constructor; assumption.
  - destruct K as (x & Ix & Nx). rewrite Forall_forall in F. exfalso. exact (F x Ix Nx).
Qed.
Definition name_stack (s : gdb_stacktrace) (fss : list (list gdb_frame)) : gdb_stacktrace :=
  mk_gdb_stacktrace (map (fun q => set_frames_of (fst q) (snd q)) (combine (gs_threads s) fss)) (gs_crash s) (gs_libs s) (gs_crash_tid s).
Lemma name_stack_named s fss : Forall2 (fun g fs => Forall2 (labelled (gs_libs s)) (gt_frames g) fs) (gs_threads s) fss -> named_stack s (name_stack s fss).
Proof.
  intros F. split; [reflexivity|]. split; [reflexivity|]. split; [reflexivity|]. cbn [name_stack gs_threads]. induction F as [|g fs gs fss H F IH]; [constructor|]. cbn [combine map fst snd]. constructor; [|exact IH].
  split; [reflexivity|]. split; [reflexivity|exact H].
Qed.
Lemma places_threads os lt ts ts1 : Forall2 same_places ts ts1 -> py_threads os lt KGdbThread KGdbFrame ts -> py_threads os lt KGdbThread KGdbFrame ts1 /\ map pt_ref ts1 = map pt_ref ts /\ map pt_list ts1 = map pt_list ts /\ map pt_refs ts1 = map pt_refs ts.
Proof.
  intros P [Hl F]. assert (E : map pt_ref ts1 = map pt_ref ts /\ map pt_list ts1 = map pt_list ts /\ map pt_refs ts1 = map pt_refs ts).
  { clear - P. induction P as [|t u ts us (E1 & E2 & E3 & _) P (I1 & I2 & I3)]; [repeat split|]. cbn [map]. unfold pt_refs at 1 3. rewrite E1, E2, E3, I1, I2, I3. repeat split. }
  split; [|exact E]. split; [rewrite (proj1 E); exact Hl|]. clear - P F. induction P as [|t u ts us (E1 & E2 & E3 & E4 & E5) P IH]; [constructor|]. inversion F as [|? ? [H1 [H2 H3]] F']; subst. constructor; [|apply IH; exact F'].
  split; [rewrite E1, E2, E4; exact H1|]. rewrite E2, E3. split; [exact H2|]. clear - H3 E5. revert H3 E5. generalize (pt_frames u) as fs, (pt_frames t) as gs, (pt_items t) as is. induction fs as [|f fs IH]; intros gs is H E; destruct gs as [|g gs]; try discriminate E; inversion H; subst; constructor; cbn [map] in E; injection E as Ea Eb.
  - rewrite Ea. assumption.
  - eapply IH; eassumption.
Qed.
Lemma stack_named h n e ts libs s fss : unlinked_threads h KGdbThread KGdbFrame ts -> linked_gdb h n e (map pt_entry ts) libs -> NoDup (e_foot e) -> is_stack KGdbStack (e_val e) (SGdb s) ->
  Forall2 (fun g fs => sr_gdb_thread_set_libnames (gs_libs s) (gt_frames g) = Ok fs) (gs_threads s) fss ->
  exists h' e' ts', stack_libnames h (e_addr e) = Ok h' /\ e_addr e' = e_addr e /\ Forall2 same_places ts ts' /\ unlinked_threads h' KGdbThread KGdbFrame ts' /\ linked_gdb h' n e' (map pt_entry ts') libs /\
    NoDup (e_foot e') /\ is_stack KGdbStack (e_val e') (SGdb (name_stack s fss)) /\ turned (foot (map pt_entry ts)) (foot (map pt_entry ts')) h h' /\
    Forall2 (is_thread KGdbThread) (map e_val (map pt_entry ts')) (map TGdb (gs_threads (name_stack s fss))).
Proof.
  intros U (scal & pc & p & pl & crash & arr & sarr & fa & raw & Hc & Oa & Oc & Lc & Ot & Ol & Ev & Ef) N I Ff.
  destruct I as (_ & Inum & cs & vs & ls & Ek & Fc & Ft & Fl). rewrite Ev in Ek, Inum. cbn [kids] in Ek. injection Ek as <- <- <-.
  rewrite Ef in N. apply NoDup_cons_iff in N as [Na N]. apply NoDup_app_inv in N as (Nfa & N & D0). apply NoDup_app_inv in N as (Nc & N & D1). apply NoDup_app_inv in N as (Nt & Nl & D2). rewrite !in_app_iff in Na.
  destruct (threads_named pl libs (gs_libs s) ts (gs_threads s) fss h p (length h) Ot U Ft Nt Ol Nl Fl D2) as (h' & ts' & E & P & O' & U' & F' & N' & T).
  { pose proof (HeapListProofs.own_list_bound _ _ _ _ Ot Nt) as B. rewrite map_length in B. exact B. }
  { exact Ff. }
  pose proof T as (L & Sm & Nw & Fr & _).
  assert (Va : forall x, In x fa -> x < length h) by (intros x; eapply own_arr_valid; exact Oa).
  assert (Vc : forall x, In x (foot crash) -> x < length h) by (intros x; eapply own_list_valid; exact Oc). assert (Vl : forall x, In x (foot libs) -> x < length h) by (intros x; eapply own_list_valid; exact Ol).
  assert (Le : e_addr e < length h) by (apply nth_error_Some; congruence).
  set (e' := (e_addr e, Val scal [] sarr [map e_val crash; map e_val (map pt_entry ts'); map e_val libs], e_addr e :: fa ++ foot crash ++ foot (map pt_entry ts') ++ foot libs)).
  exists h', e', ts'. split; [|split; [reflexivity|split; [exact P|split; [exact U'|split; [|split; [|split; [|split; [exact T|exact F']]]]]]]].
  - unfold stack_libnames. rewrite (get_live _ _ _ Hc) by discriminate. cbn [bind]. exact E.
  - exists scal, pc, p, pl, crash, arr, sarr, fa, raw. split; [change (e_addr e') with (e_addr e); rewrite Sm; [exact Hc|exact Le|tauto]|].
    split; [eapply own_arr_same; [exact Oa|]; intros x Ix; apply Sm; [exact (Va x Ix)|]; intros J; apply (D0 x Ix); rewrite !in_app_iff; tauto|].
    split; [eapply own_list_same; [exact Oc|]; intros x Ix; apply Sm; [exact (Vc x Ix)|]; intros J; apply (D1 x Ix); rewrite !in_app_iff; tauto|]. split; [exact Lc|]. split; [exact O'|].
    split; [eapply own_list_same; [exact Ol|]; intros x Ix; apply Sm; [exact (Vl x Ix)|]; intros J; exact (D2 x J Ix)|]. split; reflexivity.
  - unfold e'. cbn [e_foot snd]. constructor.
    + rewrite !in_app_iff. intros [J|[J|[J|J]]]; try tauto. apply Nw in J as [J|J]; [tauto|lia].
    + apply NoDup_app2; [exact Nfa| |].
      * apply NoDup_app2; [exact Nc| |].
        -- apply NoDup_app2; [exact N'|exact Nl|]. intros x J K. apply Nw in J as [J|J]; [exact (D2 x J K)|specialize (Vl x K); lia].
        -- intros x J K. rewrite in_app_iff in K. destruct K as [K|K]; [apply Nw in K as [K|K]|]; [apply (D1 x J); rewrite in_app_iff; tauto|specialize (Vc x J); lia|apply (D1 x J); rewrite in_app_iff; tauto].
      * intros x J K. rewrite !in_app_iff in K. destruct K as [K|[K|K]]; [|apply Nw in K as [K|K]|]; try (apply (D0 x J); rewrite !in_app_iff; tauto). specialize (Va x J). lia.
  - unfold e'. cbn [e_val fst snd]. split; [reflexivity|]. split; [exact Inum|]. do 3 eexists. split; [reflexivity|]. split; [exact Fc|]. split; [exact F'|exact Fl].
Qed.
Lemma set_libnames_py os h r lt ll at_ m ml n e ts items libs s : py_gdb os h r lt ll at_ m ml n e ts items libs s -> ts <> [] -> Forall (fun l => gl_soname l <> None) (gs_libs s) ->
  exists os' h' e' lt' ts' s' us, py_set_libnames (St os h) r = Ok (St os' h', Value tt) /\ named_stack s s' /\
    py_gdb os' h' r lt' ll at_ m 1 n e' ts' items libs s' /\ e_addr e' = e_addr e /\
    Forall2 same_places ts us /\ Forall2 (is_thread KGdbThread) (map e_val (map pt_entry us)) (map TGdb (gs_threads s')) /\
    rebuilt os os' h h' r lt ml us e' lt' ts' (e_addr e :: foot (map pt_entry ts) ++ map e_addr libs) /\
    (forall x, In x (foot (map pt_entry ts)) -> ~ In x (foot (map pt_entry us)) -> freed h' x).
Proof.
  intros (Hr & Hm & Hlt & Hml & Th & Nd & Pl & U & Ne & I) Nts Fs.
  assert (A : alive os r (PyStruct KGdbStack (e_addr e) (Some lt :: Some ll :: at_))) by (destruct m as [|m']; [lia|]; exists m'; exact Hr).
  destruct (gdb_prepare_again _ _ _ _ _ _ _ _ _ _ _ A Th Pl U Ne) as (h1 & Ep & Ln & Un & Sm & Len).
  assert (W : wrapped (St os h1) r = Ok (e_addr e)) by (unfold wrapped; rewrite (obj_ok (St os h1) r _ _ Hr); reflexivity).
  destruct (all_named _ Fs (gs_threads s)) as (fss & Ff & Fn).
  destruct (stack_named _ _ _ _ _ _ _ Un Ln Ne I Ff) as (h2 & e2 & us & Es & Ea2 & P & U2 & Ln2 & Ne2 & I2 & T & Fu). pose proof T as (L2 & S2 & Nw & Fr & Al).
  destruct (places_threads os lt ts us P Th) as (Thu & Er & El & Ers).
  destruct (linked_parts _ _ _ _ _ Ln Ne) as (Nt & Na & Nal & Nl & D & Vt & _).
  assert (Ct : forall x, In x (threads_cells ts) -> In x (foot (map pt_entry ts))) by (intros x Ix; eapply threads_cells_in; [exact Un|exact Ix]).
  set (ch := e_addr e :: foot (map pt_entry ts) ++ map e_addr libs).
  destruct (rebuild_gdb os h h2 r lt ll at_ m ml n e2 us items libs (name_stack s fss) ch) as (os' & h' & e' & lt' & ts' & Erb & Py & Ea & L' & Rb & K).
  { rewrite Ea2. exact Hr. } { exact Hm. } { rewrite Er. exact Hlt. } { exact Hml. } { exact Thu. } { rewrite El. exact Nd. } { exact Pl. } { exact U2. } { exact Ln2. } { exact Ne2. } { exact I2. }
  { intros ->. inversion P; subst. apply Nts. reflexivity. } { lia. }
  { intros x Lx Nx. unfold ch in Nx. cbn [In] in Nx. rewrite in_app_iff in Nx. rewrite S2 by (rewrite ?Len; tauto). apply Sm. cbn [In]. rewrite in_app_iff. intros [J|[J|J]]; [tauto|apply Ct in J; tauto|tauto]. }
  { rewrite Ea2. left. reflexivity. }
  exists os', h', e', lt', ts', (name_stack s fss), us. split; [|split; [|split; [|split; [|split; [|split; [|split]]]]]].
  - unfold py_set_libnames. rewrite Ep. cbn [bind negb]. rewrite W. cbn [bind mem]. rewrite Es. cbn [bind]. unfold with_mem. cbn [objs]. rewrite Erb. reflexivity.
  - apply name_stack_named. exact Fn.
  - exact Py.
  - congruence.
  - exact P.
  - exact Fu.
  - apply Rb. intros x Lx. apply Al. lia.
  - intros x Ix Nx. unfold freed. assert (Lx : x < length h2) by (specialize (Vt x Ix); lia). rewrite K; [apply Fr; assumption|exact Lx| |exact Nx]. rewrite Ea2. intros ->. contradiction.
Qed.
Lemma set_libnames_no_threads os h r lt ll at_ m ml n e items libs s : py_gdb os h r lt ll at_ m ml n e [] items libs s -> py_set_libnames (St os h) r = UB.
Proof.
  intros (Hr & Hm & Hlt & Hml & Th & Nd & Pl & U & Ne & I).
  assert (A : alive os r (PyStruct KGdbStack (e_addr e) (Some lt :: Some ll :: at_))) by (destruct m as [|m']; [lia|]; exists m'; exact Hr).
  destruct (gdb_prepare_again _ _ _ _ _ _ _ _ _ _ _ A Th Pl U Ne) as (h1 & Ep & Ln & Un & Sm & Len).
  assert (W : wrapped (St os h1) r = Ok (e_addr e)) by (unfold wrapped; rewrite (obj_ok (St os h1) r _ _ Hr); reflexivity).
  destruct Ln as (scal & pc & p & pl & crash & arr & sarr & fa & raw & Hc & Oa & Oc & Lc & Ot & _). cbn [map] in Ot. inversion Ot; subst.
  unfold py_set_libnames. rewrite Ep. cbn [bind negb]. rewrite W. cbn [bind mem]. unfold stack_libnames. rewrite (get_live _ _ _ Hc) by discriminate. cbn [bind].
  assert (threads_libnames (length h1) h1 pl None = Ok h1) as -> by (destruct (length h1); reflexivity). cbn [bind]. unfold with_mem, rebuild_threads. cbn [objs]. rewrite (obj_ok (St os h1) r _ _ Hr). cbn [bind mem]. unfold gdb_threads. rewrite (get_live _ _ _ Hc) by discriminate. reflexivity.
Qed.
