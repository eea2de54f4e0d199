From Verif Require Import Base Types CrashSpec TextModel NormModel NormSpec NormProofs2 HeapModel HeapSpec HeapProofs HeapProofs2 HeapProofs3 HeapListModel HeapListSpec HeapListProofs HeapListProofs3 PyModel PySpec PyProofs PyProofs2 PyProofs3 PyProofs4 PyProofs6 PyAttrModel PyAttrSpec PyBaseModel PyBaseSpec PyBaseProofs PyGdbModel PyGdbSpec.
Open Scope nat_scope.

(** ** Library names in memory *)
Lemma lib_at_ok h address : forall libs ls p fuel, own_list h KGdbLib p libs -> Forall2 is_lib (map e_val libs) ls -> length libs <= fuel ->
  (lib_at fuel h p address = Ok None /\ find (fun l => (gl_from l <=? address)%Z && (address <=? gl_to l)%Z) ls = None) \/
  exists x m l, lib_at fuel h p address = Ok (Some (e_addr x)) /\ own h KGdbLib m x /\ is_lib (e_val x) l /\ find (fun l => (gl_from l <=? address)%Z && (address <=? gl_to l)%Z) ls = Some l.
Proof.
  induction libs as [|x libs IH]; intros ls p fuel O L Lf; inversion O as [|? m ? ? Ox O']; subst; cbn [map] in L; inversion L as [|? l ? ls' Hl Ll]; subst.
  - left. split; [destruct fuel; reflexivity|reflexivity].
  - destruct fuel as [|fuel]; [cbn in Lf; lia|]. cbn [lib_at find]. pose proof Hl as (L1 & L2 & _ & _).
    rewrite (num_ok _ _ _ _ _ TU64 (gl_from l) Ox); [|eexists; vm_compute; reflexivity|exact L1]. cbn [bind].
    rewrite (num_ok _ _ _ _ _ TU64 (gl_to l) Ox); [|eexists; vm_compute; reflexivity|exact L2]. cbn [bind].
    destruct ((gl_from l <=? address) && (address <=? gl_to l))%Z.
    + right. exists x, m, l. repeat split; try assumption; apply Hl.
    + rewrite (own_next_of _ _ _ _ Ox). cbn [bind]. apply IH; [exact O'|exact Ll|cbn in Lf; lia].
Qed.
(** Memory [F] has become [F']: nothing else has changed, and what is not in use any more is free. *)
Lemma turned_refl F h : turned F F h h.
Proof. split; [lia|]. split; [reflexivity|]. split; [tauto|]. split; [contradiction|]. intros x Lx. lia. Qed.
Lemma turned_nil h : turned [] [] h h. Proof. apply turned_refl. Qed.
Lemma turned_app F1 F1' F2 F2' h h1 h2 : turned F1 F1' h h1 -> turned F2 F2' h1 h2 -> (forall x, In x F1 -> ~ In x F2) -> (forall x, In x (F1 ++ F2) -> x < length h) ->
  turned (F1 ++ F2) (F1' ++ F2') h h2 /\ (forall x, In x F1' -> ~ In x F2') /\ same_on F2 h h1 /\ same_on F1' h1 h2.
Proof.
  intros (L1 & S1 & N1 & R1 & M1) (L2 & S2 & N2 & R2 & M2) D V. assert (V1 : forall x, In x F1 -> x < length h) by (intros x I; apply V, in_app_iff; tauto). assert (V2 : forall x, In x F2 -> x < length h) by (intros x I; apply V, in_app_iff; tauto).
  assert (D' : forall x, In x F1' -> ~ In x F2).
  { intros x I J. apply N1 in I as [I|I]; [exact (D x I J)|]. specialize (V2 x J). lia. }
  split; [|split; [|split]].
  - split; [lia|]. split; [|split; [|split]].
    + intros x Lx Nx. rewrite in_app_iff in Nx. rewrite S2 by (try lia; tauto). apply S1; tauto.
    + intros x. rewrite !in_app_iff. intros [I|I]; [apply N1 in I; intuition lia|]. apply N2 in I. intuition lia.
    + intros x. rewrite !in_app_iff. intros [I|I] Nx; [|apply R2; tauto]. assert (Fx : freed h1 x) by (apply R1; tauto). unfold freed. rewrite S2; [exact Fx| |exact (D x I)]. specialize (V1 x I). lia.
    + intros x Lx. rewrite in_app_iff. destruct (Nat.lt_ge_cases x (length h1)) as [L|L]; [|destruct (M2 x); [lia|tauto|tauto]]. destruct (M1 x) as [I|I]; [lia|tauto|]. right. unfold freed. rewrite S2; [exact I|exact L|]. intros J. specialize (V2 x J). lia.
  - intros x I J. apply N2 in J as [J|J]; [exact (D' x I J)|]. apply N1 in I as [I|I]; [specialize (V1 x I)|]; lia.
  - intros x I. apply S1; [exact (V2 x I)|]. intros J. exact (D x J I).
  - intros x I. apply S2; [|exact (D' x I)]. apply N1 in I as [I|I]; [specialize (V1 x I)|]; lia.
Qed.

Lemma text_same scal scal' ss ss' sa sa' ks ks' mm s : is_text KGdbFrame (Val scal ss sa ks) mm s -> (forall i, nth_error (text_members KGdbFrame) i = Some (L mm) -> nth_error ss' i = nth_error ss i) -> is_text KGdbFrame (Val scal' ss' sa' ks') mm s.
Proof. intros (i & E1 & E2) H. exists i. split; [exact E1|]. rewrite (H i E1). exact E2. Qed.
Lemma frame_named h pl libs ls n e f f' : own h KGdbFrame n e -> is_frame KGdbFrame (e_val e) (FGdb f) -> NoDup (e_foot e) -> own_list h KGdbLib pl libs -> NoDup (foot libs) ->
  Forall2 is_lib (map e_val libs) ls -> (forall x, In x (e_foot e) -> ~ In x (foot libs)) -> sr_gdb_thread_set_libnames ls [f] = Ok [f'] ->
  exists h' e', set_libname h pl (e_addr e) = Ok h' /\ own h' KGdbFrame n e' /\ e_addr e' = e_addr e /\ is_frame KGdbFrame (e_val e') (FGdb f') /\ NoDup (e_foot e') /\
    turned (e_foot e) (e_foot e') h h'.
Proof.
  intros O I N Ol Nl Fl D E. pose proof I as (_ & I1 & I2 & I3 & I4 & I5 & I6 & I7 & I8). cbn [sr_gdb_thread_set_libnames] in E. unfold sr_gdb_sharedlib_find_address in E.
  unfold set_libname. rewrite (num_ok _ _ _ _ _ TU64 (gf_address f) O); [|eexists; vm_compute; reflexivity|exact I7]. cbn [bind]. unfold find_lib_at.
  change ulong_max with (2 ^ 64 - 1)%Z in E. destruct (gf_address f =? 2 ^ 64 - 1)%Z.
  { cbn [bind] in *. injection E as <-. exists h, e. repeat split; try assumption; try apply I; try lia; try tauto. }
  destruct (lib_at_ok h (gf_address f) libs ls pl (length h) Ol Fl) as [[E1 E2]|(x & m & l & E1 & Ox & Hl & E2)]; [apply (own_list_bound _ _ _ _ Ol Nl)| |]; rewrite E1; rewrite E2 in E; cbn [bind] in *.
  { injection E as <-. exists h, e. repeat split; try assumption; try apply I; try lia; try tauto. }
  destruct (gl_soname l) as [s|] eqn:Es; cbn [bind] in E; [|discriminate E]. injection E as <-.
  destruct Hl as (_ & _ & _ & Hs). rewrite Es in Hs. rewrite (txt_ok h KGdbLib m x "soname" (Some s) Ox ltac:(discriminate) ltac:(eexists; vm_compute; reflexivity) Hs). cbn [bind].
  destruct (own_inv _ _ _ _ O) as (scal & ps & ss & fs & ks & vss & fk & arr & sarr & fa & raw & Ev & Ef & Hc & Lp & Os & Oa & Ok'). rewrite (get_live _ _ _ Hc) by discriminate. cbn [bind].
  cbn [kid_ops] in Ok'. inversion Ok'; subst ks vss fk. clear Ok'. destruct ps as [|p1 [|p2 [|p3 [|p4 [|]]]]]; try discriminate Lp. rewrite app_nil_r in Ef. rewrite Ef in N, D. rewrite Ev in I1, I2, I3, I4, I5, I6, I7, I8.
  destruct e as [[a v] ft]. cbn [e_addr e_val e_foot fst snd] in *. subst v ft. inversion N as [|? ? Na N']; subst. apply NoDup_app_inv in N' as (Nfs & Nfa & Dsa). rewrite in_app_iff in Na.
  (* the strings: three that stay, and the library name *)
  assert (exists f3 f4 s1 s2 s3 s4, ss = [s1; s2; s3; s4] /\ fs = f3 ++ f4 /\ own_strs h [p1; p2; p3] [s1; s2; s3] f3 /\ own_strs h [p4] [s4] f4) as (f3 & f4 & s1 & s2 & s3 & s4 & -> & -> & O3 & O4).
  { clear - Os. inversion Os as [|? ? ? Os1|? ? ? ? ? H1 Os1]; subst; inversion Os1 as [|? ? ? Os2|? ? ? ? ? H2 Os2]; subst; inversion Os2 as [|? ? ? Os3|? ? ? ? ? H3 Os3]; subst;
      inversion Os3 as [|? ? ? Os4|? ? ? ? ? H4 Os4]; subst; inversion Os4; subst;
      (eexists; eexists; do 4 eexists; split; [reflexivity|]; split; [|split; [repeat (constructor; try eassumption)|repeat (constructor; try eassumption)]]; reflexivity). }
  apply NoDup_app_inv in Nfs as (Nf3 & Nf4 & D34). rewrite in_app_iff in Na.
  assert (exists h1, g_free_opt h p4 = Ok h1 /\ freed_all f4 h h1) as (h1 & E4 & F4).
  { inversion O4 as [|? ? ? O4'|b ? ? ? ? Hb O4']; subst; inversion O4'; subst.
    - exists h. split; [reflexivity|apply freed_nil].
    - exists (put h b CFree). cbn [g_free_opt]. unfold g_free, set_cell. rewrite (get_live _ _ _ Hb) by discriminate. cbn [bind]. split; [reflexivity|]. split; [apply put_length|]. split.
      + intros y Hy. apply put_other. intros ->. apply Hy. left. reflexivity.
      + intros y [<-|[]]. unfold freed. apply put_same. apply nth_error_Some. congruence. }
  rewrite E4. cbn [bind]. destruct F4 as (L4 & S4 & Fr4). unfold alloc. cbv beta iota. set (b := upto_so (after_last_slash s)). set (h2 := h1 ++ [CStr b]).
  assert (X2 : forall y, y < length h -> ~ In y f4 -> nth_error h2 y = nth_error h y) by (intros y Ly Ny; unfold h2; rewrite nth_error_app1 by lia; apply S4; exact Ny).
  assert (La : a < length h) by (apply nth_error_Some; congruence).
  assert (Hc2 : nth_error h2 a = Some (CObj KGdbFrame scal [p1; p2; p3; p4] [] arr raw n)) by (rewrite X2; [exact Hc|exact La|tauto]).
  unfold set_cell. rewrite (get_live _ _ _ Hc2) by discriminate. cbn [bind].
  set (h3 := put h2 a (CObj KGdbFrame scal [p1; p2; p3; Some (length h1)] [] arr raw n)).
  assert (Lh3 : length h3 = S (length h)) by (unfold h3, h2; rewrite put_length, app_length; cbn; lia).
  assert (Hc3 : nth_error h3 a = Some (CObj KGdbFrame scal [p1; p2; p3; Some (length h1)] [] arr raw n)) by (unfold h3; apply put_same; unfold h2; rewrite app_length; cbn; lia).
  assert (X3 : forall y, y <> a -> nth_error h3 y = nth_error h2 y) by (intros y Ny; unfold h3; apply put_other; auto).
  assert (V3 : forall y, In y f3 -> y < length h) by (intros y; eapply own_strs_valid; exact O3).
  assert (Va : forall y, In y fa -> y < length h) by (intros y; eapply own_arr_valid; exact Oa).
  assert (K3 : same_on f3 h h3) by (intros y Iy; rewrite X3 by (intros ->; tauto); apply X2; [exact (V3 y Iy)|exact (D34 y Iy)]).
  assert (Ka : same_on fa h h3).
  { intros y Iy. rewrite X3 by (intros ->; tauto). apply X2; [exact (Va y Iy)|]. intros J. apply (Dsa y); [rewrite in_app_iff; tauto|exact Iy]. }
  assert (Hb : nth_error h3 (length h1) = Some (CStr b)).
  { rewrite X3 by lia. unfold h2. rewrite nth_error_app2 by lia. rewrite Nat.sub_diag. reflexivity. }
  exists h3, (a, Val scal [s1; s2; s3; Some b] sarr [], a :: (f3 ++ [length h1]) ++ fa ++ []). cbn [e_addr e_val e_foot fst snd].
  split; [reflexivity|]. split; [|split; [reflexivity|split; [|split]]].
  - eapply own_obj; [exact Hc3|reflexivity| |eapply own_arr_same; eassumption|constructor].
    assert (O3' : own_strs h3 [p1; p2; p3] [s1; s2; s3] f3) by (eapply own_strs_same; eassumption). clear - O3' Hb.
    change [p1; p2; p3; Some (length h1)] with ([p1; p2; p3] ++ [Some (length h1)]). change [s1; s2; s3; Some b] with ([s1; s2; s3] ++ [Some b]).
    induction O3' as [|ps ss f O IH|y t ps ss f Hy O IH]; cbn [app]; [constructor; [exact Hb|constructor]|constructor; exact IH|constructor; [exact Hy|exact IH]].
  - cbn [is_frame gf_function_name gf_function_type gf_number gf_source_file gf_source_line gf_signal_handler_called gf_address gf_library_name]. split; [reflexivity|].
    assert (Tx : forall mm st, mm <> "library_name"%string -> is_text KGdbFrame (Val scal [s1; s2; s3; s4] sarr []) mm st -> In mm ["function_name"; "function_type"; "source_file"]%string -> is_text KGdbFrame (Val scal [s1; s2; s3; Some b] sarr []) mm st).
    { intros mm st _ T Im. eapply text_same; [exact T|]. intros i Ei. destruct i as [|[|[|[|i]]]]; try reflexivity. exfalso. destruct Im as [<-|[<-|[<-|[]]]]; vm_compute in Ei; discriminate Ei. }
    split; [apply Tx; [discriminate|exact I1|cbn [In]; tauto]|]. split; [apply Tx; [discriminate|exact I2|cbn [In]; tauto]|]. split; [exact I3|]. split; [apply Tx; [discriminate|exact I4|cbn [In]; tauto]|].
    split; [exact I5|]. split; [exact I6|]. split; [exact I7|]. exists 3. split; reflexivity.
  - rewrite app_nil_r. constructor.
    + rewrite !in_app_iff. cbn [In]. intuition lia.
    + apply NoDup_app2; [apply NoDup_app2; [exact Nf3|repeat constructor; intros []|]|exact Nfa|].
      * intros y Iy [<-|[]]. specialize (V3 _ Iy). lia.
      * intros y Iy Jy. rewrite in_app_iff in Iy. destruct Iy as [Iy|[<-|[]]]; [apply (Dsa y); [rewrite in_app_iff; tauto|exact Jy]|]. specialize (Va _ Jy). lia.
  - rewrite app_nil_r. split; [lia|]. split; [|split; [|split]].
    + intros y Ly Ny. cbn [In] in Ny. rewrite !in_app_iff in Ny. rewrite X3 by (intros ->; tauto). apply X2; tauto.
    + intros y. cbn [In]. rewrite !in_app_iff. cbn [In]. intros [->|[[I'|[<-|[]]]|I']]; try tauto. right. lia.
    + intros y. cbn [In]. rewrite !in_app_iff. cbn [In]. intros Iy Ny. assert (Iy4 : In y f4) by tauto. unfold freed. rewrite X3 by (intros ->; tauto). unfold h2. rewrite nth_error_app1; [apply Fr4; exact Iy4|].
      rewrite L4. eapply own_strs_valid; [exact O4|exact Iy4].
    + intros y Ly. left. right. rewrite !in_app_iff. left. right. left. lia.
Qed.

Lemma libnames_cons ls f fs fs' : sr_gdb_thread_set_libnames ls (f :: fs) = Ok fs' -> exists f' r, fs' = f' :: r /\ sr_gdb_thread_set_libnames ls [f] = Ok [f'] /\ sr_gdb_thread_set_libnames ls fs = Ok r.
Proof.
  cbn [sr_gdb_thread_set_libnames]. intros E. destruct (match sr_gdb_sharedlib_find_address ls (gf_address f) with None => _ | Some _ => _ end) as [g| |]; cbn [bind] in *; try discriminate E.
  destruct (sr_gdb_thread_set_libnames ls fs) as [r| |]; cbn [bind] in E; try discriminate E. injection E as <-. exists g, r. repeat split.
Qed.
Lemma frames_named pl libs ls : forall es fs fs' h p fuel, own_list h KGdbFrame p es -> Forall2 (is_frame KGdbFrame) (map e_val es) (map FGdb fs) -> NoDup (foot es) ->
  own_list h KGdbLib pl libs -> NoDup (foot libs) -> Forall2 is_lib (map e_val libs) ls -> (forall x, In x (foot es) -> ~ In x (foot libs)) -> length es <= fuel ->
  sr_gdb_thread_set_libnames ls fs = Ok fs' ->
  exists h' es', frames_libnames fuel h pl p = Ok h' /\ own_list h' KGdbFrame p es' /\ map e_addr es' = map e_addr es /\ Forall2 (is_frame KGdbFrame) (map e_val es') (map FGdb fs') /\
    NoDup (foot es') /\ turned (foot es) (foot es') h h'.
Proof.
  induction es as [|e es IH]; intros fs fs' h p fuel O Fv N Ol Nl Fl D Lf E; inversion O as [|? m ? ? Oe O']; subst; cbn [map] in Fv; inversion Fv as [|? v ? vs Hv Fv' E1 E2]; subst.
  - destruct fs; [|discriminate]. cbn [sr_gdb_thread_set_libnames] in E. injection E as <-. exists h, []. split; [destruct fuel; reflexivity|]. split; [constructor|]. split; [reflexivity|]. split; [constructor|]. split; [constructor|apply turned_nil].
  - destruct fs as [|f fs]; [discriminate|]. cbn [map] in E2. injection E2 as -> ->. destruct fuel as [|fuel]; [cbn in Lf; lia|].
    apply libnames_cons in E as (f' & r & -> & E1 & Er). rewrite foot_cons in N, D. apply NoDup_app_inv in N as (Ne & Nes & De).
    destruct (frame_named h pl libs ls m e f f' Oe Hv Ne Ol Nl Fl) as (h1 & e1 & Es & O1 & A1 & I1 & N1 & T1); [intros x Ix; apply D; rewrite in_app_iff; tauto|exact E1|].
    assert (Vall : forall x, In x (e_foot e ++ foot es) -> x < length h) by (intros x Ix; rewrite <- foot_cons in Ix; eapply own_list_valid; [exact O|exact Ix]).
    pose proof T1 as (L1 & S1 & _ & _ & _).
    assert (Ol1 : own_list h1 KGdbLib pl libs).
    { eapply own_list_same; [exact Ol|]. intros x Ix. apply S1; [eapply own_list_valid; [exact Ol|exact Ix]|]. intros J. apply (D x); [rewrite in_app_iff; tauto|exact Ix]. }
    assert (O1' : own_list h1 KGdbFrame m es).
    { eapply own_list_same; [exact O'|]. intros x Ix. apply S1; [apply Vall; rewrite in_app_iff; tauto|]. intros J. exact (De x J Ix). }
    destruct (IH fs r h1 m fuel O1' Fv' Nes Ol1 Nl Fl) as (h2 & es2 & E2 & O2 & A2 & F2 & N2 & T2); [intros x Ix; apply D; rewrite in_app_iff; tauto|cbn in Lf; lia|exact Er|].
    destruct (turned_app _ _ _ _ _ _ _ T1 T2 De Vall) as (T & D' & _ & K).
    exists h2, (e1 :: es2). split; [|split; [|split; [|split; [|split]]]].
    + cbn [frames_libnames]. rewrite Es. cbn [bind]. rewrite <- A1. rewrite (own_next_of _ _ _ _ O1). cbn [bind]. exact E2.
    + rewrite <- A1. econstructor; [|exact O2]. eapply own_same; [exact O1|exact K].
    + cbn [map]. congruence.
    + cbn [map]. constructor; assumption.
    + rewrite foot_cons. apply NoDup_app2; assumption.
    + rewrite !foot_cons. exact T.
Qed.

(* frames are determined by the memory they are in *)
Lemma strs_fun h : forall ps ss f, own_strs h ps ss f -> forall ss' f', own_strs h ps ss' f' -> ss' = ss /\ f' = f.
Proof.
  induction 1 as [|ps ss f O IH|a s ps ss f H O IH]; intros ss' f' O'; inversion O' as [|? ? ? Oq|? ? ? ? ? Hq Oq]; subst; [tauto| |].
  - destruct (IH _ _ Oq) as [-> ->]. tauto.
  - destruct (IH _ _ Oq) as [-> ->]. rewrite H in Hq. injection Hq as ->. tauto.
Qed.
Lemma arr_fun h p ss f ss' f' : own_arr h p ss f -> own_arr h p ss' f' -> ss' = ss /\ f' = f.
Proof.
  intros O O'. destruct O as [|a items ss H F]; inversion O' as [|? items' ss2 H' F']; subst; [tauto|]. rewrite H in H'. injection H' as ->. split; [|reflexivity]. f_equal.
  clear - F F'. revert ss2 F'. induction F as [|i s l m Hi F IH]; intros ss2 F'; inversion F' as [|? s2 ? m2 Hi2 F2]; subst; [reflexivity|]. rewrite Hi in Hi2. injection Hi2 as <-. f_equal. apply IH. exact F2.
Qed.
Lemma leaf_fun h k n m e e' : kid_ops k = [] -> own h k n e -> own h k m e' -> e_addr e = e_addr e' -> e = e'.
Proof.
  intros K O O' E. destruct (own_inv _ _ _ _ O) as (scal & ps & ss & fs & ks & vss & fk & arr & sarr & fa & raw & Ev & Ef & Hc & Lp & Os & Oa & Ok').
  destruct (own_inv _ _ _ _ O') as (scal1 & ps1 & ss1 & fs1 & ks1 & vss1 & fk1 & arr1 & sarr1 & fa1 & raw1 & Ev1 & Ef1 & Hc1 & Lp1 & Os1 & Oa1 & Ok1'). rewrite K in Ok', Ok1'. inversion Ok'; subst. inversion Ok1'; subst.
  rewrite E, Hc1 in Hc. injection Hc as -> -> -> -> ->. destruct (strs_fun _ _ _ _ Os _ _ Os1) as [-> ->]. destruct (arr_fun _ _ _ _ _ _ Oa Oa1) as [-> ->].
  destruct e as [[a v] f]. destruct e' as [[a' v'] f']. cbn [e_addr e_val e_foot fst snd] in *. congruence.
Qed.
Lemma frames_fun h k : kid_ops k = [] -> forall es es', Forall (fun f => exists m, own h k m f) es -> Forall (fun f => exists m, own h k m f) es' -> foot es = foot es' -> es = es'.
Proof.
  intros K. assert (Hd : forall m x, own h k m x -> exists r, e_foot x = e_addr x :: r).
  { intros m x O. destruct (own_inv _ _ _ _ O) as (scal & ps & ss & fs & ks & vss & fk & arr & sarr & fa & raw & Ev & Ef & _). eexists. exact Ef. }
  induction es as [|x es IH]; intros es' F F' E; inversion F as [|? ? [m O] Fo]; subst; destruct es' as [|y es']; [reflexivity| | |]; inversion F' as [|? ? [m' O'] Fo']; subst; rewrite ?foot_cons in E.
  - destruct (Hd _ _ O') as [r Er]. rewrite Er in E. discriminate E.
  - destruct (Hd _ _ O) as [r Er]. rewrite Er in E. discriminate E.
  - assert (x = y) as ->.
    { eapply leaf_fun; [exact K|exact O|exact O'|]. destruct (Hd _ _ O) as [r Er]. destruct (Hd _ _ O') as [r' Er']. rewrite Er, Er' in E. injection E as E _. exact E. }
    apply app_inv_head in E. f_equal. apply IH; assumption.
Qed.
Lemma thread_frames_fun h n m e es es' : unlinked_thread h KGdbThread KGdbFrame n e es -> unlinked_thread h KGdbThread KGdbFrame m e es' -> n = m /\ es' = es.
Proof.
  intros (scal & ps & p & ss & fs & arr & sarr & fa & raw & Hk & Hc & Lp & Os & Oa & Ev & Ef & Fo & He) (scal1 & ps1 & p1 & ss1 & fs1 & arr1 & sarr1 & fa1 & raw1 & Hk1 & Hc1 & Lp1 & Os1 & Oa1 & Ev1 & Ef1 & Fo1 & He1).
  rewrite Hc in Hc1. injection Hc1 as <- <- <- <- <- <-. destruct (strs_fun _ _ _ _ Os _ _ Os1) as [-> ->]. destruct (arr_fun _ _ _ _ _ _ Oa Oa1) as [-> ->]. split; [reflexivity|].
  rewrite Ef in Ef1. injection Ef1 as E. apply app_inv_head in E. apply app_inv_head in E. symmetry. apply (frames_fun h KGdbFrame eq_refl); [exact Fo|exact Fo1|exact E].
Qed.

Definition set_frames_of (t : gdb_thread) (fs : list gdb_frame) : gdb_thread := mk_gdb_thread (gt_number t) (gt_tid t) fs.
Lemma thread_named h pl libs ls n t g fs' : own h KGdbThread n (pt_entry t) -> (exists m, unlinked_thread h KGdbThread KGdbFrame m (pt_entry t) (pt_frames t)) -> is_thread KGdbThread (e_val (pt_entry t)) (TGdb g) ->
  NoDup (e_foot (pt_entry t)) -> own_list h KGdbLib pl libs -> NoDup (foot libs) -> Forall2 is_lib (map e_val libs) ls -> (forall x, In x (e_foot (pt_entry t)) -> ~ In x (foot libs)) ->
  sr_gdb_thread_set_libnames ls (gt_frames g) = Ok fs' ->
  exists h' t', (do f <- thread_frames h (e_addr (pt_entry t)); frames_libnames (length h) h pl f) = Ok h' /\ same_places t t' /\ own h' KGdbThread n (pt_entry t') /\
    unlinked_thread h' KGdbThread KGdbFrame n (pt_entry t') (pt_frames t') /\ is_thread KGdbThread (e_val (pt_entry t')) (TGdb (set_frames_of g fs')) /\
    NoDup (e_foot (pt_entry t')) /\ turned (e_foot (pt_entry t)) (e_foot (pt_entry t')) h h'.
Proof.
  intros O [m U] I N Ol Nl Fl D E. destruct (thread_open _ _ _ _ _ O eq_refl) as (p & es & Ep & Oes & U' & Nes). destruct (thread_frames_fun _ _ _ _ _ _ U' U) as [<- Ees].
  destruct t as [r l items e es0]. cbn [pt_ref pt_list pt_items pt_entry pt_frames] in *. subst es0. rewrite Ep. cbn [bind]. clear U. rename U' into U.
  destruct U as (scal & ps & p' & ss & fs & arr & sarr & fa & raw & Hk & Hc & Lp & Os & Oa & Ev & Ef & Fo & He).
  assert (p' = p) as -> by (unfold thread_frames in Ep; rewrite (get_live _ _ _ Hc) in Ep by discriminate; injection Ep as ->; reflexivity).
  destruct I as (_ & I1 & I2 & vs & Ek & Fv). rewrite Ev in Ek, I1, I2. cbn [kids] in Ek. injection Ek as <-. specialize (Nes N).
  rewrite Ef in N, D. inversion N as [|? ? Na N']; subst. apply NoDup_app_inv in N' as (Nfs & N' & D1). apply NoDup_app_inv in N' as (Nfa & _ & D2). rewrite !in_app_iff in Na.
  destruct (frames_named pl libs ls es (gt_frames g) fs' h p (length h) Oes Fv Nes Ol Nl Fl) as (h' & es' & E1 & O1 & A1 & F1 & N1 & T1).
  { intros x Ix. apply D. right. rewrite !in_app_iff. tauto. }
  { exact (HeapListProofs.own_list_bound _ _ _ _ Oes Nes). }
  { exact E. }
  pose proof T1 as (L1 & S1 & Nw1 & Fr1 & Al1).
  assert (Vs : forall x, In x fs -> x < length h) by (intros x; eapply own_strs_valid; exact Os). assert (Va : forall x, In x fa -> x < length h) by (intros x; eapply own_arr_valid; exact Oa).
  assert (La : e_addr e < length h) by (apply nth_error_Some; congruence).
  assert (Hc' : nth_error h' (e_addr e) = Some (CObj KGdbThread scal ps [p] arr raw n)) by (rewrite S1; [exact Hc|exact La|tauto]).
  assert (Os' : own_strs h' ps ss fs) by (eapply own_strs_same; [exact Os|]; intros x Ix; apply S1; [exact (Vs x Ix)|]; intros J; apply (D1 x Ix); rewrite in_app_iff; tauto).
  assert (Oa' : own_arr h' arr sarr fa) by (eapply own_arr_same; [exact Oa|]; intros x Ix; apply S1; [exact (Va x Ix)|]; exact (D2 x Ix)).
  set (e' := (e_addr e, Val scal ss sarr [map e_val es'], e_addr e :: fs ++ fa ++ foot es')).
  exists h', (PT r l items e' es'). cbn [pt_ref pt_list pt_items pt_entry pt_frames]. split; [exact E1|]. split; [repeat split; exact A1|].
  assert (Fo' : Forall (fun f => exists m, own h' KGdbFrame m f) es') by (exact (own_list_each _ _ _ _ O1)).
  split; [|split; [|split; [|split]]].
  - unfold e'. rewrite <- (app_nil_r (foot es')). eapply own_obj; [exact Hc'|exact Lp|exact Os'|exact Oa'|]. cbn [kid_ops]. econstructor; [exact O1|discriminate|constructor].
  - exists scal, ps, p, ss, fs, arr, sarr, fa, raw. unfold e'. cbn [e_addr e_val e_foot fst snd]. split; [exact Hk|]. split; [exact Hc'|]. split; [exact Lp|]. split; [exact Os'|]. split; [exact Oa'|].
    split; [reflexivity|]. split; [reflexivity|]. split; [exact Fo'|]. intros ->. inversion O1. reflexivity.
  - unfold e'. cbn [e_val fst snd]. split; [reflexivity|]. split; [exact I1|]. split; [exact I2|]. exists (map e_val es'). split; [reflexivity|]. exact F1.
  - unfold e'. cbn [e_foot snd]. constructor.
    + rewrite !in_app_iff. intros [I|[I|I]]; try tauto. apply Nw1 in I as [I|I]; [tauto|lia].
    + apply NoDup_app2; [exact Nfs| |].
      * apply NoDup_app2; [exact Nfa|exact N1|]. intros x I J. apply Nw1 in J as [J|J]; [exact (D2 x I J)|specialize (Va x I); lia].
      * intros x I J. rewrite in_app_iff in J. destruct J as [J|J]; [apply (D1 x I); rewrite in_app_iff; tauto|]. apply Nw1 in J as [J|J]; [apply (D1 x I); rewrite in_app_iff; tauto|specialize (Vs x I); lia].
  - rewrite Ef. unfold e'. cbn [e_foot snd]. split; [exact L1|]. split; [|split; [|split]].
    + intros x Lx Nx. cbn [In] in Nx. rewrite !in_app_iff in Nx. apply S1; tauto.
    + intros x. cbn [In]. rewrite !in_app_iff. intros [I|[I|[I|I]]]; try tauto. apply Nw1 in I. tauto.
    + intros x. cbn [In]. rewrite !in_app_iff. intros I Nx. apply Fr1; tauto.
    + intros x Lx. cbn [In]. rewrite !in_app_iff. destruct (Al1 x Lx); tauto.
Qed.

Lemma threads_named pl libs ls : forall ts gs fss h p fuel, own_list h KGdbThread p (map pt_entry ts) -> unlinked_threads h KGdbThread KGdbFrame ts ->
  Forall2 (is_thread KGdbThread) (map e_val (map pt_entry ts)) (map TGdb gs) -> NoDup (foot (map pt_entry ts)) ->
  own_list h KGdbLib pl libs -> NoDup (foot libs) -> Forall2 is_lib (map e_val libs) ls -> (forall x, In x (foot (map pt_entry ts)) -> ~ In x (foot libs)) -> length ts <= fuel ->
  Forall2 (fun g fs => sr_gdb_thread_set_libnames ls (gt_frames g) = Ok fs) gs fss ->
  exists h' ts', threads_libnames fuel h pl p = Ok h' /\ Forall2 same_places ts ts' /\ own_list h' KGdbThread p (map pt_entry ts') /\ unlinked_threads h' KGdbThread KGdbFrame ts' /\
    Forall2 (is_thread KGdbThread) (map e_val (map pt_entry ts')) (map TGdb (map (fun q => set_frames_of (fst q) (snd q)) (combine gs fss))) /\
    NoDup (foot (map pt_entry ts')) /\ turned (foot (map pt_entry ts)) (foot (map pt_entry ts')) h h'.
Proof.
  induction ts as [|t ts IH]; intros gs fss h p fuel O U Fv N Ol Nl Fl D Lf Ff; cbn [map] in O, Fv; inversion O as [|? m ? ? Oe O']; subst; inversion Fv as [|? v ? vs Hv Fv' E1 E2]; subst.
  - destruct gs; [|discriminate]. inversion Ff; subst. exists h, []. split; [destruct fuel; reflexivity|]. split; [constructor|]. split; [constructor|]. split; [constructor|]. split; [constructor|]. split; [constructor|apply turned_nil].
  - destruct gs as [|g gs]; [discriminate|]. cbn [map] in E2. injection E2 as -> ->. inversion Ff as [|? fs ? fss' Hf Ff']; subst. destruct fuel as [|fuel]; [cbn in Lf; lia|].
    inversion U as [|? ? Ut U']; subst. cbn [map] in N, D. rewrite foot_cons in N, D. apply NoDup_app_inv in N as (Ne & Nes & De).
    destruct (thread_named h pl libs ls m t g fs Oe Ut Hv Ne Ol Nl Fl) as (h1 & t1 & Es & P1 & O1 & U1 & I1 & N1 & T1); [intros x Ix; apply D; rewrite in_app_iff; tauto|exact Hf|].
    assert (Vall : forall x, In x (e_foot (pt_entry t) ++ foot (map pt_entry ts)) -> x < length h) by (intros x Ix; rewrite <- foot_cons in Ix; eapply own_list_valid; [exact O|exact Ix]).
    pose proof T1 as (L1 & S1 & _ & _ & _).
    assert (Kr : same_on (foot (map pt_entry ts)) h h1) by (intros x Ix; apply S1; [apply Vall; rewrite in_app_iff; tauto|]; intros J; exact (De x J Ix)).
    assert (Ol1 : own_list h1 KGdbLib pl libs).
    { eapply own_list_same; [exact Ol|]. intros x Ix. apply S1; [eapply own_list_valid; [exact Ol|exact Ix]|]. intros J. apply (D x); [rewrite in_app_iff; tauto|exact Ix]. }
    assert (O1' : own_list h1 KGdbThread m (map pt_entry ts)) by (eapply own_list_same; [exact O'|exact Kr]).
    assert (U1' : unlinked_threads h1 KGdbThread KGdbFrame ts) by (eapply threads_local; [exact U'|exact Kr]).
    destruct (IH gs fss' h1 m fuel O1' U1' Fv' Nes Ol1 Nl Fl) as (h2 & ts2 & E2 & P2 & O2 & U2 & F2 & N2 & T2); [intros x Ix; apply D; rewrite in_app_iff; tauto|cbn in Lf; lia|exact Ff'|].
    destruct (turned_app _ _ _ _ _ _ _ T1 T2 De Vall) as (T & D' & _ & K). assert (A1 : e_addr (pt_entry t1) = e_addr (pt_entry t)) by apply P1.
    exists h2, (t1 :: ts2). split; [|split; [|split; [|split; [|split; [|split]]]]].
    + cbn [threads_libnames]. destruct (thread_frames h (e_addr (pt_entry t))) as [f| |]; cbn [bind] in Es |- *; try discriminate Es. rewrite Es. cbn [bind]. rewrite <- A1. rewrite (own_next_of _ _ _ _ O1). cbn [bind]. exact E2.
    + constructor; assumption.
    + cbn [map]. rewrite <- A1. econstructor; [|exact O2]. eapply own_same; [exact O1|exact K].
    + constructor; [|exact U2]. exists m. eapply unlinked_local; [exact U1|exact K].
    + cbn [map combine fst snd]. constructor; assumption.
    + cbn [map]. rewrite foot_cons. apply NoDup_app2; assumption.
    + cbn [map]. rewrite !foot_cons. exact T.
Qed.
