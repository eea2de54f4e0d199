From Verif Require Import Base HeapModel HeapSpec HeapProofs HeapProofs2 HeapProofs3 HeapListModel HeapListSpec HeapListProofs HeapListProofs3 PyModel PySpec PyProofs PyProofs2 PyProofs3.
Open Scope nat_scope.

(** Memory that differs only in links, and in the lists of the structures at the addresses of [S]. *)
Definition relinked_cell (may : Prop) (c d : cell) : Prop :=
  c = d \/ exists k scal strs ks ks' arr raw n n', c = CObj k scal strs ks arr raw n /\ d = CObj k scal strs ks' arr raw n' /\ (may \/ (ks' = ks)) /\ length ks' = length ks.
Definition relinked (S : list addr) (h h' : heap) : Prop := length h' = length h /\
  forall x c, nth_error h x = Some c -> exists d, nth_error h' x = Some d /\ relinked_cell (In x S) c d.
Lemma relinked_refl S h : relinked S h h.
Proof. split; [reflexivity|]. intros x c H. exists c. split; [exact H|]. left. reflexivity. Qed.
Lemma relinked_trans S a b c : relinked S a b -> relinked S b c -> relinked S a c.
Proof.
  intros [L1 H1] [L2 H2]. split; [congruence|]. intros x u Hu. destruct (H1 x u Hu) as (v & Hv & R1). destruct (H2 x v Hv) as (w & Hw & R2). exists w. split; [exact Hw|].
  destruct R1 as [->|(k & scal & strs & ks & ks' & arr & raw & n & n' & -> & -> & M & Lk)]; [exact R2|].
  destruct R2 as [<-|(k2 & scal2 & strs2 & ks2 & ks2' & arr2 & raw2 & n2 & n2' & E2 & -> & M2 & Lk2)]; right.
  - do 9 eexists. split; [reflexivity|]. split; [reflexivity|]. split; [exact M|exact Lk].
  - injection E2 as -> -> -> -> -> -> ->. do 9 eexists. split; [reflexivity|]. split; [reflexivity|]. split; [|congruence].
    destruct M as [M|M]; [left; exact M|]. destruct M2 as [M2|M2]; [left; exact M2|right; congruence].
Qed.
Lemma relinked_more S T h h' : incl S T -> relinked S h h' -> relinked T h h'.
Proof.
  intros I [L H]. split; [exact L|]. intros x c Hc. destruct (H x c Hc) as (d & Hd & R). exists d. split; [exact Hd|].
  destruct R as [R|(k & scal & strs & ks & ks' & arr & raw & n & n' & E1 & E2 & M & Lk)]; [left; exact R|right].
  exists k, scal, strs, ks, ks', arr, raw, n, n'. split; [exact E1|]. split; [exact E2|]. split; [|exact Lk]. destruct M as [M|M]; [left; apply I; exact M|right; exact M].
Qed.
Lemma relinked_put S h a c d : nth_error h a = Some c -> relinked_cell (In a S) c d -> relinked S h (put h a d).
Proof.
  intros Hc R. split; [apply put_length|]. intros x u Hu. destruct (Nat.eq_dec x a) as [->|Nx].
  - exists d. split; [apply put_same; apply nth_error_Some; congruence|]. congruence.
  - exists u. split; [rewrite put_other by auto; exact Hu|left; reflexivity].
Qed.
Lemma get_inv h a c : get h a = Ok c -> nth_error h a = Some c.
Proof. unfold get. destruct (nth_error h a) as [[]|]; intros E; try discriminate E; injection E as <-; reflexivity. Qed.
Lemma set_cell_inv h a d h' : set_cell h a d = Ok h' -> h' = put h a d.
Proof. unfold set_cell. destruct (get h a); cbn [bind]; intros E; try discriminate E. injection E as <-. reflexivity. Qed.
Lemma set_next_relinked S h a n h' : set_next h a n = Ok h' -> relinked S h h'.
Proof.
  unfold set_next. destruct (get h a) as [c| |] eqn:E; cbn [bind]; try discriminate. destruct c as [| | |k scal strs ks arr raw n0]; try discriminate. intros H.
  apply set_cell_inv in H as ->. eapply relinked_put; [apply get_inv; exact E|]. right. do 9 eexists. split; [reflexivity|]. split; [reflexivity|]. split; [right; reflexivity|reflexivity].
Qed.
Lemma set_frames_relinked S h a p h' : In a S -> set_frames h a p = Ok h' -> relinked S h h'.
Proof.
  intros Ia. unfold set_frames. destruct (get h a) as [c| |] eqn:E; cbn [bind]; try discriminate. destruct c as [| | |k scal strs [|q ks] arr raw n0]; try discriminate. intros H.
  apply set_cell_inv in H as ->. eapply relinked_put; [apply get_inv; exact E|]. right. do 9 eexists. split; [reflexivity|]. split; [reflexivity|]. split; [left; exact Ia|reflexivity].
Qed.
Lemma set_gdb_threads_relinked S h a p h' : In a S -> set_gdb_threads h a p = Ok h' -> relinked S h h'.
Proof.
  intros Ia. unfold set_gdb_threads. destruct (get h a) as [c| |] eqn:E; cbn [bind]; try discriminate. destruct c as [| | |k scal strs ks arr raw n0]; try discriminate.
  destruct k; try discriminate. destruct ks as [|k1 [|k2 [|k3 [|]]]]; try discriminate. intros H.
  apply set_cell_inv in H as ->. eapply relinked_put; [apply get_inv; exact E|]. right. do 9 eexists. split; [reflexivity|]. split; [reflexivity|]. split; [left; exact Ia|reflexivity].
Qed.
Lemma set_libs_relinked S h a p h' : In a S -> set_libs h a p = Ok h' -> relinked S h h'.
Proof.
  intros Ia. unfold set_libs. destruct (get h a) as [c| |] eqn:E; cbn [bind]; try discriminate. destruct c as [| | |k scal strs ks arr raw n0]; try discriminate.
  destruct k; try discriminate. destruct ks as [|k1 [|k2 [|k3 [|]]]]; try discriminate. intros H.
  apply set_cell_inv in H as ->. eapply relinked_put; [apply get_inv; exact E|]. right. do 9 eexists. split; [reflexivity|]. split; [reflexivity|]. split; [left; exact Ia|reflexivity].
Qed.

Definition live (os : objects) (r : ref) : Prop := exists b, alive os r b.
Lemma live_more os os' r : more os os' -> live os r -> live os' r.
Proof. intros M [b A]. exists b. eapply alive_more; eassumption. Qed.
Section Loop.
  Variables (S : list addr) (os0 : objects) (k : kind) (each : state -> ref -> res (state * bool)) (first : heap -> addr -> res heap) (oe : bool).
  Hypothesis first_ok : forall h a h', first h a = Ok h' -> relinked S h h'.
  Lemma loop_relinked : forall items q os h st,
    (forall item os h st, In item items -> more os0 os -> each (St os h) item = Ok (st, true) -> objs st = os /\ relinked S h (mem st)) ->
    more os0 os -> Forall (live os0) (q :: items) -> NoDup (q :: items) ->
    link_loop k each first oe items (Some q) (St (bump os q) h) = Ok (st, true) -> objs st = os /\ relinked S h (mem st).
  Proof.
    induction items as [|r items IH]; intros q os h st Each M A N E; inversion A as [|? ? Aq A']; subst; apply (live_more _ _ _ M) in Aq as [bq Aq].
    - cbn [link_loop] in E. destruct (wrapped (St (bump os q) h) q) as [c| |]; cbn [bind] in E; try discriminate E. cbn [mem] in E.
      destruct (set_next h c None) as [h1| |] eqn:E1; cbn [bind] in E; try discriminate E. unfold with_mem in E. cbn [objs] in E. rewrite (decref_bump os h1 q bq Aq) in E. cbn [bind] in E.
      injection E as <-. split; [reflexivity|]. eapply set_next_relinked; exact E1.
    - inversion A' as [|? ? Ar A'']; subst. pose proof Ar as Ar0. apply (live_more _ _ _ M) in Ar as [br Ar]. inversion N as [|? ? Nq N']; subst.
      assert (Nqr : q <> r) by (intros ->; apply Nq; left; reflexivity).
      cbn [link_loop] in E. pose proof (alive_more _ _ _ _ (bump_more os q) Ar) as [m1 H1].
      rewrite (incref_ok (St (bump os q) h) r _ _ H1) in E. cbn [objs mem bind] in E. set (os2 := bump (bump os q) r) in *.
      destruct (has_type (St os2 h) r k) as [ok| |]; cbn [bind] in E; try discriminate E. destruct ok.
      2:{ exfalso. revert E. destruct (decref_opt (St os2 h) (if oe then Some r else Some q)) as [s1| |]; cbn [bind]; try discriminate. destruct (decref_opt s1 (Some q)) as [s2| |]; cbn [bind]; discriminate. }
      destruct (each (St os2 h) r) as [[st1 ok]| |] eqn:E1; cbn [bind] in E; try discriminate E. destruct ok; [|discriminate E].
      destruct (Each r os2 h st1 (or_introl eq_refl)) as [Eo R1]; [eapply more_trans; [exact M|eapply more_trans; apply bump_more]|exact E1|]. destruct st1 as [o1 h1]. cbn [objs mem] in *. subst o1.
      destruct (wrapped (St os2 h1) r) as [c| |]; cbn [bind] in E; try discriminate E. destruct (wrapped (St os2 h1) q) as [d| |]; cbn [bind] in E; try discriminate E. cbn [mem] in E.
      destruct (set_next h1 d (Some c)) as [h2| |] eqn:E2; cbn [bind] in E; try discriminate E. unfold with_mem in E. cbn [objs decref_opt] in E.
      assert (Eos : os2 = bump (bump os r) q) by (apply bump_swap; exact Nqr). rewrite Eos in E.
      rewrite (decref_bump (bump os r) h2 q bq) in E by (eapply alive_more; [apply bump_more|exact Aq]). cbn [bind] in E.
      destruct (IH r os h2 st) as [Ho R3]; [intros; eapply Each; [right; eassumption|eassumption|eassumption]|exact M|constructor; assumption|exact N'|exact E|].
      split; [exact Ho|]. eapply relinked_trans; [exact R1|]. eapply relinked_trans; [eapply set_next_relinked; exact E2|exact R3].
  Qed.
  Lemma loop_all_relinked items os h st :
    (forall item os h st, In item items -> more os0 os -> each (St os h) item = Ok (st, true) -> objs st = os /\ relinked S h (mem st)) ->
    more os0 os -> Forall (live os0) items -> NoDup items ->
    link_loop k each first oe items None (St os h) = Ok (st, true) -> objs st = os /\ relinked S h (mem st).
  Proof.
    intros Each M A N E. destruct items as [|r items].
    - cbn [link_loop] in E. injection E as <-. split; [reflexivity|apply relinked_refl].
    - inversion A as [|? ? Ar A']; subst. pose proof Ar as Ar0. apply (live_more _ _ _ M) in Ar as [br [mr Ar]].
      cbn [link_loop] in E. rewrite (incref_ok (St os h) r _ _ Ar) in E. cbn [objs mem bind] in E.
      destruct (has_type (St (bump os r) h) r k) as [ok| |]; cbn [bind] in E; try discriminate E. destruct ok.
      2:{ exfalso. revert E. destruct (decref_opt (St (bump os r) h) (if oe then Some r else None)) as [s1| |]; cbn [bind]; try discriminate. }
      destruct (each (St (bump os r) h) r) as [[st1 ok]| |] eqn:E1; cbn [bind] in E; try discriminate E. destruct ok; [|discriminate E].
      destruct (Each r (bump os r) h st1 (or_introl eq_refl)) as [Eo R1]; [eapply more_trans; [exact M|apply bump_more]|exact E1|]. destruct st1 as [o1 h1]. cbn [objs mem] in *. subst o1.
      destruct (wrapped (St (bump os r) h1) r) as [c| |]; cbn [bind] in E; try discriminate E. cbn [mem] in E.
      destruct (first h1 c) as [h2| |] eqn:E2; cbn [bind] in E; try discriminate E. unfold with_mem in E. cbn [objs decref_opt bind] in E.
      destruct (loop_relinked items r os h2 st) as [Ho R3]; [intros; eapply Each; [right; eassumption|eassumption|eassumption]|exact M|constructor; assumption|exact N|exact E|].
      split; [exact Ho|]. eapply relinked_trans; [exact R1|]. eapply relinked_trans; [eapply first_ok; exact E2|exact R3].
  Qed.
End Loop.

Lemma frames_relinked S os r tk fk t c0 h st : frame_kind tk = Some fk -> c0 = e_addr (pt_entry t) ->
  alive os r (PyStruct tk c0 [Some (pt_list t)]) -> py_list os (pt_list t) fk (pt_items t) (pt_frames t) -> NoDup (pt_items t) ->
  (pt_items t <> [] -> In c0 S) -> frames_prepare (St os h) r = Ok (st, true) -> objs st = os /\ relinked S h (mem st).
Proof.
  intros Hk _ [m Hr] [[ml Hl] Fi] N Hs E. unfold frames_prepare in E. rewrite (obj_ok (St os h) r _ _ Hr) in E. cbn [bind] in E. rewrite Hk in E. unfold items_of in E.
  rewrite (obj_ok (St os h) _ _ _ Hl) in E. cbn [bind] in E.
  destruct (pt_items t) as [|i its] eqn:Ei; [cbn [link_loop] in E; injection E as <-; split; [reflexivity|apply relinked_refl]|].
  eapply (loop_all_relinked S os fk nothing _ true); [| | | | |exact E].
  - intros h1 a h2. apply set_frames_relinked. apply Hs. discriminate.
  - intros item os1 h1 st1 _ _ E1. unfold nothing in E1. injection E1 as <-. split; [reflexivity|apply relinked_refl].
  - apply more_refl.
  - clear - Fi. induction Fi as [|x y l k H F IH]; constructor; [eexists; exact H|exact IH].
  - exact N.
Qed.

Lemma thread_lists_relinked S os os' lt ts h r c ll at_ st : py_threads os lt KGdbThread KGdbFrame ts -> more os os' -> NoDup (map pt_ref ts) ->
  Forall (fun t => NoDup (pt_items t)) ts -> Forall (fun t => pt_items t <> [] -> In (e_addr (pt_entry t)) S) ts -> In c S ->
  alive os' r (PyStruct KGdbStack c (Some lt :: Some ll :: at_)) -> threads_prepare (St os' h) r = Ok (st, true) -> objs st = os' /\ relinked S h (mem st).
Proof.
  intros [Al Ft] M N Ni Hs Hc [m Hr] E. unfold threads_prepare in E. rewrite (obj_ok (St os' h) r _ _ Hr) in E. cbn [bind thread_type] in E. unfold items_of in E.
  destruct (alive_more _ _ _ _ M Al) as [ml Hl]. rewrite (obj_ok (St os' h) lt _ _ Hl) in E. cbn [bind] in E.
  eapply (loop_all_relinked S os' KGdbThread frames_prepare _ false); [| | | | |exact E].
  - intros h1 a h2. cbn [set_threads]. apply set_gdb_threads_relinked. exact Hc.
  - intros item os1 h1 st1 Ii M1 E1. apply in_map_iff in Ii as (t & <- & It). rewrite Forall_forall in Ft, Ni, Hs. destruct (Ft t It) as [At Lt].
    assert (M2 : more os os1) by (eapply more_trans; eassumption).
    eapply (frames_relinked S os1 (pt_ref t) KGdbThread KGdbFrame t (e_addr (pt_entry t))); [reflexivity|reflexivity|eapply alive_more; eassumption| |exact (Ni t It)|exact (Hs t It)|exact E1].
    destruct Lt as [L1 L2]. split; [eapply alive_more; eassumption|]. clear - L2 M2. induction L2 as [|x y l k H F IH]; constructor; [eapply alive_more; eassumption|exact IH].
  - apply more_refl.
  - apply Forall_forall. intros x Ix. apply in_map_iff in Ix as (t & <- & It). rewrite Forall_forall in Ft. destruct (Ft t It) as [At _]. eexists. eapply alive_more; eassumption.
  - exact N.
Qed.
Lemma gdb_relinked S os lt ts h r c ll at_ items libs st : py_threads os lt KGdbThread KGdbFrame ts -> NoDup (map pt_ref ts) ->
  Forall (fun t => NoDup (pt_items t)) ts -> Forall (fun t => pt_items t <> [] -> In (e_addr (pt_entry t)) S) ts -> In c S -> py_list os ll KGdbLib items libs -> NoDup items ->
  alive os r (PyStruct KGdbStack c (Some lt :: Some ll :: at_)) -> gdb_prepare (St os h) r = Ok (st, true) -> objs st = os /\ relinked S h (mem st).
Proof.
  intros T N Ni Hs Hc [[mll Hll] Fi] Nl A E. unfold gdb_prepare in E. destruct (threads_prepare (St os h) r) as [[st1 ok]| |] eqn:E1; cbn [bind] in E; try discriminate E. destruct ok; [|discriminate E].
  destruct (thread_lists_relinked S os os lt ts h r c ll at_ st1 T (more_refl os) N Ni Hs Hc A E1) as [Eo R1]. destruct st1 as [o1 h1]. cbn [objs mem] in *. subst o1.
  destruct A as [m Hr]. rewrite (obj_ok (St os h1) r _ _ Hr) in E. cbn [bind] in E. unfold items_of in E. rewrite (obj_ok (St os h1) ll _ _ Hll) in E. cbn [bind] in E.
  destruct (loop_all_relinked S os KGdbLib nothing (fun h a => set_libs h c (Some a)) false) with (items := items) (os := os) (h := h1) (st := st) as [Eo R2]; [| | | |exact Nl|exact E|].
  - intros h2 a h3. apply set_libs_relinked. exact Hc.
  - intros item os1 h2 st1 _ _ E2. unfold nothing in E2. injection E2 as <-. split; [reflexivity|apply relinked_refl].
  - apply more_refl.
  - clear - Fi. induction Fi as [|x y l k H F IH]; constructor; [eexists; exact H|exact IH].
  - split; [exact Eo|]. eapply relinked_trans; eassumption.
Qed.

(** Strings, arrays, frames and threads survive relinking. *)
Lemma relinked_plain S h h' x c : relinked S h h' -> nth_error h x = Some c -> (forall k scal strs ks arr raw n, c <> CObj k scal strs ks arr raw n) -> nth_error h' x = Some c.
Proof. intros [_ R] H N. destruct (R x c H) as (d & Hd & [->|(k & scal & strs & ks & ks' & arr & raw & n & n' & -> & _)]); [exact Hd|]. destruct (N k scal strs ks arr raw n eq_refl). Qed.
Lemma relinked_strs S h h' : relinked S h h' -> forall ps ss f, own_strs h ps ss f -> own_strs h' ps ss f.
Proof. intros R ps ss f O. induction O as [|ps ss f O IH|a s ps ss f H O IH]; constructor; try assumption. eapply relinked_plain; [exact R|exact H|discriminate]. Qed.
Lemma relinked_arr S h h' p ss f : relinked S h h' -> own_arr h p ss f -> own_arr h' p ss f.
Proof.
  intros R O. destruct O as [|a items ss H F]; [constructor|]. constructor; [eapply relinked_plain; [exact R|exact H|discriminate]|].
  clear H. induction F as [|i s l m Hi F IH]; constructor; [|exact IH]. eapply relinked_plain; [exact R|exact Hi|discriminate].
Qed.
Lemma relinked_leaf S h h' k n e : relinked S h h' -> kid_ops k = [] -> own h k n e -> exists m, own h' k m e.
Proof.
  intros R K O. destruct (own_inv _ _ _ _ O) as (scal & ps & ss & fs & ks & vss & fk & arr & sarr & fa & raw & Ev & Ef & Hc & Lp & Os & Oa & Ok'). rewrite K in Ok'. inversion Ok'; subst.
  pose proof R as [_ R']. destruct (R' _ _ Hc) as (d & Hd & Rc).
  assert (exists m, nth_error h' (e_addr e) = Some (CObj k scal ps [] arr raw m)) as [m Hm].
  { destruct Rc as [<-|(k1 & scal1 & strs1 & ks1 & ks1' & arr1 & raw1 & n1 & n1' & E1 & -> & M & L)]; [exists n; exact Hd|].
    injection E1 as <- <- <- <- <- <- <-. exists n1'. rewrite Hd. destruct ks1'; [reflexivity|discriminate L]. }
  exists m. destruct e as [[a v] f]. cbn [e_addr e_val e_foot fst snd] in *. subst v f. eapply own_obj; [exact Hm|exact Lp|eapply relinked_strs; eassumption|eapply relinked_arr; eassumption|].
  rewrite K. constructor.
Qed.
Lemma relinked_thread S h h' n e es : relinked S h h' -> unlinked_thread h KGdbThread KGdbFrame n e es -> (es = [] -> ~ In (e_addr e) S) -> exists m, unlinked_thread h' KGdbThread KGdbFrame m e es.
Proof.
  intros R (scal & ps & p & ss & fs & arr & sarr & fa & raw & Hk & Hc & Lp & Os & Oa & Ev & Ef & Fo & He) Hs.
  pose proof R as [_ R']. destruct (R' _ _ Hc) as (d & Hd & Rc).
  assert (exists p' m, nth_error h' (e_addr e) = Some (CObj KGdbThread scal ps [p'] arr raw m) /\ (es = [] -> p' = None)) as (p' & m & Hm & He').
  { destruct Rc as [<-|(k1 & scal1 & strs1 & ks1 & ks1' & arr1 & raw1 & n1 & n1' & E1 & -> & M & L)]; [exists p, n; split; [exact Hd|exact He]|].
    injection E1 as <- <- <- <- <- <- <-. destruct ks1' as [|p' [|]]; try discriminate L. exists p', n1'. split; [exact Hd|]. intros E.
    destruct M as [M|M]; [destruct (Hs E M)|]. injection M as ->. exact (He E). }
  exists m, scal, ps, p', ss, fs, arr, sarr, fa, raw. split; [exact Hk|]. split; [exact Hm|]. split; [exact Lp|]. split; [eapply relinked_strs; eassumption|]. split; [eapply relinked_arr; eassumption|].
  split; [exact Ev|]. split; [exact Ef|]. split; [|exact He']. rewrite Forall_forall in *. intros f If. destruct (Fo f If) as [m1 O1]. eapply relinked_leaf; [exact R|reflexivity|exact O1].
Qed.

Lemma map_injective {A B} (f : A -> B) : forall l x y, NoDup (map f l) -> In x l -> In y l -> f x = f y -> x = y.
Proof.
  induction l as [|a l IH]; intros x y N Hx Hy E; [destruct Hx|]. cbn [map] in N. inversion N as [|? ? Na N']; subst. destruct Hx as [->|Hx], Hy as [->|Hy]; [reflexivity| | |apply IH; assumption].
  - destruct Na. rewrite E. apply in_map. exact Hy.
  - destruct Na. rewrite <- E. apply in_map. exact Hx.
Qed.
Lemma thread_refs_distinct os lt tk fk ts : py_threads os lt tk fk ts -> NoDup (map (fun t => e_addr (pt_entry t)) ts) -> NoDup (map pt_ref ts).
Proof.
  intros [_ F] N. revert N. induction F as [|t ts [[m H] _] F IH]; intros N; cbn [map] in *; constructor; inversion N as [|? ? Na N']; subst; [|apply IH; exact N'].
  intros I. apply Na. apply in_map_iff in I as (u & E & Iu). rewrite Forall_forall in F. destruct (F u Iu) as [[mu Hu] _]. rewrite E in Hu.
  destruct (object_fun _ _ _ _ _ _ H Hu) as [_ Eb]. injection Eb as Eb _. rewrite Eb. apply (in_map (fun t => e_addr (pt_entry t))). exact Iu.
Qed.

Lemma gdb_prepare_again os h r n e lt ll ts items libs at_ :
  alive os r (PyStruct KGdbStack (e_addr e) (Some lt :: Some ll :: at_)) -> py_threads os lt KGdbThread KGdbFrame ts -> py_list os ll KGdbLib items libs ->
  unlinked_gdb h n e ts libs -> NoDup (e_foot e) ->
  exists h', gdb_prepare (St os h) r = Ok (St os h', true) /\ linked_gdb h' n e (map pt_entry ts) libs /\ unlinked_threads h' KGdbThread KGdbFrame ts /\
    same_outside (e_addr e :: threads_cells ts ++ map e_addr libs) h h' /\ length h' = length h.
Proof.
  intros A T P U N. destruct (gdb_prepare_all _ _ _ _ _ _ _ _ _ _ _ A T P U N) as (h' & E & Ln & Sm & L). exists h'. split; [exact E|]. split; [exact Ln|]. split; [|split; assumption].
  destruct U as (scal & pc & p & pl & crash & arr & sarr & fa & raw & Hc & Oa & Oc & Lc & Ev & Ef & U & He & Fo & Hel).
  rewrite Ef in N. inversion N as [|? ? Na N']; subst. apply NoDup_app_inv in N' as (Nfa & N' & D0). apply NoDup_app_inv in N' as (Nc & N' & D1). apply NoDup_app_inv in N' as (Nt & Nl & D2).
  rewrite !in_app_iff in Na. pose proof (threads_distinct _ _ _ _ U Nt) as Nad.
  set (filled := fun t => match pt_frames t with [] => false | _ => true end).
  set (S := e_addr e :: map (fun t => e_addr (pt_entry t)) (filter filled ts)).
  assert (Ti := T). destruct Ti as [_ Ft].
  destruct (gdb_relinked S os lt ts h r (e_addr e) ll at_ items libs (St os h') T (thread_refs_distinct _ _ _ _ _ T Nad)) as [_ R].
  - rewrite Forall_forall in *. intros t It. destruct (Ft t It) as [_ [_ Fi]]. unfold unlinked_threads in U. rewrite Forall_forall in U. destruct (U t It) as [m Ut].
    eapply (distinct_items os KGdbFrame (fun _ => [])); [exact Fi|]. destruct Ut as (s1 & s2 & s3 & s4 & s5 & s6 & s7 & s8 & s9 & _ & _ & _ & _ & _ & _ & Eft & Fot & _).
    eapply addrs_distinct; [exact Fot|]. assert (Nte : NoDup (e_foot (pt_entry t))).
    { clear - Nt It. induction ts as [|u ts IH]; [destruct It|]. cbn [map] in Nt. rewrite foot_cons in Nt. apply NoDup_app_inv in Nt as (N1 & N2 & _). destruct It as [->|It]; [exact N1|exact (IH N2 It)]. }
    rewrite Eft in Nte. inversion Nte as [|? ? _ N1]; subst. apply NoDup_app_inv in N1 as (_ & N1 & _). apply NoDup_app_inv in N1 as (_ & N1 & _). exact N1.
  - rewrite Forall_forall in *. intros t It Ne. right. apply in_map_iff. exists t. split; [reflexivity|]. apply filter_In. split; [exact It|]. destruct (Ft t It) as [_ [_ Fi]]. unfold filled.
    destruct (pt_frames t); [inversion Fi; congruence|reflexivity].
  - left. reflexivity.
  - exact P.
  - destruct P as [_ Fi]. eapply (distinct_items os KGdbLib (fun _ => [])); [exact Fi|]. eapply addrs_distinct; eassumption.
  - exact A.
  - exact E.
  - unfold unlinked_threads in *. rewrite Forall_forall in *. intros t It. destruct (U t It) as [m Ut]. eapply relinked_thread; [exact R|exact Ut|]. intros Ee [I|I].
    + apply Na. right. right. left. rewrite I. eapply in_foot; [apply in_map; exact It|]. eapply unlinked_addr. exact Ut.
    + apply in_map_iff in I as (u & Eu & Iu). apply filter_In in Iu as [Iu Fu]. pose proof (map_injective _ _ _ _ Nad Iu It Eu) as ->. unfold filled in Fu. rewrite Ee in Fu. discriminate Fu.
Qed.
