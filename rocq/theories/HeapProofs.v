From Verif Require Import Base HeapModel HeapSpec.

(** ** Cells *)
Lemma put_length : forall h a c, length (put h a c) = length h.
Proof. induction h as [|x h IH]; intros [|a] c; cbn; try reflexivity. now rewrite IH. Qed.
Lemma put_same : forall h a c, a < length h -> nth_error (put h a c) a = Some c.
Proof. induction h as [|x h IH]; intros [|a] c Ha; cbn in *; try lia; [reflexivity|apply IH; lia]. Qed.
Lemma put_other : forall h a c x, x <> a -> nth_error (put h a c) x = nth_error h x.
Proof.
  induction h as [|y h IH]; intros [|a] c [|x] Hx; cbn in *; try reflexivity; try lia; apply IH; lia.
Qed.
Lemma live_lt : forall (h : heap) a c, nth_error h a = Some c -> a < length h.
Proof. intros h a c H. apply nth_error_Some. rewrite H. discriminate. Qed.
Lemma get_live : forall h a c, nth_error h a = Some c -> c <> CFree -> get h a = Ok c.
Proof. intros h a c H Hc. unfold get. rewrite H. destruct c; congruence. Qed.
Lemma set_live : forall h a c c', nth_error h a = Some c -> c <> CFree -> set_cell h a c' = Ok (put h a c').
Proof. intros h a c c' H Hc. unfold set_cell. rewrite (get_live _ _ _ H Hc). reflexivity. Qed.

(** ** Footprints *)
Scheme own_ind2 := Induction for own Sort Prop
  with own_kids_ind2 := Induction for own_kids Sort Prop
  with own_list_ind2 := Induction for own_list Sort Prop.
Combined Scheme own_mut from own_ind2, own_kids_ind2, own_list_ind2.

Lemma foot_cons : forall e l, foot (e :: l) = e_foot e ++ foot l.
Proof. reflexivity. Qed.
Lemma foot_app : forall l1 l2, foot (l1 ++ l2) = foot l1 ++ foot l2.
Proof. intros. unfold foot. now rewrite map_app, concat_app. Qed.

Lemma own_strs_same : forall h h' ps ss f, own_strs h ps ss f -> same_on f h h' -> own_strs h' ps ss f.
Proof.
  intros h h' ps ss f H. induction H; intro S; constructor.
  - apply IHown_strs. exact S.
  - rewrite S by (left; reflexivity). assumption.
  - apply IHown_strs. intros x Hx. apply S. right. exact Hx.
Qed.
Lemma own_arr_same : forall h h' p ss f, own_arr h p ss f -> same_on f h h' -> own_arr h' p ss f.
Proof.
  intros h h' p ss f H S. destruct H as [|a items ss Ha F]; constructor.
  - rewrite S by (left; reflexivity). exact Ha.
  - assert (S' : same_on items h h') by (intros x Hx; apply S; right; exact Hx).
    clear - F S'. induction F as [|i s items ss Hi F IH]; constructor.
    + rewrite S' by (left; reflexivity). exact Hi.
    + apply IH. intros x Hx. apply S'. right. exact Hx.
Qed.
Lemma same_on_app : forall l1 l2 h h', same_on (l1 ++ l2) h h' <-> same_on l1 h h' /\ same_on l2 h h'.
Proof.
  intros. split.
  - intro S. split; intros x Hx; apply S, in_or_app; [now left|now right].
  - intros [S1 S2] x Hx. apply in_app_or in Hx. destruct Hx; [now apply S1|now apply S2].
Qed.
Lemma same_on_cons : forall a l h h', same_on (a :: l) h h' <-> nth_error h' a = nth_error h a /\ same_on l h h'.
Proof.
  intros. split.
  - intro S. split; [apply S; now left|intros x Hx; apply S; now right].
  - intros [S1 S2] x [->|Hx]; [exact S1|now apply S2].
Qed.

Lemma own_same_all : forall h h',
  (forall k n e, own h k n e -> same_on (e_foot e) h h' -> own h' k n e) /\
  (forall ops ps vss f, own_kids h ops ps vss f -> same_on f h h' -> own_kids h' ops ps vss f) /\
  (forall k p l, own_list h k p l -> same_on (foot l) h h' -> own_list h' k p l).
Proof.
  intros h h'. apply own_mut; intros.
  - cbn [e_foot snd] in H0. apply same_on_cons in H0. destruct H0 as [E S].
    apply same_on_app in S. destruct S as [S1 S]. apply same_on_app in S. destruct S as [S2 S3].
    econstructor; [rewrite E; eassumption|eassumption|eapply own_strs_same; eassumption
                  |eapply own_arr_same; eassumption|auto].
  - constructor.
  - apply same_on_app in H1. destruct H1. constructor; auto.
  - constructor.
  - rewrite foot_cons in H1. apply same_on_app in H1. destruct H1. econstructor; eauto.
Qed.
Lemma own_same : forall h h' k n e, own h k n e -> same_on (e_foot e) h h' -> own h' k n e.
Proof. intros h h'. apply (own_same_all h h'). Qed.
Lemma own_kids_same : forall h h' ops ps vss f, own_kids h ops ps vss f -> same_on f h h' -> own_kids h' ops ps vss f.
Proof. intros h h'. apply (own_same_all h h'). Qed.
Lemma own_list_same : forall h h' k p l, own_list h k p l -> same_on (foot l) h h' -> own_list h' k p l.
Proof. intros h h'. apply (own_same_all h h'). Qed.

Lemma own_strs_valid : forall h ps ss f, own_strs h ps ss f -> forall x, In x f -> x < length h.
Proof.
  intros h ps ss f H. induction H; intros x Hx.
  - destruct Hx.
  - now apply IHown_strs.
  - destruct Hx as [<-|Hx]; [eapply live_lt; eassumption|now apply IHown_strs].
Qed.
Lemma own_arr_valid : forall h p ss f, own_arr h p ss f -> forall x, In x f -> x < length h.
Proof.
  intros h p ss f H. destruct H as [|a items ss Ha F]; intros x Hx; [destruct Hx|].
  destruct Hx as [<-|Hx]; [eapply live_lt; eassumption|]. clear Ha.
  induction F as [|i s items ss Hi F IH]; [destruct Hx|].
  destruct Hx as [<-|Hx]; [eapply live_lt; eassumption|auto].
Qed.
Lemma own_valid_all : forall h,
  (forall k n e, own h k n e -> forall x, In x (e_foot e) -> x < length h) /\
  (forall ops ps vss f, own_kids h ops ps vss f -> forall x, In x f -> x < length h) /\
  (forall k p l, own_list h k p l -> forall x, In x (foot l) -> x < length h).
Proof.
  intros h. apply own_mut; intros.
  - cbn [e_foot snd] in H0. destruct H0 as [<-|H0]; [eapply live_lt; eassumption|].
    apply in_app_or in H0. destruct H0 as [H0|H0]; [eapply own_strs_valid; eassumption|].
    apply in_app_or in H0. destruct H0 as [H0|H0]; [eapply own_arr_valid; eassumption|auto].
  - destruct H.
  - apply in_app_or in H1. destruct H1; auto.
  - destruct H.
  - rewrite foot_cons in H1. apply in_app_or in H1. destruct H1; auto.
Qed.
Lemma own_list_valid : forall h k p l, own_list h k p l -> forall x, In x (foot l) -> x < length h.
Proof. intros h. apply (own_valid_all h). Qed.
Lemma own_valid : forall h k n e, own h k n e -> forall x, In x (e_foot e) -> x < length h.
Proof. intros h. apply (own_valid_all h). Qed.
Lemma own_kids_valid : forall h ops ps vss f, own_kids h ops ps vss f -> forall x, In x f -> x < length h.
Proof. intros h. apply (own_valid_all h). Qed.

(** ** Growing memory *)
Definition ext (h h' : heap) : Prop :=
  length h <= length h' /\ forall x, x < length h -> nth_error h' x = nth_error h x.
Definition fresh (h h' : heap) (f : list addr) : Prop :=
  NoDup f /\ forall x, In x f <-> length h <= x < length h'.
Lemma ext_refl : forall h, ext h h.
Proof. split; auto. Qed.
Lemma ext_trans : forall h1 h2 h3, ext h1 h2 -> ext h2 h3 -> ext h1 h3.
Proof. intros h1 h2 h3 [L1 E1] [L2 E2]. split; [lia|]. intros x Hx. rewrite E2 by lia. auto. Qed.
Lemma ext_alloc : forall h c, ext h (h ++ [c]).
Proof.
  intros h c. split; [rewrite app_length; cbn; lia|]. intros x Hx. now rewrite nth_error_app1.
Qed.
Lemma alloc_at : forall (h : heap) c, nth_error (h ++ [c]) (length h) = Some c.
Proof. intros. rewrite nth_error_app2, Nat.sub_diag by lia. reflexivity. Qed.
Lemma ext_same_on : forall h h' f, ext h h' -> (forall x, In x f -> x < length h) -> same_on f h h'.
Proof. intros h h' f [_ E] V x Hx. apply E, V, Hx. Qed.
Lemma NoDup_app2 : forall (A : Type) (l1 l2 : list A),
  NoDup l1 -> NoDup l2 -> (forall x, In x l1 -> ~ In x l2) -> NoDup (l1 ++ l2).
Proof.
  intros A l1 l2 H1 H2 D. induction H1 as [|x l1 Hx H1 IH]; [exact H2|]. cbn. constructor.
  - intro I. apply in_app_or in I. destruct I as [I|I]; [contradiction|]. exact (D x (or_introl eq_refl) I).
  - apply IH. intros y Hy. apply D. now right.
Qed.
Lemma NoDup_app_inv : forall (A : Type) (l1 l2 : list A),
  NoDup (l1 ++ l2) -> NoDup l1 /\ NoDup l2 /\ (forall x, In x l1 -> ~ In x l2).
Proof.
  intros A l1 l2. induction l1 as [|a l1 IH]; cbn; intro H.
  - repeat split; [constructor|exact H|intros x []].
  - inversion H as [|? ? Ha Hl]; subst. destruct (IH Hl) as (N1 & N2 & D). repeat split.
    + constructor; [|exact N1]. intro I. apply Ha, in_or_app. now left.
    + exact N2.
    + intros x [<-|Hx]; [|now apply D]. intro I. apply Ha, in_or_app. now right.
Qed.
Lemma fresh_nil : forall h, fresh h h [].
Proof. split; [constructor|]. intro x. cbn. lia. Qed.
Lemma fresh_app : forall h1 h2 h3 f1 f2, length h1 <= length h2 <= length h3 ->
  fresh h1 h2 f1 -> fresh h2 h3 f2 -> fresh h1 h3 (f1 ++ f2).
Proof.
  intros h1 h2 h3 f1 f2 L [N1 R1] [N2 R2]. split.
  - apply NoDup_app2; auto. intros x H1 H2. apply R1 in H1. apply R2 in H2. lia.
  - intros x. rewrite in_app_iff, R1, R2. lia.
Qed.

(** ** Copying *)
Lemma g_strdup_ok : forall h a s, nth_error h a = Some (CStr s) ->
  g_strdup h (Some a) = Ok (h ++ [CStr s], Some (length h)).
Proof.
  intros h a s H. unfold g_strdup, get_str. rewrite (get_live _ _ _ H) by discriminate. reflexivity.
Qed.
Definition all_dup (ops : list (bool * bool)) : bool := forallb fst ops.
Definition all_free (ops : list (bool * bool)) : bool := forallb snd ops.
Lemma dup_strs_ok : forall ps ss f h ops, own_strs h ps ss f -> length ps = length ops -> all_dup ops = true ->
  exists h' qs f', dup_strs h ops ps = Ok (h', qs) /\ ext h h' /\ length qs = length ps /\
    own_strs h' qs ss f' /\ fresh h h' f'.
Proof.
  induction ps as [|p ps IH]; intros ss f h [|[d fr] ops] H L D; try discriminate L.
  - inversion H; subst. exists h, [], []. split; [reflexivity|]. split; [apply ext_refl|].
    split; [reflexivity|]. split; [constructor|apply fresh_nil].
  - injection L as L. cbn in D. apply andb_true_iff in D. destruct D as [D1 D2]. cbn in D1. subst d.
    cbn [dup_strs]. inversion H as [|? ? ? H'|a s ? ? f0 Ha H']; subst.
    + cbn [g_strdup bind].
      destruct (IH _ _ h ops H' L D2) as (h' & qs & f' & E & X & Lq & O & F).
      rewrite E. cbn [bind]. exists h', (None :: qs), f'. split; [reflexivity|]. split; [exact X|].
      split; [cbn; lia|]. split; [constructor; exact O|exact F].
    + rewrite (g_strdup_ok _ _ _ Ha). cbn [bind].
      assert (H'' : own_strs (h ++ [CStr s]) ps ss0 f0).
      { eapply own_strs_same; [exact H'|]. apply ext_same_on; [apply ext_alloc|]. eapply own_strs_valid; exact H'. }
      destruct (IH _ _ _ ops H'' L D2) as (h' & qs & f' & E & X & Lq & O & F).
      rewrite E. cbn [bind]. exists h', (Some (length h) :: qs), (length h :: f').
      split; [reflexivity|]. split; [eapply ext_trans; [apply ext_alloc|exact X]|]. split; [cbn; lia|].
      split.
      * constructor; [|exact O]. destruct X as [X1 X2]. rewrite X2 by (rewrite app_length; cbn; lia).
        apply alloc_at.
      * change (length h :: f') with ([length h] ++ f'). eapply fresh_app; [|split|exact F].
        -- destruct X as [X1 _]. rewrite app_length in X1 |- *. cbn in *. lia.
        -- repeat constructor. intros [].
        -- intros x. rewrite app_length. cbn. lia.
Qed.
Lemma items_alloc : forall h c items ss, Forall2 (fun i s => nth_error h i = Some (CStr s)) items ss ->
  Forall2 (fun i s => nth_error (h ++ [c]) i = Some (CStr s)) items ss.
Proof.
  intros h c items ss F. induction F as [|j t items ss Hj F IH]; constructor; auto.
  rewrite nth_error_app1; [exact Hj|eapply live_lt; exact Hj].
Qed.
Lemma dup_items_ok : forall items ss h, Forall2 (fun i s => nth_error h i = Some (CStr s)) items ss ->
  exists h' bs, dup_items h items = Ok (h', bs) /\ ext h h' /\
    Forall2 (fun i s => nth_error h' i = Some (CStr s)) bs ss /\ fresh h h' bs.
Proof.
  induction items as [|i items IH]; intros ss h F; inversion F as [|? s ? ss' Hi F']; subst.
  - exists h, []. split; [reflexivity|]. split; [apply ext_refl|]. split; [constructor|apply fresh_nil].
  - cbn [dup_items]. unfold get_str. rewrite (get_live _ _ _ Hi) by discriminate. cbn [bind alloc].
    assert (F'' : Forall2 (fun i s0 => nth_error (h ++ [CStr s]) i = Some (CStr s0)) items ss').
    { apply items_alloc. exact F'. }
    destruct (IH _ _ F'') as (h' & bs & E & X & O & Fr). rewrite E. cbn [bind].
    exists h', (length h :: bs). split; [reflexivity|].
    split; [eapply ext_trans; [apply ext_alloc|exact X]|]. split.
    + constructor; [|exact O]. destruct X as [X1 X2]. rewrite X2 by (rewrite app_length; cbn; lia).
      apply alloc_at.
    + change (length h :: bs) with ([length h] ++ bs). eapply fresh_app; [|split|exact Fr].
      * destruct X as [X1 _]. rewrite app_length in X1 |- *. cbn in *. lia.
      * repeat constructor. intros [].
      * intros x. rewrite app_length. cbn. lia.
Qed.
Lemma dup_arr_ok : forall p ss f h, own_arr h p ss f ->
  exists h' q f', g_strdupv h p = Ok (h', q) /\ ext h h' /\ own_arr h' q ss f' /\ fresh h h' f'.
Proof.
  intros p ss f h H. destruct H as [|a items ss Ha F].
  - exists h, None, []. split; [reflexivity|]. split; [apply ext_refl|]. split; [constructor|apply fresh_nil].
  - cbn [g_strdupv]. rewrite (get_live _ _ _ Ha) by discriminate. cbn [bind].
    destruct (dup_items_ok _ _ _ F) as (h' & bs & E & X & O & Fr). rewrite E. cbn [bind alloc].
    exists (h' ++ [CArr bs]), (Some (length h')), (length h' :: bs).
    split; [reflexivity|]. split; [eapply ext_trans; [exact X|apply ext_alloc]|]. split.
    + constructor; [apply alloc_at|]. apply items_alloc. exact O.
    + destruct Fr as [N R]. destruct X as [X1 _]. split.
      * constructor; [|exact N]. intro I. apply R in I. lia.
      * intros x. rewrite app_length. cbn [length In]. rewrite R. lia.
Qed.

Definition dup_correct (fuel : nat) : Prop := forall k h e n l (sib : bool),
  own h k n e -> (sib = true -> own_list h k n l) ->
  length (e_foot e) + (if sib then length (foot l) else 0) < fuel ->
  exists h' r l', dup fuel k h (e_addr e) sib = Ok (h', r) /\ ext h h' /\
    own_list h' k (Some r) l' /\ map e_val l' = e_val e :: (if sib then map e_val l else []) /\
    fresh h h' (foot l').

Lemma all_dup_kinds : forall k, all_dup (str_ops k) = true.
Proof. destruct k; reflexivity. Qed.
Lemma all_free_kinds : forall k, all_free (str_ops k) = true.
Proof. destruct k; reflexivity. Qed.
Lemma kind_refl : forall k, kind_beq k k = true.
Proof. intro k. apply internal_kind_dec_lb. reflexivity. Qed.

Lemma map_val_length : forall (l l' : list entry), map e_val l = map e_val l' -> length l = length l'.
Proof. intros l l' H. rewrite <- (map_length e_val l), H. apply map_length. Qed.

Lemma dup_kids_ok : forall fuel, dup_correct fuel -> forall ops ps vss f h, own_kids h ops ps vss f ->
  length f < fuel ->
  exists h' qs f', dup_kids (dup fuel) h ops ps = Ok (h', qs) /\ ext h h' /\ own_kids h' ops qs vss f' /\ fresh h h' f'.
Proof.
  intros fuel D. induction ops as [|[k sib] ops IH]; intros ps vss f h O Lf;
    inversion O as [|? ? ? p ps' l vss' f' Ol Os Ok']; subst.
  - exists h, [], []. split; [reflexivity|]. split; [apply ext_refl|]. split; [constructor|apply fresh_nil].
  - cbn [dup_kids]. rewrite app_length in Lf.
    assert (K : exists h1 q l1,
      match p with None => Ok (h, None) | Some a => do (h, b) <- dup fuel k h a sib; Ok (h, Some b) end = Ok (h1, q) /\
      ext h h1 /\ own_list h1 k q l1 /\ map e_val l1 = map e_val l /\ fresh h h1 (foot l1)).
    { inversion Ol as [|? n e l0 Oe Ol0]; subst.
      - exists h, None, []. split; [reflexivity|]. split; [apply ext_refl|].
        split; [constructor|]. split; [reflexivity|apply fresh_nil].
      - rewrite foot_cons, app_length in Lf.
        destruct (D k h e n l0 sib Oe (fun _ => Ol0)) as (h1 & r & l1 & E & X & O1 & V & Fr).
        { destruct sib; lia. }
        rewrite E. cbn [bind]. exists h1, (Some r), l1. split; [reflexivity|]. split; [exact X|].
        split; [exact O1|]. split; [|exact Fr]. rewrite V. destruct sib; [reflexivity|].
        specialize (Os eq_refl). cbn in Os. destruct l0; [reflexivity|cbn in Os; lia]. }
    destruct K as (h1 & q & l1 & E & X & O1 & V & Fr). rewrite E. cbn [bind].
    assert (Ok1 : own_kids h1 ops ps' vss' f').
    { eapply own_kids_same; [exact Ok'|]. apply ext_same_on; [exact X|]. eapply own_kids_valid; exact Ok'. }
    destruct (IH _ _ _ h1 Ok1 ltac:(lia)) as (h2 & qs & f2 & E2 & X2 & O2 & Fr2).
    rewrite E2. cbn [bind]. exists h2, (q :: qs), (foot l1 ++ f2). split; [reflexivity|].
    split; [eapply ext_trans; eassumption|]. split.
    + rewrite <- V. constructor; [|intro Hs; rewrite (map_val_length _ _ V); auto|exact O2].
      eapply own_list_same; [exact O1|]. apply ext_same_on; [exact X2|]. eapply own_list_valid; exact O1.
    + eapply fresh_app; [|exact Fr|exact Fr2]. destruct X as [X _]. destruct X2 as [X2 _]. lia.
Qed.

Lemma own_inv : forall h k n e, own h k n e -> exists scal ps ss fs ks vss fk arr sarr fa raw,
  e_val e = Val scal ss sarr vss /\ e_foot e = e_addr e :: fs ++ fa ++ fk /\
  nth_error h (e_addr e) = Some (CObj k scal ps ks arr raw n) /\
  length ps = length (str_ops k) /\ own_strs h ps ss fs /\ own_arr h arr sarr fa /\ own_kids h (kid_ops k) ks vss fk.
Proof.
  intros h k n e H. destruct H. exists scal, ps, ss, fs, ks, vss, fk, arr, sarr, fa, raw.
  cbn [e_addr fst]. repeat split; assumption.
Qed.

Lemma dup_ok : forall fuel, dup_correct fuel.
Proof.
  induction fuel as [|fuel IH]; intros k h e n l sib Oe Ol Lf; [lia|].
  destruct (own_inv _ _ _ _ Oe) as (scal & ps & ss & fs & ks & vss & fk & arr & sarr & fa & raw & Ev & Ef & Hc & Lp & Os & Oa & Ok').
  cbn [dup]. rewrite (get_live _ _ _ Hc) by discriminate. cbn [bind]. rewrite kind_refl. unfold alloc. cbv beta iota.
  set (c := CObj k scal ps ks arr raw n) in *. pose (h1 := (h ++ [c]) : heap).
  assert (X1 : ext h h1) by apply ext_alloc.
  assert (L1 : length h1 = S (length h)) by (unfold h1; rewrite app_length; cbn; lia).
  rewrite Ef in Lf. cbn [length] in Lf. rewrite !app_length in Lf.
  (* siblings *)
  assert (K : exists h2 q l2,
    (if sib then match n with None => @Ok (heap * option addr) (h1, None) | Some m => do (h, m) <- dup fuel k h1 m true; Ok (h, Some m) end
     else Ok (h1, None)) = Ok (h2, q) /\ ext h1 h2 /\ own_list h2 k q l2 /\
    map e_val l2 = (if sib then map e_val l else []) /\ fresh h1 h2 (foot l2)).
  { destruct sib.
    - specialize (Ol eq_refl). inversion Ol as [|? n' e' l0 Oe' Ol0]; subst.
      + exists h1, None, []. split; [reflexivity|]. split; [apply ext_refl|]. split; [constructor|].
        split; [reflexivity|apply fresh_nil].
      + rewrite foot_cons, app_length in Lf.
        assert (Oe1 : own h1 k n' e').
        { eapply own_same; [exact Oe'|]. apply ext_same_on; [exact X1|]. eapply own_valid; exact Oe'. }
        assert (Ol1 : own_list h1 k n' l0).
        { eapply own_list_same; [exact Ol0|]. apply ext_same_on; [exact X1|]. eapply own_list_valid; exact Ol0. }
        destruct (IH k h1 e' n' l0 true Oe1 (fun _ => Ol1)) as (h2 & r & l2 & E & X & O2 & V & Fr); [lia|].
        rewrite E. cbn [bind]. exists h2, (Some r), l2. split; [reflexivity|]. split; [exact X|].
        split; [exact O2|]. split; [exact V|exact Fr].
    - exists h1, None, []. split; [reflexivity|]. split; [apply ext_refl|]. split; [constructor|].
      split; [reflexivity|apply fresh_nil]. }
  destruct K as (h2 & q & l2 & E2 & X2 & O2 & V2 & F2). 
  match goal with |- context [bind ?x _] => change x with
    (if sib then match n with None => @Ok (heap * option addr) (h1, None) | Some m => do (h, m) <- dup fuel k h1 m true; Ok (h, Some m) end
     else Ok (h1, None)) end.
  rewrite E2. cbn [bind].
  assert (X02 : ext h h2) by (eapply ext_trans; eassumption).
  assert (Os2 : own_strs h2 ps ss fs).
  { eapply own_strs_same; [exact Os|]. apply ext_same_on; [exact X02|]. eapply own_strs_valid; exact Os. }
  destruct (dup_strs_ok _ _ _ _ _ Os2 Lp (all_dup_kinds k)) as (h3 & qs & fs' & E3 & X3 & Lq & O3 & F3).
  rewrite E3. cbn [bind]. assert (X03 : ext h h3) by (eapply ext_trans; eassumption).
  assert (Ok3 : own_kids h3 (kid_ops k) ks vss fk).
  { eapply own_kids_same; [exact Ok'|]. apply ext_same_on; [exact X03|]. eapply own_kids_valid; exact Ok'. }
  destruct (dup_kids_ok fuel IH _ _ _ _ _ Ok3) as (h4 & ks' & fk' & E4 & X4 & O4 & F4); [lia|].
  rewrite E4. cbn [bind]. assert (X04 : ext h h4) by (eapply ext_trans; eassumption).
  assert (Oa4 : own_arr h4 arr sarr fa).
  { eapply own_arr_same; [exact Oa|]. apply ext_same_on; [exact X04|]. eapply own_arr_valid; exact Oa. }
  destruct (dup_arr_ok _ _ _ _ Oa4) as (h5 & arr' & fa' & E5 & X5 & O5 & F5).
  rewrite E5. cbn [bind]. assert (X15 : ext h1 h5) by (repeat (eapply ext_trans; [eassumption|]); apply ext_refl).
  assert (Hr : nth_error h5 (length h) = Some c).
  { destruct X15 as [_ X15]. rewrite X15 by lia. apply alloc_at. }
  rewrite (set_live _ _ _ _ Hr) by discriminate. cbn [bind].
  set (c' := CObj k scal qs ks' arr' raw q). set (h6 := put h5 (length h) c').
  assert (Lr : length h < length h5) by (eapply live_lt; exact Hr).
  assert (S6 : forall f, (forall x, In x f -> length h1 <= x) -> same_on f h5 h6).
  { intros f Hf x Hx. unfold h6. apply put_other. apply Hf in Hx. lia. }
  assert (X25 : ext h2 h5) by (repeat (eapply ext_trans; [eassumption|]); apply ext_refl).
  assert (X35 : ext h3 h5) by (repeat (eapply ext_trans; [eassumption|]); apply ext_refl).
  assert (L12 : length h1 <= length h2) by apply X2.
  assert (L23 : length h2 <= length h3) by apply X3.
  assert (L34 : length h3 <= length h4) by apply X4.
  assert (L45 : length h4 <= length h5) by apply X5.
  assert (L56 : length h6 = length h5) by apply put_length.
  exists h6, (length h), ((length h, Val scal ss sarr vss, length h :: fs' ++ fa' ++ fk') :: l2).
  split; [reflexivity|]. split.
  { split; [lia|]. intros x Hx. unfold h6. rewrite put_other by lia.
    destruct X15 as [_ X15]. rewrite X15 by lia. unfold h1. now rewrite nth_error_app1. }
  split.
  { apply (ol_cons h6 k q (length h, Val scal ss sarr vss, length h :: fs' ++ fa' ++ fk') l2).
    - eapply own_obj.
      + unfold h6. rewrite put_same by exact Lr. unfold c'. reflexivity.
      + lia.
      + eapply own_strs_same; [eapply own_strs_same; [exact O3|]|].
        * apply ext_same_on; [exact X35|]. eapply own_strs_valid; exact O3.
        * apply S6. intros x Hx. apply F3 in Hx. lia.
      + eapply own_arr_same; [exact O5|]. apply S6. intros x Hx. apply F5 in Hx. lia.
      + eapply own_kids_same; [eapply own_kids_same; [exact O4|]|].
        * apply ext_same_on; [exact X5|]. eapply own_kids_valid; exact O4.
        * apply S6. intros x Hx. apply F4 in Hx. lia.
    - eapply own_list_same; [eapply own_list_same; [exact O2|]|].
      + apply ext_same_on; [exact X25|]. eapply own_list_valid; exact O2.
      + apply S6. intros x Hx. apply F2 in Hx. lia. }
  split.
  { cbn [map e_val fst snd]. rewrite V2, Ev. reflexivity. }
  rewrite foot_cons. cbn [e_foot snd].
  destruct F2 as [N2 R2]. destruct F3 as [N3 R3]. destruct F4 as [N4 R4]. destruct F5 as [N5 R5]. split.
  - cbn. constructor.
    + rewrite !in_app_iff. intros [[I|[I|I]]|I];
        [apply R3 in I|apply R5 in I|apply R4 in I|apply R2 in I]; lia.
    + apply NoDup_app2; [apply NoDup_app2; [exact N3| |]|exact N2|].
      * apply NoDup_app2; [exact N5|exact N4|]. intros x I J. apply R5 in I. apply R4 in J. lia.
      * intros x I J. apply R3 in I. apply in_app_or in J. destruct J as [J|J]; [apply R5 in J|apply R4 in J]; lia.
      * intros x I J. apply R2 in J. rewrite !in_app_iff in I.
        destruct I as [I|[I|I]]; [apply R3 in I|apply R5 in I|apply R4 in I]; lia.
  - intros x. cbn [In app]. rewrite !in_app_iff, R2, R3, R4, R5. lia.
Qed.

Lemma NoDup_bound : forall (l : list nat) n, NoDup l -> (forall x, In x l -> x < n) -> length l <= n.
Proof.
  intros l n N H. rewrite <- (seq_length n 0). apply NoDup_incl_length; [exact N|].
  intros x Hx. apply in_seq. apply H in Hx. lia.
Qed.

Theorem sr_dup_ok : forall k h e n l (sib : bool),
  own h k n e -> own_list h k n l -> separate (e_foot e ++ foot l) ->
  exists h' r l', sr_dup k h (e_addr e) sib = Ok (h', r) /\
    own_list h' k (Some r) l' /\
    map e_val l' = (if sib then map e_val (e :: l) else [e_val e]) /\
    separate (foot l') /\
    (forall x, In x (foot l') <-> length h <= x < length h') /\
    length h <= length h' /\
    (forall x, x < length h -> nth_error h' x = nth_error h x).
Proof.
  intros k h e n l sib Oe Ol N.
  destruct (dup_ok (S (length h)) k h e n l sib Oe (fun _ => Ol)) as (h' & r & l' & E & X & O & V & F).
  { assert (B : length (e_foot e ++ foot l) <= length h).
    { apply NoDup_bound; [exact N|]. intros x Hx. apply in_app_or in Hx. destruct Hx as [Hx|Hx];
        [eapply own_valid; eassumption|eapply own_list_valid; eassumption]. }
    rewrite app_length in B. destruct sib; lia. }
  exists h', r, l'. split; [exact E|]. split; [exact O|].
  split; [rewrite V; destruct sib; reflexivity|]. destruct F as [F1 F2]. split; [exact F1|].
  split; [exact F2|]. exact X.
Qed.
