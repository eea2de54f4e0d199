From Verif Require Import Base HeapModel HeapSpec HeapProofs PyAttrModel PyAttrSpec PyAttrProofs.
Open Scope nat_scope.

(** The tables agree. *)
Definition str_eq := list_eq_dec ascii_dec.
Lemma str_eqb_true a b : str_eqb a b = true <-> a = b.
Proof. unfold str_eqb. destruct (list_eq_dec ascii_dec a b); split; congruence. Qed.
Definition same_pos (a b : option nat) : bool := match a, b with Some i, Some j => Nat.eqb i j | _, _ => false end.
Definition access_ok (a : access) (t : ctype) (d : doc) : bool :=
  match a, t, d with
  | AUint16, TU16, Number _ m => (m =? 65535)%Z
  | AUint32, TU32, Number _ m => (m =? u32)%Z
  | AUint64, TU64, Long _ => true
  | ABool, TBool, Flag _ => true
  | ASymbols, TEnum, Number _ m => (m =? 2)%Z
  | ARole, TEnum, Number _ m => (m =? 1)%Z
  | _, _, _ => false
  end.
Definition attr_ok (k : kind) (nd : str * doc) : bool :=
  match find_attr (attributes k) (fst nd) with
  | None => false
  | Some (a, m) =>
    str_eqb m (member (snd nd)) &&
    match snd nd with
    | Text _ => match a with AString => same_pos (pos (strings k) m) (pos (text_members k) m) | _ => false end
    | _ => match pos (map fst (scalars k)) m with
           | Some i => match nth_error (scalars k) i with Some (_, t) => access_ok a t (snd nd) && same_pos (Some i) (pos (number_members k) m) | None => false end
           | None => false
           end
    end
  end.
Lemma tables_ok k : forallb (attr_ok k) (documented k) = true.
Proof. destruct k; vm_compute; reflexivity. Qed.
Fixpoint distinct (l : list str) : bool := match l with [] => true | x :: l => negb (existsb (str_eqb x) l) && distinct l end.
Lemma distinct_nodup l : distinct l = true -> NoDup l.
Proof.
  induction l as [|x l IH]; cbn; intros H; constructor; apply andb_true_iff in H as [H1 H2]; [|exact (IH H2)].
  intros I. apply negb_true_iff in H1. assert (existsb (str_eqb x) l = true); [|congruence]. apply existsb_exists. exists x. split; [exact I|apply str_eqb_true; reflexivity].
Qed.
Lemma members_nodup k : NoDup (number_members k) /\ NoDup (text_members k).
Proof. split; apply distinct_nodup; destruct k; vm_compute; reflexivity. Qed.
Lemma pos_nth : forall l m i, pos l m = Some i -> nth_error l i = Some m.
Proof.
  induction l as [|x l IH]; intros m i H; cbn in H; [discriminate|]. destruct (str_eqb x m) eqn:E.
  - injection H as <-. apply str_eqb_true in E. subst. reflexivity.
  - destruct (pos l m) as [j|] eqn:P; [|discriminate]. injection H as <-. exact (IH _ _ P).
Qed.
Lemma nth_unique {A} (l : list A) i j x : NoDup l -> nth_error l i = Some x -> nth_error l j = Some x -> i = j.
Proof. intros N Hi Hj. apply (proj1 (NoDup_nth_error l) N); [apply nth_error_Some; congruence|congruence]. Qed.
(** What the tables say of a documented attribute. *)
Lemma doc_text k name m : In (name, Text m) (documented k) ->
  exists i, find_attr (attributes k) name = Some (AString, m) /\ pos (strings k) m = Some i /\ nth_error (text_members k) i = Some m.
Proof.
  intros I. pose proof (proj1 (forallb_forall _ _) (tables_ok k) _ I) as H. unfold attr_ok in H. cbn [fst snd member] in H.
  destruct (find_attr (attributes k) name) as [[a m']|]; [|discriminate]. apply andb_true_iff in H as [Em H]. apply str_eqb_true in Em. subst m'.
  destruct a; try discriminate. destruct (pos (strings k) m) as [i|] eqn:P; [|discriminate]. destruct (pos (text_members k) m) as [j|] eqn:Q; [|discriminate].
  cbn in H. apply Nat.eqb_eq in H. subst j. exists i. split; [reflexivity|]. split; [reflexivity|exact (pos_nth _ _ _ Q)].
Qed.
Lemma doc_number k name d : In (name, d) (documented k) -> (forall m, d <> Text m) ->
  exists i a t, find_attr (attributes k) name = Some (a, member d) /\ offset k (member d) t = Ok i /\ access_ok a t d = true /\ nth_error (number_members k) i = Some (member d).
Proof.
  intros I NT. pose proof (proj1 (forallb_forall _ _) (tables_ok k) _ I) as H. unfold attr_ok in H. cbn [fst snd] in H.
  destruct (find_attr (attributes k) name) as [[a m']|]; [|discriminate]. apply andb_true_iff in H as [Em H]. apply str_eqb_true in Em. subst m'.
  assert (H' : match pos (map fst (scalars k)) (member d) with
           | Some i => match nth_error (scalars k) i with Some (_, t) => access_ok a t d && same_pos (Some i) (pos (number_members k) (member d)) | None => false end
           | None => false end = true) by (destruct d; [exfalso; exact (NT _ eq_refl)|exact H|exact H|exact H]). clear H.
  destruct (pos (map fst (scalars k)) (member d)) as [i|] eqn:P; [|discriminate]. destruct (nth_error (scalars k) i) as [[m' t]|] eqn:E; [|discriminate].
  apply andb_true_iff in H' as [Ha Hp]. destruct (pos (number_members k) (member d)) as [j|] eqn:Q; [|discriminate]. cbn in Hp. apply Nat.eqb_eq in Hp. subst j.
  exists i, a, t. split; [reflexivity|]. split; [|split; [exact Ha|exact (pos_nth _ _ _ Q)]]. unfold offset. rewrite P, E. destruct t; reflexivity.
Qed.

(** Reading *)
Section C.
Variable constant : str -> str.
Lemma own_strs_nth h : forall ps ss fs i s, own_strs h ps ss fs -> nth_error ss i = Some s ->
  exists p, nth_error ps i = Some p /\ match p, s with None, None => True | Some a, Some s => nth_error h a = Some (CStr s) /\ In a fs | _, _ => False end.
Proof.
  intros ps ss fs i s O. revert i. induction O as [|ps ss f O IH|a s0 ps ss f Ha O IH]; intros [|i] N; try discriminate; cbn in N.
  - injection N as <-. exists None. split; [reflexivity|exact I].
  - exact (IH i N).
  - injection N as <-. exists (Some a). split; [reflexivity|]. split; [exact Ha|left; reflexivity].
  - destruct (IH i N) as (q & Q & M). exists q. split; [exact Q|]. destruct q, s; try exact M. destruct M as [M1 M2]. split; [exact M1|right; exact M2].
Qed.
Lemma own_strs_length h : forall ps ss fs, own_strs h ps ss fs -> length ps = length ss.
Proof. induction 1; cbn; congruence. Qed.
Lemma get_obj h c k scal ps kids arr raw n : nth_error h c = Some (CObj k scal ps kids arr raw n) -> get h c = Ok (CObj k scal ps kids arr raw n).
Proof. intros H. unfold get. rewrite H. reflexivity. Qed.
Lemma get_string h a s : nth_error h a = Some (CStr s) -> get_str h a = Ok s.
Proof. intros H. unfold get_str, get. rewrite H. reflexivity. Qed.
Lemma in_nth {A B} (l : list A) (l' : list B) i x : nth_error l i = Some x -> length l = length l' -> exists y, nth_error l' i = Some y.
Proof. intros H L. destruct (nth_error l' i) as [y|] eqn:E; [exists y; reflexivity|]. apply nth_error_None in E. assert (i < length l) by (apply nth_error_Some; congruence). lia. Qed.
Lemma getter_ok h c k name d scal ss fs kids arr raw n : structure h c k scal ss fs kids arr raw n -> In (name, d) (documented k) ->
  exists x, getattr constant h k c name = Some (Ok x) /\ shows k scal ss d x.
Proof.
  intros (Ls & Lt & _ & _ & ps & Hc & O) I. unfold getattr. assert (D : (exists m, d = Text m) \/ forall m, d <> Text m) by (destruct d; [left; eexists; reflexivity|right; discriminate..]).
  destruct D as [[m ->]|D].
  - destruct (doc_text k name m I) as (i & F & P & Q). rewrite F. cbn [getter]. unfold load_string. rewrite (get_obj _ _ _ _ _ _ _ _ _ Hc). cbn [bind]. rewrite P.
    destruct (in_nth _ ss i m Q ltac:(lia)) as [s Es]. destruct (own_strs_nth h ps ss fs i s O Es) as (p & Ep & M). unfold load. rewrite Ep. cbn [bind].
    destruct p as [a|]; destruct s as [s|]; try destruct M.
    + rewrite (get_string _ _ _ H). cbn [bind]. exists (option_map VStr (from_utf8 s)). split; [reflexivity|]. exists (Some s). split; [exists i; split; assumption|].
      destruct (from_utf8 s) as [t|] eqn:E; cbn.
      * left. exists t. split; [apply from_utf8_iff; exact E|reflexivity].
      * right. split; [reflexivity|]. intros t U. apply from_utf8_iff in U. congruence.
    + exists (Some VNone). split; [reflexivity|]. exists None. split; [exists i; split; assumption|reflexivity].
  - destruct (doc_number k name d I D) as (i & a & t & F & Of & A & Q). rewrite F. destruct (in_nth _ scal i _ Q ltac:(lia)) as [z Ez].
    assert (Ld : load_scalar h c (member d) t = Ok z).
    { unfold load_scalar. rewrite (get_obj _ _ _ _ _ _ _ _ _ Hc). cbn [bind]. rewrite Of. cbn [bind]. unfold load. rewrite Ez. reflexivity. }
    assert (Nz : number_of k scal (member d) z) by (exists i; split; assumption).
    destruct d as [mm|mm mx|mm|mm]; [exfalso; exact (D _ eq_refl)| | |]; destruct a, t; try discriminate A; cbn [getter member] in *; rewrite Ld; cbn [bind]; eexists; (split; [reflexivity|exists z; split; [exact Nz|reflexivity]]).
Qed.
Lemma shows_fun k scal ss d x y : shows k scal ss d x -> shows k scal ss d y -> x = y.
Proof.
  pose proof (members_nodup k) as [Nn Nt].
  assert (F : forall m z1 z2, number_of k scal m z1 -> number_of k scal m z2 -> z1 = z2).
  { intros m z1 z2 (i & A & B) (j & A' & B'). rewrite (nth_unique _ _ _ _ Nn A A') in B. congruence. }
  destruct d; cbn.
  - intros (s & (i & A & B) & S) (s' & (j & A' & B') & S'). rewrite (nth_unique _ _ _ _ Nt A A') in B. assert (s = s') by congruence. subst s'.
    destruct s as [s|]; [|congruence]. destruct S as [(t & U & ->)|[-> N]], S' as [(t' & U' & ->)|[-> N']]; try reflexivity.
    + apply from_utf8_iff in U. apply from_utf8_iff in U'. congruence.
    + exfalso. exact (N' t U).
    + exfalso. exact (N t' U').
  - intros (z & A & ->) (z' & A' & ->). rewrite (F _ _ _ A A'). reflexivity.
  - intros (z & A & ->) (z' & A' & ->). rewrite (F _ _ _ A A'). reflexivity.
  - intros (z & A & ->) (z' & A' & ->). rewrite (F _ _ _ A A'). reflexivity.
Qed.

(** Writing *)
Lemma nth_store_same {A} : forall (l : list A) i x y, nth_error l i = Some y -> nth_error (store l i x) i = Some x.
Proof. induction l as [|z l IH]; intros [|i] x y H; cbn in *; try discriminate; [reflexivity|exact (IH _ _ _ H)]. Qed.
Lemma nth_store_other {A} : forall (l : list A) i j x, i <> j -> nth_error (store l i x) j = nth_error l j.
Proof. induction l as [|z l IH]; intros [|i] [|j] x H; cbn; try reflexivity; try congruence. apply IH. congruence. Qed.
Lemma length_store {A} : forall (l : list A) i x, length (store l i x) = length l.
Proof. induction l as [|z l IH]; intros [|i] x; cbn; congruence. Qed.
Lemma nth_app_old {A} (h : list A) x a : a < length h -> nth_error (h ++ [x]) a = nth_error h a.
Proof. intros H. apply nth_error_app1. exact H. Qed.
Lemma nth_app_new {A} (h : list A) x : nth_error (h ++ [x]) (length h) = Some x.
Proof. rewrite nth_error_app2 by lia. rewrite Nat.sub_diag. reflexivity. Qed.
Lemma own_strs_frame h h' : forall ps ss fs, own_strs h ps ss fs -> (forall x, In x fs -> nth_error h' x = nth_error h x) -> own_strs h' ps ss fs.
Proof.
  induction 1 as [|ps ss f O IH|a s ps ss f Ha O IH]; intros S; constructor.
  - apply IH. exact S.
  - rewrite S; [exact Ha|left; reflexivity].
  - apply IH. intros x Hx. apply S. right. exact Hx.
Qed.
(** Storing a number. *)
Lemma number_written h c k scal ss fs kids arr raw n m t i y z : structure h c k scal ss fs kids arr raw n -> offset k m t = Ok i -> nth_error scal i = Some y ->
  exists h', store_scalar h c m t z = Ok h' /\ structure h' c k (store scal i z) ss fs kids arr raw n /\ same_outside [c] h h' /\ length h' = length h.
Proof.
  intros (Ls & Lt & Nc & Nf & ps & Hc & O) Of Ey. unfold store_scalar. rewrite (get_obj _ _ _ _ _ _ _ _ _ Hc). cbn [bind]. rewrite Of. cbn [bind]. unfold load. rewrite Ey. cbn [bind].
  unfold set_cell. rewrite (get_obj _ _ _ _ _ _ _ _ _ Hc). cbn [bind]. eexists. split; [reflexivity|].
  assert (S : same_outside [c] h (put h c (CObj k (store scal i z) ps kids arr raw n))) by (intros x Hx; apply put_other; intros ->; apply Hx; left; reflexivity).
  split; [|split; [exact S|apply put_length]]. split; [rewrite length_store; exact Ls|]. split; [exact Lt|]. split; [exact Nc|]. split; [exact Nf|]. exists ps. split.
  - apply put_same. apply nth_error_Some. congruence.
  - apply (own_strs_frame h); [exact O|]. intros x Hx. apply S. intros [<-|[]]. exact (Nc Hx).
Qed.
(** Which cells hold the strings once string [i] is in cell [a]. *)
Lemma strings_written h : forall ps ss fs i p s a, own_strs h ps ss fs -> NoDup fs -> nth_error ps i = Some p -> ~ In a fs ->
  forall h', nth_error h' a = Some (CStr s) -> (forall x, In x fs -> p <> Some x -> nth_error h' x = nth_error h x) ->
  exists fs', own_strs h' (store ps i (Some a)) (store ss i (Some s)) fs' /\ NoDup fs' /\ (forall x, In x fs' <-> x = a \/ In x fs /\ p <> Some x).
Proof.
  intros ps ss fs i p s a O. revert i. induction O as [|ps ss f O IH|a0 s0 ps ss f Ha0 O IH]; intros i N Ep Na h' Ha S; [destruct i; discriminate| |]; (destruct i as [|i]; cbn in Ep; [injection Ep as <-|]); cbn [store].
  - exists (a :: f). split; [constructor; [exact Ha|apply (own_strs_frame h); [assumption|intros x Hx; apply S; [exact Hx|discriminate]]]|].
    split; [constructor; assumption|]. intros x. cbn. split; [intros [->|Hx]; [left; reflexivity|right; split; [exact Hx|discriminate]]|intros [->|[Hx _]]; [left; reflexivity|right; exact Hx]].
  - destruct (IH i N Ep Na h' Ha S) as (fs' & O' & N' & I'). exists fs'. split; [constructor; exact O'|]. split; assumption.
  - inversion_clear N. exists (a :: f). split; [|split].
    + constructor; [exact Ha|]. apply (own_strs_frame h); [assumption|]. intros x Hx. apply S; [right; exact Hx|]. intros E. injection E as ->. contradiction.
    + constructor; [intros Hx; apply Na; right; exact Hx|assumption].
    + intros x. cbn. split.
      * intros [->|Hx]; [left; reflexivity|]. right. split; [right; exact Hx|]. intros E. injection E as ->. contradiction.
      * intros [->|[[->|Hx] D]]; [left; reflexivity|contradiction D; reflexivity|right; exact Hx].
  - inversion_clear N as [|? ? Nh Nt].
    assert (Pa : p <> Some a0).
    { intros ->. pose proof (own_strs_length h _ _ _ O) as Lp. destruct (in_nth _ ss i _ Ep Lp) as [s1 E1].
      destruct (own_strs_nth h ps ss f i s1 O E1) as (p1 & E2 & M). rewrite Ep in E2. injection E2 as <-. destruct s1; [|destruct M]. destruct M as [_ M]. contradiction. }
    destruct (IH i Nt Ep (fun X => Na (or_intror X)) h' Ha (fun x Hx => S x (or_intror Hx))) as (fs' & O' & N' & I').
    exists (a0 :: fs'). split; [constructor; [rewrite (S a0 (or_introl eq_refl) Pa); assumption|exact O']|]. split.
    + constructor; [|exact N']. intros X. apply I' in X as [->|[X _]]; [apply Na; left; reflexivity|contradiction].
    + intros x. cbn. rewrite I'. split.
      * intros [<-|[->|[Hx D]]]; [right; split; [left; reflexivity|exact Pa]|left; reflexivity|right; split; [right; exact Hx|exact D]].
      * intros [->|[[->|Hx] D]]; [right; left; reflexivity|left; reflexivity|right; right; split; assumption].
Qed.
Lemma string_written h c k scal ss fs kids arr raw n m s i : structure h c k scal ss fs kids arr raw n -> pos (strings k) m = Some i -> i < length ss ->
  exists h' fs', replace_string h c m s = Ok h' /\ structure h' c k scal (store ss i (Some s)) fs' kids arr raw n /\ length h' = S (length h) /\
    (forall x, x < length h -> x <> c -> ~ In x fs -> nth_error h' x = nth_error h x) /\
    (forall x, In x fs' <-> x = length h \/ In x fs /\ ~ freed h' x) /\ (forall x, In x fs -> In x fs' -> nth_error h' x = nth_error h x).
Proof.
  intros (Ls & Lt & Nc & Nf & ps & Hc & O) P Li. unfold replace_string. rewrite (get_obj _ _ _ _ _ _ _ _ _ Hc). cbn [bind]. rewrite P.
  pose proof (own_strs_length h _ _ _ O) as Lp. destruct (nth_error ps i) as [p|] eqn:Ep; [|apply nth_error_None in Ep; lia]. unfold load. rewrite Ep. cbn [bind].
  destruct (nth_error ss i) as [s0|] eqn:Es; [|apply nth_error_None in Es; lia]. destruct (own_strs_nth h ps ss fs i s0 O Es) as (p' & E' & M). rewrite Ep in E'. injection E' as <-.
  assert (Bc : c < length h) by (apply nth_error_Some; congruence).
  assert (Bf : forall x, In x fs -> x < length h).
  { clear - O. induction O; intros x Hx; [destruct Hx|auto|]. destruct Hx as [<-|Hx]; [apply nth_error_Some; congruence|auto]. }
  assert (Fr : exists h1, g_free_opt h p = Ok h1 /\ length h1 = length h /\ (forall x, p <> Some x -> nth_error h1 x = nth_error h x) /\ (forall x, p = Some x -> freed h1 x)).
  { destruct p as [q|]; cbn [g_free_opt].
    - destruct s0; [|destruct M]. destruct M as [M _]. unfold g_free, set_cell, get. rewrite M. cbn [bind]. exists (put h q CFree). split; [reflexivity|]. split; [apply put_length|]. split.
      + intros x Hx. apply put_other. congruence.
      + intros x E. injection E as <-. apply put_same. apply nth_error_Some. congruence.
    - exists h. repeat split; try reflexivity. discriminate. }
  destruct Fr as (h1 & E1 & L1 & S1 & F1). rewrite E1. cbn [bind]. unfold alloc.
  assert (Pc : p <> Some c) by (intros ->; destruct s0; [|destruct M]; destruct M as [_ M]; contradiction).
  assert (Hc1 : nth_error (h1 ++ [CStr s]) c = Some (CObj k scal ps kids arr raw n)) by (rewrite nth_app_old by lia; rewrite S1 by exact Pc; exact Hc).
  unfold set_cell. rewrite (get_obj _ _ _ _ _ _ _ _ _ Hc1). cbn [bind]. rewrite L1. set (h' := put (h1 ++ [CStr s]) c _).
  assert (Sh : forall x, x <> c -> x < length h -> p <> Some x -> nth_error h' x = nth_error h x).
  { intros x Hx Bx Px. unfold h'. rewrite put_other by congruence. rewrite nth_app_old by lia. apply S1. exact Px. }
  assert (Hn : nth_error h' (length h) = Some (CStr s)).
  { unfold h'. rewrite put_other by lia. rewrite <- L1. apply nth_app_new. }
  assert (Fn : ~ In (length h) fs) by (intros X; apply Bf in X; lia).
  destruct (strings_written h ps ss fs i p s (length h) O Nf Ep Fn h' Hn) as (fs' & O' & N' & I').
  { intros x Hx Px. apply Sh; [intros ->; contradiction|apply Bf; exact Hx|exact Px]. }
  exists h', fs'. split; [reflexivity|]. split; [|split; [|split; [|split]]].
  - split; [exact Ls|]. split; [rewrite length_store; exact Lt|]. split; [|split; [exact N'|]].
    + intros X. apply I' in X as [->|[X _]]; [lia|contradiction].
    + exists (store ps i (Some (length h))). split; [|exact O']. unfold h'. apply put_same. rewrite app_length. cbn. lia.
  - unfold h'. rewrite put_length, app_length. cbn. lia.
  - intros x Bx Hx Fx. apply Sh; [exact Hx|exact Bx|]. intros ->. destruct s0; [|destruct M]. destruct M as [_ M]. contradiction.
  - intros x. rewrite I'. split; (intros [->|[Hx Px]]; [left; reflexivity|right; split; [exact Hx|]]).
    + unfold freed. rewrite Sh; [|intros ->; contradiction|apply Bf; exact Hx|exact Px]. clear - O Hx.
      induction O as [|ps ss f O IH|a s1 ps ss f Ha O IH]; [destruct Hx|exact (IH Hx)|]. destruct Hx as [<-|Hx]; [congruence|exact (IH Hx)].
    + intros Ex. apply Px. unfold freed, h'. rewrite put_other; [|intros <-; contradiction]. rewrite nth_app_old by (rewrite L1; apply Bf; exact Hx). apply F1. exact Ex.
  - intros x Hx Hx'. apply I' in Hx' as [->|[_ Px]]; [contradiction|]. apply Sh; [intros ->; contradiction|apply Bf; exact Hx|exact Px].
Qed.
End C.
