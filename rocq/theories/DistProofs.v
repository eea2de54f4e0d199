(** * Proofs about the edit distances. *)
From Coq Require Import QArith.
From Verif Require Import Base DistMatrixModel DistMatrixSpec DistMatrixProofs DistPartProofs DistModel DistSpec.
Open Scope Z_scope.

Lemma rev_case {A} (l : list A) : l = [] \/ exists l' x, l = l' ++ [x].
Proof. destruct l using rev_ind; [left; reflexivity | right; eauto]. Qed.

Section Edits.
Context {F : Type} (same : F -> F -> Prop) (swap : Prop).
Notation edits := (edits same swap).

Lemma edits_nil_l b : edits [] b (length b).
Proof. induction b; cbn; constructor; auto. Qed.
Lemma edits_nil_r a : edits a [] (length a).
Proof. induction a; cbn; constructor; auto. Qed.
Lemma edits_nil_l_inv b k : edits [] b k -> (length b <= k)%nat.
Proof. remember [] as a. induction 1; cbn; try discriminate; [lia|]. specialize (IHedits Heqa). lia. Qed.
Lemma edits_nil_r_inv a k : edits a [] k -> (length a <= k)%nat.
Proof. remember [] as b. induction 1; cbn; try discriminate; [lia|]. specialize (IHedits Heqb). lia. Qed.
Lemma edits_app a1 b1 k1 : edits a1 b1 k1 -> forall a2 b2 k2, edits a2 b2 k2 -> edits (a1 ++ a2) (b1 ++ b2) (k1 + k2).
Proof. induction 1; intros; cbn; [assumption | apply e_keep | apply e_change | apply e_delete | apply e_insert | apply e_swap]; auto. Qed.
Lemma edits_rev a b k : edits a b k -> edits (rev a) (rev b) k.
Proof.
  assert (P1 : forall x y, same x y -> edits [x] [y] 0) by (intros; apply e_keep; [assumption | constructor]).
  assert (P2 : forall x y, edits [x] [y] 1) by (intros; apply e_change; constructor).
  assert (P3 : forall x, edits [x] [] 1) by (intros; apply e_delete; constructor).
  assert (P4 : forall x, edits [] [x] 1) by (intros; apply e_insert; constructor).
  induction 1 as [|x y a b k S H IH|x y a b k H IH|x a b k H IH|y a b k H IH|x1 x2 y1 y2 a b k Sw S1 S2 H IH]; cbn.
  - constructor.
  - replace k with (k + 0)%nat by lia. apply edits_app; auto.
  - replace (S k) with (k + 1)%nat by lia. apply edits_app; auto.
  - replace (S k) with (k + 1)%nat by lia. replace (rev b) with (rev b ++ []) by apply app_nil_r. apply edits_app; auto.
  - replace (S k) with (k + 1)%nat by lia. replace (rev a) with (rev a ++ []) by apply app_nil_r. apply edits_app; auto.
  - replace (S k) with (k + 1)%nat by lia. rewrite <- !app_assoc. apply edits_app; [exact IH|]. cbn. apply e_swap; auto. constructor.
Qed.
(** Dropping one frame changes the cost by at most one. *)
Lemma edits_drop_l a b k : edits a b k -> forall x a', a = x :: a' -> exists k', (k' <= S k)%nat /\ edits a' b k'.
Proof.
  induction 1 as [|x y a b k S H IH|x y a b k H IH|x a b k H IH|y a b k H IH|x1 x2 y1 y2 a b k Sw S1 S2 H IH];
    intros z a' E; try discriminate; [injection E as <- <-..| |injection E as <- <-].
  - exists (Datatypes.S k). split; [lia|]. apply e_insert; exact H.
  - exists (Datatypes.S k). split; [lia|]. apply e_insert; exact H.
  - exists k. split; [lia|exact H].
  - destruct (IH _ _ E) as (k' & L & E'). exists (S k'). split; [lia|]. apply e_insert; exact E'.
  - exists (S k). split; [lia|]. apply e_keep; [exact S2|]. apply e_insert; exact H.
Qed.
Lemma edits_drop_r a b k : edits a b k -> forall y b', b = y :: b' -> exists k', (k' <= S k)%nat /\ edits a b' k'.
Proof.
  induction 1 as [|x y a b k S H IH|x y a b k H IH|x a b k H IH|y a b k H IH|x1 x2 y1 y2 a b k Sw S1 S2 H IH];
    intros z b' E; try discriminate; [injection E as <- <-..| | |injection E as <- <-].
  - exists (Datatypes.S k). split; [lia|]. apply e_delete; exact H.
  - exists (Datatypes.S k). split; [lia|]. apply e_delete; exact H.
  - destruct (IH _ _ E) as (k' & L & E'). exists (S k'). split; [lia|]. apply e_delete; exact E'.
  - injection E as <- <-. exists k. split; [lia|exact H].
  - exists (S k). split; [lia|]. apply e_keep; [exact S1|]. apply e_delete; exact H.
Qed.
End Edits.

(** The recurrence computed by the code, on reversed prefixes. *)
Section Rec.
Context {F : Type} (same : F -> F -> bool) (tr : bool).
Definition min3 (dl a b : Z) : Z :=
  let x := dl + 1 in let x := if a + 1 <? x then a + 1 else x in if b + 1 <? x then b + 1 else x.
Fixpoint ed (ra : list F) : list F -> Z :=
  match ra with
  | [] => fun rb => Z.of_nat (length rb)
  | x :: ra1 =>
    fix inner (rb : list F) : Z :=
      match rb with
      | [] => Z.of_nat (length ra)
      | y :: rb1 =>
        let '(cost, v) := if same x y then (0, ed ra1 rb1) else (1, min3 (ed ra1 rb1) (inner rb1) (ed ra1 rb)) in
        if tr then
          match ra1, rb1 with
          | x2 :: ra2, y2 :: rb2 =>
            if (ed ra2 rb2 + cost <? v) && same x y2 && same x2 y then ed ra2 rb2 + cost else v
          | _, _ => v
          end
        else v
      end
  end.
Lemma ed_eq x ra1 y rb1 : ed (x :: ra1) (y :: rb1) =
  let '(cost, v) := if same x y then (0, ed ra1 rb1) else (1, min3 (ed ra1 rb1) (ed (x :: ra1) rb1) (ed ra1 (y :: rb1))) in
  if tr then
    match ra1, rb1 with
    | x2 :: ra2, y2 :: rb2 => if (ed ra2 rb2 + cost <? v) && same x y2 && same x2 y then ed ra2 rb2 + cost else v
    | _, _ => v
    end
  else v.
Proof. reflexivity. Qed.
Lemma ed_nil_l rb : ed [] rb = Z.of_nat (length rb).
Proof. reflexivity. Qed.
Lemma ed_nil_r ra : ed ra [] = Z.of_nat (length ra).
Proof. destruct ra; reflexivity. Qed.
Lemma min3_eq dl a b : min3 dl a b = 1 + Z.min dl (Z.min a b).
Proof. unfold min3. destruct (a + 1 <? dl + 1) eqn:E1; destruct (b + 1 <? _) eqn:E2; lia. Qed.
Opaque ed min3.

Notation sameP := (fun x y => same x y = true).
Notation E := (edits sameP (tr = true)).
Definition best (a b : list F) (z : Z) : Prop :=
  exists k, z = Z.of_nat k /\ E a b k /\ forall k', E a b k' -> (k <= k')%nat.
Lemma best_le a b z k : best a b z -> E a b k -> z <= Z.of_nat k.
Proof. intros (k0 & -> & _ & H) He. specialize (H _ He). lia. Qed.
Lemma trcase : tr = true \/ tr = false.
Proof. destruct tr; auto. Qed.
Lemma ed_best : (tr = true -> partial_equivalence sameP) ->
  forall s ra rb, (length ra + length rb <= s)%nat -> best ra rb (ed ra rb).
Proof.
  intros PER. induction s as [|s IH]; intros ra rb Hs.
  - destruct ra, rb; cbn in Hs; try lia. exists O. split; [reflexivity|]. split; [constructor|]. intros; lia.
  - destruct ra as [|x ra1].
    { rewrite ed_nil_l. exists (length rb). split; [reflexivity|]. split; [apply edits_nil_l|]. intros k; apply edits_nil_l_inv. }
    destruct rb as [|y rb1].
    { rewrite ed_nil_r. exists (length (x :: ra1)). split; [reflexivity|]. split; [apply edits_nil_r|]. intros k; apply edits_nil_r_inv. }
    cbn [length] in Hs. rewrite ed_eq.
    pose proof (IH ra1 rb1 ltac:(lia)) as B1.
    pose proof (IH (x :: ra1) rb1 ltac:(cbn; lia)) as B2. pose proof (IH ra1 (y :: rb1) ltac:(cbn; lia)) as B3.
    destruct (same x y) eqn:Sxy.
    + assert (LB : forall k, E (x :: ra1) (y :: rb1) k -> ed ra1 rb1 <= Z.of_nat k).
      { intros k H. inversion H; subst.
        - eapply best_le; eassumption.
        - match goal with K : E _ _ _ |- _ => pose proof (best_le _ _ _ _ B1 K) end. lia.
        - match goal with K : E _ _ _ |- _ => destruct (edits_drop_r _ _ _ _ _ K _ _ eq_refl) as (k' & L & K') end.
          pose proof (best_le _ _ _ _ B1 K'). lia.
        - match goal with K : E _ _ _ |- _ => destruct (edits_drop_l _ _ _ _ _ K _ _ eq_refl) as (k' & L & K') end.
          pose proof (best_le _ _ _ _ B1 K'). lia.
        - match goal with K : tr = true |- _ => destruct (PER K) as [PS PT] end.
          match goal with K : E ?a ?b ?k0, S1 : same x ?y2 = true, S2 : same ?x2 y = true |- _ =>
            assert (K2 : E (x2 :: a) (y2 :: b) k0) by (apply e_keep; [|exact K]; cbn beta in *; eapply PT; [exact S2|]; eapply PT; [eapply PS; exact Sxy | exact S1]) end.
          pose proof (best_le _ _ _ _ B1 K2). lia. }
      destruct B1 as (k1 & E1 & K1 & M1).
      assert (G : best (x :: ra1) (y :: rb1) (ed ra1 rb1)).
      { exists k1. split; [exact E1|]. split; [apply e_keep; assumption|]. intros k' H. specialize (LB k' H). lia. }
      destruct trcase as [Et|Et]; rewrite Et; [|exact G]. destruct ra1 as [|x2 ra2]; [exact G|]. destruct rb1 as [|y2 rb2]; [exact G|].
      destruct ((ed ra2 rb2 + 0 <? _) && _ && _) eqn:C; [|exact G]. exfalso.
      apply andb_prop in C as [C S2]. apply andb_prop in C as [C S1].
      destruct (PER Et) as [PS PT]. cbn in Hs. destruct (IH ra2 rb2 ltac:(lia)) as (k2 & E2 & K2 & _).
      assert (K3 : E (x2 :: ra2) (y2 :: rb2) k2).
      { apply e_keep; [|exact K2]. cbn beta in *. eapply PT; [exact S2|]. eapply PT; [eapply PS; exact Sxy | exact S1]. }
      specialize (M1 _ K3). lia.
    + rewrite min3_eq.
      assert (LB : forall k, E (x :: ra1) (y :: rb1) k ->
        1 + Z.min (ed ra1 rb1) (Z.min (ed (x :: ra1) rb1) (ed ra1 (y :: rb1))) <= Z.of_nat k \/
        (tr = true /\ exists x2 ra2 y2 rb2, ra1 = x2 :: ra2 /\ rb1 = y2 :: rb2 /\ same x y2 = true /\ same x2 y = true /\ ed ra2 rb2 + 1 <= Z.of_nat k)).
      { intros k H. inversion H; subst; try congruence.
        - match goal with K : E _ _ _ |- _ => pose proof (best_le _ _ _ _ B1 K) end. left; lia.
        - match goal with K : E _ _ _ |- _ => pose proof (best_le _ _ _ _ B3 K) end. left; lia.
        - match goal with K : E _ _ _ |- _ => pose proof (best_le _ _ _ _ B2 K) end. left; lia.
        - right. split; [assumption|]. do 4 eexists. do 4 (split; [reflexivity || eassumption|]).
          cbn in Hs. match goal with K : E ?a ?b _ |- _ => pose proof (best_le _ _ _ _ (IH a b ltac:(lia)) K) end. lia. }
      set (v := 1 + Z.min _ _) in *.
      assert (Hv : exists k, v = Z.of_nat k /\ E (x :: ra1) (y :: rb1) k).
      { destruct B1 as (k1 & E1 & K1 & _), B2 as (k2 & E2 & K2 & _), B3 as (k3 & E3 & K3 & _). unfold v. rewrite E1, E2, E3.
        destruct (Z.min_spec (Z.of_nat k1) (Z.min (Z.of_nat k2) (Z.of_nat k3))) as [[_ ->]|[_ ->]].
        - exists (S k1). split; [lia|]. apply e_change; exact K1.
        - destruct (Z.min_spec (Z.of_nat k2) (Z.of_nat k3)) as [[_ ->]|[_ ->]].
          + exists (S k2). split; [lia|]. apply e_insert; exact K2.
          + exists (S k3). split; [lia|]. apply e_delete; exact K3. }
      destruct Hv as (kv & Ev & Kv).
      destruct trcase as [Et|Et]; rewrite Et.
      2:{ exists kv. split; [exact Ev|]. split; [exact Kv|]. intros k' H. destruct (LB k' H) as [?|[? _]]; [lia|congruence]. }
      assert (G : (forall k, E (x :: ra1) (y :: rb1) k -> v <= Z.of_nat k) -> best (x :: ra1) (y :: rb1) v).
      { intros H. exists kv. split; [exact Ev|]. split; [exact Kv|]. intros k' Hk'. specialize (H k' Hk'). lia. }
      destruct ra1 as [|x2 ra2].
      { apply G. intros k H. destruct (LB k H) as [?|(_ & ? & ? & ? & ? & ? & _)]; [assumption|discriminate]. }
      destruct rb1 as [|y2 rb2].
      { apply G. intros k H. destruct (LB k H) as [?|(_ & ? & ? & ? & ? & _ & ? & _)]; [assumption|discriminate]. }
      destruct ((ed ra2 rb2 + 1 <? v) && _ && _) eqn:C.
      * apply andb_prop in C as [C S2]. apply andb_prop in C as [C S1]. cbn in Hs.
        destruct (IH ra2 rb2 ltac:(lia)) as (k2 & E2 & K2 & _). rewrite E2 in *.
        exists (S k2). split; [lia|]. split; [apply e_swap; assumption|].
        intros k' H. destruct (LB k' H) as [?|(_ & x2' & ra2' & y2' & rb2' & Ea & Eb & _ & _ & ?)]; [lia|].
        injection Ea as <- <-. injection Eb as <- <-. lia.
      * apply G. intros k H. destruct (LB k H) as [?|(_ & x2' & ra2' & y2' & rb2' & Ea & Eb & S1 & S2 & L)]; [assumption|].
        injection Ea as <- <-. injection Eb as <- <-. rewrite S1, S2, !andb_true_r in C. lia.
Qed.
End Rec.

(** ** The in-place loop computes the recurrence *)
Definition holds (a : list (option Z)) (k : nat) (v : Z) : Prop := nth_error a k = Some (Some v).
Lemma firstn_snoc {X} (l : list X) i x : nth_error l i = Some x -> firstn (S i) l = firstn i l ++ [x].
Proof.
  revert i; induction l as [|y l IH]; intros [|i] H; try discriminate; cbn in *; [congruence|]. f_equal. apply IH. exact H.
Qed.
Lemma load_nat {X} (l : list X) z k v : z = Z.of_nat k -> nth_error l k = Some v -> load l z = Ok v.
Proof. intros -> H. unfold load. replace (0 <=? Z.of_nat k) with true by (symmetry; apply Z.leb_le; lia). rewrite Nat2Z.id, H. reflexivity. Qed.
Lemma readz_nat (l : list (option Z)) z k v : z = Z.of_nat k -> holds l k v -> readz l z = Ok v.
Proof. intros E H. unfold readz. rewrite (load_nat _ _ _ _ E H). reflexivity. Qed.
Lemma store_nat {X} (l : list X) z k v : z = Z.of_nat k -> (k < length l)%nat -> store l z v = Ok (upd l k v).
Proof.
  intros -> H. unfold store. replace (0 <=? Z.of_nat k) with true by (symmetry; apply Z.leb_le; lia). replace (Z.of_nat k <? Z.of_nat (length l)) with true by (symmetry; apply Z.ltb_lt; lia).
  rewrite Nat2Z.id. reflexivity.
Qed.
Lemma holds_upd_eq a k v : (k < length a)%nat -> holds (upd a k (Some v)) k v.
Proof. intros H. unfold holds. rewrite nth_upd, Nat.eqb_refl. replace (k <? length a)%nat with true by (symmetry; apply Nat.ltb_lt; exact H). reflexivity. Qed.
Lemma holds_upd_ne a k v k' v' : k' <> k -> holds a k' v' -> holds (upd a k v) k' v'.
Proof. intros H. unfold holds. rewrite nth_upd. destruct (Nat.eqb k' k) eqn:E; [apply Nat.eqb_eq in E; contradiction | auto]. Qed.
Lemma fill_ok (g : Z -> Z) l : forall d, (forall i, In i l -> 0 <= g i < Z.of_nat (length d)) -> (forall i i', In i l -> In i' l -> g i = g i' -> i = i') ->
  exists d', fold_res (fun d i => store d (g i) (Some i)) l d = Ok d' /\ length d' = length d /\
    (forall i, In i l -> holds d' (Z.to_nat (g i)) i) /\
    (forall k, (forall i, In i l -> g i <> Z.of_nat k) -> nth_error d' k = nth_error d k).
Proof.
  induction l as [|i l IH]; intros d H1 H2.
  - exists d. cbn. split; [reflexivity|]. split; [reflexivity|]. split; intros; [contradiction | reflexivity].
  - cbn [fold_res]. pose proof (H1 i (or_introl eq_refl)) as Hi. rewrite (store_nat d (g i) (Z.to_nat (g i))) by lia. cbn [bind].
    destruct (IH (upd d (Z.to_nat (g i)) (Some i))) as (d' & E & L' & P & Q).
    + intros i' Hi'. rewrite upd_length. apply H1; right; exact Hi'.
    + intros; apply H2; try (right; assumption); assumption.
    + exists d'. split; [exact E|]. split; [rewrite L', upd_length; reflexivity|]. split.
      * intros i' [<-|Hi']; [|apply P; exact Hi']. destruct (in_dec Z.eq_dec i l) as [Hin|Hout]; [apply P; exact Hin|].
        unfold holds. rewrite Q; [apply holds_upd_eq; lia|]. intros i' Hi' Eq. apply Hout.
        rewrite (H2 i i'); [exact Hi' | left; reflexivity | right; exact Hi' | lia].
      * intros k Hk. rewrite Q; [|intros; apply Hk; right; assumption]. rewrite nth_upd.
        destruct (Nat.eqb k (Z.to_nat (g i))) eqn:C; [|reflexivity]. apply Nat.eqb_eq in C. exfalso. apply (Hk i (or_introl eq_refl)). lia.
Qed.
Section Loop.
Context {F : Type} (same : F -> F -> bool) (tr : bool) (A B : list F).
Let M := length A.
Let N := length B.
Let m := S M.
Definition dd (i j : nat) : Z := ed same tr (rev (firstn i A)) (rev (firstn j B)).

Lemma dd_0_l j : (j <= N)%nat -> dd 0 j = Z.of_nat j.
Proof. intros H. unfold dd. cbn [firstn rev]. rewrite ed_nil_l, rev_length, firstn_length. unfold N in H. f_equal. lia. Qed.
Lemma dd_0_r i : (i <= M)%nat -> dd i 0 = Z.of_nat i.
Proof. intros H. unfold dd. cbn [firstn rev]. rewrite ed_nil_r, rev_length, firstn_length. unfold M in H. f_equal. lia. Qed.


(** Column [j], rows 1..r of it done. *)
Record inv (j r : nat) (d d1 : list (option Z)) : Prop := {
  inv_len : length d = (m + S N + 1)%nat;
  inv_len1 : length d1 = (m + S N + 1)%nat;
  inv_new : forall i, (i <= r)%nat -> holds d (m + j - i) (dd i j);
  inv_old : forall i, (r <= i <= M)%nat -> holds d (m + j - 1 - i) (dd i (j - 1));
  inv_top : forall j', (j < j' <= N)%nat -> holds d (m + j') (Z.of_nat j');
  inv_old1 : forall i, (2 <= j)%nat -> (r < i <= M)%nat -> (2 <= i)%nat -> holds d1 (m + j - i) (dd (i - 2) (j - 2));
  inv_new1 : forall i, (1 <= i <= r)%nat -> holds d1 (m + j - i) (dd (i - 1) (j - 1)) }.

Lemma rev_pred (l : list F) i x : nth_error l (S i) = Some x -> exists x2, nth_error l i = Some x2.
Proof. intros H. destruct (nth_error l i) eqn:E; [eauto|]. apply nth_error_None in E. assert (nth_error l (S i) = None) by (apply nth_error_None; lia). congruence. Qed.
Lemma cell_ok j r f f2 prev prev2 d d1 : inv (S j) r d d1 ->
  nth_error A r = Some f -> nth_error B j = Some f2 ->
  (forall r', r = S r' -> prev = nth_error A r') -> (forall j', j = S j' -> prev2 = nth_error B j') ->
  exists d' d1', lev_cell same tr (Z.of_nat m) (Z.of_nat (S r)) (Z.of_nat (S j)) f f2 prev prev2 d d1 = Ok (d', d1') /\
    inv (S j) (S r) d' d1'.
Proof.
  intros I Hf Hf2 Hp Hp2. assert (Hr : (r < M)%nat) by (apply nth_error_Some; congruence). assert (Hj : (j < N)%nat) by (apply nth_error_Some; congruence).
  set (l := (m + S j - S r)%nat).
  assert (El : Z.of_nat m + Z.of_nat (S j) - Z.of_nat (S r) = Z.of_nat l) by (unfold l, m; lia).
  destruct I as [I1 I2 I3 I4 I5 I6 I7].
  assert (Ll : (l < length d)%nat) by (rewrite I1; unfold l, m; lia).
  assert (Ll1 : (l < length d1)%nat) by (rewrite I2; unfold l, m; lia).
  assert (Hdl : holds d l (dd r j)). { pose proof (I4 r ltac:(lia)) as H. replace (m + S j - 1 - r)%nat with l in H by (unfold l; lia). replace (S j - 1)%nat with j in H by lia. exact H. }
  assert (Hl1 : holds d (l - 1) (dd (S r) j)). { pose proof (I4 (S r) ltac:(lia)) as H. replace (m + S j - 1 - S r)%nat with (l - 1)%nat in H by (unfold l; lia). replace (S j - 1)%nat with j in H by lia. exact H. }
  assert (Hl2 : holds d (l + 1) (dd r (S j))). { pose proof (I3 r ltac:(lia)) as H. replace (m + S j - r)%nat with (l + 1)%nat in H by (unfold l, m; lia). exact H. }
  assert (Ea : rev (firstn (S r) A) = f :: rev (firstn r A)) by (rewrite (firstn_snoc _ _ _ Hf), rev_unit; reflexivity).
  assert (Eb : rev (firstn (S j) B) = f2 :: rev (firstn j B)) by (rewrite (firstn_snoc _ _ _ Hf2), rev_unit; reflexivity).
  set (v := dd (S r) (S j)).
  assert (Ev : v = let '(cost, x) := if same f f2 then (0, dd r j) else (1, min3 (dd r j) (dd (S r) j) (dd r (S j))) in
    if tr then match rev (firstn r A), rev (firstn j B) with
      | x2 :: ra2, y2 :: rb2 => if (ed same tr ra2 rb2 + cost <? x) && same f y2 && same x2 f2 then ed same tr ra2 rb2 + cost else x
      | _, _ => x end else x).
  { unfold v, dd. rewrite Ea, Eb. rewrite ed_eq. reflexivity. }
  assert (G : exists d', lev_cell same tr (Z.of_nat m) (Z.of_nat (S r)) (Z.of_nat (S j)) f f2 prev prev2 d d1 =
      Ok (upd d l (Some v), d') /\ d' = upd d1 l (Some (dd r j))).
  { eexists; split; [|reflexivity]. unfold lev_cell. rewrite El.
    destruct (nth_error d1 l) as [x1|] eqn:Ex1; [|apply nth_error_None in Ex1; lia].
    rewrite (load_nat _ _ _ _ eq_refl Ex1). cbn [bind]. rewrite (readz_nat _ _ _ _ eq_refl Hdl). cbn [bind].
    rewrite (store_nat d1 _ _ _ eq_refl Ll1). cbn [bind].
    rewrite (readz_nat d _ _ _ (ltac:(unfold l, m; lia) : Z.of_nat l - 1 = Z.of_nat (l - 1)) Hl1).
    rewrite (readz_nat d _ _ _ (ltac:(unfold l, m; lia) : Z.of_nat l + 1 = Z.of_nat (l + 1)) Hl2). cbn [bind].
    set (cv := if same f f2 then Ok (0, dd r j) else _).
    assert (Ecv : cv = Ok (if same f f2 then (0, dd r j) else (1, min3 (dd r j) (dd (S r) j) (dd r (S j))))).
    { unfold cv. destruct (same f f2); reflexivity. }
    rewrite Ecv. cbn [bind]. clear cv Ecv.
    destruct (if same f f2 then (0, dd r j) else (1, min3 (dd r j) (dd (S r) j) (dd r (S j)))) as [cost x] eqn:Ecx.
    assert (Ew : (if tr && (2 <=? Z.of_nat (S r)) && (2 <=? Z.of_nat (S j)) then
             match x1 with
             | None => UB
             | Some d2 =>
               if d2 + cost <? x then
                 match prev2 with
                 | None => UB
                 | Some p2 =>
                   if same f p2 then
                     match prev with
                     | None => UB
                     | Some p => if same p f2 then Ok (d2 + cost) else Ok x
                     end
                   else Ok x
                 end
               else Ok x
             end
           else Ok x) = Ok v).
    { rewrite Ev. destruct (trcase tr) as [Et|Et]; rewrite Et; [|reflexivity]. cbn [andb].
      destruct r as [|r']. { cbn [firstn rev]. reflexivity. }
      destruct j as [|j']. { replace (2 <=? Z.of_nat 1) with false by reflexivity. rewrite andb_false_r. change (rev (firstn 0 B)) with (@nil F). clear. destruct (rev (firstn (S r') A)); reflexivity. }
      replace (2 <=? Z.of_nat (S (S r'))) with true by (symmetry; apply Z.leb_le; lia).
      replace (2 <=? Z.of_nat (S (S j'))) with true by (symmetry; apply Z.leb_le; lia). cbn [andb].
      destruct (rev_pred _ _ _ Hf) as [p Ep]. destruct (rev_pred _ _ _ Hf2) as [p2 Ep2].
      rewrite (Hp _ eq_refl), (Hp2 _ eq_refl), Ep, Ep2.
      rewrite (firstn_snoc _ _ _ Ep), (firstn_snoc _ _ _ Ep2), !rev_unit.
      pose proof (I6 (S (S r')) ltac:(lia) ltac:(lia) ltac:(lia)) as H6. replace (m + S (S j') - S (S r'))%nat with l in H6 by (unfold l; lia).
      replace (S (S r') - 2)%nat with r' in H6 by lia. replace (S (S j') - 2)%nat with j' in H6 by lia. unfold holds in H6. rewrite Ex1 in H6. injection H6 as ->.
      replace (ed same true (rev (firstn r' A)) (rev (firstn j' B))) with (dd r' j') by (unfold dd; rewrite Et; reflexivity). destruct (dd r' j' + cost <? x); cbn [andb]; [|reflexivity]. destruct (same f p2); cbn [andb]; [|reflexivity].
      destruct (same p f2); reflexivity. }
    rewrite Ew. cbn [bind]. rewrite (store_nat d _ _ _ eq_refl Ll). reflexivity. }
  destruct G as (d1' & G & ->). exists (upd d l (Some v)), (upd d1 l (Some (dd r j))). split; [exact G|].
  constructor.
  - rewrite upd_length; exact I1.
  - rewrite upd_length; exact I2.
  - intros i Hi. destruct (Nat.eq_dec i (S r)) as [->|Hne]; [apply holds_upd_eq; exact Ll|].
    apply holds_upd_ne; [unfold l, m; lia|]. apply I3; lia.
  - intros i Hi. apply holds_upd_ne; [unfold l, m; lia|]. apply I4; lia.
  - intros j' Hj'. apply holds_upd_ne; [unfold l, m; lia|]. apply I5; lia.
  - intros i H1 H2 H3. apply holds_upd_ne; [unfold l, m; lia|]. apply I6; lia.
  - intros i Hi. destruct (Nat.eq_dec i (S r)) as [->|Hne].
    + replace (S r - 1)%nat with r by lia. replace (S j - 1)%nat with j by lia. apply holds_upd_eq; exact Ll1.
    + apply holds_upd_ne; [unfold l, m; lia|]. apply I7; lia.
Qed.
Lemma rows_ok j f2 prev2 : nth_error B j = Some f2 -> (forall j', j = S j' -> prev2 = nth_error B j') ->
  forall fs r prev d d1, fs = skipn r A -> (r <= M)%nat -> (forall r', r = S r' -> prev = nth_error A r') -> inv (S j) r d d1 ->
  exists prev' d' d1', lev_rows same tr (Z.of_nat m) (Z.of_nat (S j)) f2 prev2 (Z.of_nat (S r)) fs prev d d1 = Ok (prev', d', d1') /\
    inv (S j) M d' d1'.
Proof.
  intros Hf2 Hp2. induction fs as [|f fs IH]; intros r prev d d1 Efs Hr Hp I.
  - exists prev, d, d1. split; [reflexivity|]. assert (r = M); [|subst; exact I].
    apply (f_equal (@List.length F)) in Efs. rewrite skipn_length in Efs. cbn in Efs. unfold M in *. lia.
  - assert (Hf : nth_error A r = Some f /\ fs = skipn (S r) A).
    { clear -Efs. revert r Efs. induction A as [|a l IHl]; intros [|r] E; try discriminate; cbn in *; [injection E as <- <-; auto | apply IHl; exact E]. }
    destruct Hf as [Hf Efs'].
    destruct (cell_ok j r f f2 prev prev2 d d1 I Hf Hf2 Hp Hp2) as (d' & d1' & Ec & I'). cbn [lev_rows]. rewrite Ec. cbn [bind fst snd].
    replace (Z.of_nat (S r) + 1) with (Z.of_nat (S (S r))) by lia. apply IH; [exact Efs' | apply nth_error_Some; congruence | | exact I'].
    intros r' E. injection E as <-. symmetry; exact Hf.
Qed.
(** Columns 1..j done. *)
Record colinv (j : nat) (d d1 : list (option Z)) : Prop := {
  ci_len : length d = (m + S N + 1)%nat;
  ci_len1 : length d1 = (m + S N + 1)%nat;
  ci_new : forall i, (i <= M)%nat -> holds d (m + j - i) (dd i j);
  ci_top : forall j', (j < j' <= N)%nat -> holds d (m + j') (Z.of_nat j');
  ci_new1 : forall i, (1 <= j)%nat -> (1 <= i <= M)%nat -> holds d1 (m + j - i) (dd (i - 1) (j - 1)) }.
Lemma col_done j d d1 : inv j M d d1 -> colinv j d d1.
Proof. intros [I1 I2 I3 I4 I5 I6 I7]. constructor; auto. Qed.
Lemma next_col j d d1 : (S j <= N)%nat -> colinv j d d1 -> inv (S j) 0 d d1.
Proof.
  intros Hj [I1 I2 I3 I5 I7]. constructor; try assumption.
  - intros i Hi. replace i with O by lia. rewrite Nat.sub_0_r, dd_0_l by lia. apply I5. lia.
  - intros i Hi. replace (m + S j - 1 - i)%nat with (m + j - i)%nat by lia. replace (S j - 1)%nat with j by lia. apply I3. lia.
  - intros j' Hj'. apply I5. lia.
  - intros i H1 H2 H3. replace (m + S j - i)%nat with (m + j - (i - 1))%nat by lia.
    replace (i - 2)%nat with (i - 1 - 1)%nat by lia. replace (S j - 2)%nat with (j - 1)%nat by lia. apply I7; lia.
  - intros i Hi. lia.
Qed.
Lemma cols_ok fs2 : forall j prev prev2 d d1, fs2 = skipn j B -> (j <= N)%nat -> (forall j', j = S j' -> prev2 = nth_error B j') ->
  colinv j d d1 -> exists d' d1', lev_cols same tr (Z.of_nat m) A (Z.of_nat (S j)) fs2 prev prev2 d d1 = Ok d' /\ colinv N d' d1'.
Proof.
  induction fs2 as [|f2 fs2 IH]; intros j prev prev2 d d1 Efs Hj Hp2 I.
  - exists d, d1. split; [reflexivity|]. assert (j = N); [|subst; exact I].
    apply (f_equal (@List.length F)) in Efs. rewrite skipn_length in Efs. cbn in Efs. unfold N in *. lia.
  - assert (Hf : nth_error B j = Some f2 /\ fs2 = skipn (S j) B).
    { clear -Efs. revert j Efs. induction B as [|a l IHl]; intros [|r] E; try discriminate; cbn in *; [injection E as <- <-; auto | apply IHl; exact E]. }
    destruct Hf as [Hf Efs']. assert (Hj' : (S j <= N)%nat) by (apply nth_error_Some; congruence).
    destruct (rows_ok j f2 prev2 Hf Hp2 A 0 prev d d1 eq_refl ltac:(lia) ltac:(discriminate) (next_col _ _ _ Hj' I)) as (prev' & d' & d1' & Er & I').
    cbn [lev_cols]. change (Z.of_nat 1) with 1 in Er. rewrite Er. cbn [bind]. replace (Z.of_nat (S j) + 1) with (Z.of_nat (S (S j))) by lia.
    apply (IH (S j) prev' (Some f2) d' d1'); [exact Efs' | exact Hj' | | apply col_done; exact I'].
    intros j' E. injection E as <-. symmetry; exact Hf.
Qed.
(** Initialisation *)
End Loop.

Lemma lev_counts_ok {F} (same : F -> F -> bool) tr A B :
  Z.of_nat (length A) + Z.of_nat (length B) + 3 <= int_max -> (A <> [] \/ B <> []) ->
  lev_counts same tr A B = Ok (Some (ed same tr (rev A) (rev B), Z.max (Z.of_nat (length A)) (Z.of_nat (length B)))).
Proof.
  intros Hl Hne. unfold lev_counts. set (M := length A) in *. set (N := length B) in *.
  replace (if Z.of_nat N <? Z.of_nat M then Z.of_nat M else Z.of_nat N) with (Z.max (Z.of_nat M) (Z.of_nat N))
    by (destruct (Z.of_nat N <? Z.of_nat M) eqn:C; [apply Z.ltb_lt in C | apply Z.ltb_ge in C]; lia).
  assert (Hpos : 0 < Z.max (Z.of_nat M) (Z.of_nat N)).
  { destruct Hne as [H|H]; [destruct A | destruct B]; try contradiction; unfold M, N; cbn [length]; lia. }
  rewrite (proj2 (Z.eqb_neq _ 0)) by lia.
  rewrite !assert_ok by (apply Z.leb_le; lia). cbn [bind].
  set (fresh := repeat (@None Z) (Z.to_nat (Z.of_nat M + 1 + (Z.of_nat N + 1) + 1))).
  assert (Lf : length fresh = (S M + S N + 1)%nat) by (unfold fresh; rewrite repeat_length; lia).
  destruct (fill_ok (fun i => Z.of_nat M + 1 - i) (rev (zrange 1 (Z.of_nat M + 1 + 1))) fresh) as (d0 & E0 & L0 & P0 & Q0).
  { intros i Hi. apply in_rev, zrange_in in Hi. rewrite Lf. lia. }
  { intros i i' Hi Hi' E. lia. }
  rewrite E0. cbn [bind].
  destruct (fill_ok (fun i => Z.of_nat M + 1 + i) (zrange 0 (Z.of_nat N + 1 + 1)) d0) as (d & E & Ld & P & Q).
  { intros i Hi. apply zrange_in in Hi. rewrite L0, Lf. lia. }
  { intros i i' Hi Hi' Ee. lia. }
  rewrite E. cbn [bind].
  assert (I : colinv same tr A B 0 d fresh).
  { constructor; fold M N.
    - lia.
    - exact Lf.
    - intros i Hi. rewrite dd_0_r by exact Hi. destruct i as [|i].
      + pose proof (P 0 ltac:(apply zrange_in; lia)) as H. replace (Z.to_nat (Z.of_nat M + 1 + 0)) with (S M + 0 - 0)%nat in H by lia. exact H.
      + unfold holds. rewrite Q by (intros i' Hi'; apply zrange_in in Hi'; lia).
        pose proof (P0 (Z.of_nat (S i)) ltac:(apply -> in_rev; apply zrange_in; lia)) as H.
        replace (Z.to_nat (Z.of_nat M + 1 - Z.of_nat (S i))) with (S M + 0 - S i)%nat in H by lia. exact H.
    - intros j' Hj'. pose proof (P (Z.of_nat j') ltac:(apply zrange_in; lia)) as H.
      replace (Z.to_nat (Z.of_nat M + 1 + Z.of_nat j')) with (S M + j')%nat in H by lia. exact H.
    - intros; lia. }
  destruct (cols_ok same tr A B B 0 None None d fresh eq_refl ltac:(lia) ltac:(discriminate) I) as (d' & d1' & Ec & I').
  fold M in Ec. replace (Z.of_nat (S M)) with (Z.of_nat M + 1) in Ec by lia. change (Z.of_nat 1) with 1 in Ec. rewrite Ec. cbn [bind].
  pose proof (ci_new _ _ _ _ _ _ _ I' M ltac:(lia)) as H. fold M N in H.
  rewrite (readz_nat d' _ _ _ (ltac:(lia) : Z.of_nat N + 1 = Z.of_nat (S M + N - M)) H). cbn [bind].
  unfold dd. rewrite !firstn_all2 by (unfold M, N; lia). reflexivity.
Qed.
