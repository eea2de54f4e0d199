From Verif Require Import Base HeapModel HeapSpec HeapProofs SystemModel PyAttrModel PyAttrSpec PyAttrProofs PyAttrProofs2.
Open Scope nat_scope.
Section C.
Variable constant : str -> str.

Lemma is_int_as v z : is_int v z <-> as_int v = Some z.
Proof.
  unfold is_int. destruct v; cbn; split; intros H; try (destruct H as [H|(b' & H & H2)]); try discriminate.
  - injection H as <-. subst z. reflexivity.
  - injection H as <-. right. eexists. split; reflexivity.
  - injection H as <-. reflexivity.
  - injection H as <-. left. reflexivity.
Qed.
Lemma as_long_ok v z : is_int v z -> (- 2 ^ 63 <= z < 2 ^ 63)%Z -> as_long v = Some z.
Proof. intros I R. apply is_int_as in I. unfold as_long. rewrite I. rewrite (proj2 (Z.leb_le _ _)) by lia. rewrite (proj2 (Z.ltb_lt _ _)) by lia. reflexivity. Qed.
Lemma is_true_truth v b : is_true v b -> truth v = Some b.
Proof.
  destruct v as [|c|z|t|t]; cbn; intros H; [congruence..| | |exact H].
  - f_equal. destruct (z =? 0)%Z eqn:E; destruct b; cbn; try reflexivity; [apply Z.eqb_eq in E|apply Z.eqb_neq in E]; intuition congruence.
  - f_equal. destruct t, b; try reflexivity; [|]; exfalso; [apply (proj1 H eq_refl); reflexivity|]. assert (false = true) by (apply H; discriminate). discriminate.
Qed.
Lemma shows_number_other k scal ss d d' i z y : (forall m, d <> Text m) -> nth_error (number_members k) i = Some (member d) -> member d' <> member d ->
  shows k (store scal i z) ss d' y <-> shows k scal ss d' y.
Proof.
  intros _ Q Nm. assert (F : forall m w, m <> member d -> number_of k (store scal i z) m w <-> number_of k scal m w).
  { intros m w Hm. unfold number_of. split; intros (j & A & B); exists j; (split; [exact A|]); rewrite nth_store_other in *; try exact B; intros ->; congruence. }
  destruct d' as [m|m mx|m|m]; cbn [shows member] in *; [reflexivity| | |]; split; intros (w & A & B); exists w; (split; [apply (F m w Nm); exact A|exact B]).
Qed.
Lemma shows_text_other k scal ss d d' i s y m : d = Text m -> nth_error (text_members k) i = Some m -> member d' <> m ->
  shows k scal (store ss i s) d' y <-> shows k scal ss d' y.
Proof.
  intros _ Q Nm. destruct d' as [m'|m' mx|m'|m']; cbn [shows member] in *; [|reflexivity..].
  assert (F : forall w, string_of k (store ss i s) m' w <-> string_of k ss m' w).
  { intros w. unfold string_of. split; intros (j & A & B); exists j; (split; [exact A|]); rewrite nth_store_other in *; try exact B; intros ->; congruence. }
  split; intros (w & A & B); exists w; (split; [apply F; exact A|exact B]).
Qed.
(** What a successful assignment does to a number. *)
Lemma number_set h c k name d scal ss fs kids arr raw n z y :
  structure h c k scal ss fs kids arr raw n -> In (name, d) (documented k) -> (forall m, d <> Text m) ->
  (forall i, nth_error (number_members k) i = Some (member d) -> shows k (store scal i z) ss d y) ->
  forall i t, offset k (member d) t = Ok i -> nth_error (number_members k) i = Some (member d) ->
  exists h' scal', store_scalar h c (member d) t z = Ok h' /\ structure h' c k scal' ss fs kids arr raw n /\ shows k scal' ss d y /\
    (forall d' y', member d' <> member d -> shows k scal' ss d' y' <-> shows k scal ss d' y') /\ same_outside [c] h h' /\ length h' = length h.
Proof.
  intros St I NT Sh i t Of Q. destruct (in_nth _ scal i _ Q ltac:(destruct St as (Ls & _); lia)) as [w Ew].
  destruct (number_written h c k scal ss fs kids arr raw n (member d) t i w z St Of Ew) as (h' & E & St' & S & Lh). exists h', (store scal i z).
  split; [exact E|]. split; [exact St'|]. split; [exact (Sh i Q)|]. split; [|split; [exact S|exact Lh]]. intros d' y' Nm. exact (shows_number_other k scal ss d d' i z y' NT Q Nm).
Qed.
Definition assigned (h : heap) (c : addr) (k : kind) (scal : list Z) (ss : list (option str)) (fs : list addr) kids arr raw n (name : str) (d : doc) (v x : pyval) : Prop :=
  exists h' scal' ss' fs', setattr h k c name (Some v) = Some (Ok (h', true)) /\ structure h' c k scal' ss' fs' kids arr raw n /\
    shows k scal' ss' d (Some x) /\ (forall d' y, member d' <> member d -> shows k scal' ss' d' y <-> shows k scal ss d' y) /\
    (forall a, a < length h -> a <> c -> ~ In a fs -> nth_error h' a = nth_error h a) /\
    (forall a, In a fs -> In a fs' /\ nth_error h' a = nth_error h a \/ ~ In a fs' /\ freed h' a) /\
    (forall a, In a fs' -> In a fs \/ a = length h) /\ length h' <= S (length h).
Lemma assigned_number h c k name d scal ss fs kids arr raw n v x z a t i :
  structure h c k scal ss fs kids arr raw n -> In (name, d) (documented k) -> (forall m, d <> Text m) ->
  find_attr (attributes k) name = Some (a, member d) -> offset k (member d) t = Ok i -> nth_error (number_members k) i = Some (member d) ->
  setter h c a (member d) (Some v) = bind (store_scalar h c (member d) t z) (fun h => Ok (h, true)) ->
  (forall i, nth_error (number_members k) i = Some (member d) -> shows k (store scal i z) ss d (Some x)) ->
  assigned h c k scal ss fs kids arr raw n name d v x.
Proof.
  intros St I NT F Of Q E Sh. destruct (number_set h c k name d scal ss fs kids arr raw n z (Some x) St I NT Sh i t Of Q) as (h' & scal' & Es & St' & Sh' & Ot & S & Lh).
  exists h', scal', ss, fs. unfold setattr. rewrite F, E, Es. cbn [bind]. split; [reflexivity|]. split; [exact St'|]. split; [exact Sh'|]. split; [exact Ot|].
  split; [intros b Hb Hc Hf; apply S; intros [->|[]]; congruence|]. split; [|split; [intros b Hb; left; exact Hb|lia]].
  intros b Hb. left. split; [exact Hb|]. apply S. intros [->|[]]. destruct St as (_ & _ & Nc & _). contradiction.
Qed.
Lemma set_ok h c k name d scal ss fs kids arr raw n v x :
  structure h c k scal ss fs kids arr raw n -> In (name, d) (documented k) -> accepts d v x -> assigned h c k scal ss fs kids arr raw n name d v x.
Proof.
  intros St I A. assert (D : (exists m, d = Text m) \/ forall m, d <> Text m) by (destruct d; [left; eexists; reflexivity|right; discriminate..]).
  destruct D as [[m ->]|D].
  - destruct A as (t & -> & Sto & ->). destruct (doc_text k name m I) as (i & F & P & Q). destruct (as_utf8_some t Sto) as (s & U & Es).
    assert (C : c_string s = s) by (apply c_string_id; apply (utf8_no_nul t); [exact U|]; destruct Sto as [_ Fn]; apply (Forall_impl _ (fun c H => proj1 H) Fn)).
    destruct (string_written h c k scal ss fs kids arr raw n m s i St P) as (h' & fs' & E & St' & Lh & So & If & Sf).
    { destruct St as (_ & Lt & _). rewrite Lt. apply nth_error_Some. congruence. }
    exists h', scal, (store ss i (Some s)), fs'. unfold setattr. rewrite F. cbn [setter]. rewrite Es, C, E. cbn [bind]. split; [reflexivity|]. split; [exact St'|]. split; [|split; [|split; [exact So|split; [|split]]]].
    + exists (Some s). split; [|left; exists t; split; [exact U|reflexivity]]. exists i. split; [exact Q|]. destruct (in_nth _ ss i _ Q ltac:(destruct St as (_ & Lt & _); lia)) as [y Ey]. exact (nth_store_same _ _ _ _ Ey).
    + intros d' y Nm. exact (shows_text_other k scal ss (Text m) d' i (Some s) y m eq_refl Q Nm).
    + intros a Ha. destruct (nth_error h' a) as [[| | |]|] eqn:Ea; try (left; assert (Hf' : In a fs') by (apply If; right; split; [exact Ha|unfold freed; congruence]); split; [exact Hf'|]; rewrite <- Ea; apply Sf; assumption).
      right. split; [|exact Ea]. intros Hin. destruct St' as (_ & _ & _ & _ & ps' & _ & O').
      clear - O' Hin Ea. induction O' as [|qs rs f O IH|b s1 qs rs f Hb O IH]; [destruct Hin|exact (IH Hin)|destruct Hin as [<-|Hin]; [congruence|exact (IH Hin)]].
    + intros a Ha. apply If in Ha as [->|[Ha _]]; [right; reflexivity|left; exact Ha].
    + lia.
  - destruct (doc_number k name d I D) as (i & a & t & F & Of & Ac & Q).
    assert (NO : forall i z, nth_error (number_members k) i = Some (member d) -> number_of k (store scal i z) (member d) z).
    { intros j z Qj. exists j. split; [exact Qj|]. destruct (in_nth _ scal j _ Qj ltac:(destruct St as (Ls & _); lia)) as [w Ew]. exact (nth_store_same _ _ _ _ Ew). }
    destruct d as [mm|mm mx|mm|mm]; [exfalso; exact (D _ eq_refl)| | |]; cbn [accepts] in A.
    + destruct A as (z & Iz & Rz & ->). assert (Mx : (mx <= u32)%Z) by (destruct a, t; try discriminate Ac; cbn in Ac; apply Z.eqb_eq in Ac; subst mx; unfold u32; lia).
      assert (Al : as_long v = Some z) by (apply as_long_ok; [exact Iz|unfold u32 in Mx; lia]).
      assert (Hs : setter h c a mm (Some v) = bind (store_scalar h c mm t z) (fun h => Ok (h, true))).
      { destruct a, t; try discriminate Ac; cbn in Ac; apply Z.eqb_eq in Ac; subst mx; cbn [setter]; rewrite Al.
        - rewrite (proj2 (Z.ltb_ge z 0)) by lia. rewrite Z.gtb_ltb. rewrite (proj2 (Z.ltb_ge 65535 z)) by lia. reflexivity.
        - rewrite (proj2 (Z.ltb_ge z 0)) by lia. rewrite Z.mod_small by (unfold u32 in Rz; lia). reflexivity.
        - assert (E : ((z =? 0) || (z =? 1) || (z =? 2))%Z = true) by (destruct (Z.eqb_spec z 0); destruct (Z.eqb_spec z 1); destruct (Z.eqb_spec z 2); try reflexivity; lia). rewrite E. reflexivity.
        - assert (E : ((z =? 0) || (z =? 1))%Z = true) by (destruct (Z.eqb_spec z 0); destruct (Z.eqb_spec z 1); try reflexivity; lia). rewrite E. reflexivity. }
      apply (assigned_number h c k name (Number mm mx) scal ss fs kids arr raw n v (VInt z) z a t i St I D F Of Q Hs). intros j Qj. exists z. split; [apply NO; exact Qj|reflexivity].
    + destruct a, t; try discriminate Ac. destruct A as [[-> ->]|(z & Iz & Rz & ->)].
      * apply (assigned_number h c k name (Long mm) scal ss fs kids arr raw n VNone VNone (2 ^ 64 - 1)%Z AUint64 TU64 i St I D F Of Q eq_refl). intros j Qj. exists (2 ^ 64 - 1)%Z. split; [apply NO; exact Qj|reflexivity].
      * apply (assigned_number h c k name (Long mm) scal ss fs kids arr raw n v (VInt z) z AUint64 TU64 i St I D F Of Q).
        { apply is_int_as in Iz. cbn [setter]. destruct v; try discriminate Iz; cbn [as_int] in Iz |- *; injection Iz as <-; (rewrite Z.mod_small; [reflexivity|unfold u64 in Rz; lia]). }
        intros j Qj. exists z. split; [apply NO; exact Qj|]. rewrite (proj2 (Z.eqb_neq z u64)) by lia. reflexivity.
    + destruct a, t; try discriminate Ac. destruct A as (b & Tb & ->). apply is_true_truth in Tb.
      apply (assigned_number h c k name (Flag mm) scal ss fs kids arr raw n v (VBool b) (if b then 1 else 0)%Z ABool TBool i St I D F Of Q).
      * cbn [setter]. rewrite Tb. reflexivity.
      * intros j Qj. exists (if b then 1 else 0)%Z. split; [apply NO; exact Qj|]. destruct b; reflexivity.
Qed.
Lemma set_refused h c k name d v : In (name, d) (documented k) -> refuses d v -> setattr h k c name (Some v) = Some (Ok (h, false)).
Proof.
  intros I R. unfold setattr. assert (D : (exists m, d = Text m) \/ forall m, d <> Text m) by (destruct d; [left; eexists; reflexivity|right; discriminate..]).
  destruct D as [[m ->]|D].
  - destruct (doc_text k name m I) as (i & F & P & Q). rewrite F. cbn [setter]. destruct R as [R|(t & -> & c' & Ic & Sc)].
    + destruct v; try reflexivity. exfalso. exact (R _ eq_refl).
    + rewrite (as_utf8_none t c' Ic Sc). reflexivity.
  - destruct (doc_number k name d I D) as (i & a & t & F & Of & Ac & Q). rewrite F.
    destruct d as [mm|mm mx|mm|mm]; [exfalso; exact (D _ eq_refl)| | |destruct R]; cbn [refuses member] in *.
    + destruct R as [R|(z & Iz & Rz)].
      * assert (Al : as_long v = None).
        { unfold as_long. destruct (as_int v) as [z|] eqn:E; [|reflexivity]. exfalso. apply (R z). apply is_int_as. exact E. }
        destruct a, t; try discriminate Ac; cbn [setter]; rewrite Al; reflexivity.
      * apply is_int_as in Iz. destruct (as_long v) as [w|] eqn:Al.
        { assert (w = z /\ (- 2 ^ 63 <= z < 2 ^ 63)%Z) as [-> Rw].
          { unfold as_long in Al. rewrite Iz in Al. destruct (Z.leb_spec (- 2 ^ 63) z); destruct (Z.ltb_spec z (2 ^ 63)); cbn [andb] in Al; try discriminate. injection Al as <-. split; [reflexivity|lia]. }
          destruct a, t; try discriminate Ac; cbn in Ac; apply Z.eqb_eq in Ac; subst mx; cbn [setter]; rewrite Al.
          - destruct Rz as [Rz|[Rz|[_ Rz]]]; [rewrite (proj2 (Z.ltb_lt z 0)) by lia; reflexivity|lia|]. rewrite Z.gtb_ltb. rewrite (proj2 (Z.ltb_lt 65535 z)) by lia. rewrite orb_true_r. reflexivity.
          - destruct Rz as [Rz|[Rz|[Rz _]]]; [rewrite (proj2 (Z.ltb_lt z 0)) by lia; reflexivity|lia|lia].
          - assert (E : ((z =? 0) || (z =? 1) || (z =? 2))%Z = false) by (destruct (Z.eqb_spec z 0); destruct (Z.eqb_spec z 1); destruct (Z.eqb_spec z 2); try reflexivity; lia). rewrite E. reflexivity.
          - assert (E : ((z =? 0) || (z =? 1))%Z = false) by (destruct (Z.eqb_spec z 0); destruct (Z.eqb_spec z 1); try reflexivity; lia). rewrite E. reflexivity. }
        { destruct a, t; try discriminate Ac; cbn [setter]; rewrite Al; reflexivity. }
    + destruct R as [R1 R2]. destruct a, t; try discriminate Ac. cbn [setter]. destruct v; try reflexivity; try contradiction; exfalso; eapply R2; apply is_int_as; reflexivity.
Qed.
Lemma delete_refused h c k name d : In (name, d) (documented k) -> setattr h k c name None = Some (Ok (h, false)).
Proof.
  intros I. unfold setattr. assert (D : (exists m, d = Text m) \/ forall m, d <> Text m) by (destruct d; [left; eexists; reflexivity|right; discriminate..]).
  destruct D as [[m ->]|D]; [destruct (doc_text k name m I) as (i & F & _)|destruct (doc_number k name d I D) as (i & a & t & F & _)]; rewrite F; reflexivity.
Qed.
(** Every attribute is documented, except those of a report that are not plain members. *)
Definition plain_name (k : kind) (name : str) : bool :=
  existsb (str_eqb name) (map fst (documented k)) ||
  (kind_beq k KReport && existsb (str_eqb name) [L "reporter_name"; L "reporter_version"; L "report_version"; L "report_type"]).
Lemma all_documented k : forallb (fun t => plain_name k (fst (fst t))) (attributes k) = true.
Proof. destruct k; vm_compute; reflexivity. Qed.
Lemma no_others k name : getattr constant [] k 0 name <> None <->
  (exists d, In (name, d) (documented k)) \/ k = KReport /\ In name [L "reporter_name"; L "reporter_version"; L "report_version"; L "report_type"].
Proof.
  assert (Fa : forall l, find_attr l name <> None <-> exists a m, In (name, a, m) l).
  { induction l as [|[[n a] m] l IH]; cbn; [split; [congruence|intros (a & m & [])]|]. destruct (str_eqb n name) eqn:E.
    - apply str_eqb_true in E. subst n. split; [intros _; exists a, m; left; reflexivity|discriminate].
    - rewrite IH. split; intros (a' & m' & H); exists a', m'; [right; exact H|]. destruct H as [H|H]; [|exact H]. injection H as -> -> ->. rewrite (proj2 (str_eqb_true name name) eq_refl) in E. discriminate. }
  assert (G : getattr constant [] k 0 name <> None <-> find_attr (attributes k) name <> None).
  { unfold getattr. destruct (find_attr (attributes k) name) as [[a m]|]; split; congruence. }
  rewrite G, Fa. split.
  - intros (a & m & H). pose proof (proj1 (forallb_forall _ _) (all_documented k) _ H) as P. unfold plain_name in P. cbn [fst] in P. apply orb_true_iff in P as [P|P].
    + left. apply existsb_exists in P as (n & In1 & E). apply str_eqb_true in E. subst n. apply in_map_iff in In1 as ([n d] & En & Hd). cbn in En. subst n. exists d. exact Hd.
    + right. apply andb_true_iff in P as [K P]. apply internal_kind_dec_bl in K. apply existsb_exists in P as (n & In1 & E). apply str_eqb_true in E. subst n. split; assumption.
  - intros [[d H]|[-> H]].
    + apply Fa. assert (D : (exists m, d = Text m) \/ forall m, d <> Text m) by (destruct d; [left; eexists; reflexivity|right; discriminate..]).
      destruct D as [[m ->]|D]; [destruct (doc_text k name m H) as (i & F & _)|destruct (doc_number k name d H D) as (i & a & t & F & _)]; rewrite F; discriminate.
    + apply Fa. destruct H as [<-|[<-|[<-|[<-|[]]]]]; vm_compute; discriminate.
Qed.
End C.
