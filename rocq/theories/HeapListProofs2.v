From Coq Require Import Sorting.Sorted.
From Verif Require Import Base Types ParseProofs CmpModel CmpSpec CmpProofs RpmModel RpmSpec RpmProofs2 HeapModel HeapSpec HeapProofs HeapProofs2 HeapProofs3 HeapListModel HeapListSpec HeapListProofs.
Open Scope nat_scope.

(** ** Freeing packages *)
Lemma free_opt_ok h p s f : own_strs h [p] [s] f -> exists h', g_free_opt h p = Ok h' /\ freed_all f h h'.
Proof.
  intros O. inversion O as [|? ? ? O'|a s' ? ? f0 Ha O']; subst; inversion O'; subst.
  - exists h. split; [reflexivity|apply freed_nil].
  - exact (g_free_ok _ _ _ Ha ltac:(discriminate)).
Qed.
Lemma consistency_free_ok : forall l fuel h p, own_list h KConsistency p l -> Forall no_array l -> NoDup (foot l) -> length l <= fuel ->
  exists h', consistency_free fuel h p true = Ok h' /\ freed_all (foot l) h h'.
Proof.
  induction l as [|e l IH]; intros fuel h p O A N Lf; inversion O as [|? n ? ? Oe Ol]; subst.
  - exists h. split; [destruct fuel; reflexivity|apply freed_nil].
  - destruct fuel as [|fuel]; [cbn in Lf; lia|]. apply Forall_cons_iff in A as [A1 A2]. cbn [consistency_free].
    destruct (own_inv _ _ _ _ Oe) as (scal & ps & ss & fs & ks & vss & fk & arr & sarr & fa & raw & Ev & Ef & Hc & Lp & Os & Oa & Ok').
    unfold no_array in A1. rewrite Ev in A1. destruct sarr; [contradiction|]. inversion Oa; subst.
    inversion Ok'; subst. cbn [app] in Ef. rewrite app_nil_r in Ef.
    rewrite (get_live _ _ _ Hc) by discriminate. cbn [bind].
    destruct ps as [|path [|? ?]]; try discriminate Lp.
    rewrite foot_cons in N |- *. apply NoDup_app_inv in N as (Ne & Nl & D). rewrite Ef in Ne, D. apply NoDup_cons_iff in Ne as [Na Ns].
    assert (O1 : exists s, own_strs h [path] [s] fs).
    { inversion Os as [|? ? ? O'|a s' ? ? f0 Ha O']; subst; inversion O'; subst; eexists; constructor; eassumption || constructor. }
    destruct O1 as [s O1]. destruct (free_opt_ok _ _ _ _ O1) as (h1 & E1 & F1). rewrite E1. cbn [bind].
    assert (Ol1 : own_list h1 KConsistency n l).
    { eapply own_list_same; [exact Ol|]. eapply freed_same_on; [exact F1|]. intros x Hx I. apply (D x); [now right|exact Hx]. }
    destruct (IH fuel h1 n Ol1 A2 Nl ltac:(cbn in Lf; lia)) as (h2 & E2 & F2). rewrite E2. cbn [bind].
    assert (F12 := freed_app _ _ _ _ _ F1 F2).
    assert (Hc2 : nth_error h2 (e_addr e) = Some (CObj KConsistency scal [path] [] None raw n)).
    { destruct F12 as (_ & S & _). rewrite S; [exact Hc|]. rewrite in_app_iff. intros [I|I]; [contradiction|]. apply (D (e_addr e)); [now left|exact I]. }
    destruct (g_free_ok _ _ _ Hc2 ltac:(discriminate)) as (h3 & E3 & F3). exists h3. split; [exact E3|].
    eapply freed_equiv; [|exact (freed_app _ _ _ _ _ F12 F3)]. intro x. rewrite Ef. cbn [app In]. rewrite !in_app_iff. cbn [In]. tauto.
Qed.
Lemma is_consistency_plain v c : is_consistency v c -> match v with Val _ _ None _ => True | _ => False end.
Proof. intros []. exact I. Qed.

(* the memory of one package *)
Lemma package_inv h n e p : own h KRpm n e -> is_package (e_val e) p -> exists time role name version release architecture ss consistency lc fs raw,
  nth_error h (e_addr e) = Some (CObj KRpm [rp_epoch p; time; role] [name; version; release; architecture] [consistency] None raw n) /\
  time = rp_install_time p /\ rp_role p = (if (role =? 0)%Z then ROLE_UNKNOWN else ROLE_AFFECTED) /\
  ss = [rp_name p; rp_version p; rp_release p; rp_architecture p] /\
  own_strs h [name; version; release; architecture] ss fs /\ own_list h KConsistency consistency lc /\ Forall no_array lc /\
  Forall2 is_consistency (map e_val lc) (rp_consistency p) /\
  e_foot e = e_addr e :: fs ++ foot lc.
Proof.
  intros O P. destruct (own_inv _ _ _ _ O) as (scal & ps & ss & fs & ks & vss & fk & arr & sarr & fa & raw & Ev & Ef & Hc & Lp & Os & Oa & Ok').
  rewrite Ev in P. inversion P as [epoch time role name version release architecture vs cs F]; subst. inversion Oa; subst.
  cbn [kid_ops] in Ok'. inversion Ok' as [|? ? ? pc ps1 lc vss1 f1 Oc Osc Ok1]; subst. inversion Ok1; subst. cbn [app] in Ef. rewrite app_nil_r in Ef.
  destruct ps as [|a [|b [|c [|d [|? ?]]]]]; try discriminate Lp.
  exists time, role, a, b, c, d. do 2 eexists. exists lc, fs, raw. split; [exact Hc|]. split; [reflexivity|]. split; [reflexivity|]. split; [reflexivity|].
  split; [exact Os|]. split; [exact Oc|]. split; [|split; [exact F|exact Ef]].
  clear - F. remember (map e_val lc) as vs eqn:E. revert lc E. induction F as [|v c vs cs H F IH]; intros [|e l] E; try discriminate E; constructor.
  - injection E as -> E. unfold no_array. now apply is_consistency_plain in H.
  - injection E as _ E. auto.
Qed.
Lemma own_strs_split h p ps ss f : own_strs h (p :: ps) ss f -> exists s ss' f1 f2, ss = s :: ss' /\ f = f1 ++ f2 /\ own_strs h [p] [s] f1 /\ own_strs h ps ss' f2.
Proof.
  intros O. inversion O as [|? ? ? O'|a s ? ? f0 Ha O']; subst; do 4 eexists; (split; [reflexivity|]).
  - split; [symmetry; apply app_nil_l|]. split; [repeat constructor|exact O'].
  - split; [change (a :: f0) with ([a] ++ f0); reflexivity|]. split; [repeat constructor; exact Ha|exact O'].
Qed.
Lemma four_frees h a b c d ss fs (k : heap -> res heap) : own_strs h [a; b; c; d] ss fs -> NoDup fs ->
  exists h', freed_all fs h h' /\
    (do h <- g_free_opt h a; do h <- g_free_opt h b; do h <- g_free_opt h c; bind (g_free_opt h d) k) = k h'.
Proof.
  intros O N.
  destruct (own_strs_split _ _ _ _ _ O) as (s1 & ss1 & f1 & g1 & -> & -> & O1 & P1). apply NoDup_app_inv in N as (N1 & N & D1).
  destruct (free_opt_ok _ _ _ _ O1) as (h1 & E1 & F1). rewrite E1. cbn [bind].
  assert (P1' : own_strs h1 [b; c; d] ss1 g1).
  { eapply own_strs_same; [exact P1|]. eapply freed_same_on; [exact F1|]. intros x Hx I. exact (D1 x I Hx). }
  destruct (own_strs_split _ _ _ _ _ P1') as (s2 & ss2 & f2 & g2 & -> & -> & O2 & P2). apply NoDup_app_inv in N as (N2 & N & D2).
  destruct (free_opt_ok _ _ _ _ O2) as (h2 & E2 & F2). rewrite E2. cbn [bind].
  assert (P2' : own_strs h2 [c; d] ss2 g2).
  { eapply own_strs_same; [exact P2|]. eapply freed_same_on; [exact F2|]. intros x Hx I. exact (D2 x I Hx). }
  destruct (own_strs_split _ _ _ _ _ P2') as (s3 & ss3 & f3 & g3 & -> & -> & O3 & P3). apply NoDup_app_inv in N as (N3 & N & D3).
  destruct (free_opt_ok _ _ _ _ O3) as (h3 & E3 & F3). rewrite E3. cbn [bind].
  assert (P3' : own_strs h3 [d] ss3 g3).
  { eapply own_strs_same; [exact P3|]. eapply freed_same_on; [exact F3|]. intros x Hx I. exact (D3 x I Hx). }
  destruct (own_strs_split _ _ _ _ _ P3') as (s4 & ss4 & f4 & g4 & -> & -> & O4 & P4). inversion P4; subst. rewrite app_nil_r.
  destruct (free_opt_ok _ _ _ _ O4) as (h4 & E4 & F4). rewrite E4. cbn [bind].
  exists h4. split; [|reflexivity]. exact (freed_app _ _ _ _ _ F1 (freed_app _ _ _ _ _ F2 (freed_app _ _ _ _ _ F3 F4))).
Qed.
(* freeing one package, then what [rest] does, then its cell *)
Lemma package_body h n e p (rest : heap -> res heap) g : own h KRpm n e -> is_package (e_val e) p -> NoDup (e_foot e) ->
  (forall h1, same_outside (e_foot e) h h1 -> length h1 = length h -> exists h2, rest h1 = Ok h2 /\ freed_all g h1 h2) -> ~ In (e_addr e) g ->
  exists h', (do c <- get h (e_addr e);
      match c with
      | CObj KRpm _ [name; version; release; architecture] [consistency] _ _ next =>
        do h <- g_free_opt h name;
        do h <- g_free_opt h version;
        do h <- g_free_opt h release;
        do h <- g_free_opt h architecture;
        do h <- consistency_free (length h) h consistency true;
        do h <- rest h;
        g_free h (e_addr e)
      | _ => UB
      end) = Ok h' /\ freed_all (e_foot e ++ g) h h'.
Proof.
  intros O P N R Ng. destruct (package_inv _ _ _ _ O P) as (time & role & a & b & c & d & ss & pc & lc & fs & raw & Hc & _ & _ & _ & Os & Oc & Ac & _ & Ef).
  rewrite (get_live _ _ _ Hc) by discriminate. cbn [bind]. rewrite Ef in *. apply NoDup_cons_iff in N as [Na N]. apply NoDup_app_inv in N as (Ns & Nc & D). rewrite in_app_iff in Na.
  set (k := fun h : heap => do h <- consistency_free (length h) h pc true; do h <- rest h; g_free h (e_addr e)).
  destruct (four_frees h a b c d ss fs k Os Ns) as (h1 & F1 & E1). rewrite E1. unfold k.
  clear E1 k.
  assert (Oc1 : own_list h1 KConsistency pc lc).
  { eapply own_list_same; [exact Oc|]. eapply freed_same_on; [exact F1|]. intros x Hx I. exact (D x I Hx). }
  destruct (consistency_free_ok lc (length h1) h1 pc Oc1 Ac Nc) as (h2 & E2 & F2); [eapply own_list_bound; eassumption|]. rewrite E2. cbn [bind].
  assert (F12 := freed_app _ _ _ _ _ F1 F2).
  destruct (R h2) as (h3 & E3 & F3).
  { intros x Hx. destruct F12 as (_ & S & _). apply S. intro I. apply Hx. now right. }
  { apply F12. }
  rewrite E3. cbn [bind]. assert (F13 := freed_app _ _ _ _ _ F12 F3).
  assert (Hc3 : nth_error h3 (e_addr e) = Some (CObj KRpm [rp_epoch p; time; role] [a; b; c; d] [pc] None raw n)).
  { destruct F13 as (_ & S & _). rewrite S; [exact Hc|]. rewrite !in_app_iff. tauto. }
  destruct (g_free_ok _ _ _ Hc3 ltac:(discriminate)) as (h4 & E4 & F4). exists h4. split; [exact E4|].
  eapply freed_equiv; [|exact (freed_app _ _ _ _ _ F13 F4)]. intro x. cbn [app In]. rewrite !in_app_iff. cbn [In]. tauto.
Qed.
Lemma package_free_list : forall l ps fuel h p, own_list h KRpm p l -> packages_are l ps -> NoDup (foot l) -> length l <= fuel ->
  exists h', package_free fuel h p true = Ok h' /\ freed_all (foot l) h h'.
Proof.
  induction l as [|e l IH]; intros ps fuel h p O P N Lf; inversion O as [|? n ? ? Oe Ol]; subst.
  - exists h. split; [destruct fuel; reflexivity|apply freed_nil].
  - destruct fuel as [|fuel]; [cbn in Lf; lia|]. inversion P as [|? q ? qs P1 P2]; subst.
    rewrite foot_cons in N |- *. apply NoDup_app_inv in N as (Ne & Nl & D).
    cbn [package_free].
    destruct (package_inv _ _ _ _ Oe P1) as (time & role & a & b & c & d & ss & pc & lc & fs & raw & Hc & _).
    destruct (package_body h n e q (fun h => package_free fuel h n true) (foot l) Oe P1 Ne) as (h' & E & F).
    + intros h1 So L1. eapply IH; [eapply own_list_same; [exact Ol|]; intros x Hx; apply So; intro I; exact (D x I Hx)|exact P2|exact Nl|cbn in Lf; lia].
    + apply D. eapply own_foot; exact Oe.
    + exists h'. split; [|exact F]. rewrite (get_live _ _ _ Hc) in E |- * by discriminate. exact E.
Qed.
Lemma package_free_one fuel h n e p : own h KRpm n e -> is_package (e_val e) p -> NoDup (e_foot e) ->
  exists h', package_free (S fuel) h (Some (e_addr e)) false = Ok h' /\ freed_all (e_foot e) h h'.
Proof.
  intros O P N. destruct (package_body h n e p (fun h => Ok h) [] O P N) as (h' & E & F).
  - intros h1 _ _. exists h1. split; [reflexivity|apply freed_nil].
  - easy.
  - rewrite app_nil_r in F. exists h'. split; [|exact F]. exact E.
Qed.
Lemma sr_package_free_ok h p l ps : own_list h KRpm p l -> packages_are l ps -> separate (foot l) ->
  exists h', sr_rpm_package_free h p true = Ok h' /\ length h' = length h /\ same_outside (foot l) h h' /\ (forall x, In x (foot l) -> freed h' x).
Proof. intros O P N. apply (package_free_list l ps); try assumption. eapply own_list_bound; eassumption. Qed.
Lemma sr_package_free_single h n e p : own h KRpm n e -> is_package (e_val e) p -> separate (e_foot e) ->
  exists h', sr_rpm_package_free h (Some (e_addr e)) false = Ok h' /\ length h' = length h /\ same_outside (e_foot e) h h' /\ (forall x, In x (e_foot e) -> freed h' x).
Proof.
  intros O P N. unfold sr_rpm_package_free. assert (B : e_addr e < length h) by (eapply own_valid; [exact O|eapply own_foot; exact O]).
  destruct (package_free_one (pred (length h)) h n e p O P N) as (h' & E & F). exists h'. split; [|exact F].
  replace (length h) with (S (pred (length h))) by lia. exact E.
Qed.
