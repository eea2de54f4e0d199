(** * Proofs: callee lists and call graphs. *)
From Verif Require Import Base Types UtilsModel UtilsSpec UtilsProofs RpmSpec RpmProofs LookupModel LookupSpec LookupProofs.
Open Scope nat_scope.

(** ** Callee lists *)
Lemma existsb_In a r : existsb (Z.eqb a) r = true <-> In a r.
Proof.
  rewrite existsb_exists. split; [intros (x & Hx & E); apply Z.eqb_eq in E; now subst|intros H; exists a; split; [assumption|apply Z.eqb_refl]].
Qed.
Lemma fill_length ins : forall r, length (fill_calls ins r) <= length r + count_calls ins.
Proof.
  induction ins as [|i ins IH]; intros r; cbn [fill_calls count_calls]; [lia|]. destruct (call_operand i) as [a|]; [|rewrite IH; lia].
  destruct (existsb _ r); [rewrite IH; lia|]. rewrite IH, app_length. cbn [length]. lia.
Qed.
Lemma fill_full ins : forall r, length (fill_calls ins r) = length r + count_calls ins <->
  distinct_targets ins /\ forall i z, In i ins -> call_target i z -> ~ In z r.
Proof.
  induction ins as [|i ins IH]; intros r; cbn [fill_calls count_calls].
  - split; [|intros _; lia]. intros _. split; [intros [|x a] i b j c z E; discriminate|intros i z []].
  - assert (Tail : distinct_targets (i :: ins) -> distinct_targets ins).
    { intros D a x b j c z E. apply (D (i :: a) x b j c z). now rewrite E. }
    destruct (call_operand i) as [t|] eqn:E.
    + apply call_operand_iff in E. destruct (existsb (Z.eqb t) r) eqn:Ex.
      * apply existsb_In in Ex. split.
        -- intros H. pose proof (fill_length ins r). lia.
        -- intros [_ H]. elim (H i t); [now left|assumption|assumption].
      * assert (Nx : ~ In t r) by (rewrite <- existsb_In; congruence).
        transitivity (length (fill_calls ins (r ++ [t])) = length (r ++ [t]) + count_calls ins); [rewrite app_length; cbn [length]; lia|].
        rewrite IH. split.
        -- intros [D H]. split.
           ++ intros [|x a] x' b j c z E' H1 H2; cbn [app] in E'; injection E' as E1 E2; subst.
              ** assert (z = t) as -> by exact (call_target_fun _ _ _ H1 E). apply (H j t); [apply in_or_app; right; now left|assumption|apply in_or_app; right; now left].
              ** exact (D a x' b j c z eq_refl H1 H2).
           ++ intros j z [<-|Hj] Ht; [now rewrite (call_target_fun _ _ _ Ht E)|]. intros X. apply (H j z Hj Ht). apply in_or_app. now left.
        -- intros [D H]. split; [now apply Tail|]. intros j z Hj Ht X. apply in_app_or in X as [X|[<-|[]]].
           ++ apply (H j z); [now right|assumption|assumption].
           ++ apply in_split in Hj as (b & c & ->). exact (D [] i b j c t eq_refl E Ht).
    + transitivity (length (fill_calls ins r) = length r + count_calls ins); [reflexivity|]. rewrite IH. split.
      * intros [D H]. split.
        -- intros [|x a] x' b j c z E' H1 H2; cbn [app] in E'; injection E' as E1 E2; subst; [apply call_operand_iff in H1; congruence|exact (D a x' b j c z eq_refl H1 H2)].
        -- intros j z [<-|Hj] Ht; [apply call_operand_iff in Ht; congruence|eauto].
      * intros [D H]. split; [now apply Tail|]. intros j z Hj. apply H. now right.
Qed.
Theorem callees_ok slack ins r : sr_disasm_get_callee_addresses slack ins = Ok r -> callee_list ins r.
Proof.
  unfold sr_disasm_get_callee_addresses. destruct (Nat.leb _ _); [|discriminate]. intros H. injection H as <-.
  destruct (fill_ok ins [] (NoDup_nil _)) as (l & -> & Hn & Hi). cbn [app] in *. exists l. split; [reflexivity|]. split; [assumption|].
  intros z. rewrite Hi. split; [intros [[]|?]; assumption|auto].
Qed.
Theorem callees_enough slack ins : 7 <= slack -> exists r, sr_disasm_get_callee_addresses slack ins = Ok r.
Proof.
  intros H. unfold sr_disasm_get_callee_addresses. pose proof (fill_length ins []) as K. cbn [length] in K.
  rewrite app_length. cbn [length]. destruct (Nat.leb_spec (8 * (length (fill_calls ins []) + 1)) (8 * count_calls ins + 1 + slack)) as [|X]; [eauto|lia].
Qed.
Theorem callees_overflow slack ins : slack < 7 -> sr_disasm_get_callee_addresses slack ins = UB <-> distinct_targets ins.
Proof.
  intros H. unfold sr_disasm_get_callee_addresses. pose proof (fill_length ins []) as K. cbn [length] in K. pose proof (fill_full ins []) as F. cbn [length] in F.
  rewrite app_length. cbn [length]. destruct (Nat.leb_spec (8 * (length (fill_calls ins []) + 1)) (8 * count_calls ins + 1 + slack)) as [X|X].
  - split; [discriminate|]. intros D. destruct F as [_ F]. rewrite F in X; [lia|]. split; [assumption|auto].
  - split; [|reflexivity]. intros _. apply F. lia.
Qed.
Lemma callees_not_fail slack ins : sr_disasm_get_callee_addresses slack ins <> Fail.
Proof. unfold sr_disasm_get_callee_addresses. destruct (Nat.leb _ _); discriminate. Qed.

(** Elements before the first zero. *)
Definition seen (l : list Z) (b : Z) : Prop := exists x y, l = x ++ b :: y /\ ~ In 0%Z x /\ b <> 0%Z.
Lemma seen_app l m b : seen (l ++ m) b <-> seen l b \/ ~ In 0%Z l /\ seen m b.
Proof.
  split.
  - intros (x & y & E & Hx & Hb). apply app_eq_app in E as [e [[-> E]|[-> E]]].
    + destruct e as [|c e]; cbn [app] in E; [right; rewrite app_nil_r; split; [assumption|]; exists [], y; auto|].
      injection E as E1 E2. subst c. left. exists x, e. auto.
    + right. split; [intros X; apply Hx; apply in_or_app; now left|]. exists e, y. split; [assumption|]. split; [|assumption]. intros X. apply Hx. apply in_or_app. now right.
  - intros [(x & y & -> & Hx & Hb)|(Hl & x & y & -> & Hx & Hb)].
    + exists x, (y ++ m). rewrite <- app_assoc. auto.
    + exists (l ++ x), y. rewrite <- app_assoc. split; [reflexivity|]. split; [|assumption]. intros X. apply in_app_or in X as [X|X]; contradiction.
Qed.
Lemma seen_one a b : seen [a] b <-> a = b /\ a <> 0%Z.
Proof.
  split.
  - intros ([|x [|x' u]] & y & E & _ & Hb); try discriminate. cbn [app] in E. injection E as E _. subst. auto.
  - intros [-> H]. exists [], []. auto.
Qed.
Definition visible (ins : list str) (b : Z) : Prop :=
  exists before i after, ins = before ++ i :: after /\ call_target i b /\ b <> 0%Z /\ ~ has_target before 0.
Lemma visible_cons i ins b : visible (i :: ins) b <-> call_target i b /\ b <> 0%Z \/ ~ call_target i 0 /\ visible ins b.
Proof.
  split.
  - intros ([|x before] & j & after & E & Ht & Hb & Hz); cbn [app] in E; injection E as E1 E2; subst.
    + auto.
    + right. split; [intros X; apply Hz; exists x; split; [now left|assumption]|]. exists before, j, after. split; [reflexivity|]. split; [assumption|]. split; [assumption|].
      intros (k & Hk & Hk'). apply Hz. exists k. split; [now right|assumption].
  - intros [[Ht Hb]|(Hi & before & j & after & -> & Ht & Hb & Hz)].
    + exists [], i, ins. split; [reflexivity|]. split; [assumption|]. split; [assumption|]. intros (k & [] & _).
    + exists (i :: before), j, after. split; [reflexivity|]. split; [assumption|]. split; [assumption|]. intros (k & [<-|Hk] & Hk'); [contradiction|]. apply Hz. exists k. auto.
Qed.
Lemma fill_seen ins : forall r b, seen (fill_calls ins r) b <-> seen r b \/ ~ In 0%Z r /\ visible ins b.
Proof.
  induction ins as [|i ins IH]; intros r b; cbn [fill_calls].
  - split; [auto|]. intros [?|(_ & x & j & y & E & _)]; [assumption|]. destruct x; discriminate.
  - rewrite visible_cons. destruct (call_operand i) as [t|] eqn:E.
    + apply call_operand_iff in E. assert (U : forall z, call_target i z <-> z = t) by (intros z; split; [intros X; eapply call_target_fun; eassumption|intros ->; assumption]).
      rewrite !U. destruct (existsb (Z.eqb t) r) eqn:Ex.
      * apply existsb_In in Ex. rewrite IH. split.
        -- intros [?|[H1 H2]]; [auto|]. right. split; [assumption|]. right. split; [|assumption]. intros <-. contradiction.
        -- intros [?|(H1 & [[-> H2]|[_ H2]])]; [auto| |auto]. left. apply in_split in Ex as (x & y & ->). exists x, y. split; [reflexivity|]. split; [|assumption].
           intros X. apply H1. apply in_or_app. now left.
      * rewrite IH, seen_app, seen_one, in_app_iff. cbn [In]. split.
        -- intros [[?|(H1 & <- & H2)]|[H1 H2]]; [auto|auto 6|]. right. split; [tauto|]. right. split; [|assumption]. intros <-. tauto.
        -- intros [?|(H1 & [[-> H2]|[H2 H3]])]; [auto|auto 6|]. right. split; [|assumption]. intros [?|[->|[]]]; [contradiction|congruence].
    + assert (U : forall z, ~ call_target i z) by (intros z X; apply call_operand_iff in X; congruence). rewrite IH. split.
      * intros [?|[H1 H2]]; [auto|]. right. split; [assumption|]. right. split; [apply U|assumption].
      * intros [?|(H1 & [[H2 _]|[_ H2]])]; [auto| |auto]. elim (U _ H2).
Qed.
Lemma callees_seen slack ins r b : sr_disasm_get_callee_addresses slack ins = Ok r -> seen r b <-> visible ins b.
Proof.
  unfold sr_disasm_get_callee_addresses. destruct (Nat.leb _ _); [|discriminate]. intros H. injection H as <-.
  rewrite seen_app, fill_seen, seen_one. split.
  - intros [[(x & y & E & _)|[_ H]]|(_ & <- & H)]; [destruct x; discriminate|assumption|congruence].
  - intros H. left. right. split; [intros []|assumption].
Qed.
Lemma callees_zero slack ins r : sr_disasm_get_callee_addresses slack ins = Ok r -> In 0%Z r.
Proof.
  unfold sr_disasm_get_callee_addresses. destruct (Nat.leb _ _); [|discriminate]. intros H. injection H as <-. apply in_or_app. right. now left.
Qed.

(** ** Call graphs *)
Section Graph.
Variable instructions : Z -> Z -> option (list str).
Variable eh_frame : list elf_fde.
Variable slack : nat.
Hypothesis room : 7 <= slack.
Notation isf := (is_function instructions eh_frame).
Notation func := (a_function instructions eh_frame).
Notation calls := (calls instructions eh_frame).
Notation reaches := (reaches instructions eh_frame).
Notation entry_ok := (entry_ok instructions eh_frame).
Notation extend := (callgraph_extend instructions slack eh_frame).

Lemma is_function_fun a x y : isf a x -> isf a y -> x = y.
Proof.
  intros (f & Hf & Ef) (f' & Hf' & Ef'). assert (Some f = Some f') as X by (eapply (finds_unique (starts_at a)); eassumption). injection X as <-. congruence.
Qed.
Lemma calls_visible a ins b : isf a ins -> calls a b <-> visible ins b.
Proof.
  intros H. split.
  - intros (ins' & x & i & y & H' & -> & R). rewrite (is_function_fun _ _ _ H H'). exists x, i, y. auto.
  - intros (x & i & y & -> & R). exists (x ++ i :: y), x, i, y. auto.
Qed.
Lemma find_iff g a : match sr_callgraph_find g a with Some _ => in_graph g a | None => ~ in_graph g a end.
Proof.
  induction g as [|e g IH]; cbn [sr_callgraph_find]; [intros (e & [] & _)|].
  destruct (Z.eqb_spec (cg_address e) a) as [E|E]; [exists e; split; [now left|assumption]|].
  destruct (sr_callgraph_find g a).
  - destruct IH as (x & Hx & Ex). exists x. split; [now right|assumption].
  - intros (x & [<-|Hx] & Ex); [contradiction|]. apply IH. exists x. auto.
Qed.
Lemma in_graph_map g a : in_graph g a <-> In a (map cg_address g).
Proof.
  rewrite in_map_iff. split; intros (e & H1 & H2); exists e; auto.
Qed.
Lemma in_graph_app g h a : in_graph (g ++ h) a <-> in_graph g a \/ in_graph h a.
Proof. rewrite !in_graph_map, map_app, in_app_iff. reflexivity. Qed.

(** Start addresses not yet in the graph. *)
Definition starts : list Z := nodup Z.eq_dec (map (fun f => w64 (fde_start_address f + fde_exec_base f)) eh_frame).
Definition left_over (g : list callgraph_entry) : nat := length (filter (fun a => if in_dec Z.eq_dec a (map cg_address g) then false else true) starts).
Lemma filter_le {A} (p q : A -> bool) l : (forall x, p x = true -> q x = true) -> length (filter p l) <= length (filter q l).
Proof.
  intros H. induction l as [|x l IH]; cbn [filter]; [lia|]. destruct (p x) eqn:E; [rewrite (H _ E); cbn [length]; lia|]. destruct (q x); cbn [length]; lia.
Qed.
Lemma filter_lt {A} (p q : A -> bool) l x : (forall y, p y = true -> q y = true) -> In x l -> p x = false -> q x = true ->
  length (filter p l) < length (filter q l).
Proof.
  intros H Hx Hp Hq. induction l as [|y l IH]; [destruct Hx|]. cbn [filter]. destruct Hx as [<-|Hx].
  - rewrite Hp, Hq. cbn [length]. pose proof (filter_le p q l H). lia.
  - specialize (IH Hx). destruct (p y) eqn:E; [rewrite (H _ E); cbn [length]; lia|]. destruct (q y); cbn [length]; lia.
Qed.
Lemma left_mono g h : left_over (g ++ h) <= left_over g.
Proof.
  apply filter_le. intros a. rewrite map_app. destruct (in_dec Z.eq_dec a (map cg_address g ++ map cg_address h)) as [|N]; [discriminate|].
  destruct (in_dec Z.eq_dec a (map cg_address g)) as [Y|]; [|reflexivity]. elim N. apply in_or_app. now left.
Qed.
Lemma left_add g e : ~ in_graph g (cg_address e) -> In (cg_address e) starts -> left_over (g ++ [e]) < left_over g.
Proof.
  intros Hn Hi. apply (filter_lt _ _ _ (cg_address e)).
  - intros a. rewrite map_app. destruct (in_dec Z.eq_dec a (map cg_address g ++ map cg_address [e])) as [|N]; [discriminate|].
    destruct (in_dec Z.eq_dec a (map cg_address g)) as [Y|]; [|reflexivity]. elim N. apply in_or_app. now left.
  - assumption.
  - destruct (in_dec Z.eq_dec (cg_address e) (map cg_address (g ++ [e]))) as [|N]; [reflexivity|]. elim N. rewrite map_app. apply in_or_app. right. now left.
  - destruct (in_dec Z.eq_dec (cg_address e) (map cg_address g)) as [Y|]; [|reflexivity]. elim Hn. now apply in_graph_map.
Qed.
Lemma nodup_len l : length (nodup Z.eq_dec l) <= length l.
Proof. induction l as [|x l IH]; cbn [nodup length]; [lia|]. destruct (in_dec Z.eq_dec x l); cbn [length]; lia. Qed.
Lemma left_start g : left_over g <= length eh_frame.
Proof.
  unfold left_over. transitivity (length starts).
  - induction starts as [|x l IH]; cbn [filter length]; [lia|]. destruct (in_dec _ _ _); cbn [length]; lia.
  - unfold starts. rewrite nodup_len, map_length. lia.
Qed.

(** What one call does. *)
Definition grows (g g' : list callgraph_entry) (from : Z -> Prop) : Prop :=
  exists added, g' = g ++ added /\ NoDup (map cg_address added) /\ (forall a, in_graph added a -> ~ in_graph g a) /\ Forall entry_ok added /\
    (forall a, in_graph added a -> exists s, from s /\ reaches (in_graph g) s a) /\
    (forall s, from s -> func s -> in_graph g' s) /\
    (forall a b, in_graph added a -> calls a b -> func b -> in_graph g' b).
Definition outcome (g : list callgraph_entry) (s : Z) (r : res (list callgraph_entry)) : Prop :=
  match r with
  | Ok g' => (in_graph g s \/ func s) /\ grows g g' (eq s)
  | Fail => ~ in_graph g s /\ ~ func s
  | UB => False
  end.
Lemma reaches_avoid (p q : Z -> Prop) s a : (forall x, q x -> p x) -> reaches p s a -> reaches q s a.
Proof. intros H. induction 1; [constructor; auto|econstructor; eauto]. Qed.
Lemma reaches_via (p : Z -> Prop) s c a : reaches p s s -> calls s c -> reaches p c a -> reaches p s a.
Proof.
  intros Hs Hc. induction 1 as [H1 H2|x y H IH H1 H2 H3]; [eapply reach_call; eassumption|eapply reach_call; eassumption].
Qed.
Lemma grows_nil g (from : Z -> Prop) : (forall s, from s -> func s -> in_graph g s) -> grows g g from.
Proof.
  intros H. exists []. rewrite app_nil_r. split; [reflexivity|]. split; [constructor|].
  split; [intros a (e & [] & _)|]. split; [constructor|]. split; [intros a (e & [] & _)|]. split; [assumption|]. intros a b (e & [] & _).
Qed.
Lemma grows_trans g h k (from from' from'' : Z -> Prop) : grows g h from -> grows h k from' -> (forall s, from'' s <-> from s \/ from' s) -> grows g k from''.
Proof.
  intros (x & -> & N1 & D1 & E1 & S1 & F1 & C1) (y & -> & N2 & D2 & E2 & S2 & F2 & C2) HF.
  exists (x ++ y). rewrite <- app_assoc. split; [reflexivity|]. split.
  { rewrite map_app. assert (D : forall a, In a (map cg_address x) -> ~ In a (map cg_address y)).
    { intros a Ha Hb. apply in_graph_map in Ha, Hb. apply (D2 a Hb). apply in_graph_app. now right. }
    clear -N1 N2 D. induction (map cg_address x) as [|a l IH]; [assumption|]. cbn [app]. inversion_clear N1 as [|? ? H1 H2]. constructor.
    - intros X. apply in_app_or in X as [X|X]; [contradiction|]. apply (D a); [now left|assumption].
    - apply IH; [assumption|]. intros b Hb. apply D. now right. }
  split. { intros a Ha. apply in_graph_app in Ha as [Ha|Ha]; [auto|]. intros X. apply (D2 a Ha). apply in_graph_app. now left. }
  split; [apply Forall_app; auto|].
  split. { intros a Ha. apply in_graph_app in Ha as [Ha|Ha].
    - destruct (S1 a Ha) as (s & Hs & R). exists s. split; [apply HF; now left|assumption].
    - destruct (S2 a Ha) as (s & Hs & R). exists s. split; [apply HF; now right|]. eapply reaches_avoid; [|exact R]. intros z Hz. apply in_graph_app. now left. }
  rewrite <- app_assoc in F2, C2.
  split. { intros s Hs Hf. apply HF in Hs as [Hs|Hs]; [|auto]. apply F1 in Hs; [|assumption]. apply in_graph_app in Hs as [Hs|Hs]; apply in_graph_app; [now left|right; apply in_graph_app; now left]. }
  intros a b Ha Hc Hf. apply in_graph_app in Ha as [Ha|Ha]; [|eauto]. specialize (C1 a b Ha Hc Hf). apply in_graph_app in C1 as [Hs|Hs]; apply in_graph_app; [now left|right; apply in_graph_app; now left].
Qed.
Lemma loop_ok fuel : (forall g s, left_over g < fuel -> outcome g s (extend fuel g s)) ->
  forall cs g, left_over g < fuel -> In 0%Z cs -> exists g', callees_loop (extend fuel) cs g = Ok g' /\ grows g g' (seen cs).
Proof.
  intros IH cs. induction cs as [|c cs IHcs]; intros g Hg Hz; [destruct Hz|]. cbn [callees_loop].
  destruct (Z.eqb_spec c 0) as [->|NZ].
  { exists g. split; [reflexivity|]. apply grows_nil. intros s (x & y & E & Hx & Hs) _. exfalso.
    destruct x as [|x0 x]; cbn [app] in E; injection E as E1 E2; [congruence|]. apply Hx. left. now symmetry. }
  assert (Hz' : In 0%Z cs) by (destruct Hz; [contradiction|assumption]).
  assert (HS : forall s, seen (c :: cs) s <-> s = c \/ seen cs s).
  { intros s. change (c :: cs) with ([c] ++ cs). rewrite seen_app, seen_one. cbn [In]. split; [intros [[-> _]|[_ ?]]; auto|].
    intros [->|?]; [auto|]. right. split; [intros [?|[]]; contradiction|assumption]. }
  specialize (IH g c Hg) as K. destruct (extend fuel g c) as [g'| |]; cbn [outcome] in K; [| |contradiction].
  - destruct K as [_ K]. destruct K as (x & -> & R). destruct (IHcs (g ++ x)) as (k & -> & G2); [pose proof (left_mono g x); lia|assumption|].
    exists k. split; [reflexivity|]. eapply grows_trans; [|exact G2|].
    + exists x. split; [reflexivity|exact R].
    + intros s. rewrite HS. split; (intros [->|?]; [left; reflexivity|right; assumption]).
  - destruct (IHcs g Hg Hz') as (k & -> & G2). exists k. split; [reflexivity|].
    eapply grows_trans; [apply (grows_nil g (eq c)); intros s <- Hf; destruct K; contradiction|exact G2|].
    intros s. rewrite HS. split; (intros [->|?]; [left; reflexivity|right; assumption]).
Qed.
Lemma extend_ok fuel : forall g s, left_over g < fuel -> outcome g s (extend fuel g s).
Proof.
  induction fuel as [|fuel IH]; intros g s Hf; [lia|]. cbn [callgraph_extend].
  pose proof (find_iff g s) as F. destruct (sr_callgraph_find g s) as [e|].
  { cbn [outcome]. split; [now left|]. apply grows_nil. intros ? <- _. assumption. }
  pose proof (fde_start_find eh_frame s) as D. destruct (sr_elf_find_fde_for_start_address eh_frame s) as [fde|].
  2:{ cbn [outcome]. split; [assumption|]. intros (ins & f & (b & a & E & Hs & _) & _). cbn [finds] in D. rewrite E in D. apply Forall_app in D as [_ D]. inversion_clear D. contradiction. }
  assert (Es : s = w64 (fde_exec_base fde + fde_start_address fde)) by (destruct D as (b & a & _ & Hs & _); rewrite Z.add_comm; exact Hs).
  rewrite <- Es. cbn [finds] in D. destruct (instructions s (fde_length fde)) as [ins|] eqn:Ei.
  2:{ cbn [outcome]. split; [assumption|]. intros (ins & f & Hf' & Ef). assert (Some fde = Some f) as X by (eapply (finds_unique (starts_at s)); eassumption). injection X as <-. congruence. }
  assert (Hfun : isf s ins) by (exists fde; auto).
  destruct (callees_enough slack ins room) as [cs Ec]. rewrite Ec. cbn [bind].
  set (e := mk_cg s cs).
  assert (Hin : In s starts).
  { unfold starts. apply nodup_In. rewrite Es, Z.add_comm. apply in_map_iff. exists fde. split; [reflexivity|]. destruct D as (b & a & -> & _). apply in_or_app. right. now left. }
  assert (Hlt : left_over (g ++ [e]) < fuel) by (pose proof (left_add g e F Hin); lia).
  destruct (loop_ok fuel IH cs (g ++ [e]) Hlt (callees_zero _ _ _ Ec)) as (g' & -> & (x & -> & N1 & D1 & E1 & S1 & F1 & C1)).
  cbn [outcome]. split; [right; exists ins; assumption|].
  assert (Rs : reaches (in_graph g) s s) by (constructor; [exists ins; assumption|assumption]).
  assert (HC : forall c, seen cs c <-> calls s c) by (intros c; rewrite (callees_seen _ _ _ _ Ec), (calls_visible _ _ _ Hfun); reflexivity).
  exists (e :: x). rewrite <- app_assoc in F1, C1 |- *. cbn [app] in *. split; [reflexivity|].
  assert (HE : forall a, in_graph (e :: x) a <-> a = s \/ in_graph x a).
  { intros a. rewrite !in_graph_map. cbn [map In cg_address]. split; intros [<-|?]; auto. }
  split. { cbn [map]. constructor; [|assumption]. intros X. apply in_graph_map in X. apply (D1 _ X). apply in_graph_app. right. exists e. split; [now left|reflexivity]. }
  split. { intros a Ha. apply HE in Ha as [->|Ha]; [assumption|]. intros X. apply (D1 a Ha). apply in_graph_app. now left. }
  split. { constructor; [|assumption]. exists ins. split; [assumption|]. eapply callees_ok; eassumption. }
  split. { intros a Ha. exists s. split; [reflexivity|]. apply HE in Ha as [->|Ha]; [assumption|]. destruct (S1 a Ha) as (c & Hc & R).
    apply (reaches_via _ s c); [assumption|now apply HC|]. eapply reaches_avoid; [|exact R]. intros z Hz. apply in_graph_app. now left. }
  split. { intros ? <- _. apply in_graph_app. right. apply HE. now left. }
  intros a b Ha Hc Hb. apply HE in Ha as [->|Ha].
  - apply F1; [now apply HC|assumption].
  - eauto.
Qed.
Theorem extend_correct g s :
  match sr_callgraph_extend instructions slack eh_frame g s with
  | Ok g' => (in_graph g s \/ func s) /\ exists added, g' = g ++ added /\ NoDup (map cg_address added) /\ Forall entry_ok added /\
      forall a, in_graph added a <-> reaches (in_graph g) s a
  | Fail => ~ in_graph g s /\ ~ func s
  | UB => False
  end.
Proof.
  unfold sr_callgraph_extend. pose proof (extend_ok (S (length eh_frame)) g s ltac:(pose proof (left_start g); lia)) as K.
  destruct (extend (S (length eh_frame)) g s) as [g'| |]; cbn [outcome] in K; [|assumption|contradiction].
  destruct K as [K (x & -> & N1 & D1 & E1 & S1 & F1 & C1)]. split; [assumption|]. exists x. split; [reflexivity|]. split; [assumption|]. split; [assumption|].
  intros a. split; [intros Ha; destruct (S1 a Ha) as (? & <- & R); exact R|].
  induction 1 as [H1 H2|a b R IH H1 H2 H3].
  - specialize (F1 s eq_refl H1). apply in_graph_app in F1 as [?|?]; [contradiction|assumption].
  - specialize (C1 a b IH H1 H2). apply in_graph_app in C1 as [?|?]; [contradiction|assumption].
Qed.
(** With no calls to address 0 and a graph closed under calls, the result holds everything reachable. *)
Theorem extend_reachable g s g' : (forall a, ~ plain_calls instructions eh_frame a 0) ->
  (forall a b, in_graph g a -> plain_calls instructions eh_frame a b -> func b -> in_graph g b) ->
  sr_callgraph_extend instructions slack eh_frame g s = Ok g' ->
  forall a, in_graph g' a <-> in_graph g a \/ reachable instructions eh_frame s a.
Proof.
  intros NZ Hcl E a. pose proof (extend_correct g s) as K. rewrite E in K. destruct K as (_ & x & -> & _ & _ & K).
  assert (PC : forall a b, plain_calls instructions eh_frame a b <-> calls a b).
  { intros p q. split.
    - intros (ins & Hi & i & Hin & Ht). apply in_split in Hin as (u & v & ->). exists (u ++ i :: v), u, i, v. split; [assumption|]. split; [reflexivity|]. split; [assumption|].
      split; [intros ->; apply (NZ p); exists (u ++ i :: v); split; [assumption|]; exists i; split; [apply in_or_app; right; now left|assumption]|].
      intros (j & Hj & Htj). apply (NZ p). exists (u ++ i :: v). split; [assumption|]. exists j. split; [apply in_or_app; now left|assumption].
    - intros (ins & u & i & v & Hi & -> & Ht & _). exists (u ++ i :: v). split; [assumption|]. exists i. split; [apply in_or_app; right; now left|assumption]. }
  rewrite in_graph_app, K. split.
  - intros [?|R]; [auto|]. right. induction R as [H1 H2|p q R IH H1 H2 H3]; [now constructor|]. eapply reachable_call; [exact IH|now apply PC|assumption].
  - intros [?|R]; [auto|]. induction R as [H1|p q R IH H1 H2].
    + destruct (in_dec Z.eq_dec s (map cg_address g)) as [Y|N]; [left; now apply in_graph_map|]. right. constructor; [assumption|]. rewrite in_graph_map. assumption.
    + destruct (in_dec Z.eq_dec q (map cg_address g)) as [Y|N]; [left; now apply in_graph_map|]. rewrite <- in_graph_map in N.
      destruct IH as [IH|IH]; [elim N; eauto|]. right. eapply reach_call; [exact IH|now apply PC|assumption|assumption].
Qed.
End Graph.

(** ** The whole program *)
Theorem compute_correct instructions slack eh : 7 <= slack ->
  match sr_callgraph_compute instructions slack eh with
  | Ok g => Forall2 (fun f e => cg_address e = fde_start_address f /\ exists ins, instructions (fde_start_address f) (fde_length f) = Some ins /\ callee_list ins (cg_callees e)) eh g
  | Fail => Exists (fun f => instructions (fde_start_address f) (fde_length f) = None) eh
  | UB => False
  end.
Proof.
  intros H. unfold sr_callgraph_compute.
  assert (G : forall fdes g done, Forall2 (fun f e => cg_address e = fde_start_address f /\ exists ins, instructions (fde_start_address f) (fde_length f) = Some ins /\ callee_list ins (cg_callees e)) done g ->
    match callgraph_compute_loop instructions slack fdes g with
    | Ok g => Forall2 (fun f e => cg_address e = fde_start_address f /\ exists ins, instructions (fde_start_address f) (fde_length f) = Some ins /\ callee_list ins (cg_callees e)) (done ++ fdes) g
    | Fail => Exists (fun f => instructions (fde_start_address f) (fde_length f) = None) fdes
    | UB => False
    end).
  { induction fdes as [|f fdes IH]; intros g done HD; cbn [callgraph_compute_loop]; [now rewrite app_nil_r|].
    destruct (instructions (fde_start_address f) (fde_length f)) as [ins|] eqn:E; [|now constructor].
    destruct (callees_enough slack ins H) as [cs Ec]. rewrite Ec. cbn [bind].
    specialize (IH (g ++ [mk_cg (fde_start_address f) cs]) (done ++ [f])). rewrite <- app_assoc in IH. cbn [app] in IH.
    destruct (callgraph_compute_loop instructions slack fdes (g ++ [mk_cg (fde_start_address f) cs])) as [k| |].
    - apply IH. apply Forall2_app; [assumption|]. constructor; [|constructor]. split; [reflexivity|]. exists ins. split; [assumption|]. eapply callees_ok; eassumption.
    - apply Exists_cons_tl. apply IH. apply Forall2_app; [assumption|]. constructor; [|constructor]. split; [reflexivity|]. exists ins. split; [assumption|]. eapply callees_ok; eassumption.
    - apply IH. apply Forall2_app; [assumption|]. constructor; [|constructor]. split; [reflexivity|]. exists ins. split; [assumption|]. eapply callees_ok; eassumption. }
  exact (G eh [] [] (Forall2_nil _)).
Qed.
