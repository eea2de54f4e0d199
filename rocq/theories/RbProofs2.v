(** * The Ruby binding: objects and the blocks they own. *)
From Verif Require Import Base Types JsonSpec JsonModel JsonTypesModel ReportModel CrashModel SystemModel TextModel AbrtModel RbModel RbSpec RbProofs.
Open Scope nat_scope.

(** The crash thread of a stack trace is in that of the report it came from, or the report is gone. *)
Definition origin (m : list block) (os : list object) (vs : list shown) (s : stacktrace) (home from : nat) : Prop :=
  (exists r b, nth_error vs from = Some (VReport r) /\ rep_stacktrace r = Some s /\ nth_error os from = Some (RbReport b) /\ nth_error m b = Some (BReport r (Some home))) \/
  (nth_error vs from = Some VGone /\ nth_error m home = Some Gone).
Definition goes (m : list block) (os : list object) (vs : list shown) (x : object) (v : shown) : Prop :=
  match x, v with
  | RbReport a, VReport r => report_fine r /\
      match rep_stacktrace r with
      | None => nth_error m a = Some (BReport r None)
      | Some s => exists t, nth_error m a = Some (BReport r (Some t)) /\ nth_error m t = Some (BTrace s t)
      end
  | RbTrace a, VTrace s from => exists home, nth_error m a = Some (BTrace s home) /\ usable s /\ origin m os vs s home from
  | RbThread a, VThread t => nth_error m a = Some (BThread t)
  | Collected, VGone => True
  | _, _ => False
  end.
Definition holding (m : list block) (os : list object) : list nat := flat_map (owned m) os.
Record inv (m : list block) (os : list object) (vs : list shown) (lk : list nat) : Prop := mk_inv {
  i_length : length os = length vs;
  i_goes : forall o x v, nth_error os o = Some x -> nth_error vs o = Some v -> goes m os vs x v;
  i_once : NoDup (lk ++ holding m os);
  i_all : forall a, in_use m a <-> In a (lk ++ holding m os) }.

Lemma inv_start : inv [] [] [] [].
Proof.
  constructor; [reflexivity|intros [|o] x v E; discriminate E|constructor|]. intros a. split; [intros (b & E & _); destruct a; discriminate E|intros []].
Qed.
Lemma inv_value m os vs lk o x : inv m os vs lk -> nth_error os o = Some x -> exists v, nth_error vs o = Some v /\ goes m os vs x v.
Proof.
  intros HI E. destruct (nth_error vs o) as [v|] eqn:V.
  - exists v. split; [reflexivity|]. exact (i_goes _ _ _ _ HI _ _ _ E V).
  - apply nth_error_None in V. rewrite <- (i_length _ _ _ _ HI) in V. apply nth_error_None in V. congruence.
Qed.
Lemma inv_object m os vs lk o v : inv m os vs lk -> nth_error vs o = Some v -> exists x, nth_error os o = Some x /\ goes m os vs x v.
Proof.
  intros HI V. destruct (nth_error os o) as [x|] eqn:E.
  - exists x. split; [reflexivity|]. exact (i_goes _ _ _ _ HI _ _ _ E V).
  - apply nth_error_None in E. rewrite (i_length _ _ _ _ HI) in E. apply nth_error_None in E. congruence.
Qed.

(** ** New blocks *)
Lemma goes_grow m os vs x v l os' vs' : goes m os vs x v -> goes (m ++ l) (os ++ os') (vs ++ vs') x v.
Proof.
  destruct x as [a|a|a|], v as [r|s from|t|]; cbn; try tauto.
  - intros (F & H). split; [exact F|]. destruct (rep_stacktrace r) as [s|]; [|apply grown; exact H]. destruct H as (t & A & T). exists t. split; apply grown; assumption.
  - intros (home & A & U & [(r & b & V & RS & O & B)|(V & G)]); exists home; (split; [apply grown; exact A|]); (split; [exact U|]).
    + left. exists r, b. split; [apply grown; exact V|]. split; [exact RS|]. split; apply grown; assumption.
    + right. split; apply grown; assumption.
  - intros H. apply grown. exact H.
Qed.
Lemma owned_grow m os vs x v l : goes m os vs x v -> owned (m ++ l) x = owned m x.
Proof.
  destruct x as [a|a|a|], v as [r|s from|t|]; cbn; try tauto. intros (_ & H).
  assert (E : exists b, nth_error m a = Some b) by (destruct (rep_stacktrace r); [destruct H as (t & A & _); eauto|eauto]).
  destruct E as (b & E). rewrite (grown m l a b E), E. reflexivity.
Qed.
Lemma holding_grow m os vs lk l : inv m os vs lk -> holding (m ++ l) os = holding m os.
Proof.
  intros HI. unfold holding. rewrite !flat_map_concat_map. f_equal. apply map_ext_in. intros x X. apply In_nth_error in X. destruct X as (o & X).
  destruct (inv_value _ _ _ _ _ _ HI X) as (v & _ & G). exact (owned_grow _ _ _ _ _ _ G).
Qed.
Lemma in_use_lt m a : in_use m a -> a < length m.
Proof. intros (b & E & _). exact (some_lt _ _ _ E). Qed.
Lemma in_use_grow m l a : Forall (fun b => b <> Gone) l -> in_use (m ++ l) a <-> in_use m a \/ In a (seq (length m) (length l)).
Proof.
  intros F. split.
  - intros (b & E & N). destruct (Nat.lt_ge_cases a (length m)).
    + rewrite nth_error_app1 in E by assumption. left. exists b. split; assumption.
    + right. apply in_seq. apply some_lt in E. rewrite app_length in E. lia.
  - intros [(b & E & N)|I]; [exists b; split; [apply grown; exact E|exact N]|]. apply in_seq in I.
    destruct (nth_error (m ++ l) a) as [b|] eqn:E.
    + exists b. split; [exact E|]. rewrite nth_error_app2 in E by lia. apply nth_error_In in E. rewrite Forall_forall in F. exact (F _ E).
    + apply nth_error_None in E. rewrite app_length in E. lia.
Qed.
Lemma nodup_new (l : list nat) n k : NoDup l -> (forall a, In a l -> a < n) -> NoDup (l ++ seq n k).
Proof.
  intros N H. induction N as [|x l X N IH]; [apply seq_NoDup|]. cbn. constructor.
  - intros C. apply in_app_or in C. destruct C as [C|C]; [exact (X C)|]. apply in_seq in C. specialize (H x (or_introl eq_refl)). lia.
  - apply IH. intros a A. apply H. right. exact A.
Qed.
Lemma inv_grow m os vs lk l x v : inv m os vs lk -> Forall (fun b => b <> Gone) l -> goes (m ++ l) (os ++ [x]) (vs ++ [v]) x v ->
  Permutation (owned (m ++ l) x) (seq (length m) (length l)) -> inv (m ++ l) (os ++ [x]) (vs ++ [v]) lk.
Proof.
  intros HI F G P.
  assert (HH : holding (m ++ l) (os ++ [x]) = holding m os ++ owned (m ++ l) x).
  { unfold holding at 1. rewrite flat_map_app. cbn. rewrite app_nil_r. f_equal. exact (holding_grow _ _ _ _ _ HI). }
  assert (HP : Permutation (lk ++ holding (m ++ l) (os ++ [x])) ((lk ++ holding m os) ++ seq (length m) (length l))).
  { rewrite HH, app_assoc. apply Permutation_app_head. exact P. }
  constructor.
  - rewrite !app_length, (i_length _ _ _ _ HI). reflexivity.
  - intros o y w EO EV. destruct (Nat.lt_ge_cases o (length os)) as [LT|GE].
    + rewrite nth_error_app1 in EO by assumption. rewrite nth_error_app1 in EV by (rewrite <- (i_length _ _ _ _ HI); assumption).
      apply goes_grow. exact (i_goes _ _ _ _ HI _ _ _ EO EV).
    + rewrite nth_error_app2 in EO by assumption. rewrite nth_error_app2 in EV by (rewrite <- (i_length _ _ _ _ HI); assumption).
      rewrite (i_length _ _ _ _ HI) in EO. destruct (o - length vs) as [|k]; [|destruct k; discriminate EO]. injection EO as <-. injection EV as <-. exact G.
  - apply (Permutation_NoDup (Permutation_sym HP)). apply nodup_new; [exact (i_once _ _ _ _ HI)|]. intros a A. apply in_use_lt. apply (i_all _ _ _ _ HI). exact A.
  - intros a. rewrite (in_use_grow _ _ _ F), (i_all _ _ _ _ HI). split; intros H.
    + apply (Permutation_in _ (Permutation_sym HP)). apply in_or_app. exact H.
    + apply (Permutation_in _ HP) in H. apply in_app_or in H. exact H.
Qed.
Lemma inv_leak m os vs lk l : inv m os vs lk -> Forall (fun b => b <> Gone) l -> inv (m ++ l) os vs (lk ++ seq (length m) (length l)).
Proof.
  intros HI F.
  assert (HP : Permutation ((lk ++ seq (length m) (length l)) ++ holding (m ++ l) os) ((lk ++ holding m os) ++ seq (length m) (length l))).
  { rewrite (holding_grow _ _ _ _ _ HI), <- !app_assoc. apply Permutation_app_head. apply Permutation_app_comm. }
  constructor.
  - exact (i_length _ _ _ _ HI).
  - intros o y w EO EV. pose proof (goes_grow _ _ _ _ _ l [] [] (i_goes _ _ _ _ HI _ _ _ EO EV)) as G. rewrite !app_nil_r in G. exact G.
  - apply (Permutation_NoDup (Permutation_sym HP)). apply nodup_new; [exact (i_once _ _ _ _ HI)|]. intros a A. apply in_use_lt. apply (i_all _ _ _ _ HI). exact A.
  - intros a. rewrite (in_use_grow _ _ _ F), (i_all _ _ _ _ HI). split; intros H.
    + apply (Permutation_in _ (Permutation_sym HP)). apply in_or_app. exact H.
    + apply (Permutation_in _ HP) in H. apply in_app_or in H. exact H.
Qed.

(** ** Freed blocks *)
Lemma nodup_apart {A} (f : A -> list nat) l : forall i j x y a, NoDup (flat_map f l) -> nth_error l i = Some x -> nth_error l j = Some y -> i <> j ->
  In a (f x) -> In a (f y) -> False.
Proof.
  induction l as [|z l IH]; intros i j x y a N I J D AX AY; [destruct i; discriminate I|]. cbn in N.
  assert (N2 : NoDup (flat_map f l)) by (clear - N; induction (f z); [exact N|inversion N; auto]).
  assert (AP : forall k w, nth_error l k = Some w -> In a (f z) -> In a (f w) -> False).
  { intros k w K Z W. clear - N K Z W. induction (f z) as [|b q IQ]; [destruct Z|]. cbn in N. inversion N as [|? ? NB NQ]; subst. destruct Z as [<-|Z].
    - apply NB. apply in_or_app. right. apply in_flat_map. exists w. split; [exact (nth_error_In _ _ K)|exact W].
    - exact (IQ NQ Z). }
  destruct i as [|i], j as [|j]; cbn in I, J; [lia|injection I as <-; exact (AP _ _ J AX AY)|injection J as <-; exact (AP _ _ I AY AX)|].
  exact (IH i j x y a N2 I J ltac:(lia) AX AY).
Qed.
Lemma nodup_right {A} (l r : list A) : NoDup (l ++ r) -> NoDup r.
Proof. induction l; cbn; intros H; [exact H|inversion H; auto]. Qed.
Lemma inv_apart m os vs lk i j x y a : inv m os vs lk -> nth_error os i = Some x -> nth_error os j = Some y -> i <> j -> In a (owned m x) -> In a (owned m y) -> False.
Proof. intros HI. exact (nodup_apart (owned m) os i j x y a (nodup_right _ _ (i_once _ _ _ _ HI))). Qed.
Lemma inv_owned_used m os vs lk o x a : inv m os vs lk -> nth_error os o = Some x -> In a (owned m x) -> in_use m a.
Proof. intros HI O A. apply (i_all _ _ _ _ HI). apply in_or_app. right. apply in_flat_map. exists x. split; [exact (nth_error_In _ _ O)|exact A]. Qed.
Lemma owned_report m a r t : nth_error m a = Some (BReport r (Some t)) -> owned m (RbReport a) = [a; t].
Proof. intros E. cbn. rewrite E. reflexivity. Qed.

Section Free.
Variables (m m' : list block) (os : list object) (vs : list shown) (lk : list nat) (o : nat) (x : object).
Hypothesis HI : inv m os vs lk.
Hypothesis HO : nth_error os o = Some x.
Hypothesis HG : forall a, In a (owned m x) -> nth_error m' a = Some Gone.
Hypothesis HK : forall a, ~ In a (owned m x) -> nth_error m' a = nth_error m a.
Let os' := set_object o Collected os.
Let vs' := firstn o vs ++ VGone :: skipn (S o) vs.
Lemma free_kept j y a : nth_error os j = Some y -> j <> o -> In a (owned m y) -> nth_error m' a = nth_error m a.
Proof. intros J D A. apply HK. intros C. exact (inv_apart _ _ _ _ _ _ _ _ _ HI J HO D A C). Qed.
Lemma free_owned j y : nth_error os j = Some y -> j <> o -> owned m' y = owned m y.
Proof.
  intros J D. destruct y as [a|a|a|]; try reflexivity. cbn. rewrite (free_kept j (RbReport a) a J D); [reflexivity|left; reflexivity].
Qed.
Lemma free_os j : j <> o -> nth_error os' j = nth_error os j.
Proof. intros D. apply replace_other; [exact D|exact (some_lt _ _ _ HO)]. Qed.
Lemma o_lt_vs : o < length vs.
Proof. rewrite <- (i_length _ _ _ _ HI). exact (some_lt _ _ _ HO). Qed.
Lemma free_vs j : j <> o -> nth_error vs' j = nth_error vs j.
Proof. intros D. apply replace_other; [exact D|exact o_lt_vs]. Qed.
Lemma gone_stays a : nth_error m a = Some Gone -> nth_error m' a = Some Gone.
Proof. intros G. rewrite <- G. apply HK. intros C. destruct (inv_owned_used _ _ _ _ _ _ _ HI HO C) as (b & E & N). congruence. Qed.
Lemma free_goes j y w : nth_error os j = Some y -> nth_error vs j = Some w -> j <> o -> goes m' os' vs' y w.
Proof.
  intros J W D. pose proof (i_goes _ _ _ _ HI _ _ _ J W) as G. pose proof (fun a => free_kept j y a J D) as K.
  destruct y as [a|a|a|], w as [r|s from|t|]; cbn in G |- *; try exact G.
  - destruct G as (F & G). split; [exact F|]. destruct (rep_stacktrace r) as [s|].
    + destruct G as (t & A & T). pose proof (owned_report _ _ _ _ A) as OW. exists t. rewrite !K by (rewrite OW; cbn; tauto). split; assumption.
    + rewrite K by (left; reflexivity). exact G.
  - destruct G as (home & A & U & OR). exists home. rewrite K by (left; reflexivity). split; [exact A|]. split; [exact U|].
    destruct OR as [(r & b & V & RS & B & MB)|(V & MG)].
    + destruct (Nat.eq_dec from o) as [->|DF].
      * right. split; [apply replace_same; exact o_lt_vs|]. apply HG. assert (x = RbReport b) by congruence. subst x. rewrite (owned_report _ _ _ _ MB). cbn. tauto.
      * left. exists r, b. rewrite (free_vs from DF), (free_os from DF). split; [exact V|]. split; [exact RS|]. split; [exact B|].
        rewrite (free_kept from (RbReport b) b B DF); [exact MB|left; reflexivity].
    + right. split; [|exact (gone_stays _ MG)]. destruct (Nat.eq_dec from o) as [->|DF]; [apply replace_same; exact o_lt_vs|]. rewrite (free_vs from DF). exact V.
  - rewrite K by (left; reflexivity). exact G.
Qed.
Lemma holding_split : Permutation (holding m os) (owned m x ++ holding m' os').
Proof.
  unfold holding, os', set_object. rewrite (replace_split os o x HO) at 1. rewrite !flat_map_app. cbn [flat_map owned app].
  assert (E : flat_map (owned m') (firstn o os) = flat_map (owned m) (firstn o os) /\ flat_map (owned m') (skipn (S o) os) = flat_map (owned m) (skipn (S o) os)).
  { rewrite !flat_map_concat_map. split; f_equal; apply map_ext_in; intros y Y; apply In_nth_error in Y; destruct Y as (k & Y).
    - assert (LT : k < o). { apply some_lt in Y. rewrite firstn_length in Y. lia. } rewrite nth_firstn in Y by exact LT. apply (free_owned k y Y). lia.
    - rewrite nth_skipn in Y. apply (free_owned (S o + k) y Y). lia. }
  destruct E as (-> & ->). rewrite (Permutation_app_comm (flat_map (owned m) (firstn o os))), <- app_assoc. apply Permutation_app_head. apply Permutation_app_comm.
Qed.
Lemma inv_free : inv m' os' vs' lk.
Proof.
  assert (HP : Permutation (lk ++ holding m os) (owned m x ++ (lk ++ holding m' os'))).
  { rewrite holding_split, !app_assoc. apply Permutation_app_tail. apply Permutation_app_comm. }
  pose proof (Permutation_NoDup HP (i_once _ _ _ _ HI)) as ND.
  constructor.
  - unfold os', vs', set_object. rewrite !replace_length; [exact (i_length _ _ _ _ HI)|exact o_lt_vs|exact (some_lt _ _ _ HO)].
  - intros j y w J W. destruct (Nat.eq_dec j o) as [->|D].
    + unfold os', set_object in J. rewrite replace_same in J by exact (some_lt _ _ _ HO). unfold vs' in W. rewrite replace_same in W by exact o_lt_vs.
      injection J as <-. injection W as <-. exact Logic.I.
    + rewrite (free_os j D) in J. rewrite (free_vs j D) in W. exact (free_goes j y w J W D).
  - exact (nodup_right _ _ ND).
  - intros a. destruct (in_dec Nat.eq_dec a (owned m x)) as [A|A].
    + split; intros H.
      * destruct H as (b & E & N). rewrite (HG a A) in E. congruence.
      * exfalso. clear - ND A H. induction (owned m x) as [|c q IQ]; [destruct A|]. cbn in ND. inversion ND as [|? ? NC NQ]; subst. destruct A as [->|A]; [apply NC; apply in_or_app; right; exact H|exact (IQ NQ A)].
    + assert (E : in_use m' a <-> in_use m a) by (unfold in_use; rewrite (HK a A); tauto). rewrite E, (i_all _ _ _ _ HI). split; intros H.
      * apply (Permutation_in _ HP) in H. apply in_app_or in H. destruct H as [H|H]; [contradiction|exact H].
      * apply (Permutation_in _ (Permutation_sym HP)). apply in_or_app. right. exact H.
Qed.
End Free.
