(** * Proofs about the JSON readers. *)
From Verif Require Import Base JsonSpec JsonModel JsonProofs Types JsonTypesModel JsonTypesSpec.
Open Scope Z_scope.

Lemma bind_Ok {A B} (e : res A) (f : A -> res B) r : bind e f = Ok r <-> exists a, e = Ok a /\ f a = Ok r.
Proof.
  destruct e; simpl; split.
  - eauto.
  - intros (x & E & H). injection E as <-. exact H.
  - discriminate.
  - intros (x & E & _); discriminate.
  - discriminate.
  - intros (x & E & _); discriminate.
Qed.
Lemma bind_not_UB {A B} (e : res A) (f : A -> res B) : e <> UB -> (forall a, f a <> UB) -> bind e f <> UB.
Proof. destruct e; simpl; auto; discriminate. Qed.
Lemma Ok_inj {A} (a b : A) : Ok a = Ok b <-> a = b.
Proof. split; [intros H; injection H; auto | congruence]. Qed.

Lemma Ok_inj1 {A} (a b : A) : Ok a = Ok b -> a = b.
Proof. intros H; injection H; auto. Qed.

Lemma json_read_not_UB {A} o k (conv : json -> option A) d : json_read o k conv d <> UB.
Proof. unfold json_read. destruct (jget k o); [destruct (conv j)|]; discriminate. Qed.
Lemma read_string_iff o k r : json_read_string o k None = Ok r <-> reads_string o k r.
Proof.
  unfold json_read_string, json_read, reads_string. destruct (jget k o) as [j|].
  - destruct j; simpl; split; try discriminate; try (intros [[H _]|(s' & H & _)]; discriminate H).
    + intros H; injection H as <-. right; eauto.
    + intros [[H _]|(s' & H & ->)]; [discriminate | injection H as ->; reflexivity].
  - split; [intros H; injection H as <-; left; auto|].
    intros [[_ ->]|(s' & H & _)]; [reflexivity | discriminate].
Qed.
Lemma read_bool_iff o k d r : json_read_bool o k d = Ok r <-> reads_bool o k d r.
Proof.
  unfold json_read_bool, json_read, reads_bool. destruct (jget k o) as [j|].
  - destruct j; simpl; split; try discriminate; try (intros [[H _]|H]; discriminate H).
    + intros H; injection H as <-. right; auto.
    + intros [[H _]|H]; [discriminate | injection H as ->; reflexivity].
  - split; [intros H; injection H as <-; left; auto|]. intros [[_ ->]|H]; [reflexivity | discriminate].
Qed.
Lemma clamp_between lo hi z : lo <= hi -> clamp lo hi z = clip_between lo hi z.
Proof. intros H. unfold clamp, clip_between. destruct (z <? lo) eqn:E1; [|destruct (hi <? z) eqn:E2]; lia. Qed.
Lemma read_u64_iff o k d r : json_read_uint64 o k d = Ok r <-> reads_u64 o k d r.
Proof.
  unfold json_read_uint64, json_read, reads_u64. destruct (jget k o) as [j|].
  - destruct j; cbn [as_uint64]; split; try discriminate; try (intros [[H _]|(z' & H & _)]; discriminate H).
    + intros H; injection H as <-. right. eexists; split; [reflexivity|].
      unfold get_int64, to_unsigned. rewrite clamp_between by (vm_compute; discriminate). reflexivity.
    + intros [[H _]|(z' & H & ->)]; [discriminate | injection H as ->].
      unfold get_int64, to_unsigned. rewrite clamp_between by (vm_compute; discriminate). reflexivity.
  - split; [intros H; injection H as <-; left; auto|]. intros [[_ ->]|(z' & H & _)]; [reflexivity | discriminate].
Qed.
Lemma read_u32_iff o k d r : json_read_uint32 o k d = Ok r <-> reads_u32 o k d r.
Proof.
  unfold json_read_uint32, json_read, reads_u32. destruct (jget k o) as [j|].
  - destruct j; cbn [as_uint32]; split; try discriminate; try (intros [[H _]|(z' & H & _)]; discriminate H).
    + intros H; injection H as <-. right. eexists; split; [reflexivity|].
      unfold get_int, to_unsigned. rewrite clamp_between by (vm_compute; discriminate). reflexivity.
    + intros [[H _]|(z' & H & ->)]; [discriminate | injection H as ->].
      unfold get_int, to_unsigned. rewrite clamp_between by (vm_compute; discriminate). reflexivity.
  - split; [intros H; injection H as <-; left; auto|]. intros [[_ ->]|(z' & H & _)]; [reflexivity | discriminate].
Qed.
Lemma read_u16_iff o k d r : json_read_uint16 o k d = Ok r <-> reads_u16 o k d r.
Proof.
  unfold json_read_uint16, json_read, reads_u16. destruct (jget k o) as [j|].
  - destruct j; cbn [as_uint16]; split; try discriminate; try (intros [[H _]|(z' & H & _)]; discriminate H).
    + intros H; injection H as <-. right. eexists; split; [reflexivity|].
      unfold get_int, to_unsigned. rewrite clamp_between by (vm_compute; discriminate). reflexivity.
    + intros [[H _]|(z' & H & ->)]; [discriminate | injection H as ->].
      unfold get_int, to_unsigned. rewrite clamp_between by (vm_compute; discriminate). reflexivity.
  - split; [intros H; injection H as <-; left; auto|]. intros [[_ ->]|(z' & H & _)]; [reflexivity | discriminate].
Qed.

Lemma map_res_iff {A} (f : json -> res A) (P : json -> A -> Prop) (Hf : forall j a, f j = Ok a <-> P j a) l :
  forall r, map_res f l = Ok r <-> Forall2 P l r.
Proof.
  induction l as [|j l IH]; intros r; cbn [map_res].
  - rewrite Ok_inj. split; [intros <-; constructor | intros H; inversion H; reflexivity].
  - rewrite bind_Ok. setoid_rewrite bind_Ok. setoid_rewrite Hf. split.
    + intros (a & Ha & as_ & Has & H). apply Ok_inj1 in H as <-. constructor; [exact Ha | apply IH; exact Has].
    + intros H; inversion H as [|? a ? as_ Ha Has]; subst. exists a; split; auto.
      exists as_; split; [apply IH; exact Has | reflexivity].
Qed.
Lemma map_res_not_UB {A} (f : json -> res A) l : (forall j, f j <> UB) -> map_res f l <> UB.
Proof.
  intros Hf. induction l as [|j l IH]; cbn [map_res]; [discriminate|].
  apply bind_not_UB; auto. intros a. apply bind_not_UB; auto. discriminate.
Qed.
Lemma read_array_iff {A} (f : json -> res A) (P : json -> A -> Prop) (Hf : forall j a, f j = Ok a <-> P j a) o k r :
  read_array o k f = Ok r <-> reads_list o k P r.
Proof.
  unfold read_array, reads_list. destruct (jget k o) as [j|].
  - destruct j; split; try discriminate; try (intros [[H _]|(l' & H & _)]; discriminate H).
    + intros H. right. eexists; split; [reflexivity | apply (map_res_iff f P Hf); exact H].
    + intros [[H _]|(l' & H & H2)]; [discriminate | injection H as ->]. apply (map_res_iff f P Hf); exact H2.
  - split; [intros H; injection H as <-; left; auto|]. intros [[_ ->]|(l' & H & _)]; [reflexivity | discriminate].
Qed.
Lemma read_array_not_UB {A} (f : json -> res A) o k : (forall j, f j <> UB) -> read_array o k f <> UB.
Proof.
  intros Hf. unfold read_array. destruct (jget k o) as [j|]; [|discriminate].
  destruct j; try discriminate. apply map_res_not_UB; exact Hf.
Qed.
Lemma read_special_iff o k sk r b : read_special o k sk = Ok (r, b) <-> reads_name o k sk r b.
Proof.
  unfold read_special, get_string_member, reads_name.
  destruct (jget k o) as [j|] eqn:E1.
  - destruct j; simpl; split; try discriminate;
      try (intros [(s' & H & _)|[(H & _)|(H & _)]]; discriminate H).
    + intros H; injection H as <- <-. left; eauto.
    + intros [(s' & H & -> & ->)|[(H & _)|(H & _)]]; try discriminate. injection H as ->; reflexivity.
  - destruct (jget sk o) as [j|] eqn:E2.
    + destruct j; simpl; split; try discriminate;
        try (intros [(s' & H & _)|[(_ & s' & H & _)|(_ & H & _)]]; discriminate H).
      * intros H; injection H as <- <-. right; left; eauto.
      * intros [(s' & H & _)|[(_ & s' & H & -> & ->)|(_ & H & _)]]; try discriminate.
        injection H as ->; reflexivity.
    + split.
      * intros H; injection H as <- <-. right; right; auto.
      * intros [(s' & H & _)|[(_ & s' & H & _)|(_ & _ & -> & ->)]]; try discriminate. reflexivity.
Qed.
Lemma read_special_not_UB o k sk : read_special o k sk <> UB.
Proof.
  unfold read_special, get_string_member. destruct (jget k o) as [[]|]; simpl; try discriminate.
  destruct (jget sk o) as [[]|]; simpl; discriminate.
Qed.

Ltac not_ub :=
  repeat first [ discriminate | apply bind_not_UB; [|intros ?] | apply json_read_not_UB
               | apply read_special_not_UB | apply read_array_not_UB; intros ? ].

(** Turn a chain of binds equal to [Ok r] into the conjunction of the reads. *)
Ltac reads_intro :=
  repeat match goal with
  | H : bind _ _ = Ok _ |- _ => apply bind_Ok in H as (? & ? & H)
  end.
Ltac reads_done :=
  match goal with H : Ok _ = Ok _ |- _ => apply Ok_inj1 in H; subst end;
  eexists; split; [reflexivity|];
  cbn [fst snd];
  repeat split;
  first [ apply read_string_iff; assumption | apply read_u64_iff; assumption | apply read_u32_iff; assumption
        | apply read_u16_iff; assumption | apply read_bool_iff; assumption
        | apply read_special_iff; match goal with H : read_special ?o ?k ?sk = Ok ?p |- read_special ?o ?k ?sk = _ => destruct p; exact H end
        | idtac ].
Ltac reads_back :=
  repeat (apply bind_Ok;
    first [ eexists; split; [first [ apply read_string_iff; eassumption | apply read_u64_iff; eassumption
                                   | apply read_u32_iff; eassumption | apply read_u16_iff; eassumption
                                   | apply read_bool_iff; eassumption | apply read_special_iff; eassumption ]|] ]).

Lemma core_frame_reads v f : core_frame_from_json v = Ok f <-> reads_core_frame v f.
Proof.
  split.
  - destruct v; try discriminate. cbn [core_frame_from_json]. intros H. reads_intro. reads_done.
  - intros (o & -> & ? & ? & ? & ? & ? & ? & ?). cbn [core_frame_from_json]. reads_back. destruct f; reflexivity.
Qed.
Lemma core_frame_not_UB v : core_frame_from_json v <> UB.
Proof. destruct v; cbn [core_frame_from_json]; not_ub. Qed.
Lemma core_thread_reads v t : core_thread_from_json v = Ok t <-> reads_core_thread v t.
Proof.
  split.
  - destruct v; try discriminate. cbn [core_thread_from_json]. intros H. reads_intro. apply Ok_inj1 in H as <-.
    eexists; split; [reflexivity|]. apply (read_array_iff _ _ core_frame_reads). assumption.
  - intros (o & -> & H). cbn [core_thread_from_json]. apply bind_Ok. eexists; split;
      [apply (read_array_iff _ _ core_frame_reads); exact H | destruct t; reflexivity].
Qed.
Lemma core_thread_not_UB v : core_thread_from_json v <> UB.
Proof. destruct v; cbn [core_thread_from_json]; not_ub. apply core_frame_not_UB. Qed.

Definition crash_spec (l : list json) (i : nat) (crash0 crash : option nat) : Prop :=
  Forall (fun j => marked j <> None) l /\
  ((crash = crash0 /\ Forall (fun j => marked j = Some false) l) \/
   exists k j, crash = Some (i + k)%nat /\ nth_error l k = Some j /\ marked j = Some true /\
     forall k' j', (k < k')%nat -> nth_error l k' = Some j' -> marked j' = Some false).

Lemma core_read_threads_iff l : forall i c ts c',
  core_read_threads l i c = Ok (ts, c') <-> Forall2 reads_core_thread l ts /\ crash_spec l i c c'.
Proof.
  induction l as [|j l IH]; intros i c ts c'; cbn [core_read_threads].
  - rewrite Ok_inj. split.
    + intros H; injection H as <- <-. split; [constructor|]. split; [constructor|]. left; split; [reflexivity | constructor].
    + intros [H1 [_ [[-> _]|(k & j & _ & H & _)]]]; [inversion H1; reflexivity|]. destruct k; discriminate H.
  - split.
    + intros H. reads_intro. apply Ok_inj1 in H. injection H as <- E. subst c'.
      match goal with H : core_thread_from_json j = Ok ?t |- _ => rename H into Ht; apply core_thread_reads in Ht as Ht' end.
      match goal with H : core_read_threads l _ _ = Ok ?p |- _ => destruct p as [ts' c'']; apply IH in H as [Hf Hc] end.
      cbn [fst snd]. split; [constructor; assumption|].
      destruct Ht' as (o & -> & _).
      match goal with H : match jget ?k ?o with _ => _ end = Ok ?cc |- _ => rename cc into c1; rename H into Hm end.
      destruct Hc as [Hall Hc].
      assert (HM : marked (JObj o) <> None /\ c1 = (if match marked (JObj o) with Some true => true | _ => false end then Some i else c)).
      { unfold marked. destruct (jget (L "crash_thread") o) as [[| [] | | | |]|]; try discriminate Hm;
          apply Ok_inj1 in Hm as <-; split; try discriminate; reflexivity. }
      destruct HM as [HM1 HM2].
      split; [constructor; assumption|].
      destruct (marked (JObj o)) as [[]|] eqn:EM; [| |congruence]; simpl in HM2; subst c1.
      * destruct Hc as [[-> Hfa]|(k & j & -> & Hn & Hk & Hl)].
        -- right. exists 0%nat, (JObj o). rewrite Nat.add_0_r. repeat split; auto.
           intros [|k'] j' Hlt Hn; [lia|]. simpl in Hn. rewrite Forall_forall in Hfa. apply Hfa.
           eapply nth_error_In; eauto.
        -- right. exists (S k), j. rewrite Nat.add_succ_r. repeat split; auto.
           intros [|k'] j' Hlt Hn'; [lia|]. simpl in Hn'. apply (Hl k'); [lia | exact Hn'].
      * destruct Hc as [[-> Hfa]|(k & j & -> & Hn & Hk & Hl)].
        -- left. split; auto.
        -- right. exists (S k), j. rewrite Nat.add_succ_r. repeat split; auto.
           intros [|k'] j' Hlt Hn'; [lia|]. simpl in Hn'. apply (Hl k'); [lia | exact Hn'].
    + intros [H1 [Hall Hc]]. inversion H1 as [|? t ? ts' Ht Hts]; subst.
      inversion Hall as [|? ? HM HM']; subst.
      apply bind_Ok. exists t; split; [apply core_thread_reads; exact Ht|].
      destruct Ht as (o & -> & _).
      apply bind_Ok. exists (if match marked (JObj o) with Some true => true | _ => false end then Some i else c).
      split.
      { unfold marked in *. destruct (jget (L "crash_thread") o) as [[| [] | | | |]|]; congruence || reflexivity. }
      apply bind_Ok. exists (ts', c'). split; [|reflexivity].
      apply IH. split; [exact Hts|]. split; [exact HM'|].
      destruct Hc as [[-> Hfa]|(k & j & -> & Hn & Hk & Hl)].
      * inversion Hfa as [|? ? E Hfa']; subst. rewrite E. left; auto.
      * destruct k as [|k].
        -- simpl in Hn. injection Hn as <-. rewrite Hk. left. rewrite Nat.add_0_r. split; auto.
           rewrite Forall_forall. intros j Hj. apply In_nth_error in Hj as [k' Hk']. apply (Hl (S k')); [lia | exact Hk'].
        -- right. exists k, j. rewrite Nat.add_succ_comm. repeat split; auto.
           intros k' j' Hlt Hn'. apply (Hl (S k')); [lia | exact Hn'].
Qed.
Lemma core_read_threads_not_UB l : forall i c, core_read_threads l i c <> UB.
Proof.
  induction l as [|j l IH]; intros i c; cbn [core_read_threads]; [discriminate|].
  apply bind_not_UB; [apply core_thread_not_UB|]. intros t. apply bind_not_UB.
  - destruct j; try discriminate. destruct (jget _ _) as [[| [] | | | |]|]; discriminate.
  - intros c1. apply bind_not_UB; [apply IH | discriminate].
Qed.

Lemma core_reads v s : core_stacktrace_from_json v = Ok s <-> reads_core v s.
Proof.
  split.
  - destruct v; try discriminate. cbn [core_stacktrace_from_json]. intros H. reads_intro.
    apply Ok_inj1 in H; subst s. eexists; split; [reflexivity|]. cbn [cs_signal cs_executable cs_crash_thread cs_threads cs_only_crash_thread fst snd].
    repeat split; [apply read_u16_iff; assumption | apply read_string_iff; assumption | apply read_bool_iff; assumption|].
    match goal with H : match jget (L "stacktrace") l with _ => _ end = Ok ?p |- _ => destruct p as [ts c]; rename H into Hr end.
    cbn [cs_signal cs_executable cs_crash_thread cs_threads cs_only_crash_thread fst snd]. destruct (jget (L "stacktrace") l) as [j|] eqn:E.
    + destruct j; try discriminate. right. exists l0. split; [reflexivity|].
      apply core_read_threads_iff in Hr as [Hf [Ha Hc]]. split; [exact Hf|]. split; [exact Ha|].
      destruct Hc as [[-> H]|(k & j & -> & H & H' & H'')]; [exact H|]. simpl. split; [eauto | exact H''].
    + apply Ok_inj1 in Hr. injection Hr as <- <-. left; auto.
  - intros (o & -> & ? & ? & ? & H). cbn [core_stacktrace_from_json]. reads_back.
    apply bind_Ok. exists (cs_threads s, cs_crash_thread s). split; [|destruct s; reflexivity].
    destruct H as [(-> & -> & ->)|(l & -> & Hf & Ha & Hc)]; [reflexivity|].
    apply core_read_threads_iff. split; [exact Hf|]. split; [exact Ha|].
    destruct (cs_crash_thread s) as [i|]; [|left; auto]. right.
    destruct Hc as [(j & Hj & Hm) Hl]. exists i, j. auto.
Qed.
Lemma core_not_UB v : core_stacktrace_from_json v <> UB.
Proof.
  destruct v; cbn [core_stacktrace_from_json]; not_ub.
  destruct (jget _ _) as [[]|]; try discriminate. apply core_read_threads_not_UB.
Qed.

Lemma python_frame_reads v f : python_frame_from_json v = Ok f <-> reads_python_frame v f.
Proof.
  split.
  - destruct v; try discriminate. cbn [python_frame_from_json]. intros H. reads_intro. reads_done.
  - intros (o & -> & ? & ? & ? & ?). cbn [python_frame_from_json]. reads_back. destruct f; reflexivity.
Qed.
Lemma python_frame_not_UB v : python_frame_from_json v <> UB.
Proof. destruct v; cbn [python_frame_from_json]; not_ub. Qed.
Lemma python_reads v s : python_stacktrace_from_json v = Ok s <-> reads_python v s.
Proof.
  split.
  - destruct v; try discriminate. cbn [python_stacktrace_from_json]. intros H. reads_intro. reads_done.
    apply (read_array_iff _ _ python_frame_reads). assumption.
  - intros (o & -> & ? & ?). cbn [python_stacktrace_from_json]. reads_back.
    apply bind_Ok. eexists; split; [apply (read_array_iff _ _ python_frame_reads); eassumption | destruct s; reflexivity].
Qed.
Lemma python_not_UB v : python_stacktrace_from_json v <> UB.
Proof. destruct v; cbn [python_stacktrace_from_json]; not_ub. apply python_frame_not_UB. Qed.

Lemma ruby_frame_reads v f : ruby_frame_from_json v = Ok f <-> reads_ruby_frame v f.
Proof.
  split.
  - destruct v; try discriminate. cbn [ruby_frame_from_json]. intros H. reads_intro. reads_done.
  - intros (o & -> & ? & ? & ? & ? & ?). cbn [ruby_frame_from_json]. reads_back. destruct f; reflexivity.
Qed.
Lemma ruby_frame_not_UB v : ruby_frame_from_json v <> UB.
Proof. destruct v; cbn [ruby_frame_from_json]; not_ub. Qed.
Lemma ruby_reads v s : ruby_stacktrace_from_json v = Ok s <-> reads_ruby v s.
Proof.
  split.
  - destruct v; try discriminate. cbn [ruby_stacktrace_from_json]. intros H. reads_intro. reads_done.
    apply (read_array_iff _ _ ruby_frame_reads). assumption.
  - intros (o & -> & ? & ?). cbn [ruby_stacktrace_from_json]. reads_back.
    apply bind_Ok. eexists; split; [apply (read_array_iff _ _ ruby_frame_reads); eassumption | destruct s; reflexivity].
Qed.
Lemma ruby_not_UB v : ruby_stacktrace_from_json v <> UB.
Proof. destruct v; cbn [ruby_stacktrace_from_json]; not_ub. apply ruby_frame_not_UB. Qed.

Lemma js_frame_reads v f : js_frame_from_json v = Ok f <-> reads_js_frame v f.
Proof.
  split.
  - destruct v; try discriminate. cbn [js_frame_from_json]. intros H. reads_intro. reads_done.
  - intros (o & -> & ? & ? & ? & ?). cbn [js_frame_from_json]. reads_back. destruct f; reflexivity.
Qed.
Lemma js_frame_not_UB v : js_frame_from_json v <> UB.
Proof. destruct v; cbn [js_frame_from_json]; not_ub. Qed.

Lemma str_eqb_eq a : forall b, str_eqb a b = true <-> a = b.
Proof.
  induction a as [|x a IH]; intros [|y b]; simpl; split; try discriminate; auto.
  - rewrite andb_true_iff. intros [H1 H2]. apply Ascii.eqb_eq in H1. apply IH in H2. congruence.
  - intros H; injection H as -> ->. rewrite Ascii.eqb_refl. apply IH; reflexivity.
Qed.
Lemma js_platform_reads v z : js_platform_from_json v = Ok z <->
  exists p e r, v = JObj p /\
       jget (L "engine") p = Some (JStr e) /\ jget (L "runtime") p = Some (JStr r) /\
       (e = L "V8" \/ e = L "<unknown>") /\ (r = L "Node.js" \/ r = L "<unknown>") /\
       z = (if str_eqb e (L "V8") then 16 else 0) + (if str_eqb r (L "Node.js") then 1 else 0).
Proof.
  unfold js_platform_from_json. split.
  - intros H. reads_intro.
    match goal with H : json_read_string _ _ _ = Ok ?x |- _ => apply read_string_iff in H as [(HE & ->)|(es & HE & ->)] end;
      [discriminate|].
    destruct v; try discriminate HE. exists l.
    destruct (negb (str_eqb es (L "<unknown>")) && (js_engine_from_string es =? 0)) eqn:E1; [discriminate|].
    reads_intro.
    match goal with H : json_read_string _ _ _ = Ok ?x |- _ => apply read_string_iff in H as [(HR & ->)|(rs & HR & ->)] end;
      [discriminate|].
    destruct (negb (str_eqb rs (L "<unknown>")) && (js_runtime_from_string rs =? 0)) eqn:E2; [discriminate|].
    apply Ok_inj1 in H. exists es, rs. split; [reflexivity|]. split; [exact HE|]. split; [exact HR|].
    unfold js_engine_from_string, js_runtime_from_string in *.
    destruct (str_eqb es (L "V8")) eqn:F1, (str_eqb rs (L "Node.js")) eqn:F2; simpl in E1, E2;
      rewrite ?andb_true_r in *; rewrite ?negb_false_iff in *;
      (split; [rewrite str_eqb_eq in *; tauto|]; split; [rewrite str_eqb_eq in *; tauto|]); subst z; reflexivity.
  - intros (p & e & r & -> & HE & HR & He & Hr & ->).
    apply bind_Ok. exists (Some e). split; [apply read_string_iff; right; eauto|].
    destruct He as [->| ->].
    + apply bind_Ok. exists (Some r). split; [apply read_string_iff; right; eauto|].
      destruct Hr as [->| ->]; reflexivity.
    + apply bind_Ok. exists (Some r). split; [apply read_string_iff; right; eauto|].
      destruct Hr as [->| ->]; reflexivity.
Qed.
Lemma js_platform_not_UB v : js_platform_from_json v <> UB.
Proof.
  unfold js_platform_from_json. not_ub. destruct a as [es|]; [|discriminate].
  destruct (negb _ && _); [discriminate|]. not_ub. destruct a as [rs|]; [|discriminate].
  destruct (negb _ && _); discriminate.
Qed.
Lemma js_reads v s : js_stacktrace_from_json v = Ok s <-> reads_js v s.
Proof.
  split.
  - destruct v; try discriminate. cbn [js_stacktrace_from_json]. intros H. reads_intro.
    apply Ok_inj1 in H; subst s. eexists; split; [reflexivity|]. cbn [js_exception_name js_frames js_platform fst snd].
    repeat split; [apply read_string_iff; assumption | apply (read_array_iff _ _ js_frame_reads); assumption|].
    destruct (jget (L "platform") l) as [j|] eqn:E.
    + right. match goal with H : js_platform_from_json _ = _ |- _ => apply js_platform_reads in H as (p & e & r & -> & HH) end.
      exists p, e, r. split; [reflexivity | exact HH].
    + left. split; auto. match goal with H : Ok 0 = Ok _ |- _ => apply Ok_inj1 in H; auto end.
  - intros (o & -> & ? & ? & H). cbn [js_stacktrace_from_json]. reads_back.
    apply bind_Ok. eexists; split; [apply (read_array_iff _ _ js_frame_reads); eassumption|].
    apply bind_Ok. exists (js_platform s). split; [|destruct s; reflexivity].
    destruct H as [(-> & ->)|(p & e & r & -> & HH)]; [reflexivity|].
    apply js_platform_reads. exists p, e, r. split; [reflexivity | exact HH].
Qed.
Lemma js_not_UB v : js_stacktrace_from_json v <> UB.
Proof.
  destruct v; cbn [js_stacktrace_from_json]; not_ub; [apply js_frame_not_UB|].
  destruct (jget _ _); [apply js_platform_not_UB | discriminate].
Qed.

Lemma java_frame_reads v f : java_frame_from_json v = Ok f <-> reads_java_frame v f.
Proof.
  split.
  - destruct v; try discriminate. cbn [java_frame_from_json]. intros H. reads_intro. reads_done.
  - intros (o & -> & ? & ? & ? & ? & ? & ? & ?). cbn [java_frame_from_json]. reads_back. destruct f; reflexivity.
Qed.
Lemma java_frame_not_UB v : java_frame_from_json v <> UB.
Proof. destruct v; cbn [java_frame_from_json]; not_ub. Qed.
Lemma java_thread_reads v s : java_thread_from_json v = Ok s <-> reads_java_thread v s.
Proof.
  split.
  - destruct v; try discriminate. cbn [java_thread_from_json]. intros H. reads_intro. reads_done.
    apply (read_array_iff _ _ java_frame_reads). assumption.
  - intros (o & -> & ? & ?). cbn [java_thread_from_json]. reads_back.
    apply bind_Ok. eexists; split; [apply (read_array_iff _ _ java_frame_reads); eassumption | destruct s; reflexivity].
Qed.
Lemma java_thread_not_UB v : java_thread_from_json v <> UB.
Proof. destruct v; cbn [java_thread_from_json]; not_ub. apply java_frame_not_UB. Qed.
Lemma java_reads v s : java_stacktrace_from_json v = Ok s <-> reads_java v s.
Proof.
  split.
  - destruct v; try discriminate. cbn [java_stacktrace_from_json]. intros H. reads_intro. apply Ok_inj1 in H; subst s.
    eexists; split; [reflexivity|]. apply (read_array_iff _ _ java_thread_reads). assumption.
  - intros (o & -> & ?). cbn [java_stacktrace_from_json].
    apply bind_Ok. eexists; split; [apply (read_array_iff _ _ java_thread_reads); eassumption | destruct s; reflexivity].
Qed.
Lemma java_not_UB v : java_stacktrace_from_json v <> UB.
Proof. destruct v; cbn [java_stacktrace_from_json]; not_ub. apply java_thread_not_UB. Qed.

Lemma koops_frame_reads v f : koops_frame_from_json v = Ok f <-> reads_koops_frame v f.
Proof.
  split.
  - destruct v; try discriminate. cbn [koops_frame_from_json]. intros H. reads_intro. reads_done.
  - intros (o & -> & ? & ? & ? & ? & ? & ? & ? & ? & ? & ? & ? & ?). cbn [koops_frame_from_json]. reads_back. destruct f; reflexivity.
Qed.
Lemma koops_frame_not_UB v : koops_frame_from_json v <> UB.
Proof. destruct v; cbn [koops_frame_from_json]; not_ub. Qed.

(** Taint flags: reading sets exactly the named ones. *)
Fixpoint or_flags (flags : list (ascii * str)) (vals : list bool) (p : str -> bool) : list bool :=
  match flags, vals with
  | (_, n) :: fs, v :: vs => (v || p n) :: or_flags fs vs p
  | _, _ => []
  end.
Lemma or_flags_none flags : forall vals name, length vals = length flags -> ~ In name (map snd flags) ->
  or_flags flags vals (fun n => str_eqb n name) = vals.
Proof.
  induction flags as [|[c n] fs IH]; intros [|v vs] name Hl Hn; simpl in *; try discriminate; auto.
  destruct (str_eqb n name) eqn:E; [apply str_eqb_eq in E; subst; exfalso; apply Hn; auto|].
  rewrite orb_false_r. f_equal. apply IH; [congruence|]. intros H; apply Hn; auto.
Qed.
Lemma set_flag_or flags : forall vals name, NoDup (map snd flags) -> length vals = length flags ->
  set_flag flags vals name = or_flags flags vals (fun n => str_eqb n name).
Proof.
  induction flags as [|[c n] fs IH]; intros [|v vs] name Hd Hl; simpl in *; try discriminate; auto.
  inversion Hd as [|? ? Hni Hd']; subst. destruct (str_eqb n name) eqn:E.
  - apply str_eqb_eq in E; subst. rewrite orb_true_r. f_equal. symmetry. apply or_flags_none; [congruence | exact Hni].
  - rewrite orb_false_r. f_equal. apply IH; [exact Hd' | congruence].
Qed.
Lemma or_flags_length flags : forall vals p, length vals = length flags -> length (or_flags flags vals p) = length flags.
Proof. induction flags as [|[c n] fs IH]; intros [|v vs] p H; simpl in *; try discriminate; auto. Qed.
Lemma or_flags_or flags : forall vals p q, length vals = length flags ->
  or_flags flags (or_flags flags vals p) q = or_flags flags vals (fun n => p n || q n).
Proof.
  induction flags as [|[c n] fs IH]; intros [|v vs] p q H; simpl in *; try discriminate; auto.
  rewrite orb_assoc, IH by congruence. reflexivity.
Qed.
Lemma or_flags_ext flags : forall vals p q, (forall n, p n = q n) -> or_flags flags vals p = or_flags flags vals q.
Proof. intros vals p q H; revert vals; induction flags as [|[c n] fs IH]; intros [|v vs]; simpl; auto. rewrite H, IH; reflexivity. Qed.
Lemma taint_nodup : NoDup (map snd taint_flags).
Proof.
  cbv. repeat constructor; simpl; intros H; repeat (destruct H as [H|H]; [discriminate H|]); exact H.
Qed.
Lemma koops_read_taint_iff l : forall vals r, length vals = 16%nat ->
  (koops_read_taint l vals = Ok r <->
   exists names, l = map JStr names /\ r = or_flags taint_flags vals (fun n => existsb (str_eqb n) names)).
Proof.
  induction l as [|j l IH]; intros vals r Hl.
  - cbn [koops_read_taint]. rewrite Ok_inj. split.
    + intros <-. exists []. split; [reflexivity|].
      do 17 (destruct vals as [|? vals]; try discriminate Hl). cbn. rewrite !orb_false_r. reflexivity.
    + intros ([|n names] & E & ->); [|discriminate]. clear E.
      do 17 (destruct vals as [|? vals]; try discriminate Hl). cbn. rewrite !orb_false_r. reflexivity.
  - destruct j; cbn [koops_read_taint].
    4: { rewrite IH; rewrite (set_flag_or _ _ _ taint_nodup Hl); [|rewrite or_flags_length; [reflexivity | exact Hl]].
      split.
      - intros (names & -> & ->). exists (s :: names). split; [reflexivity|].
        rewrite or_flags_or by exact Hl. apply or_flags_ext; reflexivity.
      - intros ([|n names] & E & ->); [discriminate|]. injection E as -> ->. exists names. split; [reflexivity|].
        rewrite or_flags_or by exact Hl. apply or_flags_ext; reflexivity. }
    all: split; [discriminate | intros ([|n names] & E & _); discriminate E].
Qed.
Lemma koops_read_taint_not_UB l : forall vals, koops_read_taint l vals <> UB.
Proof. induction l as [|j l IH]; intros vals; cbn [koops_read_taint]; [discriminate|]. destruct j; try discriminate. apply IH. Qed.
Lemma koops_read_modules_strings ms : forall i, (i + length ms <= 127)%nat -> koops_read_modules (map JStr ms) i = Ok ms.
Proof.
  induction ms as [|m ms IH]; intros i H; [reflexivity|]. cbn [map koops_read_modules]. simpl in H.
  replace (127 <=? i)%nat with false by (symmetry; apply Nat.leb_gt; lia). rewrite IH by lia. reflexivity.
Qed.
Lemma koops_read_modules_inv l : forall i r, koops_read_modules l i = Ok r -> l = map JStr r /\ (r = [] \/ (i + length r <= 127)%nat).
Proof.
  induction l as [|j l IH]; intros i r H; cbn [koops_read_modules] in H.
  - apply Ok_inj1 in H as <-. auto.
  - destruct j; try discriminate. destruct (127 <=? i)%nat eqn:E; [discriminate|]. reads_intro.
    apply Ok_inj1 in H as <-. apply IH in H0 as [-> H0]. split; [reflexivity|]. right.
    apply Nat.leb_gt in E. simpl. destruct H0 as [->|H0]; simpl; lia.
Qed.
Lemma koops_reads v s : koops_stacktrace_from_json v = Ok s <-> reads_koops v s /\ koops_modules_fit s.
Proof.
  split.
  - destruct v; try discriminate. cbn [koops_stacktrace_from_json]. intros H. reads_intro.
    apply Ok_inj1 in H; subst s. unfold koops_modules_fit.
    cbn [ks_version ks_taint ks_modules ks_raw_oops ks_frames ks_reason].
    match goal with H : match jget (L "modules") l with _ => _ end = Ok ?x |- _ => rename x into ms; rename H into Hm end.
    match goal with H : match jget (L "taint_flags") l with _ => _ end = Ok ?x |- _ => rename x into tf; rename H into Ht end.
    assert (HM : ((jget (L "modules") l = None /\ ms = None) \/
       exists ns, jget (L "modules") l = Some (JArr (map JStr ns)) /\ ms = Some ns /\ (length ns <= 127)%nat)).
    { destruct (jget (L "modules") l) as [j|]; [|left; apply Ok_inj1 in Hm; auto].
      destruct j; try discriminate. reads_intro. apply Ok_inj1 in Hm as <-.
      apply koops_read_modules_inv in H as [-> H]. right. eexists; repeat split; eauto.
      destruct H as [->|H]; simpl in *; lia. }
    split; [|destruct HM as [(_ & ->)|(ns & _ & -> & H)]; auto].
    eexists; split; [reflexivity|]. cbn [ks_version ks_taint ks_modules ks_raw_oops ks_frames ks_reason].
    split; [apply read_string_iff; assumption|]. split; [apply read_string_iff; assumption|].
    split; [|split; [|split; [apply (read_array_iff _ _ koops_frame_reads); assumption | reflexivity]]].
    + destruct (jget (L "taint_flags") l) as [j|]; [|left; apply Ok_inj1 in Ht; auto].
      destruct j; try discriminate. apply koops_read_taint_iff in Ht as (names & -> & ->); [|reflexivity].
      right. exists names. split; reflexivity.
    + destruct HM as [(-> & ->)|(ns & -> & -> & H)]; [left; auto | right; eauto].
  - intros [(o & -> & ? & ? & Ht & Hm & Hf & Hr) Hfit]. cbn [koops_stacktrace_from_json]. reads_back.
    apply bind_Ok. exists (ks_taint s). split.
    { destruct Ht as [[-> ->]|(names & -> & ->)]; [reflexivity|].
      apply koops_read_taint_iff; [reflexivity|]. exists names. split; reflexivity. }
    apply bind_Ok. exists (ks_modules s). split.
    { unfold koops_modules_fit in Hfit. destruct Hm as [[-> ->]|(ms & -> & E)]; [reflexivity|]. rewrite E in *.
      rewrite koops_read_modules_strings by (simpl; lia). reflexivity. }
    apply bind_Ok. eexists; split; [apply (read_array_iff _ _ koops_frame_reads); eassumption|].
    destruct s; simpl in *; subst; reflexivity.
Qed.
(** UB only comes from the module array. *)
Lemma koops_not_UB v :
  (forall o l, v = JObj o -> jget (L "modules") o = Some (JArr l) ->
     exists ms, l = map JStr ms /\ (length ms <= 127)%nat) ->
  koops_stacktrace_from_json v <> UB.
Proof.
  intros H. destruct v; cbn [koops_stacktrace_from_json]; not_ub.
  - destruct (jget (L "taint_flags") l) as [[]|]; try discriminate. apply koops_read_taint_not_UB.
  - destruct (jget (L "modules") l) as [[]|] eqn:E; try discriminate.
    destruct (H _ _ eq_refl E) as (ms & -> & Hm). rewrite koops_read_modules_strings by (simpl; lia). discriminate.
  - apply koops_frame_not_UB.
Qed.
