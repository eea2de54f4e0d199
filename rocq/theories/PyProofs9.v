From Verif Require Import Base HeapModel HeapSpec HeapProofs HeapProofs2 HeapProofs3 HeapListModel HeapListSpec HeapListProofs HeapListProofs3 PyModel PySpec PyProofs PyProofs2 PyProofs3 PyProofs4 PyProofs6 PyProofs7.
Open Scope nat_scope.

(** A gdb stack trace whose lists the program still uses. *)
Lemma gdb_gone os h r lt ll n e ts libs cf nt nl b1 b2 : lt <> ll ->
  object os r 1 (PyStruct KGdbStack (e_addr e) [Some lt; Some ll; cf]) -> object os lt (S (S nt)) b1 -> object os ll (S (S nl)) b2 ->
  unlinked_gdb h n e ts libs -> NoDup (e_foot e) ->
  exists os' h', decref (St os h) r = Ok (St os' h') /\ length os' = length os /\ nth_error os' r = Some None /\
    object os' lt (S nt) b1 /\ object os' ll (S nl) b2 /\ (forall x, x <> r -> x <> lt -> x <> ll -> nth_error os' x = nth_error os x) /\
    exists f, freed_all f h h' /\ (forall x, In x f <-> own_cells e (map pt_entry ts ++ libs) x).
Proof.
  intros Nl Hr Ht Hl (scal & pc & p & pl & crash & arr & sarr & fa & raw & Hc & Oa & Oc & Lc & Ev & Ef & U & Hp & Fl & Hpl) N.
  assert (Nrt : r <> lt) by (intros ->; destruct (object_fun _ _ _ _ _ _ Hr Ht) as [Q _]; discriminate Q).
  assert (Nrl : r <> ll) by (intros ->; destruct (object_fun _ _ _ _ _ _ Hr Hl) as [Q _]; discriminate Q).
  pose proof (object_lt _ _ _ _ Hr) as Lr. pose proof (object_lt _ _ _ _ Ht) as Lt. pose proof (object_lt _ _ _ _ Hl) as Ll.
  rewrite Ef in N. apply NoDup_cons_iff in N as [Na N]. apply NoDup_app_inv in N as (Nfa & N & D1). apply NoDup_app_inv in N as (Ncr & N & D2). rewrite !in_app_iff in Na.
  set (h1 := put h (e_addr e) (CObj KGdbStack scal [] [pc; None; None] arr raw n)).
  assert (La : e_addr e < length h) by (apply nth_error_Some; congruence).
  assert (E1 : clear h (e_addr e) [false; true; true] = Ok h1).
  { unfold clear, get. rewrite Hc. cbn [bind clear_kids]. unfold set_cell, get. rewrite Hc. reflexivity. }
  assert (S1 : forall x, x <> e_addr e -> nth_error h1 x = nth_error h x) by (intros x Hx; unfold h1; apply put_other; congruence).
  assert (O : own h1 KGdbStack n (e_addr e, Val scal [] sarr [map e_val crash; map e_val []; map e_val []], e_addr e :: [] ++ fa ++ foot crash ++ foot [] ++ foot [] ++ [])).
  { eapply own_obj with (ps := []) (arr := arr) (raw := raw).
    - unfold h1. apply put_same. exact La.
    - reflexivity.
    - constructor.
    - eapply own_arr_same; [exact Oa|]. intros x Hx. apply S1. intros ->. tauto.
    - cbn [kid_ops]. constructor; [|intros _; exact Lc|].
      + eapply own_list_same; [exact Oc|]. intros x Hx. apply S1. intros ->. tauto.
      + constructor; [constructor|cbn; lia|]. constructor; [constructor|cbn; lia|constructor]. }
  destruct (sr_free_ok KGdbStack h1 n _ O) as (h2 & E2 & F2).
  { cbn [e_foot snd app foot map concat]. rewrite app_nil_r. constructor; [rewrite in_app_iff; tauto|]. apply NoDup_app2; [exact Nfa|exact Ncr|]. intros x I1 I2. apply (D1 x I1). apply in_or_app. left. exact I2. }
  cbn [e_addr e_foot fst snd app foot map concat] in E2, F2. rewrite app_nil_r in F2.
  exists (put_obj (put_obj (put_obj (put_obj os r (Some (0, PyStruct KGdbStack (e_addr e) [Some lt; Some ll; cf]))) lt (Some (S nt, b1))) ll (Some (S nl, b2))) r None), h2.
  split.
  { unfold decref. cbn [objs]. assert (exists f, S (length os) = S (S f)) as [f El] by (exists (length os - 1); lia). rewrite El.
    remember (S f) as g eqn:Eg. cbn [decref_in]. rewrite (obj_ok (St os h) r _ _ Hr). cbn [bind released firstn each_ref]. unfold set_obj at 1. cbn [objs mem].
    rewrite Eg. cbn [decref_in]. rewrite (obj_ok (St (put_obj os r _) h) lt (S (S nt)) b1) by (apply object_put; [exact Ht|auto]). cbn [bind]. unfold set_obj at 1. cbn [objs mem].
    cbn [each_ref decref_in]. rewrite (obj_ok (St (put_obj (put_obj os r _) lt _) h) ll (S (S nl)) b2) by (apply object_put; [apply object_put; [exact Hl|auto]|auto]). cbn [bind]. unfold set_obj. cbn [objs mem].
    rewrite E1. cbn [bind struct_free]. rewrite E2. cbn [bind]. reflexivity. }
  split; [rewrite !put_obj_length; reflexivity|]. split; [apply put_obj_same; rewrite !put_obj_length; exact Lr|].
  split; [unfold object; rewrite put_obj_other by auto; rewrite put_obj_other by auto; apply put_obj_same; rewrite put_obj_length; exact Lt|].
  split; [unfold object; rewrite put_obj_other by auto; apply put_obj_same; rewrite !put_obj_length; exact Ll|].
  split; [intros x N1 N2 N3; rewrite !put_obj_other by auto; reflexivity|].
  exists (e_addr e :: fa ++ foot crash). split.
  - destruct F2 as (L2 & S2 & F2). split; [unfold h1 in L2; rewrite put_length in L2; exact L2|]. split; [|exact F2].
    intros x Hx. rewrite S2 by exact Hx. apply S1. intros ->. apply Hx. left. reflexivity.
  - intros x. unfold own_cells. rewrite Ef, foot_app. cbn [In]. rewrite !in_app_iff. split.
    + intros [<-|[I|I]]; [split; [left; reflexivity|]; intros J; apply Na; tauto| |].
      * split; [tauto|]. intros J. apply (D1 x I). rewrite !in_app_iff. tauto.
      * split; [tauto|]. intros J. apply (D2 x I). rewrite !in_app_iff. tauto.
    + intros [[I|I] J]; [left; exact I|]. right. tauto.
Qed.
(** Packages that are no list. *)
Lemma packages_no_list os h r c l at_ b m : alive os r (PyStruct KReport c (Some l :: at_)) -> object os l m b -> (forall items, b <> PyList items) ->
  rpms_prepare (St os h) r = Ok (St os h, false).
Proof.
  intros [nr Hr] Hl Nb. unfold rpms_prepare. rewrite (obj_ok (St os h) r _ _ Hr). cbn [bind]. rewrite (obj_ok (St os h) l _ _ Hl). cbn [bind].
  destruct b as [|items|]; [reflexivity|exfalso; exact (Nb _ eq_refl)|reflexivity].
Qed.
