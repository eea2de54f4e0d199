(** * Proofs: putting values into memory. *)
From Verif Require Import Base Types TextModel HeapModel HeapSpec HeapProofs HeapProofs2 HeapListModel PyModel PySpec PyProofs4 PyAttrModel PyAttrSpec PyBaseModel PyBaseSpec PyNewModel PyNewSpec.
Open Scope nat_scope.

Lemma fresh_perm h h' f g : fresh h h' f -> Permutation f g -> fresh h h' g.
Proof.
  intros [N R] P. split; [eapply Permutation_NoDup; eassumption|]. intros x. rewrite <- R. split; apply Permutation_in; [now symmetry|exact P].
Qed.
Lemma fresh_one h c : fresh h (h ++ [c]) [length h].
Proof. split; [constructor; [intros []|constructor]|]. intros x. rewrite app_length. cbn. lia. Qed.
Lemma fresh_lt h h' f : fresh h h' f -> forall x, In x f -> x < length h'.
Proof. intros [_ R] x Hx. apply R in Hx. lia. Qed.
Lemma fresh_taken h h' f : ext h h' -> fresh h h' f -> taken h h' f.
Proof. intros [A B] [C D]. repeat split; try assumption; apply D; assumption. Qed.

Lemma place_strs_ok : forall ss h, exists h' ps f, place_strs h ss = (h', ps) /\ length ps = length ss /\ own_strs h' ps ss f /\ ext h h' /\ fresh h h' f.
Proof.
  induction ss as [|[s|] ss IH]; intros h; cbn [place_strs].
  - exists h, [], []. split; [reflexivity|]. split; [reflexivity|]. split; [apply os_nil|]. split; [apply ext_refl|apply fresh_nil].
  - cbn [alloc]. destruct (IH (h ++ [CStr s])) as (h' & ps & f & E & Hl & O & X & F). rewrite E. exists h', (Some (length h) :: ps), (length h :: f).
    assert (X2 : ext h h') by (eapply ext_trans; [apply ext_alloc|exact X]).
    split; [reflexivity|]. split; [cbn; congruence|]. split; [|split; [exact X2|]].
    + constructor; [|exact O]. destruct X as [_ X]. rewrite X by (rewrite app_length; cbn; lia). apply alloc_at.
    + change (length h :: f) with ([length h] ++ f). eapply fresh_app; [|apply fresh_one|exact F]. destruct X. rewrite app_length in *. cbn in *. lia.
  - destruct (IH h) as (h' & ps & f & E & Hl & O & X & F). rewrite E. exists h', (None :: ps), f. split; [reflexivity|]. split; [cbn; congruence|]. split; [now constructor|auto].
Qed.
Lemma place_items_ok : forall ss h, exists h' l, place_items h ss = (h', l) /\ Forall2 (fun i s => nth_error h' i = Some (CStr s)) l ss /\ ext h h' /\ fresh h h' l.
Proof.
  induction ss as [|s ss IH]; intros h; cbn [place_items].
  - exists h, []. split; [reflexivity|]. split; [constructor|]. split; [apply ext_refl|apply fresh_nil].
  - cbn [alloc]. destruct (IH (h ++ [CStr s])) as (h' & l & E & O & X & F). rewrite E. exists h', (length h :: l).
    split; [reflexivity|]. split; [|split].
    + constructor; [|exact O]. destruct X as [_ X]. rewrite X by (rewrite app_length; cbn; lia). apply alloc_at.
    + eapply ext_trans; [apply ext_alloc|exact X].
    + change (length h :: l) with ([length h] ++ l). eapply fresh_app; [|apply fresh_one|exact F]. destruct X. rewrite app_length in *. cbn in *. lia.
Qed.
Lemma place_arr_ok arr h : exists h' p f, place_arr h arr = (h', p) /\ own_arr h' p arr f /\ ext h h' /\ fresh h h' f.
Proof.
  destruct arr as [ss|]; cbn [place_arr].
  - destruct (place_items_ok ss h) as (h1 & l & E & O & X & F). rewrite E. cbn [alloc]. exists (h1 ++ [CArr l]), (Some (length h1)), (length h1 :: l).
    split; [reflexivity|]. split; [|split].
    + constructor; [apply alloc_at|]. apply items_alloc. exact O.
    + eapply ext_trans; [exact X|apply ext_alloc].
    + eapply fresh_perm; [eapply (fresh_app h h1); [|exact F|apply fresh_one]|].
      * destruct X. rewrite app_length. cbn. lia.
      * symmetry. apply Permutation_cons_append.
  - exists h, None, []. split; [reflexivity|]. split; [constructor|]. split; [apply ext_refl|apply fresh_nil].
Qed.
(* the structure itself, after what its lists hold ([h0] before those) *)
Lemma place_ok k scal ss arr ks vss fk raw n h0 h : own_kids h (kid_ops k) ks vss fk -> ext h0 h -> fresh h0 h fk -> length ss = length (str_ops k) ->
  exists h' e ps pa, place h k scal ss arr ks raw n = (h', e_addr e) /\ own h' k n e /\ e_val e = Val scal ss arr vss /\ ext h0 h' /\ ext h h' /\ fresh h0 h' (e_foot e) /\
    nth_error h' (e_addr e) = Some (CObj k scal ps ks pa raw n).
Proof.
  intros O X0 F0 L. unfold place. destruct (place_strs_ok ss h) as (h1 & ps & fs & E1 & L1 & O1 & X1 & F1). rewrite E1.
  destruct (place_arr_ok arr h1) as (h2 & pa & fa & E2 & O2 & X2 & F2). rewrite E2. cbn [alloc].
  set (h3 := h2 ++ [CObj k scal ps ks pa raw n]).
  assert (X3 : ext h2 h3) by apply ext_alloc.
  assert (Xh : ext h h3) by (eapply ext_trans; [exact X1|eapply ext_trans; [exact X2|exact X3]]).
  exists h3, (length h2, Val scal ss arr vss, length h2 :: fs ++ fa ++ fk), ps, pa.
  split; [reflexivity|]. split; [|split; [reflexivity|]].
  - econstructor; [apply alloc_at|congruence| | |].
    + eapply own_strs_same; [exact O1|]. eapply ext_same_on; [eapply ext_trans; [exact X2|exact X3]|]. eapply own_strs_valid; exact O1.
    + eapply own_arr_same; [exact O2|]. eapply ext_same_on; [exact X3|]. eapply own_arr_valid; exact O2.
    + eapply own_kids_same; [exact O|]. eapply ext_same_on; [exact Xh|]. eapply own_kids_valid; exact O.
  - split; [eapply ext_trans; [exact X0|exact Xh]|]. split; [exact Xh|]. split; [|apply alloc_at].
    cbn [e_foot snd]. destruct X0 as [X0 _], X1 as [X1 _], X2 as [X2 _], X3 as [X3 _].
    assert (F : fresh h0 h3 (((fk ++ fs) ++ fa) ++ [length h2])).
    { eapply (fresh_app h0 h2); [lia| |apply fresh_one]. eapply (fresh_app h0 h1); [lia| |exact F2]. eapply (fresh_app h0 h); [lia|exact F0|exact F1]. }
    eapply fresh_perm; [exact F|]. rewrite <- Permutation_cons_append. apply perm_skip. rewrite <- (app_assoc fk fs fa), (app_assoc fs fa fk). apply Permutation_app_comm.
Qed.
Lemma place_leaf k scal ss arr raw n h : kid_ops k = [] -> length ss = length (str_ops k) ->
  exists h' e ps pa, place h k scal ss arr [] raw n = (h', e_addr e) /\ own h' k n e /\ e_val e = Val scal ss arr [] /\ ext h h' /\ fresh h h' (e_foot e) /\
    nth_error h' (e_addr e) = Some (CObj k scal ps [] pa raw n).
Proof.
  intros K L. destruct (place_ok k scal ss arr [] [] [] raw n h h) as (h' & e & ps & pa & A & B & C & D & _ & F & G).
  - rewrite K. constructor.
  - apply ext_refl.
  - apply fresh_nil.
  - exact L.
  - exists h', e, ps, pa. repeat (split; [assumption|]). assumption.
Qed.

(** ** Lists *)
Definition placer {A} (k : kind) (D : A -> Prop) (R : value -> A -> Prop) (one : heap -> A -> option addr -> heap * addr) : Prop :=
  forall h x n, D x -> exists h' e, one h x n = (h', e_addr e) /\ own h' k n e /\ R (e_val e) x /\ ext h h' /\ fresh h h' (e_foot e).
Lemma place_list_ok {A} k D R (one : heap -> A -> option addr -> heap * addr) : placer k D R one -> forall l h, Forall D l ->
  exists h' es, place_list one h l = (h', map e_addr es) /\ own_list h' k (hd_error (map e_addr es)) es /\ Forall2 R (map e_val es) l /\ ext h h' /\ fresh h h' (foot es).
Proof.
  intros P. induction l as [|x l IH]; intros h F; cbn [place_list].
  - exists h, []. split; [reflexivity|]. split; [constructor|]. split; [constructor|]. split; [apply ext_refl|apply fresh_nil].
  - inversion F; subst. destruct (IH h) as (h1 & es & E & O & V & X & Fr); [assumption|]. rewrite E.
    destruct (P h1 x (hd_error (map e_addr es))) as (h2 & e & E2 & O2 & V2 & X2 & Fr2); [assumption|]. rewrite E2. exists h2, (e :: es).
    split; [reflexivity|]. split; [|split; [|split]].
    + cbn [map hd_error]. econstructor; [exact O2|]. eapply own_list_same; [exact O|]. eapply ext_same_on; [exact X2|]. eapply own_list_valid; exact O.
    + cbn [map]. now constructor.
    + eapply ext_trans; eassumption.
    + rewrite foot_cons. eapply fresh_perm; [eapply (fresh_app h h1); [|exact Fr|exact Fr2]|apply Permutation_app_comm]. destruct X, X2. lia.
Qed.

(** ** Frames, threads and libraries *)
Definition kind_of_frame (f : frame) : kind :=
  match f with
  | FCore _ => KCoreFrame | FPython _ => KPythonFrame | FKoops _ => KKoopsFrame | FJava _ => KJavaFrame | FGdb _ => KGdbFrame | FRuby _ => KRubyFrame | FJs _ => KJsFrame
  end.
Lemma flag_b2z (k : kind) (v : value) (m : string) (b : bool) : is_number k v m (b2z b) -> is_flag k v m b.
Proof. intros H. exists (b2z b). split; [exact H|]. destruct b; cbn; split; congruence. Qed.
Ltac at_index :=
  match goal with
  | |- exists i, _ /\ _ =>
    first [ exists 0; split; reflexivity | exists 1; split; reflexivity | exists 2; split; reflexivity | exists 3; split; reflexivity
          | exists 4; split; reflexivity | exists 5; split; reflexivity | exists 6; split; reflexivity ]
  end.
Ltac member :=
  match goal with
  | |- is_flag _ _ _ _ => apply flag_b2z; unfold is_number, number_of; at_index
  | |- is_number _ _ _ _ => unfold is_number, number_of; at_index
  | |- is_text _ _ _ _ => unfold is_text, string_of; at_index
  end.
Ltac leaf_frame :=
  match goal with
  | |- context [place ?h ?k ?scal ?ss None [] [] ?n] =>
    let h' := fresh "h'" in let e := fresh "e" in let E := fresh "E" in let O := fresh "O" in let V := fresh "V" in let X := fresh "X" in let F := fresh "F" in
    destruct (place_leaf k scal ss None [] n h eq_refl eq_refl) as (h' & e & ? & ? & E & O & V & X & F & _);
    exists h', e; split; [exact E|]; split; [exact O|]; split; [|split; assumption]; rewrite V; cbn [is_frame]; split; [reflexivity|];
    repeat (split; [member|]); member
  end.
Lemma frame_placer k : placer k (fun f => kind_of_frame f = k) (is_frame k) place_frame.
Proof. intros h f n <-. destruct f as [f|f|f|f|f|f|f]; cbn [place_frame kind_of_frame]; leaf_frame. Qed.
Lemma kind_map {A} (c : A -> frame) k l : (forall x, kind_of_frame (c x) = k) -> Forall (fun f => kind_of_frame f = k) (map c l).
Proof. intros H. apply Forall_map, Forall_forall. intros x _. apply H. Qed.
Lemma place_frames {A} (c : A -> frame) k (l : list A) h : (forall x, kind_of_frame (c x) = k) ->
  exists h' es, place_list place_frame h (map c l) = (h', map e_addr es) /\ own_list h' k (hd_error (map e_addr es)) es /\ Forall2 (is_frame k) (map e_val es) (map c l) /\
    ext h h' /\ fresh h h' (foot es).
Proof. intros H. apply (place_list_ok k _ _ _ (frame_placer k)). apply kind_map, H. Qed.
Definition kind_of_thread (t : thread) : kind :=
  match t with
  | TCore _ => KCoreThread | TJava _ => KJavaThread | TGdb _ => KGdbThread | TPython _ => KPythonStack | TRuby _ => KRubyStack | TJs _ => KJsStack | TKoops _ => KKoopsStack
  end.
Definition rest_of_thread (v : value) (t : thread) : Prop :=
  match t with
  | TKoops t => numbers v = map b2z (ks_taint t)
  | TJs t => numbers v = [js_platform t]
  | _ => True
  end.
Lemma kids_one h k fk p es ks : kid_ops k = [(fk, true)] -> own_list h fk p es -> ks = [p] -> own_kids h (kid_ops k) ks [map e_val es] (foot es).
Proof. intros -> O ->. rewrite <- (app_nil_r (foot es)). constructor; [exact O|discriminate|constructor]. Qed.
Ltac one_thread :=
  match goal with
  | |- context [place_list place_frame ?h (map ?c ?l)] =>
    let E1 := fresh "E" in let O1 := fresh "O" in let V1 := fresh "V" in let X1 := fresh "X" in let F1 := fresh "F" in let es := fresh "es" in let h1 := fresh "h" in
    destruct (place_frames c _ l h (fun x => eq_refl)) as (h1 & es & E1 & O1 & V1 & X1 & F1); rewrite E1;
    match goal with
    | |- context [place h1 ?k ?scal ?ss ?arr ?ks ?raw ?n] =>
      let h' := fresh "h'" in let e := fresh "e" in let E := fresh "E" in let O := fresh "O" in let V := fresh "V" in let X := fresh "X" in let F := fresh "F" in let H := fresh "H" in
      destruct (place_ok k scal ss arr ks _ _ raw n h h1 (kids_one h1 k _ _ es ks eq_refl O1 eq_refl) X1 F1 eq_refl) as (h' & e & ps & pa & E & O & V & X & _ & F & H);
      exists h', e, ps, pa, (map e_addr es); split; [exact E|]; split; [exact O|]; rewrite V; split; [|split; [first [exact I|reflexivity]|split; [exact X|split; [exact F|exact H]]]];
      cbn [is_thread]; split; [reflexivity|]; repeat (match goal with |- _ /\ _ => split; [first [member|reflexivity]|] end); eexists; split; [reflexivity|exact V1]
    end
  end.
Lemma thread_placed h t n : exists h' e ps pa fs, place_thread h t n = (h', e_addr e) /\ own h' (kind_of_thread t) n e /\ is_thread (kind_of_thread t) (e_val e) t /\ rest_of_thread (e_val e) t /\
  ext h h' /\ fresh h h' (e_foot e) /\ nth_error h' (e_addr e) = Some (CObj (kind_of_thread t) (numbers (e_val e)) ps [hd_error fs] pa [] n).
Proof. destruct t as [t|t|t|t|t|t|t]; cbn [place_thread kind_of_thread]; one_thread. Qed.
Lemma thread_placer k : placer k (fun t => kind_of_thread t = k) (is_thread k) place_thread.
Proof. intros h t n <-. destruct (thread_placed h t n) as (h' & e & ps & pa & fs & E & O & V & _ & X & F & _). exists h', e. auto. Qed.
Lemma place_threads {A} (c : A -> thread) k (l : list A) h : (forall x, kind_of_thread (c x) = k) ->
  exists h' es, place_list place_thread h (map c l) = (h', map e_addr es) /\ own_list h' k (hd_error (map e_addr es)) es /\ Forall2 (is_thread k) (map e_val es) (map c l) /\
    ext h h' /\ fresh h h' (foot es).
Proof. intros H. apply (place_list_ok k _ _ _ (thread_placer k)). apply Forall_map, Forall_forall. intros x _. apply H. Qed.
Lemma lib_placer : placer KGdbLib (fun _ => True) is_lib place_lib.
Proof.
  intros h l n _. unfold place_lib. match goal with |- context [place h ?k ?scal ?ss None [] [] n] => destruct (place_leaf k scal ss None [] n h eq_refl eq_refl) as (h' & e & ps & pa & E & O & V & X & F & _) end.
  exists h', e. split; [exact E|]. split; [exact O|]. split; [|split; assumption]. rewrite V. unfold is_lib. repeat (split; [member|]); member.
Qed.
Lemma place_libs (l : list gdb_sharedlib) h : exists h' es, place_list place_lib h l = (h', map e_addr es) /\ own_list h' KGdbLib (hd_error (map e_addr es)) es /\
  Forall2 is_lib (map e_val es) l /\ ext h h' /\ fresh h h' (foot es).
Proof. apply (place_list_ok KGdbLib _ _ _ lib_placer). apply Forall_forall. auto. Qed.
Definition kind_of_stack (s : stacktrace) : kind :=
  match s with
  | SCore _ => KCoreStack | SJava _ => KJavaStack | SGdb _ => KGdbStack | SPython _ => KPythonStack | SRuby _ => KRubyStack | SJs _ => KJsStack | SKoops _ => KKoopsStack
  end.
(* the pointer to the crash thread *)
Definition crash_of (h : heap) (e : entry) (es : list entry) (s : stacktrace) : Prop :=
  match s with
  | SCore s => exists scal ps p arr x n, nth_error h (e_addr e) = Some (CObj KCoreStack scal ps [p] arr [x] n) /\ own_list h KCoreThread p es /\
      length es = length (cs_threads s) /\ x = match cs_crash_thread s with Some i => option_map e_addr (nth_error es i) | None => None end
  | _ => True
  end.
Lemma nth_map {A B} (f : A -> B) : forall l i, nth_error (map f l) i = option_map f (nth_error l i).
Proof. induction l; destruct i; cbn; auto. Qed.
Lemma Forall2_len {A B} (R : A -> B -> Prop) l l' : Forall2 R l l' -> length l = length l'.
Proof. induction 1; cbn; congruence. Qed.
Lemma stack_placed h s : exists h' e es, place_stack h s = (h', e_addr e) /\ own h' (kind_of_stack s) None e /\ is_stack (kind_of_stack s) (e_val e) s /\ rest_of_stack (e_val e) s /\
  crash_of h' e es s /\ ext h h' /\ fresh h h' (e_foot e).
Proof.
  destruct s as [s|s|s|s|s|s|s]; cbn [place_stack kind_of_stack].
  all: try (match goal with |- context [place_thread ?h ?t None] => destruct (thread_placed h t None) as (h' & e & ps & pa & fs & E & O & V & R & X & F & _) end;
            exists h', e, []; cbn [is_stack crash_of rest_of_stack]; cbn [rest_of_thread] in R; auto 10; fail).
  - destruct (place_threads TCore KCoreThread (cs_threads s) h (fun x => eq_refl)) as (h1 & es & E1 & O1 & V1 & X1 & F1). rewrite E1.
    match goal with |- context [place h1 ?k ?scal ?ss ?arr ?ks ?raw None] =>
      destruct (place_ok k scal ss arr ks _ _ raw None h h1 (kids_one h1 k _ _ es ks eq_refl O1 eq_refl) X1 F1 eq_refl) as (h' & e & ps & pa & E & O & V & X & Xh & F & H) end.
    exists h', e, es. split; [exact E|]. split; [exact O|]. rewrite V. split; [|split; [exact I|split; [|split; assumption]]].
    + cbn [is_stack]. split; [reflexivity|]. repeat (split; [member|]). eexists. split; [reflexivity|exact V1].
    + cbn [crash_of]. do 6 eexists. split; [exact H|]. split; [eapply own_list_same; [exact O1|]; eapply ext_same_on; [exact Xh|]; eapply own_list_valid; exact O1|].
      split; [apply Forall2_len in V1; rewrite !map_length in V1; exact V1|]. destruct (cs_crash_thread s); [apply nth_map|reflexivity].
  - destruct (place_threads TJava KJavaThread (vs_threads s) h (fun x => eq_refl)) as (h1 & es & E1 & O1 & V1 & X1 & F1). rewrite E1.
    match goal with |- context [place h1 ?k ?scal ?ss ?arr ?ks ?raw None] =>
      destruct (place_ok k scal ss arr ks _ _ raw None h h1 (kids_one h1 k _ _ es ks eq_refl O1 eq_refl) X1 F1 eq_refl) as (h' & e & ps & pa & E & O & V & X & _ & F & H) end.
    exists h', e, []. split; [exact E|]. split; [exact O|]. rewrite V. split; [|split; [exact I|split; [exact I|split; assumption]]].
    cbn [is_stack]. split; [reflexivity|]. eexists. split; [reflexivity|exact V1].
  - assert (A : exists h0 cs, place_list place_frame h (match gs_crash s with Some f => [FGdb f] | None => [] end) = (h0, map e_addr cs) /\ own_list h0 KGdbFrame (hd_error (map e_addr cs)) cs /\
      Forall2 (is_frame KGdbFrame) (map e_val cs) (match gs_crash s with Some f => [FGdb f] | None => [] end) /\ ext h h0 /\ fresh h h0 (foot cs)).
    { apply (place_list_ok KGdbFrame _ _ _ (frame_placer KGdbFrame)). destruct (gs_crash s); repeat constructor. }
    destruct A as (h0 & cs & E0 & O0 & V0 & X0 & F0). rewrite E0.
    destruct (place_threads TGdb KGdbThread (gs_threads s) h0 (fun x => eq_refl)) as (h1 & ts & E1 & O1 & V1 & X1 & F1). rewrite E1.
    destruct (place_libs (gs_libs s) h1) as (h2 & ls & E2 & O2 & V2 & X2 & F2). rewrite E2.
    assert (K : own_kids h2 (kid_ops KGdbStack) [hd_error (map e_addr cs); hd_error (map e_addr ts); hd_error (map e_addr ls)] [map e_val cs; map e_val ts; map e_val ls]
                  (foot cs ++ foot ts ++ foot ls ++ [])).
    { cbn [kid_ops]. constructor; [|intros _|constructor; [|discriminate|constructor; [exact O2|discriminate|constructor]]].
      - eapply own_list_same; [exact O0|]. eapply ext_same_on; [eapply ext_trans; eassumption|]. eapply own_list_valid; exact O0.
      - apply Forall2_len in V0. rewrite map_length in V0. rewrite V0. destruct (gs_crash s); cbn; lia.
      - eapply own_list_same; [exact O1|]. eapply ext_same_on; [exact X2|]. eapply own_list_valid; exact O1. }
    assert (F : fresh h h2 (foot cs ++ foot ts ++ foot ls ++ [])).
    { rewrite app_nil_r. destruct X0 as [X0 _], X1 as [X1 _], X2 as [X2 _]. eapply (fresh_app h h0); [lia|exact F0|]. eapply (fresh_app h0 h1); [lia|exact F1|exact F2]. }
    match goal with |- context [place h2 ?k ?scal ?ss ?arr ?ks ?raw None] =>
      destruct (place_ok k scal ss arr ks _ _ raw None h h2 K (ext_trans _ _ _ X0 (ext_trans _ _ _ X1 X2)) F eq_refl) as (h' & e & ps & pa & E & O & V & X & _ & F' & H) end.
    exists h', e, []. split; [exact E|]. split; [exact O|]. rewrite V. split; [|split; [exact I|split; [exact I|split; assumption]]].
    cbn [is_stack]. split; [reflexivity|]. split; [reflexivity|]. exists (map e_val cs), (map e_val ts), (map e_val ls). repeat (split; [reflexivity || assumption|]). assumption.
Qed.
