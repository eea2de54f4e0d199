(** * Proofs about the JSON writers: well-formedness and reading back. *)
From Verif Require Import Base UtilsModel JsonSpec JsonModel JsonProofs JsonScan Types JsonTypesModel JsonTypesSpec JsonReaders.
Open Scope Z_scope.

(** ** Members *)
Definition mem_str (k : str) (o : option str) : list (str * json) :=
  match o with Some s => [(k, JStr s)] | None => [] end.
Definition mem_nz (k : str) (z : Z) : list (str * json) := if z =? 0 then [] else [(k, JInt z)].
Definition mem_unless (b : bool) (k : str) (v : json) : list (str * json) := if b then [] else [(k, v)].

Definition plain_key (k : str) : bool :=
  forallb (fun c => (32 <=? code c)%N && negb (Ascii.eqb c dquote) && negb (Ascii.eqb c backslash)) k.
Lemma plain_key_jchars k : plain_key k = true -> jchars k k.
Proof.
  induction k as [|c k IH]; intros H; [constructor|]. simpl in H. apply andb_true_iff in H as [H1 H2].
  apply andb_true_iff in H1 as [H1 H3]. apply andb_true_iff in H1 as [H1 H4].
  rewrite negb_true_iff, Ascii.eqb_neq in *. apply N.leb_le in H1. constructor; auto.
Qed.

Lemma ws_1 : ws [nl]. Proof. constructor; [unfold ws_char; auto | constructor]. Qed.
Lemma ws_3 : ws (L "   "). Proof. apply (ws_spaces 3). Qed.
Lemma jfields_fld k v t : plain_key k = true -> jval v t -> jfields [(k, v)] (fld k t).
Proof.
  intros Hk Hv. unfold fld.
  replace (L ",   """ ++ k ++ L """: " ++ t ++ [nl])
    with (","%char :: L "   " ++ dquote :: k ++ dquote :: [] ++ ":"%char :: [sp] ++ t ++ [nl] ++ []) by reflexivity.
  apply jf_cons; auto using ws_1, ws_3, plain_key_jchars, ws_nil, jf_nil.
  apply (ws_spaces 1).
Qed.
Lemma jfields_str k o : plain_key k = true -> opt_safe o -> jfields (mem_str k o) (fld_str k o).
Proof.
  intros Hk Ho. destruct o as [s|]; [|constructor]. apply jfields_fld; auto. apply jv_quoted. exact Ho.
Qed.
Lemma jfields_nz k z : plain_key k = true -> jfields (mem_nz k z) (fld_nz k z).
Proof.
  intros Hk. unfold mem_nz, fld_nz. destruct (z =? 0); [constructor|]. apply jfields_fld; auto. apply jv_print_Z.
Qed.
Lemma jval_bool b : jval (JBool b) (json_bool b).
Proof. destruct b; constructor. Qed.

(** Arrays. *)

(** [array_items false ts] = for each item, blanks, a comma, the item, and a newline between
    items: regroup it as items each followed by white space. *)
Fixpoint comma_items (ts : list str) : str :=
  match ts with
  | [] => []
  | t :: r => ","%char :: [sp] ++ t ++ (match r with [] => [] | _ => nl :: L "      " end) ++ comma_items r
  end.
Lemma array_items_comma ts : ts <> [] -> array_items false ts = L "      " ++ comma_items ts.
Proof.
  induction ts as [|t r IH]; intros Hne; [congruence|].
  cbn [array_items comma_items]. destruct r as [|t2 r].
  - reflexivity.
  - rewrite IH by discriminate. reflexivity.
Qed.
Lemma array_items_first ts : ts <> [] -> array_items true ts = L "      [" ++ skipn 1 (comma_items ts).
Proof.
  destruct ts as [|t r]; intros Hne; [congruence|]. cbn [array_items comma_items skipn]. destruct r as [|t2 r].
  - reflexivity.
  - rewrite array_items_comma by discriminate. reflexivity.
Qed.
Lemma comma_items_jitems vs ts : Forall2 jval vs ts -> jitems vs (comma_items ts).
Proof.
  induction 1 as [|v t vs ts Hv H IH]; [constructor|]. cbn [comma_items].
  apply ji_cons; auto; [apply (ws_spaces 1)|]. destruct ts; [apply ws_nil|]. constructor; [unfold ws_char; auto|apply (ws_spaces 6)].
Qed.
Lemma array_loop_jval vs ts : Forall2 jval vs ts -> vs <> [] ->
  exists t, jval (JArr vs) t /\ array_loop ts = L "      " ++ t ++ [nl].
Proof.
  intros H Hne. exists ("["%char :: skipn 1 (comma_items ts) ++ [sp] ++ L "]"). split.
  - apply jitems_array; [apply comma_items_jitems; exact H | exact Hne | apply (ws_spaces 1)].
  - unfold array_loop. rewrite array_items_first by (intros ->; inversion H; subst; congruence).
    rewrite <- !app_assoc. simpl. rewrite <- app_assoc. reflexivity.
Qed.
Lemma jfields_array k vs ts : plain_key k = true -> Forall2 jval vs ts -> vs <> [] ->
  jfields [(k, JArr vs)] (L ",   """ ++ k ++ L """:" ++ nl :: array_loop ts).
Proof.
  intros Hk H Hne. destruct (array_loop_jval vs ts H Hne) as (t & Ht & ->).
  replace (L ",   """ ++ k ++ L """:" ++ nl :: L "      " ++ t ++ [nl])
    with (","%char :: L "   " ++ dquote :: k ++ dquote :: [] ++ ":"%char :: (nl :: L "      ") ++ t ++ [nl] ++ [])
    by reflexivity.
  apply jf_cons; auto using ws_1, ws_3, plain_key_jchars, ws_nil, jf_nil.
  constructor; [unfold ws_char; auto | apply (ws_spaces 6)].
Qed.
Definition mem_arr (k : str) (vs : list json) : list (str * json) := match vs with [] => [] | _ => [(k, JArr vs)] end.
Lemma Forall2_map_jval {A} (f : A -> json) (g : A -> str) l n : (forall x, In x l -> jval (f x) (g x)) ->
  Forall2 jval (map f l) (map (fun x => sr_indent_except_first_line (g x) n) l).
Proof.
  induction l as [|x l IH]; intros H; simpl; constructor.
  - apply jval_indent. apply H; left; reflexivity.
  - apply IH. intros y Hy; apply H; right; exact Hy.
Qed.
Lemma jfields_frames {A} k (f : A -> json) (g : A -> str) l n :
  plain_key k = true -> (forall x, In x l -> jval (f x) (g x)) ->
  jfields (mem_arr k (map f l))
    (match l with
     | [] => []
     | x0 :: l0 => L ",   """ ++ k ++ L """:" ++ nl :: array_loop (map (fun x => sr_indent_except_first_line (g x) n) (x0 :: l0))
     end).
Proof.
  intros Hk H. destruct l as [|x l]; [constructor|]. cbn [map mem_arr].
  apply (jfields_array k (map f (x :: l)) (map (fun y => sr_indent_except_first_line (g y) n) (x :: l)));
    [exact Hk | apply Forall2_map_jval; exact H | discriminate].
Qed.

(** Objects. *)
Lemma close_object_jval l t : jfields l t -> jval (JObj l) (close_object t).
Proof.
  intros H. destruct l as [|m l].
  - inversion H; subst. apply (jv_obj0 []). constructor.
  - destruct (jfields_members _ _ H) as (r & -> & _); [discriminate|].
    exact (jfields_object _ _ [] H ltac:(discriminate) ws_nil).
Qed.
Lemma close_object_unchecked_jval l t : jfields l t -> l <> [] -> jval (JObj l) (close_object_unchecked t).
Proof.
  intros H Hne. destruct (jfields_members _ _ H Hne) as (r & -> & _).
  exact (jfields_object _ _ [] H Hne ws_nil).
Qed.

(** ** Lookups *)
Lemma jget_mem_str k k' o : jget k (mem_str k' o) = if str_eqb k k' then option_map JStr o else None.
Proof. destruct o; simpl; destruct (str_eqb k k'); reflexivity. Qed.
Lemma jget_mem_nz k k' z : jget k (mem_nz k' z) = if str_eqb k k' then (if z =? 0 then None else Some (JInt z)) else None.
Proof. unfold mem_nz. destruct (z =? 0); simpl; destruct (str_eqb k k'); reflexivity. Qed.
Lemma jget_mem_unless b k k' v : jget k (mem_unless b k' v) = if str_eqb k k' then (if b then None else Some v) else None.
Proof. unfold mem_unless. destruct b; simpl; destruct (str_eqb k k'); reflexivity. Qed.
Lemma jget_mem_arr k k' vs : jget k (mem_arr k' vs) =
  if str_eqb k k' then (match vs with [] => None | _ => Some (JArr vs) end) else None.
Proof. unfold mem_arr. destruct vs; simpl; destruct (str_eqb k k'); reflexivity. Qed.
Lemma jget_one k k' v : jget k [(k', v)] = if str_eqb k k' then Some v else None.
Proof. reflexivity. Qed.

Ltac eval_keys :=
  repeat match goal with
  | |- context [str_eqb ?a ?b] =>
    let r := eval vm_compute in (str_eqb a b) in
    match r with true => idtac | false => idtac end;
    change (str_eqb a b) with r
  end.
(** Compute [jget key members] for a member list made of the pieces above. *)
Ltac lookup :=
  repeat first [rewrite jget_app | rewrite jget_mem_str | rewrite jget_mem_nz | rewrite jget_mem_unless | rewrite jget_mem_arr | rewrite jget_one];
  eval_keys; cbv beta iota.

Lemma reads_string_of o k x : jget k o = option_map JStr x -> reads_string o k x.
Proof. intros H. unfold reads_string. destruct x; simpl in H; [right; eauto | left; auto]. Qed.
Lemma reads_u64_nz o k z d : 0 <= z -> jget k o = (if z =? 0 then None else Some (JInt z)) -> d = 0 ->
  reads_u64 o k d (clip64 z).
Proof.
  intros Hz H ->. unfold reads_u64. destruct (z =? 0) eqn:E.
  - left. split; [exact H|]. unfold clip64. lia.
  - right. exists z. split; [exact H|]. unfold clip64, clip_between, two64.
    destruct (z <? - 2 ^ 63) eqn:E1; [lia|]. destruct (2 ^ 63 - 1 <? z) eqn:E2; rewrite Z.mod_small; lia.
Qed.
Lemma reads_u64_some o k z d : 0 <= z -> jget k o = Some (JInt z) -> reads_u64 o k d (clip64 z).
Proof.
  intros Hz H. right. exists z. split; [exact H|]. unfold clip64, clip_between, two64.
  destruct (z <? - 2 ^ 63) eqn:E1; [lia|]. destruct (2 ^ 63 - 1 <? z) eqn:E2; rewrite Z.mod_small; lia.
Qed.
Lemma reads_address o k z : 0 <= z -> jget k o = (if z =? ulong_max then None else Some (JInt z)) ->
  reads_u64 o k ulong_max (clip_address z).
Proof.
  intros Hz H. unfold clip_address. destruct (z =? ulong_max) eqn:E.
  - left. split; [exact H | lia].
  - apply reads_u64_some; assumption.
Qed.
Lemma reads_u32_some o k z d : 0 <= z -> jget k o = Some (JInt z) -> reads_u32 o k d (clip32 z).
Proof.
  intros Hz H. right. exists z. split; [exact H|]. unfold clip32, clip_between, two32.
  destruct (z <? - 2 ^ 31) eqn:E1; [lia|]. destruct (2 ^ 31 - 1 <? z) eqn:E2; rewrite Z.mod_small; lia.
Qed.
Lemma reads_u32_nz o k z : 0 <= z -> jget k o = (if z =? 0 then None else Some (JInt z)) ->
  reads_u32 o k 0 (clip32 z).
Proof.
  intros Hz H. destruct (z =? 0) eqn:E.
  - left. split; [exact H|]. unfold clip32. lia.
  - apply reads_u32_some; assumption.
Qed.
Lemma reads_list_arr {A B} o k (f : A -> json) (P : json -> B -> Prop) (g : A -> B) l :
  (forall x, In x l -> P (f x) (g x)) ->
  jget k o = (match map f l with [] => None | vs => Some (JArr vs) end) -> reads_list o k P (map g l).
Proof.
  intros H E. destruct l as [|x l]; [left; auto|]. right. exists (map f (x :: l)). split; [exact E|].
  clear E. induction (x :: l) as [|y r IH]; simpl; constructor; [apply H; left; auto | apply IH; intros; apply H; right; auto].
Qed.

(** ** Scanning the writers' output *)
Definition ounsafe (o : option str) : bool := match o with Some s => unsafe s | None => false end.
Lemma ounsafe_safe o : ounsafe o = false <-> opt_safe o.
Proof. destruct o; simpl; [apply unsafe_safe | tauto]. Qed.
Lemma neutral_key k : plain_key k = true -> neutral (dquote :: k ++ [dquote]).
Proof. intros H. apply (neutral_jstring k k). apply plain_key_jchars; exact H. Qed.
Lemma eff_fld k t x y b : plain_key k = true -> eff t x y b -> eff (fld k t) x y b.
Proof.
  intros Hk H. unfold fld.
  replace (L ",   """ ++ k ++ L """: " ++ t ++ [nl])
    with (L ",   " ++ (dquote :: k ++ [dquote]) ++ L ": " ++ t ++ [nl])
    by (simpl; rewrite <- app_assoc; reflexivity).
  eapply eff_eq.
  - apply eff_app; [apply (neutral_plain (L ",   ")); reflexivity|].
    apply eff_app; [apply neutral_key; exact Hk|].
    apply eff_app; [apply (neutral_plain (L ": ")); reflexivity|].
    apply eff_app; [exact H | apply neutral_char; reflexivity].
  - lia.
  - lia.
  - simpl. rewrite orb_false_r; reflexivity.
Qed.
Lemma eff_fld_str k o : plain_key k = true -> eff (fld_str k o) 0 0 (ounsafe o).
Proof.
  intros Hk. destruct o as [s|]; [|apply neutral_nil]. apply eff_fld; [exact Hk | apply eff_quoted].
Qed.
Lemma neutral_jval v t : jval v t -> neutral t.
Proof. apply (proj1 json_neutral). Qed.
Lemma neutral_fld_jval k v t : plain_key k = true -> jval v t -> neutral (fld k t).
Proof. intros Hk Hv. apply eff_fld; [exact Hk | eapply neutral_jval; eauto]. Qed.
Lemma neutral_fld_nz k z : plain_key k = true -> neutral (fld_nz k z).
Proof.
  intros Hk. unfold fld_nz. destruct (z =? 0); [apply neutral_nil|].
  eapply neutral_fld_jval; [exact Hk | apply jv_print_Z].
Qed.

(** Text produced by the writers is empty or starts with a comma. *)
Definition comma_start (t : str) : Prop := t = [] \/ exists r, t = ","%char :: r.
Lemma comma_start_app a b : comma_start a -> comma_start b -> comma_start (a ++ b).
Proof. intros [->|(r & ->)] Hb; [exact Hb | right; eexists; reflexivity]. Qed.
Lemma comma_start_nil : comma_start []. Proof. left; reflexivity. Qed.
Lemma comma_start_cons r : comma_start (","%char :: r). Proof. right; eexists; reflexivity. Qed.
Lemma comma_start_fld k t : comma_start (fld k t). Proof. apply comma_start_cons. Qed.
Lemma comma_start_str k o : comma_start (fld_str k o). Proof. destruct o; [apply comma_start_fld | apply comma_start_nil]. Qed.
Lemma comma_start_nz k z : comma_start (fld_nz k z).
Proof. unfold fld_nz; destruct (z =? 0); [apply comma_start_nil | apply comma_start_fld]. Qed.

Lemma eff_braced r x y b : eff (","%char :: r) x y b -> eff ("{"%char :: r ++ L "}") x y b.
Proof.
  intros H br bk bad. rewrite scan_cons, scan_app.
  change (step (mk_ss OutStr br bk bad) "{") with (mk_ss OutStr (br + 1) bk bad).
  specialize (H (br + 1) bk bad). rewrite scan_cons in H.
  change (step (mk_ss OutStr (br + 1) bk bad) ",") with (mk_ss OutStr (br + 1) bk bad) in H. rewrite H.
  simpl. unfold step; simpl. f_equal; lia.
Qed.
Lemma eff_close_object t x y b : comma_start t -> eff t x y b -> eff (close_object t) x y b.
Proof.
  intros [->|(r & ->)] H; [|apply eff_braced; exact H].
  pose proof (eff_fun _ _ _ _ _ _ _ H neutral_nil) as (-> & -> & ->).
  intros br bk bad. simpl. unfold step; simpl. f_equal; try lia; try (destruct bad; reflexivity).
Qed.
Lemma eff_close_object_unchecked t x y b : comma_start t -> eff t x y b ->
  eff (close_object_unchecked t) (match t with [] => -1 | _ => x end) y b.
Proof.
  intros [->|(r & ->)] H; [|apply eff_braced; exact H].
  pose proof (eff_fun _ _ _ _ _ _ _ H neutral_nil) as (-> & -> & ->).
  intros br bk bad. simpl. unfold step; simpl. f_equal; try lia; try (destruct bad; reflexivity).
Qed.

Lemma eff_item_start (first : bool) :
  eff (if first then L "      [ " else L "      , ") 0 (if first then 1 else 0) false.
Proof. destruct first; intros br bk bad; cbv -[Z.add orb]; rewrite orb_false_r; f_equal; lia. Qed.
Lemma neutral_item_end (l : list str) : neutral (match l with [] => [] | _ => [nl] end).
Proof. destruct l; [apply neutral_nil | apply neutral_char; reflexivity]. Qed.
Lemma eff_loop_end : eff (L " ]" ++ [nl]) 0 (-1) false.
Proof. intros br bk bad; cbv -[Z.add Z.sub orb]; rewrite orb_false_r; f_equal; lia. Qed.

(** Sum of effects over a list of items. *)
Lemma eff_items {A} (g : A -> str) (x : A -> Z) (b : A -> bool) n l :
  (forall a, In a l -> eff (g a) (x a) 0 (b a)) -> forall first,
  eff (array_items first (map (fun a => sr_indent_except_first_line (g a) n) l))
    (fold_right (fun a s => x a + s) 0 l) (match l with [] => 0 | _ => if first then 1 else 0 end)
    (existsb b l).
Proof.
  induction l as [|a l IH]; intros H first; [apply neutral_nil|]. cbn [map array_items fold_right existsb].
  pose proof (IH (fun x Hx => H x (or_intror Hx)) false) as IH'.
  pose proof (eff_indent n _ _ _ _ (H a (or_introl eq_refl))) as Ha.
  eapply eff_eq.
  - exact (eff_app _ _ _ _ _ _ _ _ (eff_item_start first)
            (eff_app _ _ _ _ _ _ _ _ Ha (eff_app _ _ _ _ _ _ _ _ (neutral_item_end _) IH'))).
  - lia.
  - destruct l; lia.
  - reflexivity.
Qed.
Lemma eff_array_loop {A} (g : A -> str) (x : A -> Z) (b : A -> bool) n l :
  (forall a, In a l -> eff (g a) (x a) 0 (b a)) ->
  eff (array_loop (map (fun a => sr_indent_except_first_line (g a) n) l))
    (fold_right (fun a s => x a + s) 0 l) (match l with [] => -1 | _ => 0 end) (existsb b l).
Proof.
  intros H. unfold array_loop. eapply eff_eq.
  - exact (eff_app _ _ _ _ _ _ _ _ (eff_items g x b n l H true) eff_loop_end).
  - lia.
  - destruct l; reflexivity.
  - apply orb_false_r.
Qed.
Lemma eff_frames {A} k (g : A -> str) (x : A -> Z) (b : A -> bool) n l :
  plain_key k = true -> (forall a, In a l -> eff (g a) (x a) 0 (b a)) ->
  eff (match l with
       | [] => []
       | x0 :: l0 => L ",   """ ++ k ++ L """:" ++ nl :: array_loop (map (fun a => sr_indent_except_first_line (g a) n) (x0 :: l0))
       end)
    (fold_right (fun a s => x a + s) 0 l) 0 (existsb b l).
Proof.
  intros Hk H. destruct l as [|a l]; [apply neutral_nil|].
  pose proof (eff_array_loop g x b n (a :: l) H) as E. cbv iota in E.
  replace (L ",   """ ++ k ++ L """:" ++ nl :: array_loop (map (fun a => sr_indent_except_first_line (g a) n) (a :: l)))
    with (L ",   " ++ (dquote :: k ++ [dquote]) ++ (":"%char :: [nl]) ++ array_loop (map (fun a => sr_indent_except_first_line (g a) n) (a :: l)))
    by (simpl; rewrite <- app_assoc; reflexivity).
  eapply eff_eq.
  - apply eff_app; [apply (neutral_plain (L ",   ")); reflexivity|].
    apply eff_app; [apply neutral_key; exact Hk|].
    apply eff_app; [apply (neutral_plain (":"%char :: [nl])); reflexivity | exact E].
  - lia.
  - lia.
  - reflexivity.
Qed.

Lemma survives_of_jval {A} v t (read : json -> res A) x : jval v t -> read v = Ok x -> survives t read x.
Proof.
  intros Hv Hr. split; [exists v; apply jval_text; exact Hv|].
  intros v' H'. rewrite (json_text_unique v' v t H' (jval_text _ _ Hv)). exact Hr.
Qed.
