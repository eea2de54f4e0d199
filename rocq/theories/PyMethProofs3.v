(** * Proofs: the other methods. *)
From Coq Require Import QArith.
From Verif Require Import Base Types UtilsModel NormTables CmpModel TextModel NormModel NormSpec UtilsProofs NormProofs CrashModel CrashSpec CrashProofs2 FunsModel HeapModel HeapListModel HeapSpec HeapProofs HeapProofs2
  PyModel PySpec PyProofs PyProofs2 PyProofs4 PyProofs5 PyProofs6 PyAttrModel PyAttrSpec PyAttrProofs PyAttrProofs2 PyBaseModel PyBaseSpec PyBaseProofs PyBaseProofs2 PyMethModel PyMethSpec PyMethProofs PyMethProofs2.
Open Scope nat_scope.

Lemma koops_foreign os h r c es : foreign os h r KKoopsStack c es -> exists h', koops_normalize (St os h) r = Ok (St os h', Raise TypeError) /\ same_outside (c :: map e_addr es) h h' /\ length h' = length h.
Proof. intros F. destruct (foreign_prepare _ _ _ _ _ _ F) as (h' & E & S & L). exists h'. unfold koops_normalize. rewrite E. split; [reflexivity|]. split; assumption. Qed.

(** ** Modules and taint flags *)
Lemma thread_cell os h r k n e es t : py_thread_is os h r k n e es t -> exists at_ scal ps p ss fs arr sarr fa raw, alive os r (PyStruct k (e_addr e) at_) /\
  nth_error h (e_addr e) = Some (CObj k scal ps [p] arr raw n) /\ own_strs h ps ss fs /\ own_arr h arr sarr fa /\ e_val e = Val scal ss sarr [map e_val es].
Proof.
  intros (fk & l & items & at_ & A & _ & (scal & ps & p & ss & fs & arr & sarr & fa & raw & _ & Hc & _ & Os & Oa & Ev & _) & _).
  exists (Some l :: at_), scal, ps, p, ss, fs, arr, sarr, fa, raw. tauto.
Qed.
Lemma modules_loaded os h r n e es s : py_thread_is os h r KKoopsStack n e es (TKoops s) -> exists at_, alive os r (PyStruct KKoopsStack (e_addr e) at_) /\ load_modules h (e_addr e) = Ok (ks_modules s).
Proof.
  intros P. destruct (thread_cell _ _ _ _ _ _ _ _ P) as (at_ & scal & ps & p & ss & fs & arr & sarr & fa & raw & A & Hc & _ & Oa & Ev). exists at_. split; [exact A|].
  destruct P as (? & ? & ? & ? & _ & _ & _ & _ & (_ & _ & _ & _ & T & _)). rewrite Ev in T. cbn [array] in T. subst sarr.
  unfold load_modules. rewrite (get_live _ _ _ Hc) by discriminate. cbn [bind]. inversion Oa as [|a items ss' Ha F]; subst; [reflexivity|].
  rewrite (get_live _ _ _ Ha) by discriminate. cbn [bind]. rewrite (load_strs_ok _ _ _ F). reflexivity.
Qed.
Definition mods (s : koops_stacktrace) : list str := match ks_modules s with Some l => l | None => [] end.
Lemma get_modules_ok os h r n e es s : py_thread_is os h r KKoopsStack n e es (TKoops s) ->
  (forall m, In m (mods s) -> exists t, utf8 t m) -> exists ts, get_modules (St os h) r = Ok (St os h, Value ts) /\ Forall2 utf8 ts (mods s).
Proof.
  intros P U. destruct (modules_loaded _ _ _ _ _ _ _ P) as (at_ & A & E). unfold get_modules. rewrite (struct_ok os h r _ _ _ A). cbn [bind mem]. rewrite E. cbn [bind]. fold (mods s).
  enough (G : exists ts, Forall2 utf8 ts (mods s) /\ map from_utf8 (mods s) = map Some ts).
  { destruct G as (ts & F & ->). exists ts. split; [|exact F]. f_equal. f_equal. rewrite !map_map. replace (forallb _ _) with true; [f_equal|].
    - clear. induction ts as [|t ts IH]; [reflexivity|]. cbn [map concat app]. f_equal. exact IH.
    - clear. induction ts as [|t ts IH]; [reflexivity|exact IH]. }
  revert U. generalize (mods s). clear. induction l as [|m l IH]; intros U; [exists []; split; [constructor|reflexivity]|].
  destruct IH as (ts & F & Em); [intros x Ix; apply U; right; exact Ix|]. destruct (U m (or_introl eq_refl)) as [t Ht]. exists (t :: ts). split; [constructor; assumption|].
  cbn [map]. rewrite Em. f_equal. apply from_utf8_iff. exact Ht.
Qed.
Lemma get_modules_bad os h r n e es s m : py_thread_is os h r KKoopsStack n e es (TKoops s) -> In m (mods s) -> (forall t, ~ utf8 t m) ->
  exists ts, get_modules (St os h) r = Ok (St os h, ValueAnd ts SystemError).
Proof.
  intros P I U. destruct (modules_loaded _ _ _ _ _ _ _ P) as (at_ & A & E). unfold get_modules. rewrite (struct_ok os h r _ _ _ A). cbn [bind mem]. rewrite E. cbn [bind]. fold (mods s).
  replace (forallb _ _) with false; [eexists; reflexivity|]. symmetry. apply not_true_is_false. intros H. rewrite forallb_forall in H.
  specialize (H (from_utf8 m) (in_map _ _ _ I)). destruct (from_utf8 m) as [t|] eqn:Et; [|discriminate]. apply from_utf8_iff in Et. exact (U t Et).
Qed.
Lemma taint_flags_ok os h r n e es s zs : py_thread_is os h r KKoopsStack n e es (TKoops s) -> numbers (e_val e) = zs -> length zs = length flag_names ->
  exists bs, get_taint_flags (St os h) r = Ok (St os h, Value (combine flag_names bs)) /\ Forall2 (fun b z => b = true <-> z <> 0%Z) bs zs.
Proof.
  intros P En Ln. destruct (thread_cell _ _ _ _ _ _ _ _ P) as (at_ & scal & ps & p & ss & fs & arr & sarr & fa & raw & A & Hc & _ & _ & Ev). rewrite Ev in En. cbn [numbers] in En. subst scal.
  unfold get_taint_flags. rewrite (struct_ok os h r _ _ _ A). cbn [bind mem]. rewrite (get_live _ _ _ Hc) by discriminate. cbn [bind].
  exists (map (fun z => negb (z =? 0)%Z) zs). split.
  - assert (G : forall (fl : list (ascii * str)) zs, length zs = length fl -> flag_dict fl zs = Ok (combine (map snd fl) (map (fun z => negb (z =? 0)%Z) zs))).
    { induction fl as [|[c nm] fl IH]; intros [|z l] Hl; try discriminate Hl; [reflexivity|]. cbn [flag_dict map snd combine]. rewrite IH by (cbn in Hl; lia). reflexivity. }
    rewrite G by exact Ln. reflexivity.
  - clear. induction zs as [|z zs IH]; [constructor|]. constructor; [|exact IH]. destruct (Z.eqb_spec z 0); cbn [negb]; split; (congruence || lia).
Qed.

(** ** Frames *)
Lemma frame_dup_ok os h r k n e at_ : alive os r (PyStruct k (e_addr e) at_) -> own h k n e -> separate (e_foot e) ->
  exists os' h' d, frame_dup (St os h) r = Ok (St os' h', Value (length os)) /\ os' = os ++ [Some (1, PyStruct k (e_addr d) [])] /\ own h' k None d /\ e_val d = e_val e /\
    separate (e_foot d) /\ (forall x, In x (e_foot d) <-> length h <= x < length h') /\ (forall x, x < length h -> nth_error h' x = nth_error h x).
Proof.
  intros A O N. destruct (dup_fresh k h n e O N) as (h' & d & E & Od & V & Nd & Fd & L & X). unfold frame_dup. rewrite (struct_ok os h r _ _ _ A). cbn [bind mem]. rewrite E. cbn [bind]. unfold new_obj, with_mem. cbn [objs mem].
  eexists _, h', d. split; [reflexivity|]. split; [reflexivity|]. tauto.
Qed.
Lemma calls_ok files os h r n e f name : py_frame os h r KGdbFrame n e (FGdb f) ->
  exists b : bool, calls_func_with files (St os h) r name = Ok (St os h, Value (if b then 1%Z else 0%Z)) /\ (b = true <-> calls f name /\ exists p s, In p files /\ gf_source_file f = Some s /\ infix p s).
Proof.
  intros ([at_ A] & O & Hf). unfold calls_func_with. rewrite (struct_ok os h r _ _ _ A). cbn [bind mem]. rewrite (load_frame_ok _ _ _ _ _ O Hf). cbn [bind].
  exists (sr_gdb_frame_calls_func f name files). split; [reflexivity|]. unfold sr_gdb_frame_calls_func, calls. destruct (gf_function_name f) as [fn|]; [|split; [discriminate|intros [? _]; discriminate]].
  destruct (Base.str_eqb fn name) eqn:Ee.
  - apply str_eqb_eq in Ee. subst fn. rewrite file_match_iff. split; [intros (s & p & Hs & Hp & Hi); split; [reflexivity|exists p, s; tauto]|intros (_ & p & s & Hp & Hs & Hi); exists s, p; tauto].
  - split; [discriminate|]. intros [H _]. injection H as ->. rewrite (proj2 (str_eqb_eq name name) eq_refl) in Ee. discriminate.
Qed.
Lemma calls_in_file_ok os h r n e f name file : py_frame os h r KGdbFrame n e (FGdb f) ->
  exists z, calls_func_in_file (St os h) r name file = Ok (St os h, Value z) /\ (z = 0 \/ z = 1)%Z /\ (z = 1%Z <-> calls_in f name file).
Proof.
  intros P. destruct (calls_ok [file] _ _ _ _ _ _ name P) as (b & E & Hb). unfold calls_func_in_file. exists (if b then 1%Z else 0%Z). split; [exact E|]. split; [destruct b; tauto|].
  transitivity (b = true); [destruct b; split; (discriminate || reflexivity)|]. rewrite Hb. unfold calls_in. split; [intros (C & p & s & [<-|[]] & Hs & Hi); split; [exact C|exists s; tauto]|intros (C & s & Hs & Hi); split; [exact C|exists file, s; cbn; tauto]].
Qed.
Lemma calls_never os h r n e f name : py_frame os h r KGdbFrame n e (FGdb f) -> calls_func (St os h) r name = Ok (St os h, Value 0%Z).
Proof.
  intros P. destruct (calls_ok [] _ _ _ _ _ _ name P) as (b & E & Hb). unfold calls_func. rewrite E. destruct b; [|reflexivity]. destruct (proj1 Hb eq_refl) as (_ & p & s & [] & _).
Qed.

(** ** Threads *)
Lemma quality_counts_ok os h r k n e es t : py_thread_is os h r k n e es t -> k = KGdbThread \/ k = KJavaThread ->
  exists h' ok all, thread_quality_counts (St os h) r = Ok (St os h', Value (ok, all)) /\ thread_known t ok all /\ own h' k n e /\ same_outside (link_cells e es) h h' /\ length h' = length h.
Proof.
  intros (fk & l & items & at_ & A & P & U & N & T) Hk. destruct (frames_prepare_ok _ _ _ _ _ _ _ _ _ _ _ A P U N) as (h1 & E1 & O1 & S1 & L1).
  unfold thread_quality_counts. rewrite E1. cbn [bind negb]. rewrite (struct_ok os h1 r _ _ _ A). cbn [bind mem]. rewrite (load_thread_ok _ _ _ _ _ O1 N T). cbn [bind].
  destruct t as [t|t|t|t|t|t|t]; cbn [is_thread] in T; destruct T as [Tk _]; try (subst k; destruct Hk as [Hk|Hk]; discriminate Hk); cbn [plainly].
  - destruct (counts_ok _ _ java_known_iff (vt_frames t)) as (c & C & H). exists h1, c, (Z.of_nat (length (vt_frames t))).
    split; [unfold sr_java_thread_quality_counts; rewrite H; reflexivity|]. split; [split; [exact C|reflexivity]|]. tauto.
  - destruct (counts_ok _ _ gdb_known_iff (gt_frames t)) as (c & C & H). exists h1, c, (Z.of_nat (length (gt_frames t))).
    split; [unfold sr_gdb_thread_quality_counts; rewrite H; reflexivity|]. split; [split; [exact C|reflexivity]|]. tauto.
Qed.
Lemma quality_ok os h r k n e es t : py_thread_is os h r k n e es t -> k = KGdbThread \/ k = KJavaThread ->
  exists h' q, thread_quality (St os h) r = Ok (St os h', Value q) /\ thread_proportion t q /\ own h' k n e /\ same_outside (link_cells e es) h h' /\ length h' = length h.
Proof.
  intros (fk & l & items & at_ & A & P & U & N & T) Hk. destruct (frames_prepare_ok _ _ _ _ _ _ _ _ _ _ _ A P U N) as (h1 & E1 & O1 & S1 & L1).
  unfold thread_quality. rewrite E1. cbn [bind negb]. rewrite (struct_ok os h1 r _ _ _ A). cbn [bind mem]. rewrite (load_thread_ok _ _ _ _ _ O1 N T). cbn [bind].
  destruct t as [t|t|t|t|t|t|t]; cbn [is_thread] in T; destruct T as [Tk _]; try (subst k; destruct Hk as [Hk|Hk]; discriminate Hk); cbn [plainly].
  - exists h1, (sr_java_thread_quality t). split; [reflexivity|]. split; [apply java_thread_quality_ok|]. tauto.
  - exists h1, (sr_gdb_thread_quality t). split; [reflexivity|]. split; [apply gdb_thread_quality_ok|]. tauto.
Qed.
Lemma quality_foreign os h r k c es : foreign os h r k c es -> exists h', thread_quality_counts (St os h) r = Ok (St os h', Raise TypeError) /\ thread_quality (St os h) r = Ok (St os h', Raise TypeError) /\
  same_outside (c :: map e_addr es) h h' /\ length h' = length h.
Proof. intros F. destruct (foreign_prepare _ _ _ _ _ _ F) as (h' & E & S & L). exists h'. unfold thread_quality_counts, thread_quality. rewrite E. split; [reflexivity|]. split; [reflexivity|]. split; assumption. Qed.
Lemma format_funs_ok os h r k n e t at_ : alive os r (PyStruct k (e_addr e) at_) -> own h k n e -> separate (e_foot e) -> is_thread k (e_val e) t -> k = KGdbThread \/ k = KJavaThread ->
  exists a out, thread_format_funs (St os h) r = Ok (St os h, a) /\ thread_lines t out /\ gives_text a out.
Proof.
  intros A O N T Hk. unfold thread_format_funs. rewrite (struct_ok os h r _ _ _ A). cbn [bind mem]. rewrite (load_thread_ok _ _ _ _ _ O N T). cbn [bind].
  destruct t as [t|t|t|t|t|t|t]; cbn [is_thread] in T; destruct T as [Tk _]; try (subst k; destruct Hk as [Hk|Hk]; discriminate Hk); cbn [plainly].
  - eexists _, (sr_java_thread_format_funs t). split; [reflexivity|]. split; [|apply py_string_gives]. exists (map (fun f => match vf_name f with Some n => n ++ [nl] | None => [] end) (vt_frames t)). split; [|reflexivity].
    induction (vt_frames t) as [|f l IH]; [constructor|]. constructor; [|exact IH]. unfold java_line. destruct (vf_name f); reflexivity.
  - eexists _, (sr_gdb_thread_format_funs t). split; [reflexivity|]. split; [|apply py_string_gives]. exists (map format_fun (gt_frames t)). split; [|reflexivity].
    induction (gt_frames t) as [|f l IH]; [constructor|]. constructor; [|exact IH]. unfold gdb_line, format_fun. destruct (gf_function_name f); [destruct (gf_library_name f); [rewrite <- !app_assoc|]|]; reflexivity.
Qed.
Lemma single_crash_ok os h r n b : object os r (S n) b -> exists os', single_get_crash (St os h) r = Ok (St os' h, Value r) /\
  object os' r (S (S n)) b /\ length os' = length os /\ (forall x, x <> r -> nth_error os' x = nth_error os x).
Proof.
  intros H. unfold single_get_crash, incref. rewrite (obj_ok (St os h) r _ _ H). cbn [bind]. unfold set_obj. cbn [objs mem]. eexists. split; [reflexivity|].
  split; [apply (object_put_same os r _ _ (S (S n), b) H)|]. split; [apply put_obj_length|]. intros x Nx. apply put_obj_other. exact Nx.
Qed.
