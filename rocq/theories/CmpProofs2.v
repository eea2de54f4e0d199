(** * Proofs about the comparisons of Java threads and stack traces, and of core and gdb frames in distances. *)
From Verif Require Import Base Types CmpModel CmpSpec CmpSpec2 CmpProofs.
Open Scope Z_scope.

Lemma first_frame_cmp t u :
  java_thread_cmp t u =
  (let res := g_strcmp0 (vt_name t) (vt_name u) in
   if res =? 0 then frames_cmp java_frame_cmp (firstn 1 (vt_frames t)) (firstn 1 (vt_frames u)) else res).
Proof.
  unfold java_thread_cmp. cbn zeta. destruct (_ =? 0); [|reflexivity]. cbn [negb].
  destruct (vt_frames t) as [|f l], (vt_frames u) as [|g m]; try reflexivity.
  cbn [firstn frames_cmp]. destruct (Z.eqb_spec (java_frame_cmp f g) 0) as [E|E]; [exact E|reflexivity].
Qed.
Lemma java_thread_orders :
  orders (fun t => Forall java_small (firstn 1 (vt_frames t)))
    (fun t u => vt_name t = vt_name u /\
      Forall2 (fun f g => vf_is_exception f = vf_is_exception g /\ vf_name f = vf_name g /\
                (vf_is_exception f = false ->
                 vf_class_path f = vf_class_path g /\ vf_file_name f = vf_file_name g /\
                 vf_is_native f = vf_is_native g /\ vf_file_line f = vf_file_line g))
        (firstn 1 (vt_frames t)) (firstn 1 (vt_frames u))) java_thread_cmp.
Proof.
  eapply orders_ext; [|eapply orders_then;
    [eapply orders_sub; [|apply (orders_on vt_name _ _ _ orders_strcmp0)]
    |eapply orders_sub; [|apply (orders_on (fun t => firstn 1 (vt_frames t)) _ _ _ (orders_list _ _ _ java_orders))]]].
  - intros x y _ _. rewrite first_frame_cmp. reflexivity.
  - intros; exact I.
  - cbn; tauto.
Qed.
Lemma java_stacktrace_orders :
  orders (fun s => Forall (fun t => Forall java_small (firstn 1 (vt_frames t))) (vs_threads s))
    (fun s z => Forall2 (fun t u => vt_name t = vt_name u /\
      Forall2 (fun f g => vf_is_exception f = vf_is_exception g /\ vf_name f = vf_name g /\
                (vf_is_exception f = false ->
                 vf_class_path f = vf_class_path g /\ vf_file_name f = vf_file_name g /\
                 vf_is_native f = vf_is_native g /\ vf_file_line f = vf_file_line g))
        (firstn 1 (vt_frames t)) (firstn 1 (vt_frames u))) (vs_threads s) (vs_threads z)) java_stacktrace_cmp.
Proof. apply (orders_on vs_threads _ _ _ (orders_list _ _ _ java_thread_orders)). Qed.

Lemma frame_same_core f g :
  0 <= cf_build_id_offset f < two32 -> 0 <= cf_build_id_offset g < two32 ->
  (frame_same (FCore f) (FCore g) = true <->
   match cf_function_name f, cf_function_name g with
   | Some a, Some b => a = b
   | _, _ =>
     (cf_build_id f = cf_build_id g /\ cf_build_id_offset f = cf_build_id_offset g) \/
     (cf_fingerprint f = cf_fingerprint g /\ cf_fingerprint f <> None)
   end).
Proof.
  intros F G. unfold frame_same. cbn [sr_frame_cmp_distance]. rewrite Z.eqb_eq. unfold core_frame_cmp_distance.
  pose proof (strcmp0_zero (cf_build_id f) (cf_build_id g)) as B.
  pose proof (to_int_zero_eq _ _ F G) as O.
  assert (U : (let build_id := g_strcmp0 (cf_build_id f) (cf_build_id g) in
    let build_id_offset := to_int (cf_build_id_offset f - cf_build_id_offset g) in
    if (build_id =? 0) && (build_id_offset =? 0) then 0
    else match cf_fingerprint f, cf_fingerprint g with
      | Some a, Some b => strcmp a b
      | _, _ => if negb (build_id =? 0) then build_id else build_id_offset
      end) = 0 <->
     (cf_build_id f = cf_build_id g /\ cf_build_id_offset f = cf_build_id_offset g) \/
     (cf_fingerprint f = cf_fingerprint g /\ cf_fingerprint f <> None)).
  { cbn zeta.
    destruct (Z.eqb_spec (g_strcmp0 (cf_build_id f) (cf_build_id g)) 0) as [b|b];
    destruct (Z.eqb_spec (to_int (cf_build_id_offset f - cf_build_id_offset g)) 0) as [o|o]; cbn [andb negb];
      [tauto|..]; destruct (cf_fingerprint f) as [x|], (cf_fingerprint g) as [y|]; rewrite ?strcmp_zero;
      (split; [intros H; try subst; try tauto; right; split; congruence
              |intros [[H1 H2]|[H1 H2]]; try tauto; try congruence]). }
  destruct (cf_function_name f) as [a|]; [destruct (cf_function_name g) as [b|]|]; [apply strcmp_zero|exact U|exact U].
Qed.
Lemma frame_same_gdb f g :
  frame_same (FGdb f) (FGdb g) = true <->
  gf_function_name f = gf_function_name g /\ gf_function_name f <> Some (L "??") /\
  (gf_library_name f = gf_library_name g \/ gf_library_name f = None \/ gf_library_name g = None).
Proof.
  unfold frame_same. cbn [sr_frame_cmp_distance]. rewrite Z.eqb_eq. unfold gdb_frame_cmp_distance. cbn zeta.
  destruct (Z.eqb_spec (g_strcmp0 (gf_function_name f) (Some (L "??"))) 0) as [A|A]; rewrite strcmp0_zero in A;
  destruct (Z.eqb_spec (g_strcmp0 (gf_function_name g) (Some (L "??"))) 0) as [B|B]; rewrite strcmp0_zero in B;
    cbn [andb]; [split; [discriminate|tauto]|..];
    (destruct (Z.eqb_spec (g_strcmp0 (gf_function_name f) (gf_function_name g)) 0) as [E|E]; cbn [negb];
     [rewrite strcmp0_zero in E|pose proof (strcmp0_zero (gf_function_name f) (gf_function_name g)); tauto]);
    try congruence.
  destruct (gf_library_name f) as [x|], (gf_library_name g) as [y|]; rewrite ?strcmp_zero.
  - split; [intros ->; tauto|]. intros (_ & _ & [H|[H|H]]); congruence.
  - tauto.
  - tauto.
  - tauto.
Qed.

Lemma koops_small_of f : frame_small (FKoops f) -> koops_small f.
Proof. cbn. unfold koops_small. tauto. Qed.
Lemma frame_orders : orders frame_small equal_frames sr_frame_cmp.
Proof.
  destruct core_orders as (A1 & A2 & A3). destruct python_orders as (B1 & B2 & B3). destruct koops_orders as (C1 & C2 & C3).
  destruct java_orders as (D1 & D2 & D3). destruct (gdb_orders false) as (E1 & E2 & E3). destruct ruby_orders as (F1 & F2 & F3).
  destruct js_orders as (G1 & G2 & G3). pose proof koops_small_of as KS.
  split; [|split].
  - intros [f|f|f|f|f|f|f] [g|g|g|g|g|g|g] X Y; cbn [sr_frame_cmp equal_frames frame_type];
      try (split; [discriminate|tauto]).
    + now apply A1.
    + rewrite B1 by assumption. destruct f, g; cbn. split; [intuition congruence|intros [=]; intuition congruence].
    + rewrite C1 by (apply KS; assumption). destruct f, g; cbn. split; [intuition congruence|intros [=]; intuition congruence].
    + now apply D1.
    + rewrite E1 by assumption. intuition congruence.
    + rewrite F1 by assumption. destruct f, g; cbn. split; [intuition congruence|intros [=]; intuition congruence].
    + rewrite G1 by assumption. destruct f, g; cbn. split; [intuition congruence|intros [=]; intuition congruence].
  - intros [f|f|f|f|f|f|f] [g|g|g|g|g|g|g] X Y; cbn [sr_frame_cmp frame_type]; try reflexivity;
      [now apply A2|now apply B2|apply C2; now apply KS|now apply D2|now apply E2|now apply F2|now apply G2].
  - intros [f|f|f|f|f|f|f] [g|g|g|g|g|g|g] [h|h|h|h|h|h|h] X Y Z; cbn [sr_frame_cmp frame_type]; try lia;
      [now apply A3|now apply B3|apply C3; now apply KS|now apply D3|now apply E3|now apply F3|now apply G3].
Qed.
