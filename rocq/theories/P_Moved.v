(** * Property C94: a crash that happened at other addresses is known as the same crash. *)
From Coq Require Import QArith.
From Verif Require Import Base Types CmpModel DistMatrixModel DistModel DistProofs4 NormModel CrashModel TextModel SystemModel ReportModel
  MovedSpec MovedProofs MovedProofs2.
Open Scope Z_scope.

(** Normalizing a thread and the same thread at other addresses keeps the same frames of both, or fails for both. *)
Theorem C94_normalized : forall t u n, thread_moved t u -> sr_thread_normalize t = Ok n ->
  exists m, sr_thread_normalize u = Ok m /\ thread_moved n m.
Proof. exact thread_normalize_moved. Qed.
(** Duplication hashes are the same, with any hash function, number of frames, prefix and flags. *)
Theorem C94_duphash : forall t u, thread_moved t u ->
  forall sha1 n prefix flags, sr_thread_get_duphash sha1 u n prefix flags = sr_thread_get_duphash sha1 t n prefix flags.
Proof. exact duphash_moved. Qed.
(** Distances to any thread, itself moved or not, are the same ... *)
Theorem C94_distance : forall dt ty ty' t t' w w', thread_moved t t' -> thread_moved w w' ->
  sr_distance frame_same dt (ty, sr_thread_frames t') (ty', sr_thread_frames w') = sr_distance frame_same dt (ty, sr_thread_frames t) (ty', sr_thread_frames w).
Proof. intros dt ty ty' t t' w w' H1 H2. apply distance_alike; now apply thread_moved_alike. Qed.
(** ... and both edit distances between a thread and the same thread at other addresses are 0, if every frame compares
    equal to itself (frames of unknown functions do not). *)
Theorem C94_self_distance : forall tr ty t u, thread_moved t u -> fits (sr_thread_frames t) (sr_thread_frames u) ->
  Forall (fun f => frame_same f f = true) (sr_thread_frames t) ->
  exists d, sr_distance frame_same (edit_type tr) (ty, sr_thread_frames t) (ty, sr_thread_frames u) = Ok d /\ (d == 0)%Q.
Proof. intros tr ty t u H. apply distance_self. now apply thread_moved_alike. Qed.
(** The thread that crashed is found at the same place. *)
Theorem C94_crash_thread : forall s s', stacktrace_moved s s' ->
  match sr_stacktrace_find_crash_thread s, sr_stacktrace_find_crash_thread s' with
  | Some t, Some u => thread_moved t u
  | None, None => True
  | _, _ => False
  end.
Proof. exact crash_thread_moved. Qed.
Theorem C94_crash_position : forall s s' c c', stacktrace_moved (SGdb s) (SGdb s') -> stacktrace_moved (SCore c) (SCore c') ->
  sr_gdb_stacktrace_find_crash_thread s' = sr_gdb_stacktrace_find_crash_thread s /\
  sr_core_stacktrace_find_crash_thread c' = sr_core_stacktrace_find_crash_thread c.
Proof. intros s s' c c' H1 H2. split; [now apply gdb_crash_moved|now apply core_crash_moved]. Qed.
(** So the stack traces are duplicates of each other. *)
Theorem C94_duplicates : forall s s' t, stacktrace_moved s s' -> sr_stacktrace_find_crash_thread s = Some t ->
  exists u, sr_stacktrace_find_crash_thread s' = Some u /\
    forall sha1 n prefix flags, sr_thread_get_duphash sha1 u n prefix flags = sr_thread_get_duphash sha1 t n prefix flags.
Proof.
  intros s s' t H E. pose proof (crash_thread_moved s s' H) as C. rewrite E in C. destruct (sr_stacktrace_find_crash_thread s') as [u|]; [|destruct C].
  exists u. split; [reflexivity|]. now apply duphash_moved.
Qed.
(** The short text and the reason that a user is shown are the same, and so is the quality of a gdb stack trace. *)
Theorem C94_short_text : forall s s' n, stacktrace_moved s s' -> sr_stacktrace_to_short_text s' n = sr_stacktrace_to_short_text s n.
Proof. exact short_text_moved. Qed.
Theorem C94_reason : forall s s', stacktrace_moved s s' -> sr_stacktrace_get_reason s' = sr_stacktrace_get_reason s.
Proof. exact reason_moved. Qed.
Theorem C94_quality : forall s s', stacktrace_moved (SGdb s) (SGdb s') ->
  sr_gdb_stacktrace_quality_simple s' = sr_gdb_stacktrace_quality_simple s /\
  sr_gdb_stacktrace_quality_complex s' = sr_gdb_stacktrace_quality_complex s.
Proof. exact quality_moved. Qed.

(** ** Where addresses do tell crashes apart *)
Definition at_address (a : Z) : core_frame :=
  mk_core_frame a (Some (L "88a0b9c4")) 4096 (Some (L "render")) (Some (L "/usr/lib/libapp.so")) None true.
Definition only_address (a : Z) : core_frame := mk_core_frame a None ulong_max None None None true.
(** A backtrace hash tells addresses: the same crash gets another one. *)
Theorem C94_bthash_refuted : exists s s', stacktrace_moved s s' /\
  sr_stacktrace_get_bthash (fun x => x) s 0 <> sr_stacktrace_get_bthash (fun x => x) s' 0.
Proof.
  exists (SCore (mk_core_stacktrace 11 None None [mk_core_thread [at_address 4198400]] false)), (SCore (mk_core_stacktrace 11 None None [mk_core_thread [at_address 8392704]] false)).
  split; [|vm_compute; discriminate]. cbn. repeat split; try (constructor; [|constructor]); try reflexivity. cbn. constructor; [|constructor].
  unfold core_moved, zero_alike. cbn. repeat split; try reflexivity; try discriminate. left. discriminate.
Qed.
(** A frame with no build id, name or fingerprint is known by its address only: moved, it gets another duplication hash. *)
Theorem C94_nameless_refuted : exists a b, a <> 0 /\ b <> 0 /\
  sr_thread_get_duphash (fun x => x) (TCore (mk_core_thread [only_address a])) 0 None 0 <>
  sr_thread_get_duphash (fun x => x) (TCore (mk_core_thread [only_address b])) 0 None 0.
Proof. exists 4198400, 8392704. split; [discriminate|]. split; [discriminate|]. vm_compute. discriminate. Qed.
(** Address 0 is special: a gdb frame of an unknown function at address 0 is kept as a jump to NULL. *)
Definition unknown_at (a : Z) : gdb_frame := mk_gdb_frame (Some (L "??")) None 1 None 4294967295 false a None.
Definition known_at (a : Z) : gdb_frame := mk_gdb_frame (Some (L "main")) None 2 (Some (L "app.c")) 12 false a None.
Theorem C94_null_refuted :
  sr_thread_get_duphash (fun x => x) (TGdb (mk_gdb_thread 1 1 [unknown_at 0; known_at 4198400])) 0 None 0 <>
  sr_thread_get_duphash (fun x => x) (TGdb (mk_gdb_thread 1 1 [unknown_at 4096; known_at 4198400])) 0 None 0.
Proof. vm_compute. discriminate. Qed.

(** ** The hypotheses are met *)
Definition moved_lib (base : Z) : gdb_sharedlib := mk_gdb_sharedlib base (base + 65536) 1 (Some (L "/lib64/libc.so.6")).
Definition moved_gdb (base : Z) : gdb_stacktrace :=
  mk_gdb_stacktrace
    [ mk_gdb_thread 2 102 [ mk_gdb_frame (Some (L "poll")) None 0 None 4294967295 false (base + 100) None; known_at (base + 200000) ];
      mk_gdb_thread 1 101 [ mk_gdb_frame (Some (L "raise")) None 0 None 4294967295 false (base + 300) None;
                            mk_gdb_frame (Some (L "abort")) None 1 None 4294967295 false (base + 400) None; known_at (base + 200016) ] ]
    (Some (mk_gdb_frame (Some (L "raise")) None 0 None 4294967295 false (base + 300) None)) [moved_lib base] 4294967295.
Example C94_example : exists s s' t u, s = SGdb (moved_gdb 140000000000000) /\ s' = SGdb (moved_gdb 139000000000000) /\ s <> s' /\
  stacktrace_moved s s' /\ sr_stacktrace_find_crash_thread s = Some t /\ sr_stacktrace_find_crash_thread s' = Some u /\ t <> u /\ thread_moved t u /\
  fits (sr_thread_frames t) (sr_thread_frames u) /\ Forall (fun f => frame_same f f = true) (sr_thread_frames t).
Proof.
  do 4 eexists. split; [reflexivity|]. split; [reflexivity|]. split; [vm_compute; discriminate|].
  assert (M : stacktrace_moved (SGdb (moved_gdb 140000000000000)) (SGdb (moved_gdb 139000000000000))).
  { split; [reflexivity|]. split; [split; [repeat split; reflexivity|unfold zero_alike; cbn; lia]|]. split; [|reflexivity].
    assert (G : forall n ft i sf sl sh lib k, 0 < k < 1000000 ->
      gdb_moved (mk_gdb_frame n ft i sf sl sh (140000000000000 + k) lib) (mk_gdb_frame n ft i sf sl sh (139000000000000 + k) lib) /\
      libs_moved [moved_lib 140000000000000] [moved_lib 139000000000000]
        (mk_gdb_frame n ft i sf sl sh (140000000000000 + k) lib) (mk_gdb_frame n ft i sf sl sh (139000000000000 + k) lib)).
    { intros n ft i sf sl sh lib k K. split; [split; [repeat split; reflexivity|unfold zero_alike; cbn [gf_address]; lia]|].
      split; [unfold ulong_max; cbn [gf_address]; lia|]. constructor; [|constructor]. split; [reflexivity|]. unfold covers, moved_lib. cbn [gl_from gl_to gf_address]. lia. }
    repeat (constructor; [split; [reflexivity|]; split; [reflexivity|]; repeat (constructor; [apply G; lia|]); constructor|]). constructor. }
  split; [exact M|]. split; [vm_compute; reflexivity|]. split; [vm_compute; reflexivity|]. split; [discriminate|].
  split; [exact (crash_thread_moved _ _ M)|]. split; [vm_compute; discriminate|]. repeat constructor.
Qed.
Definition oops (base : Z) (what : str) : koops_stacktrace :=
  mk_koops_stacktrace None no_taint None None
    [ mk_koops_frame base true (Some (L "ext4_readdir")) 16 512 (Some (L "ext4")) 0 None 0 0 None None ] (Some what).
Example C94_koops_example :
  stacktrace_moved (SKoops (oops 18446744071562067968 (L "BUG: unable to handle kernel paging request at ffff880012345678")))
                   (SKoops (oops 18446744071579000000 (L "BUG: unable to handle kernel paging request at ffffc90000001000"))) /\
  sr_stacktrace_get_reason (SKoops (oops 18446744071562067968 (L "BUG: unable to handle kernel paging request at ffff880012345678")))
    = Ok (Some (L "kernel paging request at ext4_readdir [ext4]")).
Proof.
  split; [|vm_compute; reflexivity]. split.
  - constructor; [|constructor]. split; [repeat split; reflexivity|]. left. discriminate.
  - right. do 2 eexists. split; [reflexivity|]. split; [reflexivity|]. right.
    split; [apply contains_strstr; vm_compute; reflexivity|]. split; [apply contains_strstr; vm_compute; reflexivity|].
    split; intros X; apply contains_strstr in X; vm_compute in X; discriminate X.
Qed.
Print Assumptions C94_normalized.
Print Assumptions C94_duphash.
Print Assumptions C94_distance.
Print Assumptions C94_self_distance.
Print Assumptions C94_crash_thread.
Print Assumptions C94_crash_position.
Print Assumptions C94_duplicates.
Print Assumptions C94_short_text.
Print Assumptions C94_reason.
Print Assumptions C94_quality.
Print Assumptions C94_bthash_refuted.
Print Assumptions C94_nameless_refuted.
Print Assumptions C94_null_refuted.
