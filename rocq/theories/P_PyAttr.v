(** * Property C71: the attributes of the Python objects. *)
From Verif Require Import Base HeapModel HeapSpec PyAttrModel PyAttrSpec PyAttrProofs PyAttrProofs2 PyAttrProofs3 PyAttrProofs4.
Open Scope nat_scope.

(** C71.  Text is stored as UTF-8: of a Python string without surrogates exactly its encoding, and only valid UTF-8
    is read back. *)
Theorem C71_utf8_encode : forall t, py_text t ->
  ((forall c, In c t -> ~ surrogate c) -> exists s, utf8 t s /\ as_utf8 t = Some s) /\ (forall c, In c t -> surrogate c -> as_utf8 t = None).
Proof. exact encodes. Qed.
Theorem C71_utf8_decode : forall s t, from_utf8 s = Some t <-> utf8 t s.
Proof. exact from_utf8_iff. Qed.
(** The attributes an object has are the documented ones; a report has four more. *)
Theorem C71_names : forall constant k name, getattr constant [] k 0 name <> None <->
  (exists d, In (name, d) (documented k)) \/ k = KReport /\ In name [L "reporter_name"; L "reporter_version"; L "report_version"; L "report_type"].
Proof. exact no_others. Qed.
(** Reading an attribute gives what the structure holds. *)
Theorem C71_read : forall constant h c k name d scal ss fs kids arr raw n,
  structure h c k scal ss fs kids arr raw n -> In (name, d) (documented k) ->
  exists x, getattr constant h k c name = Some (Ok x) /\ forall y, shows k scal ss d y <-> y = x.
Proof. exact read_ok. Qed.
(** Assigning a value that the attribute can hold: it is what the attribute then shows, no other member changes, the old
    string is freed once and no other memory is touched. *)
Theorem C71_assign : forall h c k name d scal ss fs kids arr raw n v x,
  structure h c k scal ss fs kids arr raw n -> In (name, d) (documented k) -> accepts d v x ->
  exists h' scal' ss' fs', setattr h k c name (Some v) = Some (Ok (h', true)) /\ structure h' c k scal' ss' fs' kids arr raw n /\
    shows k scal' ss' d (Some x) /\ (forall d' y, member d' <> member d -> shows k scal' ss' d' y <-> shows k scal ss d' y) /\
    (forall a, a < length h -> a <> c -> ~ In a fs -> nth_error h' a = nth_error h a) /\
    (forall a, In a fs -> In a fs' /\ nth_error h' a = nth_error h a \/ ~ In a fs' /\ freed h' a) /\
    (forall a, In a fs' -> In a fs \/ a = length h) /\ length h' <= S (length h).
Proof. exact set_ok. Qed.
(** A stack trace or package that owns others keeps them. *)
Theorem C71_assign_owner : forall h k n e scal ss sarr vss name d v x, In (name, d) (documented k) -> own h k n e -> separate (e_foot e) -> k <> KReport ->
  e_val e = Val scal ss sarr vss -> length scal = length (number_members k) -> accepts d v x ->
  exists h' e' scal' ss', setattr h k (e_addr e) name (Some v) = Some (Ok (h', true)) /\ own h' k n e' /\ separate (e_foot e') /\
    e_addr e' = e_addr e /\ e_val e' = Val scal' ss' sarr vss /\ shows k scal' ss' d (Some x) /\
    (forall d' y, member d' <> member d -> shows k scal' ss' d' y <-> shows k scal ss d' y) /\
    (forall a, a < length h -> ~ In a (e_foot e) -> nth_error h' a = nth_error h a) /\
    (forall a, In a (e_foot e) -> ~ In a (e_foot e') -> freed h' a) /\ (forall a, In a (e_foot e') -> In a (e_foot e) \/ a = length h).
Proof. exact set_owned. Qed.
(** A value of the wrong type or out of range, and deletion, raise an exception and change nothing. *)
Theorem C71_refuse : forall h c k name d v, In (name, d) (documented k) -> refuses d v -> setattr h k c name (Some v) = Some (Ok (h, false)).
Proof. exact set_refused. Qed.
Theorem C71_delete : forall h c k name d, In (name, d) (documented k) -> setattr h k c name None = Some (Ok (h, false)).
Proof. exact delete_refused. Qed.
(** The type of a report is read and assigned by its name; other names and "invalid" are refused. *)
Theorem C71_report_type : forall constant h c scal ss fs kids arr raw n z i t, structure h c KReport scal ss fs kids arr raw n ->
  number_of KReport scal (L "report_type") z -> z = Z.of_nat i -> nth_error type_names i = Some t ->
  getattr constant h KReport c (L "report_type") = Some (Ok (Some (VStr t))).
Proof. exact type_shown. Qed.
Theorem C71_report_type_assign : forall h c scal ss fs kids arr raw n i t, structure h c KReport scal ss fs kids arr raw n ->
  nth_error type_names (S i) = Some t ->
  exists h' scal', setattr h KReport c (L "report_type") (Some (VStr t)) = Some (Ok (h', true)) /\ structure h' c KReport scal' ss fs kids arr raw n /\
    number_of KReport scal' (L "report_type") (Z.of_nat (S i)) /\
    (forall m z, m <> L "report_type" -> number_of KReport scal' m z <-> number_of KReport scal m z) /\ same_outside [c] h h'.
Proof. exact type_set. Qed.
Theorem C71_report_type_refuse : forall h c v, (forall i t, nth_error type_names (S i) = Some t -> v <> VStr t) ->
  (forall t, v = VStr t -> py_text t /\ ~ In 0%Z t) -> setattr h KReport c (L "report_type") (Some v) = Some (Ok (h, false)).
Proof. exact type_refused. Qed.
(** The version of a report can be read, never assigned. *)
Theorem C71_report_version : forall constant h c scal ss fs kids arr raw n z, structure h c KReport scal ss fs kids arr raw n ->
  number_of KReport scal (L "report_version") z ->
  getattr constant h KReport c (L "report_version") = Some (Ok (Some (VInt z))) /\ forall v, setattr h KReport c (L "report_version") v = Some (Ok (h, false)).
Proof. intros constant h c scal ss fs kids arr raw n z S N. split; [exact (version_shown constant h c scal ss fs kids arr raw n z S N)|exact (version_fixed h c)]. Qed.
(** The reporter's name and version: a constant of the library in a new report, otherwise the string of the report. *)
Theorem C71_reporter : forall constant h c scal ps kids arr raw n name, In name [L "reporter_name"; L "reporter_version"] ->
  nth_error h c = Some (CObj KReport scal ps kids arr raw n) -> forall i, nth_error [L "reporter_name"; L "reporter_version"] i = Some name ->
  (nth_error raw i = Some None -> forall t, utf8 t (constant name) -> getattr constant h KReport c name = Some (Ok (Some (VStr t)))) /\
  (forall a s t, nth_error raw i = Some (Some a) -> nth_error h a = Some (CStr s) -> utf8 t s -> getattr constant h KReport c name = Some (Ok (Some (VStr t)))).
Proof. exact reporter_shown. Qed.

(** Assigning to the reporter's name or version of a new report frees a constant. *)
Theorem C71_reporter_refuted : forall h c scal ps kids arr n r1 r2 name i t, nth_error h c = Some (CObj KReport scal ps kids arr [r1; r2] n) ->
  nth_error [L "reporter_name"; L "reporter_version"] i = Some name -> nth_error [r1; r2] i = Some None -> storable t ->
  setattr h KReport c name (Some (VStr t)) = Some UB.
Proof. exact constant_freed. Qed.
(** A line number that does not fit is accepted and another one stored. *)
Theorem C71_line_wraps_refuted : forall constant, exists h',
  setattr js_frame_heap KJsFrame 0 (L "file_line") (Some (VInt (u32 + 2))) = Some (Ok (h', true)) /\
  getattr constant h' KJsFrame 0 (L "file_line") = Some (Ok (Some (VInt 1))).
Proof. exact u32_wraps. Qed.
(** So is an address that does not fit; the largest one that does reads as None. *)
Theorem C71_address_wraps_refuted : forall constant,
  (exists h', setattr core_frame_heap KCoreFrame 0 (L "address") (Some (VInt u64)) = Some (Ok (h', true)) /\
    getattr constant h' KCoreFrame 0 (L "address") = Some (Ok (Some VNone))) /\
  (exists h', setattr core_frame_heap KCoreFrame 0 (L "address") (Some (VInt (-2))) = Some (Ok (h', true)) /\
    getattr constant h' KCoreFrame 0 (L "address") = Some (Ok (Some (VInt (u64 - 1))))) /\
  (exists h', setattr core_frame_heap KCoreFrame 0 (L "address") (Some (VInt (2 ^ 70 + 5))) = Some (Ok (h', true)) /\
    getattr constant h' KCoreFrame 0 (L "address") = Some (Ok (Some (VInt 5)))).
Proof. exact u64_wraps. Qed.
(** A string is cut at its first NUL without notice. *)
Theorem C71_nul_refuted : forall constant, exists h',
  setattr js_frame_heap KJsFrame 0 (L "file_name") (Some (VStr [97; 0; 98]%Z)) = Some (Ok (h', true)) /\
  getattr constant h' KJsFrame 0 (L "file_name") = Some (Ok (Some (VStr [97]%Z))).
Proof. exact nul_cuts. Qed.
(** A value whose truth raises an exception counts as true and success is reported. *)
Theorem C71_truth_refuted : forall constant, exists h',
  setattr core_frame_heap KCoreFrame 0 (L "fingerprint_hashed") (Some (VOther None)) = Some (Ok (h', true)) /\
  getattr constant h' KCoreFrame 0 (L "fingerprint_hashed") = Some (Ok (Some (VBool true))).
Proof. exact raising_truth. Qed.

(** A stack trace with a thread, a frame and a name: its signal and its executable are changed. *)
Definition sample : heap :=
  [CObj KCoreStack [11; 1]%Z [Some 1] [Some 2] None [] None; CStr (L "/bin/a"); CObj KCoreThread [] [] [Some 3] None [] None;
   CObj KCoreFrame [16; 0; 0]%Z [None; Some 4; None; None] [] None [] None; CStr (L "main")].
Example C71_sample : structure sample 0 KCoreStack [11; 1]%Z [Some (L "/bin/a")] [1] [Some 2] None [] None /\
  In (L "signal", Number (L "signal") 65535) (documented KCoreStack) /\ accepts (Number (L "signal") 65535) (VInt 6) (VInt 6) /\
  In (L "executable", Text (L "executable")) (documented KCoreStack) /\ accepts (Text (L "executable")) (VStr [223; 8364; 128512]%Z) (VStr [223; 8364; 128512]%Z) /\
  refuses (Number (L "signal") 65535) (VInt 65536) /\ refuses (Text (L "executable")) (VStr [55296]%Z) /\
  exists h', setattr sample KCoreStack 0 (L "executable") (Some (VStr [223; 8364; 128512]%Z)) = Some (Ok (h', true)) /\
    (forall constant, getattr constant h' KCoreStack 0 (L "executable") = Some (Ok (Some (VStr [223; 8364; 128512]%Z)))) /\ freed h' 1.
Proof.
  split; [split; [reflexivity|]; split; [reflexivity|]; split; [intros [H|[]]; discriminate|]; split; [repeat constructor; intros []|]; exists [Some 1]; split; [reflexivity|repeat constructor]|].
  split; [left; reflexivity|]. split; [exists 6%Z; split; [left; reflexivity|split; [lia|reflexivity]]|]. split; [right; left; reflexivity|].
  split. { exists [223; 8364; 128512]%Z. split; [reflexivity|]. split; [|reflexivity]. split; repeat (apply Forall_cons; [unfold surrogate; lia|]); apply Forall_nil. }
  split; [right; exists 65536%Z; split; [left; reflexivity|right; right; unfold u32; lia]|]. split; [right; exists [55296]%Z; split; [reflexivity|exists 55296%Z; split; [left; reflexivity|unfold surrogate; lia]]|].
  eexists. split; [vm_compute; reflexivity|]. split; [intros constant; vm_compute; reflexivity|reflexivity].
Qed.
Definition sample_entry : entry :=
  (0, Val [11; 1]%Z [Some (L "/bin/a")] None [[Val [] [] None [[Val [16; 0; 0]%Z [None; Some (L "main"); None; None] None []]]]], [0; 1; 2; 3; 4]).
Example C71_sample_owner : own sample KCoreStack None sample_entry /\ separate (e_foot sample_entry) /\ length [11; 1]%Z = length (number_members KCoreStack).
Proof.
  split; [|split; [repeat constructor; cbn; intuition discriminate|reflexivity]].
  assert (F : own sample KCoreFrame None (3, Val [16; 0; 0]%Z [None; Some (L "main"); None; None] None [], [3; 4])).
  { refine (own_obj sample KCoreFrame 3 _ [None; Some 4; None; None] _ [4] [] [] [] None None [] [] None eq_refl eq_refl _ _ _); repeat constructor. }
  assert (T : own sample KCoreThread None (2, Val [] [] None [[Val [16; 0; 0]%Z [None; Some (L "main"); None; None] None []]], [2; 3; 4])).
  { refine (own_obj sample KCoreThread 2 _ [] [] [] [Some 3] _ [3; 4] None None [] [] None eq_refl eq_refl _ _ _); [constructor|constructor|].
    refine (ok_cons _ KCoreFrame true [] (Some 3) [] [(3, Val [16; 0; 0]%Z [None; Some (L "main"); None; None] None [], [3; 4])] [] [] _ _ _); [|discriminate|constructor].
    exact (ol_cons _ _ _ _ _ F (ol_nil _ _)). }
  refine (own_obj sample KCoreStack 0 _ [Some 1] [Some (L "/bin/a")] [1] [Some 2] _ [2; 3; 4] None None [] [] None eq_refl eq_refl _ _ _); [repeat constructor|constructor|].
  refine (ok_cons _ KCoreThread true [] (Some 2) [] [(2, Val [] [] None [[Val [16; 0; 0]%Z [None; Some (L "main"); None; None] None []]], [2; 3; 4])] [] [] _ _ _); [|discriminate|constructor].
  exact (ol_cons _ _ _ _ _ T (ol_nil _ _)).
Qed.
(** A new report. *)
Definition new_report : heap := [CObj KReport [2; 0; 0; 1; 0]%Z [None] [None; None; None; None] None [None; None] None].
Example C71_report : structure new_report 0 KReport [2; 0; 0; 1; 0]%Z [None] [] [None; None; None; None] None [None; None] None /\
  number_of KReport [2; 0; 0; 1; 0]%Z (L "report_type") (Z.of_nat 0) /\ nth_error type_names 7 = Some (map ord (L "javascript")) /\
  storable (map ord (L "abrt")).
Proof.
  split; [split; [reflexivity|]; split; [reflexivity|]; split; [intros []|]; split; [constructor|]; exists [None]; split; [reflexivity|repeat constructor]|].
  split; [exists 1; split; reflexivity|]. split; [reflexivity|]. change (map ord (L "abrt")) with [97; 98; 114; 116]%Z.
  split; repeat (apply Forall_cons; [unfold surrogate; lia|]); apply Forall_nil.
Qed.
Print Assumptions C71_utf8_encode.
Print Assumptions C71_utf8_decode.
Print Assumptions C71_names.
Print Assumptions C71_read.
Print Assumptions C71_assign.
Print Assumptions C71_assign_owner.
Print Assumptions C71_refuse.
Print Assumptions C71_delete.
Print Assumptions C71_report_type.
Print Assumptions C71_report_type_assign.
Print Assumptions C71_report_type_refuse.
Print Assumptions C71_report_version.
Print Assumptions C71_reporter.
Print Assumptions C71_reporter_refuted.
Print Assumptions C71_line_wraps_refuted.
Print Assumptions C71_address_wraps_refuted.
Print Assumptions C71_nul_refuted.
Print Assumptions C71_truth_refuted.
