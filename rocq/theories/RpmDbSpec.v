(** * What a lookup in the RPM database is to give. *)
From Verif Require Import Base Types HeapModel HeapSpec HeapListSpec RpmDbModel.
Open Scope nat_scope.

(** The package a header describes. *)
Definition describes (hd : header) (p : rpm_package) : Prop :=
  exists name epoch version release architecture time,
    h_string hd NAME = Some (Some name) /\ h_uint32 hd EPOCH = Some (Some epoch) /\
    h_string hd VERSION = Some (Some version) /\ h_string hd RELEASE = Some (Some release) /\
    h_string hd ARCH = Some (Some architecture) /\ h_uint32 hd INSTALLTIME = Some (Some time) /\
    p = mk_rpm_package (Some name) epoch (Some version) (Some release) (Some architecture) time ROLE_UNKNOWN [].

(** The members, in the order they are asked for, and what the message calls them. *)
Definition members : list (tag * str) :=
  [(NAME, L "name"); (EPOCH, L "epoch"); (VERSION, L "version"); (RELEASE, L "release");
   (ARCH, L "architecture"); (INSTALLTIME, L "installation time")].
Definition numeric (t : tag) : bool := match t with EPOCH | INSTALLTIME => true | _ => false end.
(** The header has a value for the tag; it has no such tag at all. *)
Definition gives (hd : header) (t : tag) : Prop :=
  if numeric t then exists z, h_uint32 hd t = Some (Some z) else exists s, h_string hd t = Some (Some s).
Definition no_tag (hd : header) (t : tag) : Prop :=
  if numeric t then h_uint32 hd t = None else h_string hd t = None.
(** The first member without a value is the one at place [i]. *)
Definition lacks (hd : header) (i : nat) (t : tag) (word : str) : Prop :=
  nth_error members i = Some (t, word) /\ ~ gives hd t /\
  forall j t' w', j < i -> nth_error members j = Some (t', w') -> gives hd t'.

(** What is done with librpm's containers for [n] values, each released, and the whole session around it. *)
Fixpoint released (n : nat) : list event := match n with O => [] | S n => DataNew :: DataFree :: released n end.
(** When the member at place [i] is the first without a value: its container is released too, unless there is no tag. *)
Definition says (i : nat) (gone : Prop) (evs : list event) : Prop :=
  (gone -> evs = released i ++ [DataNew]) /\ (~ gone -> evs = released (S i)).
Definition session (inner : list event) : list event := [SetNew; IterNew] ++ inner ++ [IterFree; SetFree].

(** Memory that existed before is as it was. *)
Definition old_kept (h h' : heap) : Prop :=
  length h <= length h' /\ forall x, x < length h -> nth_error h' x = nth_error h x.

(** The packages found: the list [p] holds exactly [ps], in that order, in memory of its own, which is all the memory
    the lookup leaves behind. *)
Definition found (h h' : heap) (p : option addr) (ps : list rpm_package) : Prop :=
  old_kept h h' /\ exists l, own_list h' KRpm p l /\ packages_are l ps /\ separate (foot l) /\
    forall x, In x (foot l) <-> length h <= x < length h'.
(** Only the message is left behind. *)
Definition only_message (h h' : heap) (m : addr) (msg : str) : Prop :=
  old_kept h h' /\ length h <= m < length h' /\ nth_error h' m = Some (CStr msg) /\
  forall x, length h <= x < length h' -> x <> m -> freed h' x.

(** The two ways to look packages up, and the tag whose values the key is compared with. *)
Definition lookups := [(sr_rpm_package_get_by_name, NAME); (sr_rpm_package_get_by_path, BASENAMES)].
(** How often something was done. *)
Definition same_event (a b : event) : {a = b} + {a <> b}.
Proof. decide equality. Defined.
Definition times (e : event) (l : list event) : nat := count_occ same_event l e.
