(** * What reading and writing whole files means. *)
From Verif Require Import Base FileModel.
Open Scope nat_scope.

(** The C string stored in some bytes. *)
Definition c_text (bytes : list ascii) (s : str) : Prop :=
  ~ In nul s /\ (bytes = s \/ exists rest, bytes = s ++ nul :: rest).
(** The operating system's answers for an ordinary file that holds [bytes] during the whole call: the
    size is right, and read stores a leading part. *)
Definition holds (r : reading) (bytes : list ascii) : Prop :=
  rd_size r = Some (N.of_nat (length bytes)) /\ forall b, rd_read r = Some b -> exists rest, bytes = b ++ rest.
(** Nothing goes wrong in a call. *)
Definition reads_all (r : reading) (bytes : list ascii) : Prop :=
  rd_open r = true /\ rd_size r = Some (N.of_nat (length bytes)) /\ rd_read r = Some bytes.
Definition fits (bytes : list ascii) : Prop := (N.of_nat (length bytes) <= 20000000)%N.
(** [part] is a leading part of [whole]. *)
Definition leading (part whole : str) : Prop := exists rest, whole = part ++ rest.
(** The file after a call that went through the given states. *)
Definition final (states : list disk) : disk := last states None.
