(** * Looking packages up in the RPM database (lib/rpm.c).

    librpm is a parameter: whether its configuration can be read, the headers its database has for a key, and what each
    header answers for a tag.  [None] in its place is a satyr compiled without librpm.  What satyr does to librpm's own
    objects is kept as a log, since they are not in satyr's memory (HeapModel.v).
    Simplifications: the database does not change during a lookup; librpm does not run out of memory. *)
From Verif Require Import Base Types HeapModel HeapListModel.
Open Scope nat_scope.

Inductive tag := NAME | EPOCH | VERSION | RELEASE | ARCH | INSTALLTIME | BASENAMES.
(* headerGet followed by rpmtdGetString or rpmtdGetUint32.  [None]: headerGet does not return 1; [Some None]: it does, and
   the second function returns NULL.  Simplification: a number is the value of a uint32_t. *)
Record header := mk_header { h_string : tag -> option (option str); h_uint32 : tag -> option (option Z) }.
(* rpmReadConfigFiles; rpmtsInitIterator and rpmdbNextIterator for a tag, a key and the key's length *)
Record librpm := mk_librpm { config_fails : bool; matches : tag -> str -> nat -> list header }.

(* rpmtdNew, rpmtdFree, rpmtsCreate, rpmtsFree, rpmtsInitIterator, rpmdbFreeIterator *)
Inductive event := DataNew | DataFree | SetNew | SetFree | IterNew | IterFree.
Definition world := (heap * list event)%type.
Definition say (w : world) (e : event) : world := (fst w, snd w ++ [e]).

(* lib/rpm.c:37-51 sr_rpm_package_new, sr_rpm_package_init: scalars epoch, install_time, role; strings name, version,
   release, architecture *)
Definition package_new (h : heap) : heap * addr :=
  alloc h (CObj KRpm [0; 0; 0]%Z [None; None; None; None] [None] None [] None).
Fixpoint set_at {A} (l : list A) (i : nat) (x : A) : list A :=
  match l, i with
  | [], _ => []
  | _ :: r, O => x :: r
  | y :: r, S i => y :: set_at r i x
  end.
(* assignments to members of a package *)
Definition set_package_str (h : heap) (rpm : addr) (i : nat) (p : option addr) : res heap :=
  do c <- get h rpm;
  match c with
  | CObj KRpm scal strs kids arr raw next => set_cell h rpm (CObj KRpm scal (set_at strs i p) kids arr raw next)
  | _ => UB
  end.
Definition set_package_num (h : heap) (rpm : addr) (i : nat) (z : Z) : res heap :=
  do c <- get h rpm;
  match c with
  | CObj KRpm scal strs kids arr raw next => set_cell h rpm (CObj KRpm (set_at scal i z) strs kids arr raw next)
  | _ => UB
  end.

(* lib/rpm.c:276-295 header_get_string; the result pointer is a string member of a package *)
Definition header_get_string (w : world) (hd : header) (t : tag) (rpm : addr) (i : nat) : res (world * bool) :=
  let w := say w DataNew in
  match h_string hd t with
  | None => Ok (w, false)
  | Some None =>
    do h <- set_package_str (fst w) rpm i None;
    Ok (say (h, snd w) DataFree, false)
  | Some (Some s) =>
    let '(h, a) := alloc (fst w) (CStr s) in
    do h <- set_package_str h rpm i (Some a);
    Ok (say (h, snd w) DataFree, true)
  end.
(* lib/rpm.c:297-317 header_get_uint32.  Simplification: the number is returned, and stored by the caller. *)
Definition header_get_uint32 (w : world) (hd : header) (t : tag) : world * option Z :=
  let w := say w DataNew in
  match h_uint32 hd t with
  | None => (w, None)
  | Some num => (say w DataFree, num)
  end.

(* A failure after the name: the message is made first, then the package is freed *)
Definition info_fails (w : world) (rpm : addr) (msg : str) : res (world * option addr * option addr) :=
  let '(h, m) := alloc (fst w) (CStr msg) in
  do h <- sr_rpm_package_free h (Some rpm) false;
  Ok ((h, snd w), None, Some m).
(* lib/rpm.c:319-375 header_to_rpm_info: the package and the error message *)
Definition header_to_rpm_info (w : world) (hd : header) (err : option addr) : res (world * option addr * option addr) :=
  let '(h, rpm) := package_new (fst w) in
  let w := (h, snd w) in
  do (w, ok) <- header_get_string w hd NAME rpm 0;
  if negb ok then
    do h <- sr_rpm_package_free (fst w) (Some rpm) false;
    let '(h, m) := alloc h (CStr (L "Failed to find package name.")) in
    Ok ((h, snd w), None, Some m)
  else
  match header_get_uint32 w hd EPOCH with
  | (w, None) => info_fails w rpm (L "Failed to find package epoch.")
  | (w, Some epoch) =>
    do h <- set_package_num (fst w) rpm 0 epoch;
    do (w, ok) <- header_get_string (h, snd w) hd VERSION rpm 1;
    if negb ok then info_fails w rpm (L "Failed to find package version.") else
    do (w, ok) <- header_get_string w hd RELEASE rpm 2;
    if negb ok then info_fails w rpm (L "Failed to find package release.") else
    do (w, ok) <- header_get_string w hd ARCH rpm 3;
    if negb ok then info_fails w rpm (L "Failed to find package architecture.") else
    match header_get_uint32 w hd INSTALLTIME with
    | (w, None) => info_fails w rpm (L "Failed to find package installation time.")
    | (w, Some install_time) =>
      do h <- set_package_num (fst w) rpm 1 install_time;
      Ok ((h, snd w), Some rpm, err)
    end
  end.

(* lib/rpm.c:399-416 and 440-457: the loop over the iterator *)
Fixpoint headers_loop (w : world) (hs : list header) (result err : option addr) : res (world * option addr * option addr) :=
  match hs with
  | [] => Ok (w, result, err)
  | hd :: hs =>
    do (w, package, err) <- header_to_rpm_info w hd err;
    match package with
    | None =>
      do h <- sr_rpm_package_free (fst w) result true;
      Ok ((h, snd w), None, err)
    | Some _ =>
      do (h, result) <- list_append (fst w) result package;
      headers_loop (h, snd w) hs result err
    end
  end.
(* The common text of the two functions below, which differ in the tag *)
Definition get_by (lib : option librpm) (t : tag) (w : world) (key : str) (err : option addr) : res (world * option addr * option addr) :=
  match lib with
  | None =>
    let '(h, m) := alloc (fst w) (CStr (L "satyr compiled without rpm")) in
    Ok ((h, snd w), None, Some m)
  | Some lib =>
    if config_fails lib then
      let '(h, m) := alloc (fst w) (CStr (L "Failed to read RPM configuration files.")) in
      Ok ((h, snd w), None, Some m)
    else
      let w := say (say w SetNew) IterNew in
      do (w, result, err) <- headers_loop w (matches lib t key (length key)) None err;
      Ok (say (say w IterFree) SetFree, result, err)
  end.
(* lib/rpm.c:382-421 sr_rpm_package_get_by_name *)
Definition sr_rpm_package_get_by_name (lib : option librpm) (w : world) (name : str) (err : option addr) :=
  get_by lib NAME w name err.
(* lib/rpm.c:423-462 sr_rpm_package_get_by_path *)
Definition sr_rpm_package_get_by_path (lib : option librpm) (w : world) (path : str) (err : option addr) :=
  get_by lib BASENAMES w path err.
