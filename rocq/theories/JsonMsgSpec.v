(** * What JSON the readers want, as tables; and what is to be said of other JSON. *)
From Verif Require Import Base Types JsonSpec JsonModel JsonTypesModel SystemModel TextModel ReportModel ReportSpec.
Open Scope nat_scope.

(** ** Tables *)
(** A value of a kind; one that passes a test; a list; an object with members.  Members may be missing. *)
Inductive wanted :=
| Bool_ | Whole | Text
| Such (complains : json -> option str)
| List_ (element_name : str) (w : wanted)
| Object_ (members : list (condition * str * str * wanted))
(** A member is looked at always, or only if another one is missing. *)
with condition := Always | Unless (key : str).

Definition expected (name kind : str) : str := L "Invalid type of `" ++ name ++ L "`; `" ++ kind ++ L "` expected".

Definition due (c : condition) (o : list (str * json)) : bool :=
  match c with Always => true | Unless k => match jget k o with None => true | Some _ => false end end.

(** ** Fitting *)
Fixpoint fits (w : wanted) (j : json) : Prop :=
  match w, j with
  | Bool_, JBool _ | Whole, JInt _ | Text, JStr _ => True
  | Such f, j => f j = None
  | List_ _ w, JArr l => forall x, In x l -> fits w x
  | Object_ ms, JObj o =>
    (fix all (ms : list (condition * str * str * wanted)) : Prop :=
       match ms with
       | [] => True
       | (c, key, _, w) :: ms => (due c o = true -> forall x, jget key o = Some x -> fits w x) /\ all ms
       end) ms
  | _, _ => False
  end.

(** ** Complaints: the first in the order of the table *)
Definition or_else {A} (x y : option A) : option A := match x with Some _ => x | None => y end.
Fixpoint complaint (name : str) (w : wanted) (j : json) : option str :=
  match w with
  | Bool_ => match j with JBool _ => None | _ => Some (expected name (L "boolean")) end
  | Whole => match j with JInt _ => None | _ => Some (expected name (L "int")) end
  | Text => match j with JStr _ => None | _ => Some (expected name (L "string")) end
  | Such f => f j
  | List_ element w =>
    match j with
    | JArr l => fold_right (fun x r => or_else (complaint element w x) r) None l
    | _ => Some (expected name (L "array"))
    end
  | Object_ ms =>
    match j with
    | JObj o =>
      (fix all (ms : list (condition * str * str * wanted)) : option str :=
         match ms with
         | [] => None
         | (c, key, shown, w) :: ms =>
           or_else (if due c o then match jget key o with Some x => complaint shown w x | None => None end else None) (all ms)
         end) ms
    | _ => Some (expected name (L "object"))
    end
  end.

(** ** What a complaint says: a part of the document, with the name it goes by, is not of the kind told. *)
Inductive part (root : json) : json -> Prop :=
| the_root : part root root
| an_element l x : part root (JArr l) -> In x l -> part root x
| a_member o key x : part root (JObj o) -> jget key o = Some x -> part root x.
Definition kind_name (j : json) : str :=
  match j with JNull => L "null" | JBool _ => L "boolean" | JInt _ => L "int" | JStr _ => L "string" | JArr _ => L "array" | JObj _ => L "object" end.
(** Words for elements and for values that have another name than their key. *)
Definition words : list str := [L "root value"; L "operating system"; L "package list"; L "package"; L "stacktrace"; L "thread"; L "frame"; L "taint flag"; L "module"].
Definition goes_by (root x : json) (name : str) : Prop := (exists o, part root (JObj o) /\ jget name o = Some x) \/ In name words.
Definition says_wrong_kind (root : json) (m : str) : Prop :=
  exists x name kind, part root x /\ goes_by root x name /\ kind <> kind_name x /\ m = expected name kind.

(** Other complaints: a role that is not known, a platform without a name or with one that is not known. *)
Definition member (j : json) (key : str) : option json := match j with JObj o => jget key o | _ => None end.
Inductive says_other (root : json) : str -> Prop :=
| unknown_role s : part root (JStr s) -> goes_by root (JStr s) (L "package_role") -> s <> L "affected" -> says_other root (L "Invalid package role " ++ s)
| no_name platform key : part root platform -> In key [L "engine"; L "runtime"] -> member platform key = None -> says_other root (L "No '" ++ key ++ L "' member")
| unknown_name platform key known s : part root platform -> In (key, known) [(L "engine", L "V8"); (L "runtime", L "Node.js")] -> member platform key = Some (JStr s) ->
    s <> known -> s <> L "<unknown>" -> says_other root (L "Unknown JavaScript " ++ key ++ L " '" ++ s ++ L "'").
Definition says (root : json) (m : str) : Prop := says_wrong_kind root m \/ says_other root m.

(** ** The tables of the stack traces *)
Definition field (key : str) (w : wanted) : condition * str * str * wanted := (Always, key, key, w).
Definition name_or (key other : str) : list (condition * str * str * wanted) := [field key Text; (Unless key, other, other, Text)].
Definition core_frame_table : wanted :=
  Object_ [field (L "address") Whole; field (L "build_id") Text; field (L "build_id_offset") Whole; field (L "function_name") Text; field (L "file_name") Text;
           field (L "fingerprint") Text; field (L "fingerprint_hashed") Bool_].
Definition core_table : wanted :=
  Object_ [field (L "signal") Whole; field (L "executable") Text; field (L "only_crash_thread") Bool_;
           field (L "stacktrace") (List_ (L "thread") (Object_ [field (L "frames") (List_ (L "frame") core_frame_table); field (L "crash_thread") Bool_]))].
Definition python_table : wanted :=
  Object_ [field (L "exception_name") Text;
           field (L "stacktrace") (List_ (L "frame") (Object_ (name_or (L "file_name") (L "special_file") ++ name_or (L "function_name") (L "special_function") ++
             [field (L "line_contents") Text; field (L "file_line") Whole])))].
Definition ruby_table : wanted :=
  Object_ [field (L "exception_name") Text;
           field (L "stacktrace") (List_ (L "frame") (Object_ (field (L "file_name") Text :: name_or (L "function_name") (L "special_function") ++
             [field (L "file_line") Whole; field (L "block_level") Whole; field (L "rescue_level") Whole])))].
(** Engine and runtime have to be there; the only names are V8, Node.js and <unknown>. *)
Definition named (o : list (str * json)) (key what known : str) : option str :=
  match jget key o with
  | None => Some (L "No '" ++ key ++ L "' member")
  | Some (JStr s) => if str_eqb s known || str_eqb s (L "<unknown>") then None else Some (L "Unknown JavaScript " ++ what ++ L " '" ++ s ++ L "'")
  | Some _ => Some (expected key (L "string"))
  end.
Definition platform_complains (j : json) : option str :=
  let o := match j with JObj o => o | _ => [] end in
  or_else (named o (L "engine") (L "engine") (L "V8")) (named o (L "runtime") (L "runtime") (L "Node.js")).
Definition js_table : wanted :=
  Object_ [field (L "exception_name") Text;
           field (L "stacktrace") (List_ (L "frame") (Object_ [field (L "file_name") Text; field (L "function_name") Text; field (L "file_line") Whole; field (L "line_column") Whole]));
           field (L "platform") (Such platform_complains)].
Definition java_table : wanted :=
  Object_ [field (L "threads") (List_ (L "thread") (Object_ [field (L "name") Text;
             field (L "frames") (List_ (L "frame") (Object_ [field (L "name") Text; field (L "file_name") Text; field (L "file_line") Whole; field (L "class_path") Text;
               field (L "is_native") Bool_; field (L "is_exception") Bool_; field (L "message") Text]))]))].
Definition koops_table : wanted :=
  Object_ [field (L "version") Text; field (L "raw_oops") Text; field (L "taint_flags") (List_ (L "taint flag") Text); field (L "modules") (List_ (L "module") Text);
           field (L "frames") (List_ (L "frame") (Object_ [field (L "address") Whole; field (L "reliable") Bool_; field (L "function_name") Text; field (L "function_offset") Whole;
             field (L "function_length") Whole; field (L "module_name") Text; field (L "from_address") Whole; field (L "from_function_name") Text; field (L "from_function_offset") Whole;
             field (L "from_function_length") Whole; field (L "from_module_name") Text; field (L "special_stack") Text]))].
(** The types with a table. *)
Definition table (type : nat) : option wanted :=
  if Nat.eqb type REPORT_CORE then Some core_table else if Nat.eqb type REPORT_PYTHON then Some python_table
  else if Nat.eqb type REPORT_KERNELOOPS then Some koops_table else if Nat.eqb type REPORT_JAVA then Some java_table
  else if Nat.eqb type REPORT_RUBY then Some ruby_table else if Nat.eqb type REPORT_JAVASCRIPT then Some js_table else None.
(** Kernel modules the reader survives. *)
Definition modules_survive (root : json) : Prop :=
  forall o l, root = JObj o -> jget (L "modules") o = Some (JArr l) -> length l <= 127 /\ forall x, In x l -> exists s, x = JStr s.

(** ** Reports *)
Definition role_complains (j : json) : option str :=
  match j with
  | JStr s => if str_eqb s (L "affected") then None else Some (L "Invalid package role " ++ s)
  | _ => Some (expected (L "package_role") (L "string"))
  end.
Definition package_table : wanted :=
  Object_ [field (L "name") Text; field (L "version") Text; field (L "release") Text; field (L "architecture") Text; field (L "epoch") Whole; field (L "install_time") Whole;
           field (L "package_role") (Such role_complains)].
Definition os_table : wanted := Object_ [field (L "name") Text; field (L "version") Text; field (L "architecture") Text; field (L "uptime") Whole].
(** The parts of a report in the order they are read: first what it is refused for, then what is only told. *)
Definition the (key shown : str) (w : wanted) : wanted := Object_ [(Always, key, shown, w)].
Definition told_if (x : option str) : list str := match x with Some m => [m] | None => [] end.
Definition os_told (root : json) : list str :=
  match member root (L "os") with
  | Some (JObj _ as os) => told_if (complaint [] (the (L "desktop") (L "desktop") Text) os) ++ told_if (complaint [] (the (L "variant") (L "variant") Text) os)
  | _ => []
  end.
Definition type_of_report (root : json) : nat :=
  match member root (L "problem") with
  | Some problem => sr_report_type_from_string (match member problem (L "type") with Some (JStr s) => Some s | _ => None end)
  | None => REPORT_INVALID
  end.
Definition trace_told (root : json) : list str :=
  match member root (L "problem"), table (type_of_report root) with
  | Some problem, Some w => if Nat.eqb (type_of_report root) REPORT_JAVASCRIPT then [] else told_if (complaint (L "stacktrace") w problem)
  | _, _ => []
  end.
(** Authentication entries, the last one first. *)
Definition auth_told (root : json) : list str :=
  match member root (L "auth") with
  | Some (JObj ao) => flat_map (fun k => match jget k ao with Some x => told_if (complaint k Text x) | None => [] end) (rev (keys ao))
  | _ => []
  end.
Definition user_complains (root : json) : option str :=
  match member root (L "problem") with
  | None => None
  | Some _ => complaint (L "root value") (the (L "user") (L "user") (Object_ [field (L "root") Bool_; field (L "local") Bool_])) root
  end.
Definition in_problem (key : str) (w : wanted) (root : json) : option str :=
  complaint (L "root value") (the (L "problem") (L "problem") (Object_ [field key w])) root.
Definition stages (root : json) : list (option str * list str) :=
  let on w := complaint (L "root value") w root in
  [(on (the (L "ureport_version") (L "ureport_version") Whole), []);
   (on (the (L "reporter") (L "reporter") (Object_ [field (L "name") Text; field (L "version") Text])), []);
   (on (the (L "os") (L "operating system") os_table), os_told root);
   (on (the (L "packages") (L "package list") (List_ (L "package") package_table)), []);
   (in_problem (L "type") Text root, []);
   (in_problem (L "component") Text root, []);
   (user_complains root, []);
   (in_problem (L "serial") Whole root, []);
   (None, trace_told root);
   (on (the (L "auth") (L "auth") (Object_ [])), auth_told root)].
(** All that is told, and whether the report is refused. *)
Fixpoint in_order (l : list (option str * list str)) : list str * bool :=
  match l with
  | [] => ([], false)
  | (Some m, more) :: _ => (m :: more, true)
  | (None, more) :: l => let '(ms, refused) := in_order l in (more ++ ms, refused)
  end.
(** Only the modules of a kernel oops can break the reader. *)
Definition report_survives (root : json) : Prop :=
  forall problem, member root (L "problem") = Some problem -> type_of_report root = REPORT_KERNELOOPS -> modules_survive problem.

(** ** What reports are made from *)
(** What a report is not refused for. *)
Definition report_accepted (root : json) : Prop :=
  fits (Object_ [field (L "ureport_version") Whole; field (L "reporter") (Object_ [field (L "name") Text; field (L "version") Text]); field (L "os") os_table;
                 field (L "packages") (List_ [] package_table); field (L "problem") (Object_ [field (L "type") Text; field (L "component") Text; field (L "serial") Whole]);
                 field (L "auth") (Object_ [])]) root /\
  (member root (L "problem") <> None -> fits (the (L "user") [] (Object_ [field (L "root") Bool_; field (L "local") Bool_])) root).
(** What there is nothing to be said about: also the optional members of the operating system, the stack trace and the
    authentication entries are as wanted. *)
Definition report_sound (root : json) : Prop :=
  report_accepted root /\ fits (the (L "os") [] (Object_ [field (L "desktop") Text; field (L "variant") Text])) root /\
  (forall problem w, member root (L "problem") = Some problem -> type_of_report root <> REPORT_JAVASCRIPT -> table (type_of_report root) = Some w -> fits w problem) /\
  (forall auth key x, member root (L "auth") = Some auth -> member auth key = Some x -> exists s, x = JStr s).
