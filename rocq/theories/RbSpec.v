(** * What Ruby objects are to be: values, without any memory behind them. *)
From Verif Require Import Base Types JsonSpec ReportModel CrashModel SystemModel TextModel AbrtModel RbModel.
Open Scope nat_scope.

(** A report; a stack trace, and the object it was obtained from; a thread; or an object that has been collected. *)
Inductive shown := VReport (r : report) | VTrace (s : stacktrace) (from : nat) | VThread (t : thread) | VGone.

Section Values.
Variable tokener : str -> option json.
Variable message : str -> str.
Variable sha1 : str -> str.
Variables package_name package_version : str.
Notation reading := (report_from_text tokener message package_name package_version).

(** The types Report#stacktrace knows. *)
Definition known_type (s : stacktrace) : bool := match s with SCore _ | SPython _ | SKoops _ | SJava _ | SGdb _ => true | SRuby _ | SJs _ => false end.
Definition chosen {A} (x : option A) (default : A) : A := match x with Some v => v | None => default end.

(** One step; a library function without a result (UB) is UB. *)
Definition value_step (vs : list shown) (e : op) : res (list shown * answer) :=
  match e with
  | New json =>
    do (r, m) <- reading json;
    Ok (match m, r with
        | Some m, _ => (vs, Raised (L "Failed to parse JSON: " ++ m))
        | None, Some r => (vs ++ [VReport r], Object (length vs))
        | None, None => (vs, Raised (L "Failed to create stacktrace"))
        end)
  | GetStacktrace o =>
    Ok (match nth_error vs o with
        | Some (VReport r) =>
          match rep_stacktrace r with
          | None => (vs, Nil)
          | Some s => if known_type s then (vs ++ [VTrace s o], Object (length vs)) else (vs, Raised (L "Invalid report type"))
          end
        | _ => (vs, NoObject)
        end)
  | FindCrashThread o =>
    Ok (match nth_error vs o with
        | Some (VTrace s _) =>
          match sr_stacktrace_find_crash_thread s with
          | None => (vs, Raised (L "Could not find crash thread"))
          | Some t => (vs ++ [VThread t], Object (length vs))
          end
        | _ => (vs, NoObject)
        end)
  | Duphash o opts =>
    match nth_error vs o with
    | Some (VThread t) =>
      do h <- sr_thread_get_duphash sha1 t (chosen (opt_frames opts) 0%Z) (Some (chosen (opt_prefix opts) [])) (chosen (opt_flags opts) 1%N);
      Ok (vs, match h with None => Raised (L "Failed to compute duphash") | Some h => Text h end)
    | _ => Ok (vs, NoObject)
    end
  | Collect o =>
    Ok (match nth_error vs o with
        | None | Some VGone => (vs, NoObject)
        | Some _ => (firstn o vs ++ VGone :: skipn (S o) vs, Done)
        end)
  end.
Fixpoint values (vs : list shown) (h : list op) : res (list shown * list answer) :=
  match h with
  | [] => Ok (vs, [])
  | e :: h => do (vs, x) <- value_step vs e; do (vs, xs) <- values vs h; Ok (vs, x :: xs)
  end.

(** The crash thread of a core stack trace that names it is asked for after the report the stack trace came from has been
    collected. *)
Definition dangles (h : list op) : Prop :=
  exists h1 o h2 vs xs c i from, h = h1 ++ FindCrashThread o :: h2 /\ values [] h1 = Ok (vs, xs) /\
    nth_error vs o = Some (VTrace (SCore c) from) /\ cs_crash_thread c = Some i /\ nth_error vs from = Some VGone.
(** A text that is read, but not without a message. *)
Definition read_with_message (json : str) : Prop := exists r m, reading json = Ok (Some r, Some m).
End Values.

(** Which blocks are in use. *)
Definition in_use (m : list block) (a : nat) : Prop := exists b, nth_error m a = Some b /\ b <> Gone.
(** The blocks an object owns: a report owns its stack trace too. *)
Definition owned (m : list block) (x : object) : list nat :=
  match x with
  | RbReport a => a :: match nth_error m a with Some (BReport _ (Some t)) => [t] | _ => [] end
  | RbTrace a | RbThread a => [a]
  | Collected => []
  end.
