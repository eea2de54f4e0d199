(** * Package lists and package names (lib/rpm.c) and the dso_list file (lib/abrt.c). *)
From Verif Require Import Base Types UtilsModel CmpModel.
Open Scope nat_scope.

(** ** Positions in a text *)
(* libc strrchr: position of the last [c] *)
Fixpoint strrchr (s : str) (c : ascii) : option nat :=
  match s with
  | [] => None
  | x :: r => match strrchr r c with
              | Some i => Some (S i)
              | None => if Ascii.eqb x c then Some 0 else None
              end
  end.
(* libc strchr: position of the first [c] *)
Fixpoint strchr (s : str) (c : ascii) : option nat :=
  match s with
  | [] => None
  | x :: r => if Ascii.eqb x c then Some 0 else option_map S (strchr r c)
  end.
(* lib/rpm.c:675-681, 719-725: the loop walking back from the last dash; 0 when no dash is found *)
Fixpoint previous_dash (text : str) (i : nat) : nat :=
  match i with
  | 0 => 0
  | S j => if Ascii.eqb (nth j text nul) "-" then j else previous_dash text j
  end.
(* g_strndup(text + from, n) *)
Definition strndup (text : str) (from n : nat) : str := firstn n (skipn from text).

(* lib/rpm.c:662-700 sr_rpm_package_parse_nvr; None is the false return, which sets no output.
   The test of line 672 is never true: a dash was found there. *)
Definition sr_rpm_package_parse_nvr (text : str) : option (str * str * str) :=
  match strrchr text "-" with
  | None => None
  | Some last_dash =>
    let last_but_one_dash := previous_dash text last_dash in
    if Nat.eqb last_but_one_dash 0 || Nat.eqb (last_dash - last_but_one_dash) 1 then None
    else Some (strndup text 0 last_but_one_dash,
               strndup text (last_but_one_dash + 1) (last_dash - last_but_one_dash - 1),
               skipn (last_dash + 1) text)
  end.

(* libc strtoul in base 10 on a whole string: Some (value, is_range_error, rest); None when there
   are no digits (endptr = start).  unsigned long has 64 bits; a minus sign negates modulo 2^64. *)
Definition strtoul10 (s : str) : option (N * bool * str) :=
  let s := snd (span is_space s) in
  let '(neg, s) := match s with
                   | c :: r => if Ascii.eqb c "-" then (true, r) else if Ascii.eqb c "+" then (false, r) else (false, s)
                   | [] => (false, s)
                   end in
  match span is_digit s with
  | ([], _) => None
  | (d, rest) =>
    match strtou 10 d with
    | None => Some (u64max, true, rest)
    | Some v => Some (if neg then ((u64max + 1 - v) mod (u64max + 1))%N else v, false, rest)
    end
  end.

(** Outcome of the NEVRA parser.  [Rejected] sets no output; [Dangling] is the false return of
    lib/rpm.c:770-776, where the release and architecture outputs point to freed memory (and the
    version output to allocated memory). *)
Inductive nevra := Accepted (name : str) (epoch : N) (version release architecture : str) | Rejected | Dangling.
(* lib/rpm.c:702-796 sr_rpm_package_parse_nevra.  last_dot - last_dash <= 1 is a signed comparison. *)
Definition sr_rpm_package_parse_nevra (text : str) : nevra :=
  match strrchr text "." with
  | None => Rejected
  | Some last_dot =>
    match strrchr text "-" with
    | None => Rejected
    | Some last_dash =>
      if last_dot <=? last_dash + 1 then Rejected
      else
        let last_but_one_dash := previous_dash text last_dash in
        if Nat.eqb last_but_one_dash 0 || Nat.eqb (last_dash - last_but_one_dash) 1 then Rejected
        else
          let colon := match strchr (skipn last_but_one_dash text) ":" with
                       | None => None
                       | Some i => if last_dash <? last_but_one_dash + i then None else Some (last_but_one_dash + i)
                       end in
          let architecture := skipn (last_dot + 1) text in
          let release := strndup text (last_dash + 1) (last_dot - last_dash - 1) in
          let name := strndup text 0 last_but_one_dash in
          match colon with
          | Some colon =>
            if Nat.eqb (last_dash - colon) 1 || Nat.eqb (colon - last_but_one_dash) 1 then Rejected
            else
              let version := strndup text (colon + 1) (last_dash - colon - 1) in
              let epoch_str := strndup text (last_but_one_dash + 1) (colon - last_but_one_dash - 1) in
              match strtoul10 epoch_str with
              | None => Dangling
              | Some (r, range, rest) =>
                if range || negb (Nat.eqb (length rest) 0) || (u32max <? r)%N then Dangling
                else Accepted name r version release architecture
              end
          | None => Accepted name 0 (strndup text (last_but_one_dash + 1) (last_dash - last_but_one_dash - 1)) release architecture
          end
    end
  end.

(** ** Sorting and merging.  A list of packages is the linked list; the memory of such lists is the
    subject of P_Heap.v. *)
(* lib/rpm.c:174-206 sr_rpm_package_sort.  [qsort] is the libc function; for an empty list line 203
   reads the first element of an empty array. *)
Definition sr_rpm_package_sort (qsort : (rpm_package -> rpm_package -> Z) -> list rpm_package -> list rpm_package)
           (packages : list rpm_package) : res (list rpm_package) :=
  match packages with
  | [] => UB
  | _ => Ok (qsort rpm_cmp_nevra packages)
  end.
(* lib/rpm.c:208-241 package_merge *)
Definition package_merge (p q : rpm_package) : option rpm_package :=
  if negb (rpm_cmp_nvr p q =? 0)%Z then None
  else if negb (rp_epoch p =? rp_epoch q)%Z then None
  else if match rp_architecture p, rp_architecture q with
          | Some _, Some _ => negb (g_strcmp0 (rp_architecture p) (rp_architecture q) =? 0)%Z
          | _, _ => false
          end then None
  else Some (mk_rpm_package (rp_name p) (rp_epoch p) (rp_version p) (rp_release p)
               (match rp_architecture p with Some a => Some a | None => rp_architecture q end)
               (if (rp_install_time p =? 0)%Z then rp_install_time q else rp_install_time p)
               (match rp_role p with ROLE_UNKNOWN => rp_role q | r => r end) []).
(* lib/rpm.c:243-278 sr_rpm_package_uniq: [p] is the package under the cursor *)
Fixpoint uniq_from (p : rpm_package) (rest : list rpm_package) : list rpm_package :=
  match rest with
  | [] => [p]
  | q :: r => match package_merge p q with
              | Some m => uniq_from m r
              | None => p :: uniq_from q r
              end
  end.
Definition sr_rpm_package_uniq (packages : list rpm_package) : list rpm_package :=
  match packages with [] => [] | p :: r => uniq_from p r end.

(** ** The dso_list file *)
(* the text from the first [c] on (libc strchr as a pointer); None is NULL *)
Definition from_char (c : ascii) (s : str) : option str := option_map (fun i => skipn i s) (strchr s c).
(* lib/abrt.c:207-284 sr_abrt_parse_dso_list.  [pos] is the cursor, None when NULL.  Each round moves
   the cursor forward over at least one space, so the length of the text is enough fuel.  Freeing a
   package whose release and architecture dangle frees them twice: undefined behaviour. *)
Fixpoint dso_loop (fuel : nat) (pos : option str) : res (list rpm_package) :=
  match pos with
  | None | Some [] => Ok []
  | Some text =>
    match fuel with
    | O => UB
    | S fuel =>
      match from_char sp text with
      | None => dso_loop fuel None
      | Some at_space =>
        let pos := skipn 1 at_space in
        match strchr pos sp with
        | None => dso_loop fuel (from_char nl pos)
        | Some len =>
          if len <=? 1 then dso_loop fuel (from_char nl pos)
          else
            match sr_rpm_package_parse_nevra (firstn len pos) with
            | Dangling => UB
            | Rejected => dso_loop fuel (from_char nl pos)
            | Accepted name epoch version release architecture =>
              match strchr pos nl with
              | None => Ok []
              | Some eol =>
                let line := firstn eol pos in
                match strrchr line sp with
                | None => dso_loop fuel (from_char nl pos)
                | Some i =>
                  match sr_parse_uint64 (skipn (i + 1) line) with
                  | None => dso_loop fuel (from_char nl pos)
                  | Some (install_time, _, _) =>
                    do rest <- dso_loop fuel (from_char nl pos);
                    Ok (mk_rpm_package (Some name) (Z.of_N epoch) (Some version) (Some release) (Some architecture)
                          (Z.of_N install_time) ROLE_UNKNOWN [] :: rest)
                  end
                end
              end
            end
        end
      end
    end
  end.
Definition sr_abrt_parse_dso_list (text : str) : res (list rpm_package) := dso_loop (S (length text)) (Some text).
