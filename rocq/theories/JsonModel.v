(** * Model of lib/json_utils.c and of the json-c calls it makes. *)
From Verif Require Import Base JsonSpec.
Open Scope Z_scope.

(* lib/json_utils.c:68-107 sr_json_escape *)
Definition json_escape_char (c : ascii) : str :=
  if Ascii.eqb c dquote then [backslash; dquote]
  else if Ascii.eqb c nl then [backslash; "n"%char]
  else if Ascii.eqb c backslash then [backslash; backslash]
  else if Ascii.eqb c cr then [backslash; "r"%char]
  else if Ascii.eqb c ff then [backslash; "f"%char]
  else if Ascii.eqb c bs then [backslash; "b"%char]
  else if Ascii.eqb c tab then [backslash; "t"%char]
  else [c].
Definition sr_json_escape (text : str) : str := concat (map json_escape_char text).

(* lib/json_utils.c:109-119 sr_json_append_escaped (the text appended) *)
Definition json_quoted (s : str) : str := dquote :: sr_json_escape s ++ [dquote].

(** printf %u / PRIu64 / %d: decimal without leading zeros.  [fuel] bounds the digits; the
    wrapper gives as many as the number has bits. *)
Fixpoint dec_digits (fuel : nat) (n : N) : str :=
  match fuel with
  | O => []
  | S f =>
    let d := ascii_of_N (48 + N.modulo n 10) in
    if (n <? 10)%N then [d] else dec_digits f (N.div n 10) ++ [d]
  end.
Definition print_N (n : N) : str := dec_digits (S (N.to_nat (N.log2 n))) n.
Definition print_Z (z : Z) : str :=
  if z <? 0 then "-"%char :: print_N (Z.to_N (- z)) else print_N (Z.to_N z).

(** json-c (not part of the repository): value of a JSON integer as int64 / int saturates. *)
Definition int64_max : Z := 9223372036854775807.
Definition int64_min : Z := -9223372036854775808.
Definition int32_max : Z := 2147483647.
Definition int32_min : Z := -2147483648.
Definition clamp (lo hi z : Z) : Z := Z.max lo (Z.min hi z).
Definition get_int64 (z : Z) : Z := clamp int64_min int64_max z.
Definition get_int (z : Z) : Z := clamp int32_min int32_max z.
(** Conversion to an unsigned C type of [bits] bits. *)
Definition to_unsigned (bits : Z) (z : Z) : Z := z mod 2 ^ bits.

(* lib/json_utils.c:20-45 DEFINE_JSON_READ.  [dest] is the value the destination
   held before; the result is the value it holds afterwards, or Fail on a type error. *)
Definition json_read {A} (o : list (str * json)) (key : str) (conv : json -> option A) (dest : A) : res A :=
  match jget key o with
  | None => Ok dest
  | Some child => match conv child with Some a => Ok a | None => Fail end
  end.
Definition as_uint64 (j : json) : option Z :=
  match j with JInt z => Some (to_unsigned 64 (get_int64 z)) | _ => None end.
Definition as_uint32 (j : json) : option Z :=
  match j with JInt z => Some (to_unsigned 32 (get_int z)) | _ => None end.
Definition as_uint16 (j : json) : option Z :=
  match j with JInt z => Some (to_unsigned 16 (get_int z)) | _ => None end.
Definition as_string (j : json) : option (option str) :=
  match j with JStr s => Some (Some s) | _ => None end.
Definition as_bool (j : json) : option bool :=
  match j with JBool b => Some b | _ => None end.
Definition json_read_uint64 o k (d : Z) := json_read o k as_uint64 d.
Definition json_read_uint32 o k (d : Z) := json_read o k as_uint32 d.
Definition json_read_uint16 o k (d : Z) := json_read o k as_uint16 d.
Definition json_read_string o k (d : option str) := json_read o k as_string d.
Definition json_read_bool o k (d : bool) := json_read o k as_bool d.
