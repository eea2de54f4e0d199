(** * JSON: values and grammar (RFC 8259), independent of the code.

    The grammar covers the whole of RFC 8259 except: numbers are integers, strings have no \u
    escapes (the library never writes either), and any byte from 0x20 on stands for itself
    (validity of UTF-8 sequences is not considered).  A text derivable here is a JSON text. *)
From Verif Require Import Base.
Open Scope Z_scope.

Inductive json : Type :=
| JNull
| JBool (b : bool)
| JInt (z : Z)
| JStr (s : str)
| JArr (l : list json)
| JObj (l : list (str * json)).

Definition cr : ascii := "013"%char.
Definition ff : ascii := "012"%char.
Definition bs : ascii := "008"%char.
Definition backslash : ascii := "\"%char.

(** Whitespace between tokens. *)
Definition ws_char (c : ascii) : Prop := c = sp \/ c = tab \/ c = nl \/ c = cr.
Definition ws (w : str) : Prop := Forall ws_char w.

(** The letter after the backslash and the character it denotes. *)
Inductive escape : ascii -> ascii -> Prop :=
| esc_quote : escape dquote dquote
| esc_backslash : escape backslash backslash
| esc_slash : escape "/" "/"
| esc_b : escape "b" bs
| esc_f : escape "f" ff
| esc_n : escape "n" nl
| esc_r : escape "r" cr
| esc_t : escape "t" tab.

(** [jchars s body]: [body], between quotes, denotes [s]. *)
Inductive jchars : str -> str -> Prop :=
| jc_nil : jchars [] []
| jc_plain c s b : (32 <= code c)%N -> c <> dquote -> c <> backslash ->
    jchars s b -> jchars (c :: s) (c :: b)
| jc_escape e c s b : escape e c -> jchars s b -> jchars (c :: s) (backslash :: e :: b).

(** Bytes the library can put into a JSON string: not a control character, or one that has a
    short escape. *)
Definition json_safe_char (c : ascii) : Prop :=
  (32 <= code c)%N \/ c = nl \/ c = cr \/ c = ff \/ c = bs \/ c = tab.
Definition json_safe (s : str) : Prop := Forall json_safe_char s.

(** Decimal integers: no leading zero, no "-0..." restriction besides RFC 8259's. *)
Definition dig (c : ascii) : option Z :=
  match c with
  | "0"%char => Some 0 | "1"%char => Some 1 | "2"%char => Some 2 | "3"%char => Some 3
  | "4"%char => Some 4 | "5"%char => Some 5 | "6"%char => Some 6 | "7"%char => Some 7
  | "8"%char => Some 8 | "9"%char => Some 9
  | _ => None
  end.
Inductive jdigits : Z -> str -> Prop :=
| jd_one c d : dig c = Some d -> jdigits d [c]
| jd_more z t c d : jdigits z t -> dig c = Some d -> jdigits (z * 10 + d) (t ++ [c]).
Definition jnat (z : Z) (t : str) : Prop := jdigits z t /\ (hd nul t = "0"%char -> t = L "0").
Definition jint (z : Z) (t : str) : Prop :=
  jnat z t \/ exists t', t = "-"%char :: t' /\ jnat (- z) t'.

Inductive jval : json -> str -> Prop :=
| jv_null : jval JNull (L "null")
| jv_true : jval (JBool true) (L "true")
| jv_false : jval (JBool false) (L "false")
| jv_int z t : jint z t -> jval (JInt z) t
| jv_str s b : jchars s b -> jval (JStr s) (dquote :: b ++ [dquote])
| jv_arr0 w : ws w -> jval (JArr []) ("["%char :: w ++ L "]")
| jv_arr l t : jelems l t -> jval (JArr l) ("["%char :: t ++ L "]")
| jv_obj0 w : ws w -> jval (JObj []) ("{"%char :: w ++ L "}")
| jv_obj l t : jmembers l t -> jval (JObj l) ("{"%char :: t ++ L "}")
with jelems : list json -> str -> Prop :=
| je_one v w1 t w2 : ws w1 -> jval v t -> ws w2 -> jelems [v] (w1 ++ t ++ w2)
| je_more v w1 t w2 l tl : ws w1 -> jval v t -> ws w2 -> jelems l tl ->
    jelems (v :: l) (w1 ++ t ++ w2 ++ ","%char :: tl)
with jmembers : list (str * json) -> str -> Prop :=
| jm_one k kb v w1 w2 w3 t w4 : ws w1 -> jchars k kb -> ws w2 -> ws w3 -> jval v t -> ws w4 ->
    jmembers [(k, v)] (w1 ++ dquote :: kb ++ dquote :: w2 ++ ":"%char :: w3 ++ t ++ w4)
| jm_more k kb v w1 w2 w3 t w4 l tl : ws w1 -> jchars k kb -> ws w2 -> ws w3 -> jval v t -> ws w4 ->
    jmembers l tl ->
    jmembers ((k, v) :: l) (w1 ++ dquote :: kb ++ dquote :: w2 ++ ":"%char :: w3 ++ t ++ w4 ++ ","%char :: tl).

(** A JSON text: a value with whitespace around it. *)
Definition json_text (v : json) (t : str) : Prop :=
  exists w1 t' w2, ws w1 /\ jval v t' /\ ws w2 /\ t = w1 ++ t' ++ w2.

Definition valid_json (t : str) : Prop := exists v, json_text v t.

(** Member lookup; of duplicate keys the last one counts. *)
Fixpoint jget (k : str) (l : list (str * json)) : option json :=
  match l with
  | [] => None
  | (k', v) :: r =>
    match jget k r with
    | Some x => Some x
    | None => if str_eqb k k' then Some v else None
    end
  end.
