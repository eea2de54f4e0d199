(** * Vocabulary for the text parsers' specifications. *)
From Verif Require Import Base UtilsSpec.

(** [s] is a decimal numeral of a 32-bit number. *)
Definition number32 (s : str) (v : N) : Prop := numeral decimal_digit 10 s v /\ (v <= 4294967295)%N.
(** [r] is empty or goes on with one of the characters. *)
Definition stops_at (set r : str) : Prop := match r with [] => True | c :: _ => In c set end.
Definition begins (p s : str) : Prop := exists r, s = p ++ r.
(** none of the characters is in [s] *)
Definition without (set s : str) : Prop := Forall (fun c => ~ In c set) s.
Definition starts_with_digit (s : str) : Prop := match s with [] => False | c :: _ => decimal_digit c <> None end.
(** A path below /home loses the user's name. *)
Definition anonymized (path shown : str) : Prop :=
  (exists user rest, ~ In "/"%char user /\ path = L "/home/" ++ user ++ "/"%char :: rest /\ shown = L "/home/anonymized/" ++ rest) \/
  ((forall user rest, ~ In "/"%char user -> path <> L "/home/" ++ user ++ "/"%char :: rest) /\ shown = path).
