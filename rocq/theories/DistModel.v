(** * Model of the thread distances (lib/distance.c:33-296).

    Frames are values of any type [F]; [same f g] stands for 0 == sr_frame_cmp_distance(f, g).
    A thread is the list of its frames.  Exact values are computed in Z and Q; [single] rounds a
    real number to IEEE single precision where a property speaks about rounding (DistFloat.v). *)
From Coq Require Import QArith.
From Verif Require Import Base DistMatrixModel.
Open Scope Z_scope.

(** Reading a cell whose value is used: an uninitialised one is undefined behaviour. *)
Definition readz (a : list (option Z)) (l : Z) : res Z :=
  do v <- load a l; match v with Some z => Ok z | None => UB end.

Section Dist.
Context {F : Type} (same : F -> F -> bool).

(** ** Levenshtein and Damerau-Levenshtein *)

(* lib/distance.c:217-252: the body of the inner loop; dist2 = dist1[l] may be an uninitialised
   value as long as it is not used.  All values stay below m + n + 1 <= INT32_MAX (205-206), so
   that the additions are written without overflow checks. *)
Definition lev_cell (transposition : bool) (m i j : Z) (f f2 : F) (prev prev2 : option F)
    (dist dist1 : list (option Z)) : res (list (option Z) * list (option Z)) :=
  let l := m + j - i in
  do dist2 <- load dist1 l;
  do dl <- readz dist l;
  do dist1 <- store dist1 l (Some dl);
  do cv <- (if same f f2 then Ok (0, dl)
            else
              let x := dl + 1 in
              do a <- readz dist (l - 1);
              let x := if a + 1 <? x then a + 1 else x in
              do b <- readz dist (l + 1);
              let x := if b + 1 <? x then b + 1 else x in
              Ok (1, x));
  let '(cost, v) := cv in
  do v <- (if transposition && (2 <=? i) && (2 <=? j) then
             match dist2 with
             | None => UB
             | Some d2 =>
               if d2 + cost <? v then
                 match prev2 with
                 | None => UB
                 | Some p2 =>
                   if same f p2 then
                     match prev with
                     | None => UB
                     | Some p => if same p f2 then Ok (d2 + cost) else Ok v
                     end
                   else Ok v
                 end
               else Ok v
             end
           else Ok v);
  do dist <- store dist l (Some v);
  Ok (dist, dist1).

(* lib/distance.c:215-257: one column; returns the last frame as the new prev_frame *)
Fixpoint lev_rows (transposition : bool) (m j : Z) (f2 : F) (prev2 : option F) (i : Z) (fs : list F) (prev : option F)
    (dist dist1 : list (option Z)) : res (option F * list (option Z) * list (option Z)) :=
  match fs with
  | [] => Ok (prev, dist, dist1)
  | f :: rest =>
    do dd <- lev_cell transposition m i j f f2 prev prev2 dist dist1;
    lev_rows transposition m j f2 prev2 (i + 1) rest (Some f) (fst dd) (snd dd)
  end.
(* lib/distance.c:212-261: all columns *)
Fixpoint lev_cols (transposition : bool) (m : Z) (fs1 : list F) (j : Z) (fs2 : list F) (prev prev2 : option F)
    (dist dist1 : list (option Z)) : res (list (option Z)) :=
  match fs2 with
  | [] => Ok dist
  | f2 :: rest =>
    do r <- lev_rows transposition m j f2 prev2 1 fs1 prev dist dist1;
    let '(prev, dist, dist1) := r in
    lev_cols transposition m fs1 (j + 1) rest prev (Some f2) dist dist1
  end.
(* lib/distance.c:181-268 distance_levenshtein up to the division: None for two empty threads
   (the function returns 0.0), otherwise the edit count and the longer length. *)
Definition lev_counts (transposition : bool) (fs1 fs2 : list F) : res (option (Z * Z)) :=
  let frame_count1 := Z.of_nat (length fs1) in
  let frame_count2 := Z.of_nat (length fs2) in
  let max_frame_count := if frame_count2 <? frame_count1 then frame_count1 else frame_count2 in
  if max_frame_count =? 0 then Ok None
  else
    let m := frame_count1 + 1 in
    let n := frame_count2 + 1 in
    do _ <- assertb (n <=? int_max - 1);
    do _ <- assertb (m <=? int_max - (n + 1));
    let fresh := repeat (@None Z) (Z.to_nat (m + n + 1)) in
    do dist <- fold_res (fun d i => store d (m - i) (Some i)) (rev (zrange 1 (m + 1))) fresh;
    do dist <- fold_res (fun d i => store d (m + i) (Some i)) (zrange 0 (n + 1)) dist;
    do dist <- lev_cols transposition m fs1 1 fs2 None None dist fresh;
    do r <- readz dist n;
    Ok (Some (r, max_frame_count)).
(* lib/distance.c:191-193 and 268: the value returned, before rounding to float *)
Definition distance_levenshtein (transposition : bool) (fs1 fs2 : list F) : res Q :=
  do c <- lev_counts transposition fs1 fs2;
  match c with
  | None => Ok 0%Q
  | Some (r, k) => Ok (inject_Z r / inject_Z k)%Q
  end.

(** ** Jaccard *)

(* lib/distance.c:111-125 distance_jaccard_frames_contain *)
Definition contains (haystack : list F) (needle : F) : bool := existsb (fun h => same h needle) haystack.
(* lib/distance.c:135-154: set1_size and intersection_size *)
Fixpoint jaccard_first (fs fs2 : list F) : Z * Z :=
  match fs with
  | [] => (0, 0)
  | f :: rest =>
    let '(set1, inter) := jaccard_first rest fs2 in
    if contains rest f then (set1, inter)
    else (set1 + 1, if contains fs2 f then inter + 1 else inter)
  end.
(* lib/distance.c:156-168: set2_size *)
Fixpoint jaccard_second (fs : list F) : Z :=
  match fs with
  | [] => 0
  | f :: rest => if contains rest f then jaccard_second rest else jaccard_second rest + 1
  end.
(* lib/distance.c:127-179 distance_jaccard, before rounding to float; a division by a union size
   that is not positive is possible for comparisons that are no equivalences, and a negative
   union size divides like any other. *)
Definition distance_jaccard (fs1 fs2 : list F) : Q :=
  let '(set1, inter) := jaccard_first fs1 fs2 in
  let set2 := jaccard_second fs2 in
  let union := set1 + set2 - inter in
  if union =? 0 then 0%Q
  else
    let d := (1 - inject_Z inter / inject_Z union)%Q in
    if negb (Qle_bool 0 d) then 0%Q else d.

(** ** Jaro-Winkler *)

(* lib/distance.c:58-82: the inner loop over the second thread; the state is (match, still_prefix,
   trans_count).  abs(i - j) <= max_frame_count / 2 - 1. *)
Fixpoint jw_inner (max i j : Z) (f : F) (fs2 : list F) (matched still : bool) (trans : Z) : bool * bool * Z :=
  match fs2 with
  | [] => (matched, still, trans)
  | f2 :: rest =>
    if matched then (matched, still, trans)
    else
      let still := if (i =? j) && negb (same f f2) then false else still in
      let hit := (Z.abs (i - j) <=? Z.quot max 2 - 1) && same f f2 in
      let trans := if hit && negb (i =? j) then trans + 1 else trans in
      jw_inner max i (j + 1) f rest hit still trans
  end.
(* lib/distance.c:54-91: the outer loop; the state is (still_prefix, prefix_len, trans_count,
   match_count) *)
Fixpoint jw_outer (max i : Z) (fs fs2 : list F) (still : bool) (prefix_len trans mtch : Z) : Z * Z * Z :=
  match fs with
  | [] => (prefix_len, trans, mtch)
  | f :: rest =>
    let '(matched, still, trans) := jw_inner max i 1 f fs2 false still trans in
    jw_outer max (i + 1) rest fs2 still (if still then prefix_len + 1 else prefix_len) trans
      (if matched then mtch + 1 else mtch)
  end.
(* lib/distance.c:33-109 distance_jaro_winkler, in exact arithmetic *)
Definition distance_jaro_winkler (fs1 fs2 : list F) : Q :=
  let c1 := Z.of_nat (length fs1) in
  let c2 := Z.of_nat (length fs2) in
  if (c1 =? 0) && (c2 =? 0) then 1%Q
  else
    let max := if c2 <? c1 then c1 else c2 in
    let '(prefix_len, trans, mtch) := jw_outer max 1 fs1 fs2 true 0 0 0 in
    let prefix_len := if 4 <? prefix_len then 4 else prefix_len in
    if mtch =? 0 then 0%Q
    else
      let m := inject_Z mtch in
      let t := (inject_Z trans / 2)%Q in
      let jaro := ((m / inject_Z c1 + m / inject_Z c2 + (m - t) / m) / 3)%Q in
      (jaro + inject_Z prefix_len * (1 # 5) * (1 - jaro))%Q.
End Dist.

(* include/distance.h enum sr_distance_type; other values take the default branch *)
Inductive distance_type := JARO_WINKLER | JACCARD | LEVENSHTEIN | DAMERAU_LEVENSHTEIN | NUM.
(* lib/distance.c:274-296 sr_distance; a thread is its type and its frames *)
Definition sr_distance {F} (same : F -> F -> bool) (dt : distance_type) (t1 t2 : nat * list F) : res Q :=
  if negb (Nat.eqb (fst t1) (fst t2)) then Ok 1%Q
  else
    match dt with
    | JARO_WINKLER => Ok (distance_jaro_winkler same (snd t1) (snd t2))
    | JACCARD => Ok (distance_jaccard same (snd t1) (snd t2))
    | LEVENSHTEIN => distance_levenshtein same false (snd t1) (snd t2)
    | DAMERAU_LEVENSHTEIN => distance_levenshtein same true (snd t1) (snd t2)
    | NUM => Ok 1%Q
    end.
