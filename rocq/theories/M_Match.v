(** * Model: matching a text against the genre table (scribbu/winamp-genres.cc). *)
From Coq Require Import ZArith.
From Verif Require Import Base M_Genres.
Open Scope Z_scope.

(** ** Arrays

    The array of 1D indices that the code works on, as a binary tree over
    positions; a missing entry has the value the array was filled with. *)
Inductive tree := Leaf | Node (l : tree) (v : option Z) (r : tree).
Fixpoint tfind (p : positive) (t : tree) : option Z :=
  match t with
  | Leaf => None
  | Node l v r => match p with xH => v | xO q => tfind q l | xI q => tfind q r end
  end.
Fixpoint tset (p : positive) (x : Z) (t : tree) : tree :=
  match p with
  | xH => match t with Leaf => Node Leaf (Some x) Leaf | Node l _ r => Node l (Some x) r end
  | xO q => match t with Leaf => Node (tset q x Leaf) None Leaf | Node l v r => Node (tset q x l) v r end
  | xI q => match t with Leaf => Node Leaf None (tset q x Leaf) | Node l v r => Node l v (tset q x r) end
  end.

(** [a_size] elements, filled with [a_fill]. *)
Record arr := mkArr { a_size : Z; a_fill : Z; a_tree : tree }.
Definition key (i : Z) : positive := Z.to_pos (i + 1).
Definition rd (a : arr) (i : Z) : outcome Z :=
  if (0 <=? i) && (i <? a_size a)
  then Ok (match tfind (key i) (a_tree a) with Some x => x | None => a_fill a end) else UB OutOfBounds.
Definition wr (a : arr) (i x : Z) : outcome arr :=
  if (0 <=? i) && (i <? a_size a) then Ok (mkArr (a_size a) (a_fill a) (tset (key i) x (a_tree a))) else UB OutOfBounds.

(** [u32string::operator[]]: the character at the end is a NUL; beyond it the
    behaviour is undefined. *)
Definition chr (s : list N) (i : Z) : outcome N :=
  if i <? 0 then UB OutOfBounds
  else match nth_error s (Z.to_nat i) with
       | Some c => Ok c
       | None => if i =? Z.of_nat (length s) then Ok 0%N else UB OutOfBounds
       end.

(** ** The distance *)

(** scribbu/winamp-genres.cc:270-271: the loop along a diagonal; [fuel] is
    enough when it is at least [L - t]. *)
Fixpoint slide (fuel : nat) (A B : list N) (k L t : Z) : outcome Z :=
  if (0 <=? t) && (- k <=? t) && (t <? L) then
    match fuel with
    | O => NonTerm
    | S fuel =>
        let* a := chr A t in
        let* b := chr B (t + k) in
        if (a =? b)%N then slide fuel A B k L (t + 1) else Ok t
    end
  else Ok t.

(** scribbu/winamp-genres.cc:233-277 [f].  The sums that the code forms in
    [size_t] are exact: [n - k] is the only one that can go below zero, and is
    then larger than [m]. *)
Definition fcell (A B : list N) (inf : Z) (a : arr) (k p : Z) : outcome arr :=
  let m := Z.of_nat (length A) in
  let n := Z.of_nat (length B) in
  let w := inf + 2 in
  let* (t, ta, tb) :=
    if 0 <=? p then
      let* x := rd a ((k + inf) * w + p) in
      let* y := rd a ((k - 1 + inf) * w + p) in
      let* z := rd a ((k + 1 + inf) * w + p) in
      Ok (x + 1, y, z + 1)
    else Ok (- inf, - inf, - inf) in
  let* t2 :=
    if (0 <? t) && (t <? m) && (0 <=? k + t - 1) && (k + t <? n) then
      let* a1 := chr A (t - 1) in
      let* b1 := chr B (k + t) in
      let* a2 := chr A t in
      let* b2 := chr B (k + t - 1) in
      Ok (if (a1 =? b1)%N && (a2 =? b2)%N then t + 1 else t)
    else Ok t in
  let t' := Z.max (Z.max (Z.max t ta) tb) t2 in
  let L := if n - k <? 0 then m else Z.min m (n - k) in
  let* v := slide (length A) A B k L t' in
  if (0 <=? k + inf) && (-2 <? p) then wr a ((k + inf) * w + p + 1) v else Ok a.

(** scribbu/winamp-genres.cc:297-309: the inner loop from [tp] on, [count] rounds;
    [p - tp] is [inc]. *)
Fixpoint inner (A B : list N) (inf : Z) (p : Z) (count : nat) (tp : Z) (a : arr) : outcome arr :=
  match count with
  | O => Ok a
  | S count =>
      let k0 := Z.of_nat (length B) - Z.of_nat (length A) in
      let inc := p - tp in
      let* a1 := if Z.abs (k0 - inc) <=? tp then fcell A B inf a (k0 - inc) tp else Ok a in
      let* a2 := if Z.abs (k0 + inc) <=? tp then fcell A B inf a1 (k0 + inc) tp else Ok a1 in
      inner A B inf p count (tp + 1) a2
  end.

(** scribbu/winamp-genres.cc:295-312: the loop over [p]. *)
Fixpoint outer (fuel : nat) (A B : list N) (inf : Z) (p : Z) (a : arr) : outcome (Z * arr) :=
  match fuel with
  | O => NonTerm
  | S fuel =>
      let k0 := Z.of_nat (length B) - Z.of_nat (length A) in
      let* a1 := inner A B inf p (Z.to_nat p) 0 a in
      let* a2 := fcell A B inf a1 k0 p in
      let* x := rd a2 ((k0 + inf) * (inf + 2) + (p + 1)) in
      if x =? Z.of_nat (length A) then Ok (p, a2) else outer fuel A B inf (p + 1) a2
  end.

(** scribbu/winamp-genres.cc:279-315 [damerau_levenshtein]; the result is a
    [size_t].  The code has no bound on the number of rounds. *)
Definition distance (A B : list N) (inf : Z) (a : arr) : outcome (Z * arr) :=
  let k0 := Z.of_nat (length B) - Z.of_nat (length A) in
  let* (d, a') := outer (Z.to_nat (4 * inf + 8)) A B inf k0 a in
  Ok (d mod 2 ^ 64, a').

(** scribbu/winamp-genres.cc:563-581: the array before the first comparison. *)
Fixpoint init_rows (inf : Z) (count : nat) (k : Z) (t : tree) : tree :=
  match count with
  | O => t
  | S count => init_rows inf count (k + 1)
                 (tset (key ((k + inf) * (inf + 2) + Z.abs k)) (if k <? 0 then Z.abs k - 1 else -1) t)
  end.
Definition init_arr (inf : Z) : arr :=
  mkArr ((2 * inf + 1) * (inf + 2)) (- inf) (init_rows inf (Z.to_nat (2 * inf + 1)) (- inf) Leaf).

(** scribbu/winamp-genres.cc:585-593: the loop over the table, from the genre
    number [i] on; [best] is [None] while [best_genre] is uninitialised. *)
Fixpoint closest (table : list (list N)) (B : list N) (inf : Z) (i : N) (least : Z) (best : option N) (a : arr)
  : outcome (Z * option N) :=
  match table with
  | [] => Ok (least, best)
  | g :: r =>
      let* (d, a') := distance g B inf a in
      if d <? least then closest r B inf (i + 1) d (Some i) a' else closest r B inf (i + 1) least best a'
  end.

(** scribbu/winamp-genres.cc:545-595, on the text as code points in lower case;
    227: [MAX_GENRE_LENGTH].  The array is a local variable of the code, whose
    size grows with the square of the length of the text; that the stack holds
    it is assumed. *)
Definition match_in (table : list (list N)) (B : list N) : outcome (N * Z) :=
  let inf := Z.max 22 (Z.of_nat (length B)) in
  let* (least, best) := closest table B inf 0 inf None (init_arr inf) in
  match best with
  | Some i => Ok (i, least)
  | None => UB Uninitialised
  end.

(** scribbu/winamp-genres.cc:525-596 [match_winamp_genre].  [wide] stands for the
    conversion from UTF-8, which throws on a text that is not UTF-8, followed by
    [tolower] in the locale of the environment. *)
Definition match_genre (wide : bytes -> outcome (list N)) (text : bytes) : outcome (bytes * N * Z) :=
  let* w := wide text in
  let* (i, d) := match_in genresw w in
  match text_for_genre i with
  | Some s => Ok (s, i, d)
  | None => UB Uninitialised
  end.
