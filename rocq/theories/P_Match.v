(** * Property C37: genre matching.

    Texts are lists of code points in lower case, as the code compares them;
    [genresw] and [genres] are the tables of scribbu/winamp-genres.cc. *)
From Coq Require Import ZArith.
From Verif Require Import Base M_Genres M_Match S_Match L_Match5.
Open Scope Z_scope.

(** A genre number maps to its table text, and exactly the numbers below 192 do. *)
Theorem C37_numbers : forall g,
  text_for_genre g = nth_error genres (N.to_nat g) /\ (text_for_genre g <> None <-> (g < 192)%N).
Proof. intros g. exact (conj (numbers g) (numbers_192 g)). Qed.
Print Assumptions C37_numbers.
Example C37_numbers_nontrivial : text_for_genre 17 = Some (B "Rock") /\ text_for_genre 192 = None.
Proof. split; reflexivity. Qed.

(** The table compared against is the table shown, in lower case, and names no genre twice. *)
Theorem C37_tables : genresw = map (map low) genres /\ NoDup genresw.
Proof. exact (conj genres_lower genres_nodup). Qed.
Print Assumptions C37_tables.
Example C37_tables_nontrivial : nth_error genresw 17 = Some (B "rock") /\ nth_error genres 17 = Some (B "Rock").
Proof. split; reflexivity. Qed.

(** A text that equals a genre up to case gives that genre, at distance zero,
    wherever the conversion gives the text in lower case. *)
Theorem C37_itself : forall wide text i s,
  wide text = Ok (map low text) -> nth_error genres i = Some s -> map low text = map low s ->
  match_genre wide text = Ok (s, N.of_nat i, 0).
Proof. exact match_case. Qed.
Print Assumptions C37_itself.
Example C37_itself_nontrivial : map low (B "tRiP-hop") = map low (B "Trip-Hop") /\ nth_error genres 27 = Some (B "Trip-Hop").
Proof. split; reflexivity. Qed.

(** Distance zero is reported for nothing else. *)
Theorem C37_zero : forall text i, (1 <= length text)%nat -> Z.of_nat (length text) < 2 ^ 62 ->
  (match_in genresw text = Ok (i, 0) <-> nth_error genresw (N.to_nat i) = Some text).
Proof. exact match_zero. Qed.
Print Assumptions C37_zero.
Example C37_zero_nontrivial : nth_error genresw 17 = Some (B "rock").
Proof. reflexivity. Qed.

(** The genre returned lies at the distance returned, and is the first of the
    closest among those no longer than the text or shorter than half of the
    length of the text plus 24.  The full property has all genres in place of
    these; see [C37_missed_refuted]. *)
Theorem C37_closest_partial : forall text i d, (1 <= length text)%nat -> Z.of_nat (length text) < 2 ^ 62 ->
  match_in genresw text = Ok (i, d) ->
  0 <= d /\
  first_closest (fun g => length g <= length text \/ 2 * length g < length text + 24)%nat
    genresw text (N.to_nat i) (Z.to_nat d).
Proof. exact match_closest. Qed.
Print Assumptions C37_closest_partial.
Example C37_closest_partial_nontrivial :
  match_in (firstn 20 genresw) (B "rcok") = Ok (17%N, 1) /\ match_in (firstn 30 genresw) (B "trip hop!") = Ok (27%N, 2).
Proof. vm_compute. auto. Qed.

(** For a text of more than twenty characters these are all genres. *)
Theorem C37_closest_long : forall text i d, (21 <= length text)%nat -> Z.of_nat (length text) < 2 ^ 62 ->
  match_in genresw text = Ok (i, d) ->
  0 <= d /\ first_closest (fun _ => True) genresw text (N.to_nat i) (Z.to_nat d).
Proof. exact match_closest_long. Qed.
Print Assumptions C37_closest_long.
Example C37_closest_long_nontrivial : match_in (firstn 20 genresw) (B "very classic rock music") = Ok (1%N, 11).
Proof. vm_compute. reflexivity. Qed.

(** What the caller of the library gets: the name of that genre, its number and the distance. *)
Theorem C37_named_partial : forall wide text w, wide text = Ok w -> (1 <= length w)%nat -> Z.of_nat (length w) < 2 ^ 62 ->
  forall s i d, match_genre wide text = Ok (s, i, d) ->
  text_for_genre i = Some s /\ 0 <= d /\
  first_closest (fun g => length g <= length w \/ 2 * length g < length w + 24)%nat genresw w (N.to_nat i) (Z.to_nat d).
Proof. exact match_genre_spec. Qed.
Print Assumptions C37_named_partial.
Example C37_named_partial_nontrivial :
  match_genre (fun t => Ok (map low t)) (B "Rock") = Ok (B "Rock", 17%N, 0).
Proof. apply C37_itself with (i := 17%nat); reflexivity. Qed.

(** Every text of one to twenty-one characters gets an answer. *)
Theorem C37_answers : forall text, (1 <= length text < 22)%nat ->
  exists i d, match_in genresw text = Ok (i, d) /\ (i < 192)%N.
Proof. exact match_short. Qed.
Print Assumptions C37_answers.
Example C37_answers_nontrivial : (1 <= length (B "rock") < 22)%nat.
Proof. cbn; lia. Qed.

(** A longer text gets one exactly when some genre is closer than its length;
    otherwise an uninitialised variable is returned. *)
Theorem C37_answers_long : forall text, (22 <= length text)%nat -> Z.of_nat (length text) < 2 ^ 62 ->
  ((exists i d, match_in genresw text = Ok (i, d)) <->
   exists g e, In g genresw /\ dist g text e /\ (e < length text)%nat) /\
  ((forall g e, In g genresw -> dist g text e -> (length text <= e)%nat) -> match_in genresw text = UB Uninitialised).
Proof. exact match_long. Qed.
Print Assumptions C37_answers_long.
Example C37_answers_long_nontrivial : (22 <= length (B "contemporary christians"))%nat.
Proof. cbn; lia. Qed.

(** In particular for every text of 22 characters or more, none of which occurs in a genre. *)
Theorem C37_uninitialised_refuted : forall text, (22 <= length text)%nat -> Z.of_nat (length text) < 2 ^ 62 ->
  (forall g c, In g genresw -> In c text -> ~ In c g) -> match_in genresw text = UB Uninitialised.
Proof. exact match_foreign. Qed.
Print Assumptions C37_uninitialised_refuted.
Example C37_uninitialised_refuted_nontrivial :
  forallb (fun g => forallb (fun c => negb (c =? 1080)%N) g) genresw = true /\
  match_in (firstn 10 genresw) (repeat 1080%N 25) = UB Uninitialised.
Proof. vm_compute. auto. Qed.

(** The empty text leads to a read outside of the array. *)
Theorem C37_empty_refuted : match_in genresw [] = UB OutOfBounds.
Proof. vm_compute. reflexivity. Qed.
Print Assumptions C37_empty_refuted.

(** A closer genre can be missed: for "neue deutsch" the answer is "Eurodance" at
    distance 8, "Neue Deutsche Welle" is at distance 7. *)
Theorem C37_missed_refuted : exists text i d j g e,
  match_in genresw text = Ok (i, d) /\ nth_error genresw j = Some g /\ dist g text e /\ Z.of_nat e < d.
Proof.
  exists (B "neue deutsch"), 54%N, 8, 185%nat, (B "neue deutsch" ++ B "e welle"), 7%nat.
  split; [vm_compute; reflexivity|]. split; [reflexivity|]. split; [exact (L_Match5.dist_prefix _ _)|reflexivity].
Qed.
Print Assumptions C37_missed_refuted.
