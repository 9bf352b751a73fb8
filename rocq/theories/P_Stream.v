(** * C02: probing for an ID3v2 header. *)
From Verif Require Import Base M_Stream S_Stream L_Stream.

(** On any stream in a good state (any content, any position, any exception
    mask): either a header stands at the read position, and the probe reports
    exactly its fields, leaving the position or moving past the header; or none
    does, and the probe says so and leaves the stream as it was.  The exception
    mask is unchanged in every case. *)
Theorem C02_probe_exact : forall (data : bytes) (pos exc : N) (restore : bool),
  let s := mkIs data pos exc 0 in
  (exists v r f sz,
      id3v2_header_at data pos v r f sz /\
      looking_at_id3v2 restore s =
      (Ok (Some (mkInfo v r f sz)), mkIs data (if restore then pos else pos + 10) exc 0)) \/
  ((forall v r f sz, ~ id3v2_header_at data pos v r f sz) /\
   looking_at_id3v2 restore s = (Ok None, s)).
Proof. exact looking_at_exact. Qed.
Print Assumptions C02_probe_exact.
Example C02_probe_exact_nontrivial :
  id3v2_header_at ([1; 2] ++ B "ID3" ++ [3; 0; 128; 0; 0; 2; 1; 9]) 2 3 0 128 257.
Proof. exists 0, 0, 2, 1, [9]. repeat split; try discriminate; repeat constructor. Qed.

(** The reported fields are determined by the file and position. *)
Theorem C02_header_unique : forall data pos v r f sz v' r' f' sz',
  id3v2_header_at data pos v r f sz -> id3v2_header_at data pos v' r' f' sz' ->
  v = v' /\ r = r' /\ f = f' /\ sz = sz'.
Proof. exact header_at_unique. Qed.
Print Assumptions C02_header_unique.
Example C02_header_unique_nontrivial :
  id3v2_header_at (B "ID3" ++ [4; 0; 0; 0; 0; 0; 5]) 0 4 0 0 5.
Proof. exists 0, 0, 0, 5, []. repeat split; try discriminate; repeat constructor. Qed.
