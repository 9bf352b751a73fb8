(** * Specification: percent-encoding (RFC 3986, section 2). *)
From Verif Require Import Base.

(** RFC 3986 unreserved characters. *)
Definition unreserved (c : N) : Prop :=
  (65 <= c <= 90) \/ (97 <= c <= 122) \/ (48 <= c <= 57) \/ In c (B "-_.~").

(** [h] is a hexadecimal digit of value [v]. *)
Definition hex_of (h v : N) : Prop :=
  nth_error (B "0123456789abcdef") (N.to_nat v) = Some h \/
  nth_error (B "0123456789ABCDEF") (N.to_nat v) = Some h.

(** [denotes lit e s]: the text [e] is a percent-encoding of [s] in which the
    characters satisfying [lit] may stand for themselves. *)
Inductive denotes (lit : N -> Prop) : bytes -> bytes -> Prop :=
| den_nil : denotes lit [] []
| den_lit c e s : lit c -> c <> 37 -> denotes lit e s -> denotes lit (c :: e) (c :: s)
| den_hex h1 h2 v1 v2 e s : hex_of h1 v1 -> hex_of h2 v2 -> denotes lit e s ->
    denotes lit (37 :: h1 :: h2 :: e) (16 * v1 + v2 :: s).
