(** * Model: URL encoding (scribbu/scribbu.cc:322-421). *)
From Verif Require Import Base.

(** scribbu/scribbu.cc:335-338, the characters copied verbatim.  [char] is
    signed on the platforms supported, but bytes above 127 fail every test
    either way. *)
Definition url_keep (c : N) : bool :=
  ((65 <=? c) && (c <=? 90)) || ((97 <=? c) && (c <=? 122)) ||
  ((48 <=? c) && (c <=? 57)) || (c =? 45) || (c =? 95) || (c =? 46) || (c =? 126).

(** [hex] output of one digit. *)
Definition hex_digit (d : N) : N := if d <? 10 then 48 + d else 87 + d.

(** scribbu/scribbu.cc:322-354 [urlencode], one character. *)
Definition urlencode1 (c : N) : bytes :=
  if c =? 37 then B "%25"
  else if url_keep c then [c]
  else [37; hex_digit (c / 16); hex_digit (c mod 16)].

Definition urlencode (s : bytes) : bytes := flat_map urlencode1 s.

(** scribbu/scribbu.cc:356-381 [strtochar], one digit. *)
Definition hex_val (c : N) : outcome N :=
  if (48 <=? c) && (c <=? 57) then Ok (c - 48)
  else if (97 <=? c) && (c <=? 102) then Ok (c - 97 + 10)
  else if (65 <=? c) && (c <=? 70) then Ok (c - 65 + 10)
  else Throw InvalidArgument.

Definition strtochar (a b : N) : outcome N :=
  let* x := hex_val a in
  let* y := hex_val b in
  Ok (16 * x + y).

(** scribbu/scribbu.cc:383-421 [urldecode].  The loop's [saw_pct] flag is the
    position in the nested match. *)
Fixpoint urldecode (s : bytes) : outcome bytes :=
  match s with
  | [] => Ok []
  | c :: r =>
      if c =? 37 then
        match r with
        | [] => Ok []                       (* a lone % at the end is dropped *)
        | d :: r' =>
            if d =? 37 then let* o := urldecode r' in Ok (37 :: o)
            else match r' with
                 | [] => Throw InvalidArgument
                 | e :: r'' =>
                     let* x := strtochar d e in
                     let* o := urldecode r'' in
                     Ok (x :: o)
                 end
        end
      else let* o := urldecode r in Ok (c :: o)
  end.
