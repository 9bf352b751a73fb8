(** * Specification: reading JSON (RFC 8259).

    A reader for JSON texts.  Bytes from 128 on are taken as they come (which
    encoding they are in is not JSON's concern), and an escape [\uXXXX] is read
    as the UTF-8 form of that one code unit. *)
From Verif Require Import Base.

(** A number is kept as it is written. *)
Inductive json :=
| JNull
| JBool (b : bool)
| JNum (literal : bytes)
| JStr (s : bytes)
| JArr (l : list json)
| JObj (l : list (bytes * json)).

Definition is_ws (c : N) : bool := (c =? 32) || (c =? 9) || (c =? 10) || (c =? 13).
Fixpoint skip_ws (l : bytes) : bytes :=
  match l with
  | [] => []
  | c :: r => if is_ws c then skip_ws r else l
  end.

(** ** Strings, from after the opening quote. *)
Definition hex_value (c : N) : option N :=
  if (48 <=? c) && (c <=? 57) then Some (c - 48)
  else if (97 <=? c) && (c <=? 102) then Some (c - 87)
  else if (65 <=? c) && (c <=? 70) then Some (c - 55)
  else None.
Definition utf8 (u : N) : bytes :=
  if u <? 128 then [u]
  else if u <? 2048 then [192 + u / 64; 128 + u mod 64]
  else [224 + u / 4096; 128 + (u / 64) mod 64; 128 + u mod 64].
Definition simple_escape (c : N) : option N :=
  if c =? 34 then Some 34 else if c =? 92 then Some 92 else if c =? 47 then Some 47
  else if c =? 98 then Some 8 else if c =? 102 then Some 12 else if c =? 110 then Some 10
  else if c =? 114 then Some 13 else if c =? 116 then Some 9 else None.
Definition prefixed (p : bytes) (x : option (bytes * bytes)) : option (bytes * bytes) :=
  match x with Some (s, r) => Some (p ++ s, r) | None => None end.
Fixpoint chars (l : bytes) : option (bytes * bytes) :=
  match l with
  | [] => None
  | c :: r =>
      if c =? 34 then Some ([], r)
      else if c =? 92 then
        match r with
        | [] => None
        | e :: r1 =>
            if e =? 117 then
              match r1 with
              | a :: b :: c :: d :: r2 =>
                  match hex_value a, hex_value b, hex_value c, hex_value d with
                  | Some a, Some b, Some c, Some d => prefixed (utf8 (a * 4096 + b * 256 + c * 16 + d)) (chars r2)
                  | _, _, _, _ => None
                  end
              | _ => None
              end
            else match simple_escape e with
                 | Some x => prefixed [x] (chars r1)
                 | None => None
                 end
        end
      else if c <? 32 then None
      else prefixed [c] (chars r)
  end.

(** ** Numbers and words. *)
Definition is_dec (c : N) : bool := (48 <=? c) && (c <=? 57).
Definition in_number (c : N) : bool := is_dec c || (c =? 43) || (c =? 45) || (c =? 46) || (c =? 69) || (c =? 101).
Fixpoint span (p : N -> bool) (l : bytes) : bytes * bytes :=
  match l with
  | c :: r => if p c then let '(a, b) := span p r in (c :: a, b) else ([], l)
  | [] => ([], [])
  end.
Definition exp_ok (l : bytes) : bool :=
  match l with
  | [] => true
  | c :: r => ((c =? 69) || (c =? 101)) &&
              match r with
              | s :: r' => if (s =? 43) || (s =? 45) then negb (match r' with [] => true | _ => false end) && forallb is_dec r'
                           else forallb is_dec r
              | [] => false
              end
  end.
Definition frac_ok (l : bytes) : bool :=
  match l with
  | 46 :: r => let '(d, r') := span is_dec r in negb (match d with [] => true | _ => false end) && exp_ok r'
  | _ => exp_ok l
  end.
Definition int_ok (l : bytes) : bool :=
  match l with
  | [] => false
  | c :: r => if c =? 48 then frac_ok r
              else is_dec c && (let '(_, r') := span is_dec r in frac_ok r')
  end.
Definition number_ok (l : bytes) : bool :=
  match l with
  | c :: r => if c =? 45 then int_ok r else int_ok l
  | [] => false
  end.
Fixpoint stripped (w l : bytes) : option bytes :=
  match w, l with
  | [], _ => Some l
  | a :: w', b :: l' => if a =? b then stripped w' l' else None
  | _ :: _, [] => None
  end.
Definition scalar (l : bytes) : option (json * bytes) :=
  match stripped (B "true") l with
  | Some r => Some (JBool true, r)
  | None =>
  match stripped (B "false") l with
  | Some r => Some (JBool false, r)
  | None =>
  match stripped (B "null") l with
  | Some r => Some (JNull, r)
  | None => let '(n, r) := span in_number l in if number_ok n then Some (JNum n, r) else None
  end end end.

(** ** Values: the first value of the text and what follows it.  [fuel] bounds
    the depth of the recursion; twice the length of the text is enough. *)
Fixpoint value (fuel : nat) (l : bytes) {struct fuel} : option (json * bytes) :=
  match fuel with
  | O => None
  | S f =>
      match skip_ws l with
      | [] => None
      | c :: r =>
          if c =? 123 then
            match skip_ws r with
            | [] => None
            | d :: r1 => if d =? 125 then Some (JObj [], r1)
                         else match members f r with Some (ms, r2) => Some (JObj ms, r2) | None => None end
            end
          else if c =? 91 then
            match skip_ws r with
            | [] => None
            | d :: r1 => if d =? 93 then Some (JArr [], r1)
                         else match elements f r with Some (vs, r2) => Some (JArr vs, r2) | None => None end
            end
          else if c =? 34 then match chars r with Some (s, r1) => Some (JStr s, r1) | None => None end
          else scalar (c :: r)
      end
  end
with members (fuel : nat) (l : bytes) {struct fuel} : option (list (bytes * json) * bytes) :=
  match fuel with
  | O => None
  | S f =>
      match skip_ws l with
      | [] => None
      | q :: r =>
          if q =? 34 then
            match chars r with
            | None => None
            | Some (k, r1) =>
                match skip_ws r1 with
                | [] => None
                | c :: r2 =>
                    if c =? 58 then
                      match value f r2 with
                      | None => None
                      | Some (v, r3) =>
                          match skip_ws r3 with
                          | [] => None
                          | e :: r4 =>
                              if e =? 125 then Some ([(k, v)], r4)
                              else if e =? 44 then
                                match members f r4 with Some (ms, r5) => Some ((k, v) :: ms, r5) | None => None end
                              else None
                          end
                      end
                    else None
                end
            end
          else None
      end
  end
with elements (fuel : nat) (l : bytes) {struct fuel} : option (list json * bytes) :=
  match fuel with
  | O => None
  | S f =>
      match value f l with
      | None => None
      | Some (v, r3) =>
          match skip_ws r3 with
          | [] => None
          | e :: r4 =>
              if e =? 93 then Some ([v], r4)
              else if e =? 44 then
                match elements f r4 with Some (vs, r5) => Some (v :: vs, r5) | None => None end
              else None
          end
      end
  end.

(** A text that is one JSON value. *)
Definition next_value (l : bytes) : option (json * bytes) := value (S (2 * List.length l)) l.
Definition json_of (l : bytes) : option json :=
  match next_value l with
  | Some (v, r) => match skip_ws r with [] => Some v | _ => None end
  | None => None
  end.

(** A text that is any number of JSON values, one after the other. *)
Fixpoint stream (fuel : nat) (l : bytes) : option (list json) :=
  match skip_ws l with
  | [] => Some []
  | _ => match fuel with
         | O => None
         | S f => match next_value l with
                  | Some (v, r) => match stream f r with Some vs => Some (v :: vs) | None => None end
                  | None => None
                  end
         end
  end.
Definition json_stream (l : bytes) : option (list json) := stream (List.length l) l.

(** Texts that can stand in a JSON string as they are, and those that the usual
    short escapes make fit. *)
Definition plain_char (c : N) : Prop := 32 <= c /\ c <> 34 /\ c <> 92.
Definition plain (s : bytes) : Prop := Forall plain_char s.
Definition printable_char (c : N) : Prop := 32 <= c \/ In c [8; 9; 10; 12; 13].
Definition printable (s : bytes) : Prop := Forall printable_char s.
