(** * Specification: reading CSV (RFC 4180).

    A record is fields separated by the separator and ended by a line feed, a
    carriage return and line feed, or the end of the input.  A field that begins
    with a quote runs to the quote that ends it, two quotes in it standing for
    one; any other field runs to the next separator or line end.  A [lax] reader
    takes quotes and carriage returns in the latter kind of field as they come; a
    strict one rejects them. *)
From Verif Require Import Base.

Inductive csv_state := AtStart | InPlain (a : bytes) | InQuotes (a : bytes) | AfterQuotes (a : bytes).

Definition dquote : N := 34.
Definition lf : N := 10.
Definition cr : N := 13.

(** The fields of the first record, and what follows it. *)
Fixpoint csv_read (lax : bool) (sep : N) (st : csv_state) (l : bytes) : option (list bytes * bytes) :=
  match l with
  | [] =>
      match st with
      | AtStart => Some ([[]], [])
      | InPlain a | AfterQuotes a => Some ([a], [])
      | InQuotes _ => None
      end
  | c :: r =>
      let next a := match csv_read lax sep AtStart r with
                    | Some (fs, rest) => Some (a :: fs, rest)
                    | None => None
                    end in
      let plain a :=
        if c =? sep then next a
        else if c =? lf then Some ([a], r)
        else if (c =? cr) && (match r with d :: _ => d =? lf | [] => false end) then Some ([a], tl r)
        else if negb lax && ((c =? dquote) || (c =? cr)) then None
        else csv_read lax sep (InPlain (a ++ [c])) r in
      match st with
      | AtStart => if c =? dquote then csv_read lax sep (InQuotes []) r else plain []
      | InPlain a => plain a
      | InQuotes a =>
          if c =? dquote then csv_read lax sep (AfterQuotes a) r
          else csv_read lax sep (InQuotes (a ++ [c])) r
      | AfterQuotes a =>
          if c =? dquote then csv_read lax sep (InQuotes (a ++ [dquote])) r
          else if c =? sep then next a
          else if c =? lf then Some ([a], r)
          else if (c =? cr) && (match r with d :: _ => d =? lf | [] => false end) then Some ([a], tl r)
          else None
      end
  end.

Definition read_record (lax : bool) (sep : N) (l : bytes) := csv_read lax sep AtStart l.

(** Fields that may be printed as they are: nothing in them means anything to the
    reader.  (A carriage return matters to a lax reader only where a line feed
    follows, that is at the end of the last field.) *)
Definition plain_field (lax : bool) (sep : N) (last : bool) (f : bytes) : Prop :=
  ~ In sep f /\ ~ In lf f /\
  (if lax then hd_error f <> Some dquote /\ (last = true -> forall g, f <> g ++ [cr])
   else ~ In dquote f /\ ~ In cr f).

(** A field's printed form is readable: it is either plain, or it has a separator
    or a line feed in it (and is then printed in quotes). *)
Definition readable_field (lax : bool) (sep : N) (last : bool) (f : bytes) : Prop :=
  In sep f \/ In lf f \/ plain_field lax sep last f.
Fixpoint readable_row (lax : bool) (sep : N) (fs : list bytes) : Prop :=
  match fs with
  | [] => True
  | [f] => readable_field lax sep true f
  | f :: r => readable_field lax sep false f /\ readable_row lax sep r
  end.

(** The number a text of decimal digits stands for. *)
Fixpoint decimal_value (acc : N) (l : bytes) : option N :=
  match l with
  | [] => Some acc
  | c :: r => if (48 <=? c) && (c <=? 57) then decimal_value (acc * 10 + (c - 48)) r else None
  end.
Definition as_decimal (l : bytes) : option N :=
  match l with [] => None | _ => decimal_value 0 l end.
