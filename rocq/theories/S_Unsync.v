(** * Specification: the ID3v2 unsynchronisation scheme, from the ID3v2 text
      (and the comments in scribbu/id3v2.hh), independent of the model. *)
From Verif Require Import Base.

(** A false sync: %11111111 followed by %111xxxxx. *)
Definition false_sync_at (l : bytes) (i : nat) : Prop :=
  nth_error l i = Some 255 /\ exists b, nth_error l (S i) = Some b /\ 224 <= b.

(** The pair ff 00, which the decoder would collapse. *)
Definition ff00_at (l : bytes) (i : nat) : Prop :=
  nth_error l i = Some 255 /\ nth_error l (S i) = Some 0.

(** The decoder's defining relation: [desync l m] when [m] is [l] with exactly
    those zero bytes removed that directly follow an ff. *)
Inductive desync : bytes -> bytes -> Prop :=
| desync_nil : desync [] []
| desync_pair l m : desync l m -> desync (255 :: 0 :: l) (255 :: m)
| desync_other b l m :
    (b <> 255 \/ hd_error l <> Some 0) -> desync l m -> desync (b :: l) (b :: m).

(** Position [i] needs protection: it holds an ff that is followed by 00 or by a
    byte with its top three bits set, or that is last, when the last byte counts. *)
Definition needs_protection (l : bytes) (last : bool) (i : nat) : bool :=
  match nth_error l i with
  | Some 255 =>
      match nth_error l (S i) with
      | Some q => (q =? 0) || (224 <=? q)
      | None => last
      end
  | _ => false
  end.
