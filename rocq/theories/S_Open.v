(** * Specification: what constructing a tag straight from a stream amounts to. *)
From Verif Require Import Base M_Stream.

(** A tag read, together with the version and revision its header gives; an
    exception or worse stays what it is. *)
Definition of_version {T} (v r : N) (x : outcome T * istream) : outcome (option (N * N) * T) * istream :=
  match x with
  | (Ok t, s) => (Ok (Some (v, r), t), s)
  | (Throw e, s) => (Throw e, s)
  | (UB u, s) => (UB u, s)
  | (NonTerm, s) => (NonTerm, s)
  end.

(** The next ten bytes look like an ID3v2 header to the constructors, but give
    no size: a byte of it is not below 128, or all four are 0. *)
Definition sizeless_header_at (data : bytes) (pos version revision flags : N) : Prop :=
  exists z0 z1 z2 z3 rest,
    dropN pos data = B "ID3" ++ [version; revision; flags; z0; z1; z2; z3] ++ rest /\
    version <> 255 /\ revision <> 255 /\
    (Exists (fun z => 128 <= z) [z0; z1; z2; z3] \/ [z0; z1; z2; z3] = [0; 0; 0; 0]).

(** The next five bytes begin with [b], are not the start of an ID3v2 header,
    and the last four of them are not a number in base 128 other than 0. *)
Definition no_tag_at (data : bytes) (pos b : N) : Prop :=
  exists z0 z1 z2 z3 rest,
    dropN pos data = [b; z0; z1; z2; z3] ++ rest /\
    ([b; z0; z1] <> B "ID3" \/ z2 = 255 \/ z3 = 255) /\
    (Exists (fun z => 128 <= z) [z0; z1; z2; z3] \/ [z0; z1; z2; z3] = [0; 0; 0; 0]).

(** The bit of a flags byte that announces an extended header. *)
Definition says_extended (flags : N) : Prop := N.testbit flags 6 = true.
