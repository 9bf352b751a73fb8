(** * Specification: what a stream should remember.

    A stream has a printer and an encoding, or none; a manipulator has a printer.
    Putting a manipulator into a stream gives the stream that printer; copying one
    stream's formatting to another gives the other both settings. *)
From Verif Require Import Base M_Charset M_Encodings M_Ios.

Record settings := mkSettings { se_printer : option printer; se_enc : option (enc * noenc) }.

(** [None] stands for a stream that is not there, or a manipulator. *)
Record book := mkBook {
  bk_streams : nat -> option settings;
  bk_nstreams : nat;
  bk_manips : nat -> option printer;
  bk_nmanips : nat
}.

Definition empty_book : book := mkBook (fun _ => None) 0 (fun _ => None) 0.

Definition put {A} (f : nat -> A) (k : nat) (v : A) : nat -> A :=
  fun x => if Nat.eq_dec x k then v else f x.

Definition with_streams (b : book) (f : nat -> option settings) : book :=
  mkBook f (bk_nstreams b) (bk_manips b) (bk_nmanips b).

Definition note (o : op) (b : book) : book :=
  match o with
  | NewStream =>
      mkBook (put (bk_streams b) (bk_nstreams b) (Some (mkSettings None None)))
             (S (bk_nstreams b)) (bk_manips b) (bk_nmanips b)
  | NewManip p =>
      mkBook (bk_streams b) (bk_nstreams b)
             (put (bk_manips b) (bk_nmanips b) (Some p)) (S (bk_nmanips b))
  | Insert s m =>
      match bk_streams b s, bk_manips b m with
      | Some x, Some p => with_streams b (put (bk_streams b) s (Some (mkSettings (Some p) (se_enc x))))
      | _, _ => b
      end
  | DropManip m =>
      mkBook (bk_streams b) (bk_nstreams b) (put (bk_manips b) m None) (bk_nmanips b)
  | SetOut s e r =>
      match bk_streams b s, char_unit e with
      | Some x, true => with_streams b (put (bk_streams b) s (Some (mkSettings (se_printer x) (Some (e, r)))))
      | _, _ => b
      end
  | SetIn s e r =>
      match bk_streams b s with
      | Some x => with_streams b (put (bk_streams b) s (Some (mkSettings (se_printer x) (Some (e, r)))))
      | None => b
      end
  | CopyFmt d s =>
      match bk_streams b d, bk_streams b s with
      | Some _, Some x => with_streams b (put (bk_streams b) d (Some x))
      | _, _ => b
      end
  | CloseStream s => with_streams b (put (bk_streams b) s None)
  end.

Fixpoint notes (l : list op) (b : book) : book :=
  match l with
  | [] => b
  | o :: r => notes r (note o b)
  end.

(** The manipulators put into streams, in order.  A temporary, as in
    [os << print_as_csv(...)], is put into one stream once. *)
Definition inserted (l : list op) : list nat :=
  flat_map (fun o => match o with Insert _ m => [m] | _ => [] end) l.
Definition once (l : list op) : Prop := NoDup (inserted l).

(** The operation copies formatting to a stream from another one that has an
    encoding. *)
Definition copies_encoding (o : op) (b : book) : bool :=
  match o with
  | CopyFmt d s =>
      negb (Nat.eqb d s) &&
      match bk_streams b d, bk_streams b s with
      | Some _, Some x => match se_enc x with Some _ => true | None => false end
      | _, _ => false
      end
  | _ => false
  end.

(** The streams whose encoding came by copying and was not set since. *)
Definition taint (o : op) (b : book) (t : nat -> bool) : nat -> bool :=
  match o with
  | CopyFmt d s =>
      match bk_streams b d, bk_streams b s with
      | Some _, Some _ => if Nat.eqb d s then t else put t d (copies_encoding o b)
      | _, _ => t
      end
  | SetOut s e _ => if char_unit e then put t s false else t
  | SetIn s _ _ => put t s false
  | CloseStream s => put t s false
  | _ => t
  end.
Fixpoint tainted (l : list op) (b : book) (t : nat -> bool) : nat -> bool :=
  match l with
  | [] => t
  | o :: r => tainted r (note o b) (taint o b t)
  end.
Definition copied_encoding (l : list op) : nat -> bool := tainted l empty_book (fun _ => false).

(** How often an operation frees an encoding that it should not free as it does: on
    closing a stream that has one, on copying over it, and on setting one where the
    last came by copying. *)
Definition has_encoding (b : book) (s : nat) : bool :=
  match bk_streams b s with
  | Some x => match se_enc x with Some _ => true | None => false end
  | None => false
  end.
Definition there (b : book) (s : nat) : bool :=
  match bk_streams b s with Some _ => true | None => false end.
Definition misfit (o : op) (b : book) (t : nat -> bool) : nat :=
  if match o with
     | CloseStream s => has_encoding b s
     | CopyFmt d s => negb (Nat.eqb d s) && there b s && has_encoding b d
     | SetOut s e _ => char_unit e && t s
     | SetIn s _ _ => t s
     | _ => false
     end
  then 1 else 0.
Fixpoint misfits (l : list op) (b : book) (t : nat -> bool) : nat :=
  match l with
  | [] => 0
  | o :: r => misfit o b t + misfits r (note o b) (taint o b t)
  end.
Definition wrong_deletes (l : list op) : nat := misfits l empty_book (fun _ => false).

(** What printing and conversion should use on a stream with these settings: the
    standard printer and UTF-8 by default. *)
Definition printer_used (x : settings) : printer :=
  match se_printer x with Some p => p | None => PStandard 0 true (Some E_ASCII) None end.
Definition encoding_used (x : settings) : enc * noenc :=
  match se_enc x with Some p => p | None => (E_UTF_8, NoFail) end.

(** Everything made is gone. *)
Definition all_gone (b : book) : Prop :=
  (forall s, bk_streams b s = None) /\ (forall m, bk_manips b m = None).
