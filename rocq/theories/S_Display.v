(** * Specification: what the interpreter prints for tags and frames. *)
From Verif Require Import Base M_Tagset M_Scheme S_Json S_Scheme S_Tagset.
#[local] Open Scope N_scope.

(** ** Data *)

(** Each byte in two hexadecimal digits and a space; and as a character, with a dot
    for those that are not printable ASCII. *)
Inductive dumped : bytes -> bytes -> bytes -> Prop :=
| dumped_nil : dumped [] [] []
| dumped_cons x r h l hi lo hs c cs : hex_value h = Some hi -> hex_value l = Some lo -> x = 16 * hi + lo ->
    (32 <= x <= 126 /\ c = x \/ ~ (32 <= x <= 126) /\ c = 46) ->
    dumped r hs cs -> dumped (x :: r) (h :: l :: 32 :: hs) (c :: cs).
Definition dump_of (data text : bytes) : Prop :=
  exists hs cs, dumped data hs cs /\ text = B "{" ++ hs ++ B " <" ++ cs ++ B ">}".

(** ** Tags *)

(** [s] is the text of the first text frame, comment or user-defined text named
    [f]; the empty text, if there is none. *)
Definition holds_text (x : scm) (s : bytes) : Prop :=
  exists id a b c d, x = SObj CText [id; a; b; c; d; SStr s] \/
    (exists dsc, x = SObj CUdt [id; a; b; c; d; dsc; SStr s]) \/
    (exists lang dsc, x = SObj CComment [id; a; b; c; d; lang; dsc; SStr s]).
Definition first_text_of (f : bytes) (fs : list scm) (s : bytes) : Prop :=
  (Forall (fun x => ~ named f x) fs /\ s = []) \/
  exists pre x post, fs = pre ++ x :: post /\ Forall (fun y => ~ named f y) pre /\ named f x /\ holds_text x s.

(** ** Frames with all their slots, of the right types *)
Inductive full_frame : scm -> Prop :=
| ff_text s a b c d t : full_frame (SObj CText [SSym s; a; b; c; d; SStr t])
| ff_comment s a b c d l dsc t : full_frame (SObj CComment [SSym s; a; b; c; d; SStr l; SStr dsc; SStr t])
| ff_udt s a b c d dsc t : full_frame (SObj CUdt [SSym s; a; b; c; d; SStr dsc; SStr t])
| ff_count s a b c d n : s <> B "artist-frame" -> s <> B "title-frame" -> full_frame (SObj CCount [SSym s; a; b; c; d; SInt n])
| ff_popm s a b c d e r n : s <> B "artist-frame" -> s <> B "title-frame" ->
    full_frame (SObj CPopm [SSym s; a; b; c; d; SStr e; SInt r; SInt n])
| ff_cloud s a b c d o t : s <> B "artist-frame" -> s <> B "title-frame" -> (t = SNull \/ exists x y, t = SPair x y) ->
    full_frame (SObj CCloud [SSym s; a; b; c; d; SStr o; t])
| ff_unknown s a b c d i t : s <> B "artist-frame" -> s <> B "title-frame" ->
    full_frame (SObj CUnk [SSym s; a; b; c; d; SStr i; SBytes t]).

(** ** What is printed for a frame.  [quoted] is how strings are written in quotes,
    [listed] how lists are shown. *)
Definition numeral_of (n : Z) (s : bytes) : Prop :=
  exists ds, ds <> [] /\ forallb is_digit ds = true /\ Z.of_N (value_of ds) = Z.abs n /\
    s = if (n <? 0)%Z then B "-" ++ ds else ds.
Inductive printed (quoted listed : scm -> bytes) : scm -> bytes -> Prop :=
| pr_text s a b c d t :
    printed quoted listed (SObj CText [SSym s; a; b; c; d; SStr t]) (B "<" ++ s ++ B " " ++ quoted (SStr t) ++ B ">")
| pr_comment s a b c d l dsc t :
    printed quoted listed (SObj CComment [SSym s; a; b; c; d; SStr l; SStr dsc; SStr t])
      (B "<comment (" ++ l ++ B ", " ++ dsc ++ B ") " ++ t ++ B ">")
| pr_udt s a b c d dsc t :
    printed quoted listed (SObj CUdt [SSym s; a; b; c; d; SStr dsc; SStr t]) (B "<user-defined-text " ++ dsc ++ B ">")
| pr_count s a b c d n ns : numeral_of n ns ->
    printed quoted listed (SObj CCount [SSym s; a; b; c; d; SInt n]) (B "<play-count " ++ ns ++ B ">")
| pr_popm s a b c d e r rs n ns : numeral_of r rs -> numeral_of n ns ->
    printed quoted listed (SObj CPopm [SSym s; a; b; c; d; SStr e; SInt r; SInt n])
      (B "<popularimeter " ++ e ++ B ", " ++ rs ++ B ", " ++ ns ++ B ">")
| pr_cloud s a b c d o t : (t = SNull \/ exists x y, t = SPair x y) ->
    printed quoted listed (SObj CCloud [SSym s; a; b; c; d; SStr o; t]) (B "<tag cloud (" ++ o ++ B ") " ++ listed t ++ B ">")
| pr_unknown s a b c d i t shown : (is_bytes t -> dump_of (firstn 8 t) shown) ->
    printed quoted listed (SObj CUnk [SSym s; a; b; c; d; SStr i; SBytes t]) (B "<unk-frame " ++ quoted (SStr i) ++ B " " ++ shown ++ B ">").
