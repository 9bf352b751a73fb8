(** * Specification: what scripts see. *)
From Verif Require Import Base M_Fs M_Scheme M_Scheme2.
#[local] Open Scope N_scope.

(** ** Frames of a tag *)

(** An object of one of the classes for frames, with its first slot, the id. *)
Definition frame_classes : list cls := [CFrame; CUnk; CText; CComment; CUdt; CCount; CPopm; CCloud; CPriv].
Definition frame_object (x : scm) : Prop := exists c i rest, x = SObj c (i :: rest) /\ In c frame_classes.
Definition named (f : bytes) (x : scm) : Prop := exists c rest, x = SObj c (SSym f :: rest).

(** [l] is those of [fs] that are named [f], in order. *)
Inductive picked (f : bytes) : list scm -> list scm -> Prop :=
| picked_nil : picked f [] []
| picked_one x fs l : named f x -> picked f fs l -> picked f (x :: fs) (x :: l)
| picked_other x fs l : ~ named f x -> picked f fs l -> picked f (x :: fs) l.

(** ** Trees of files *)

(** [f] is the path of a regular file somewhere below the directory [pth], of
    which [l] is the listing. *)
Inductive below : bytes -> list (bytes * dnode) -> bytes -> Prop :=
| below_here pth l n : In (n, NReg) l -> n <> B "." -> n <> B ".." -> below pth l (pth ++ B "/" ++ n)
| below_there pth l n l' f : In (n, NDir l') l -> n <> B "." -> n <> B ".." ->
    below (pth ++ B "/" ++ n) l' f -> below pth l f.

(** Names in a directory differ and have no slash. *)
Inductive well_named : list (bytes * dnode) -> Prop :=
| wn_intro l : NoDup (map fst l) -> Forall (fun e => ~ In 47 (fst e)) l ->
    (forall n l', In (n, NDir l') l -> n <> B "." -> n <> B ".." -> well_named l') -> well_named l.

(** How many directories there are, but for those called "." and "..". *)
Fixpoint dirs (x : dnode) : nat :=
  match x with
  | NDir l => S ((fix go l := match l with
                  | [] => O
                  | (n, x) :: r => ((if dot_name n then O else dirs x) + go r)%nat
                  end) l)
  | _ => O
  end.

(** [f] is the path of a node without children, and [dir] whether it is a
    directory. *)
Inductive leaf : bytes -> ftree -> bytes -> bool -> Prop :=
| leaf_here parent n d : leaf parent (FNode n d []) (parent ++ B "/" ++ n) d
| leaf_below parent n d kids k f b : In k kids -> leaf (parent ++ B "/" ++ n) k f b -> leaf parent (FNode n d kids) f b.

(** ** Going through files *)

(** A call of the procedure: its arguments, and the files before and after. *)
Record call := mkCall { ca_tags : scm; ca_path : scm; ca_v1 : scm; ca_before : fsys; ca_after : fsys }.

(** The calls follow one another from [fs] to [fs']. *)
Fixpoint linked (fs : fsys) (cs : list call) (fs' : fsys) : Prop :=
  match cs with
  | [] => fs' = fs
  | c :: r => ca_before c = fs /\ linked (ca_after c) r fs'
  end.

(** There is one call for each entry that is not a directory when it is its turn. *)
Inductive visits (cwd : bytes) : fsys -> list bytes -> list call -> Prop :=
| visits_nil fs : visits cwd fs [] []
| visits_dir fs p es cs : find_node (resolve cwd p) fs = Some Dir -> visits cwd fs es cs -> visits cwd fs (p :: es) cs
| visits_file fs p es c cs : find_node (resolve cwd p) fs <> Some Dir -> ca_path c = SStr p ->
    visits cwd (ca_after c) es cs -> visits cwd fs (p :: es) (c :: cs).

(** The tags and the ID3v1 tag given are what is read from the file at that
    moment; what cannot be read is #nil. *)
Definition args_read (read2 read1 : fsys -> scm -> gres scm) (c : call) : Prop :=
  match read2 (ca_before c) (ca_path c) with
  | GOk ts => ca_tags c = ts /\
              match read1 (ca_before c) (ca_path c) with GOk t => ca_v1 c = t | _ => ca_v1 c = SNil end
  | _ => ca_tags c = SNil /\ ca_v1 c = SNil
  end.

(** The call has returned. *)
Definition returned (fcn : scm -> scm -> scm -> fsys -> gres unit * fsys) (c : call) : Prop :=
  fcn (ca_tags c) (ca_path c) (ca_v1 c) (ca_before c) = (GOk tt, ca_after c).
