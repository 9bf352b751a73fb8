(** * Specification: files that move, or are copied, but are not lost. *)
From Verif Require Import Base M_Fs.

(** Every file of [fs] is in [s] with its content, under its name or another one,
    no two under the same name; directories stay. *)
Definition nothing_lost (fs s : fsys) : Prop :=
  exists now : key -> key,
    (forall j b, find_node j fs = Some (File b) -> find_node (now j) s = Some (File b)) /\
    (forall i j b c, find_node i fs = Some (File b) -> find_node j fs = Some (File c) -> now i = now j -> i = j) /\
    (forall j, find_node j fs = Some Dir -> find_node j s = Some Dir).

(** Everything in [fs] is in [s] as it was. *)
Definition nothing_changed (fs s : fsys) : Prop :=
  forall j n, find_node j fs = Some n -> find_node j s = Some n.

(** The files that are to be renamed: those given, and those found in a given
    directory whose names end in ".mp3". *)
Definition chosen (entries : bytes -> list bytes) (args : list bytes) (p : bytes) : Prop :=
  In p args \/ exists a w, In a args /\ In p (entries a) /\ p = w ++ B ".mp3".

(** A path that ends in the name [n]: that alone, or after a slash. *)
Definition ends_in_name (p n : bytes) : Prop :=
  p = n \/ exists d, p = d ++ [47] ++ n /\ (d = [] \/ last d 0 <> 47).

(** A path in which repeated slashes count once. *)
Fixpoint squeezed (p : bytes) : bytes :=
  match p with
  | 47 :: (47 :: _) as r => squeezed r
  | c :: r => c :: squeezed r
  | [] => []
  end.
