(** * Specification: which tags a command processes and creates. *)
From Verif Require Import Base M_Id3v1 M_Read M_Process.
From Coq Require Import Sorting.Sorted.

(** ** Calls

    A command is known by what it does to tags; to see when it is called, every
    call is entered in a log. *)
Inductive call :=
| ProcessV2 (t : anytag) | ProcessV1 (t : id3v1_tag)
| CreateV2From (t : id3v1_tag) | CreateV2 | CreateV1From (l : list anytag) | CreateV1.

Record command := mkCommand {
  does_v2 : anytag -> bool * anytag;
  does_v1 : id3v1_tag -> bool * id3v1_tag;
  makes_v2_from : id3v1_tag -> option anytag;
  makes_v2 : option anytag;
  makes_v1_from : list anytag -> option id3v1_tag;
  makes_v1 : option id3v1_tag }.

Definition logged (c : command) : processor (list call) :=
  mkProc (list call)
    (fun s l => Ok (makes_v1_from c l, s ++ [CreateV1From l]))
    (fun s => Ok (makes_v1 c, s ++ [CreateV1]))
    (fun s t => Ok (makes_v2_from c t, s ++ [CreateV2From t]))
    (fun s => Ok (makes_v2 c, s ++ [CreateV2]))
    (fun s t => Ok (does_v1 c t, s ++ [ProcessV1 t]))
    (fun s t => Ok (does_v2 c t, s ++ [ProcessV2 t])).

(** ** What is wanted *)

(** The tables of the creation policies (command-utilities.cc:316-321, 367-372). *)
Definition wants_v2 (p : policies) (v1 : option id3v1_tag) : bool :=
  match p_v2_creation p with
  | V2Never => false
  | V2WhenV1Present => match v1 with Some _ => true | None => false end
  | V2Always => true
  end.
Definition wants_v1 (p : policies) (v2 : list anytag) : bool :=
  match p_v1_creation p with
  | V1Never => false
  | V1WhenV2Present => match v2 with [] => false | _ => true end
  | V1Always => true
  end.

(** The tag at index [i] is in the scope. *)
Definition in_scope (p : policies) (i : N) : bool :=
  match p_v2_scope p with
  | TagsAll => true
  | TagsNone => false
  | TagsSome idx => existsb (N.eqb i) idx
  end.

(** The tags with their indices. *)
Definition with_index {A} (l : list A) : list (N * A) := combine (iota (List.length l) 0) l.

(** The ID3v2 tags as they should come out: those in scope as the command leaves
    them, the others as they were; a new one if there was none and it is wanted. *)
Definition new_v2 (c : command) (p : policies) (v2 : list anytag) (v1 : option id3v1_tag) : list anytag :=
  match v2 with
  | [] => if wants_v2 p v1 then
            match match v1 with Some t => makes_v2_from c t | None => makes_v2 c end with Some t => [t] | None => [] end
          else []
  | _ => map (fun it => if in_scope p (fst it) then snd (does_v2 c (snd it)) else snd it) (with_index v2)
  end.
(** The ID3v2 tags a new ID3v1 tag is made from: those the file had. *)
Definition old_v2 (c : command) (p : policies) (v2 : list anytag) (v1 : option id3v1_tag) : list anytag :=
  match v2 with [] => [] | _ => new_v2 c p v2 v1 end.
Definition new_v1 (c : command) (p : policies) (v2 : list anytag) (v1 : option id3v1_tag) : option id3v1_tag :=
  match v1 with
  | None => if wants_v1 p v2 then match v2 with [] => makes_v1 c | _ => makes_v1_from c (old_v2 c p v2 v1) end else None
  | Some t => if p_v1_scope p then Some (snd (does_v1 c t)) else Some t
  end.

(** The calls, in order. *)
Definition wanted_calls (c : command) (p : policies) (v2 : list anytag) (v1 : option id3v1_tag) : list call :=
  match v2 with
  | [] => if wants_v2 p v1 then [match v1 with Some t => CreateV2From t | None => CreateV2 end] else []
  | _ => map (fun it => ProcessV2 (snd it)) (filter (fun it => in_scope p (fst it)) (with_index v2))
  end
  ++ match v1 with
     | None => if wants_v1 p v2 then [match v2 with [] => CreateV1 | _ => CreateV1From (old_v2 c p v2 v1) end] else []
     | Some t => if p_v1_scope p then [ProcessV1 t] else []
     end.

(** Something was created, or a call reported a change. *)
Definition is_dirty (c : command) (p : policies) (v2 : list anytag) (v1 : option id3v1_tag) : bool :=
  existsb (fun x => match x with ProcessV2 t => fst (does_v2 c t) | ProcessV1 t => fst (does_v1 c t) | _ => true end)
    (wanted_calls c p v2 v1).

(** An index list names the tags in ascending order, and reaches the last one (or
    beyond). *)
Definition scope_fits (p : policies) (v2 : list anytag) : Prop :=
  match p_v2_scope p with
  | TagsSome idx => v2 <> [] -> StronglySorted N.lt idx /\ exists x, In x idx /\ len v2 <= x + 1
  | _ => True
  end.

(** The file as it should be: the tags, what followed the old ones, and the ID3v1
    tag in place of the old one, if there is one. *)
Definition saved (w rest : bytes) (v1 : option id3v1_tag) (f : bytes) : Prop :=
  match v1 with None => f = w ++ rest | Some t => replace_id3v1 (w ++ rest) t = Ok f end.

