(** * Specification: tag clouds as relations between keys and values. *)
From Coq Require Export Sorted.
From Verif Require Import Base M_Cloud S_Url.

(** Lexicographic order of byte strings. *)
Inductive lex_lt : bytes -> bytes -> Prop :=
| lex_nil b l : lex_lt [] (b :: l)
| lex_head a b l m : a < b -> lex_lt (a :: l) (b :: m)
| lex_tail a l m : lex_lt l m -> lex_lt (a :: l) (a :: m).

(** The lists that are iteration orders of sets and of maps to sets: strictly
    increasing.  (Every state of a std::set or std::map is one.) *)
Definition is_set (s : list bytes) : Prop := StronglySorted lex_lt s.
Definition is_map (m : list (bytes * list bytes)) : Prop :=
  StronglySorted (fun a b => lex_lt (fst a) (fst b)) m /\ Forall (fun kv => is_set (snd kv)) m.

(** [k] is a key of the cloud; [v] is one of [k]'s values. *)
Definition keyed (m : list (bytes * list bytes)) (k : bytes) : Prop := exists s, In (k, s) m.
Definition paired (m : list (bytes * list bytes)) (k v : bytes) : Prop :=
  exists s, In (k, s) m /\ In v s.

(** The strings stored are byte strings without NULs. *)
Definition plain (s : bytes) : Prop := is_bytes s /\ ~ In 0 s.
Definition plain_map (m : list (bytes * list bytes)) : Prop :=
  Forall (fun kv => plain (fst kv) /\ Forall plain (snd kv)) m.
Definition bytes_map (m : list (bytes * list bytes)) : Prop :=
  Forall (fun kv => is_bytes (fst kv) /\ Forall is_bytes (snd kv)) m.

(** Each key's values, terminated, fit a 32-bit count. *)
Definition total_values (s : list bytes) : N := len (concat (map (fun v => v ++ [0]) s)).
Definition fits_map (m : list (bytes * list bytes)) : Prop :=
  Forall (fun kv => total_values (snd kv) < 2 ^ 32) m.

(** ** Text form: items separated by &, each a key or key=value,...,value. *)
Record item := mkItem { it_raw_key : bytes; it_raw_values : list bytes;   (* as written *)
                        it_key : bytes; it_values : list bytes }.         (* meaning *)

Definition any (_ : N) : Prop := True.

Definition item_ok (i : item) : Prop :=
  denotes any (it_raw_key i) (it_key i) /\
  ~ In 61 (it_raw_key i) /\ ~ In 38 (it_raw_key i) /\
  Forall2 (denotes any) (it_raw_values i) (it_values i) /\
  Forall (fun r => ~ In 44 r /\ ~ In 38 r) (it_raw_values i).

Fixpoint separated (sep : N) (l : list bytes) : bytes :=
  match l with
  | [] => []
  | [x] => x
  | x :: r => x ++ [sep] ++ separated sep r
  end.

Definition item_text (i : item) : bytes :=
  it_raw_key i ++ (match it_raw_values i with [] => [] | vs => [61] ++ separated 44 vs end).

Definition items_text (l : list item) : bytes := separated 38 (map item_text l).

(** A key without values is not mentioned after an item with the same key, nor
    when it is in the cloud already. *)
Inductive fresh_bare (m : list (bytes * list bytes)) : list item -> list item -> Prop :=
| fresh_nil before : fresh_bare m before []
| fresh_cons before i l :
    (it_raw_values i = [] -> ~ keyed m (it_key i) /\ ~ In (it_key i) (map it_key before)) ->
    fresh_bare m (before ++ [i]) l -> fresh_bare m before (i :: l).
