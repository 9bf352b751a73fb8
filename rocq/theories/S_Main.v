(** * Specification: the arguments of the main program. *)
From Coq Require Import Sorting.Permutation Sorting.Sorted.
From Verif Require Import Base M_Main.
#[local] Open Scope N_scope.

(** What may be asked of scribbu itself, and how. *)
Inductive request := AskUsage | AskMan | AskInfo | AskVersion.
Definition asks : list (bytes * request) :=
  [ (B "-h", AskUsage); (B "--help", AskMan); (B "--man", AskMan); (B "--info", AskInfo); (B "-v", AskVersion); (B "--version", AskVersion) ].
(** Guile's options with a value in the next argument, and those without. *)
Definition with_value : list bytes := [ B "-L"; B "-C"; B "-x"; B "-l"; B "-e" ].
Definition alone : list bytes :=
  [ B "-ds"; B "--debug"; B "--no-debug"; B "--auto-compile"; B "--fresh-auto-compile"; B "--no-auto-compile"; B "-q"; B "\" ].
Definition open_ended : list bytes := [ B "--language"; B "--listen"; B "--use-srfi" ].
Definition is_alone (w : bytes) : Prop := In w alone \/ exists p r, In p open_ended /\ w = p ++ r.
(** Those that leave the rest to the script. *)
Definition scripts : list bytes := [ B "-c"; B "-s" ].
Definition is_known (w : bytes) : Prop :=
  (exists q, In (w, q) asks) \/ In w with_value \/ is_alone w \/ In w scripts \/ w = B "--".

(** Leading options, and what is asked for by them. *)
Inductive leading : list bytes -> list request -> Prop :=
| lead_none : leading [] []
| lead_ask w q l rs : In (w, q) asks -> leading l rs -> leading (w :: l) (q :: rs)
| lead_value w v l rs : In w with_value -> leading l rs -> leading (w :: v :: l) rs
| lead_alone w l rs : is_alone w -> leading l rs -> leading (w :: l) rs.

(** How the options can end. *)
Inductive ending := Nothing | Word (w : bytes) (rest : list bytes) | Script (o v : bytes) (rest : list bytes)
                  | Dashes (rest : list bytes) | Valueless (o : bytes).
Definition words (e : ending) : list bytes :=
  match e with
  | Nothing => []
  | Word w rest => w :: rest
  | Script o v rest => o :: v :: rest
  | Dashes rest => B "--" :: rest
  | Valueless o => [o]
  end.
Definition ending_ok (e : ending) : Prop :=
  match e with
  | Nothing | Dashes _ => True
  | Word w _ => ~ is_known w
  | Script o _ _ => In o scripts
  | Valueless o => In o with_value \/ In o scripts
  end.

(** The last request for help, if any. *)
Fixpoint last_help (rs : list request) : option request :=
  match rs with
  | [] => None
  | q :: r => match last_help r with
              | Some x => Some x
              | None => match q with AskVersion => None | _ => Some q end
              end
  end.
Definition dashed (w : bytes) : Prop := exists r, w = 45 :: r.

(** What is to be done: [names] are the sub-commands. *)
Definition due (names : list bytes) (prog : bytes) (args : list bytes) (rs : list request) (e : ending) (a : action) : Prop :=
  match e with
  | Valueless o => a = Misused o
  | _ =>
      (In AskVersion rs /\ a = ShowVersion) \/
      (~ In AskVersion rs /\
       match last_help rs with
       | Some AskMan => a = ShowMan
       | Some AskInfo => a = ShowInfo
       | Some AskUsage => a = ShowUsage
       | _ =>
           match e with
           | Word w rest => (In w names /\ a = Command w rest) \/
                            (~ In w names /\ dashed w /\ a = Misused w) \/
                            (~ In w names /\ ~ dashed w /\ a = Guile (prog :: args))
           | _ => a = Guile (prog :: args)
           end
       end)
  end.

(** Alphabetical order. *)
Definition precedes (a b : bytes) : Prop :=
  (exists y r, b = a ++ y :: r) \/ (exists p x y a' b', a = p ++ x :: a' /\ b = p ++ y :: b' /\ x < y).

(** The words by which help is asked for. *)
Definition help_words : list bytes := [ B "-h"; B "--help"; B "--man"; B "--info" ].
