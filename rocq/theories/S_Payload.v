(** * Specification: strings inside frames. *)
From Verif Require Import Base M_Payload.

(** A string that a terminator of [cu] NUL bytes can follow unambiguously: no
    NUL byte (one-byte encodings); whole two-byte units, none of them 00 00
    (two-byte encodings). *)
Inductive units2 : bytes -> Prop :=
| units2_nil : units2 []
| units2_cons a b l : ~ (a = 0 /\ b = 0) -> units2 l -> units2 (a :: b :: l).

Definition terminable (cu : N) (d : bytes) : Prop :=
  (cu = 1 /\ ~ In 0 d) \/ (cu = 2 /\ units2 d).

(** The terminator width the standards fix for an encoding byte: ID3v2.2/2.3: 0
    is ISO-8859-1, all else two-byte Unicode; ID3v2.4: 0 (ISO-8859-1) and 3
    (UTF-8) are terminated by one NUL, UTF-16 by two. *)
Definition nul_width (v : version) (u w : N) : Prop :=
  match v with
  | V24 => (w = 1 /\ (u = 0 \/ u = 3)) \/ (w = 2 /\ u <> 0 /\ u <> 3)
  | _ => (w = 1 /\ u = 0) \/ (w = 2 /\ u <> 0)
  end.

(** Well-formed user-text and comment frames of a version. *)
Definition wf_txxx (v : version) (t : txxx) : Prop :=
  nul_width v (ud_unicode t) (ud_cbnil t) /\ terminable (ud_cbnil t) (ud_desc t).

Definition wf_comm (v : version) (c : comm) : Prop :=
  exists u lg, co_unicode c = Some u /\ co_lang c = Some lg /\ len lg = 3 /\
    (match v with V24 => u <= 3 | _ => u <= 1 end) /\
    nul_width v u (co_cbnil c) /\ terminable (co_cbnil c) (co_desc c).

(** [l] is a terminable description, its terminator, and a text. *)
Definition has_terminator (cu : N) (l : bytes) : Prop :=
  exists d t, terminable cu d /\ l = d ++ repeatN 0 cu ++ t.
