(** * Specification: what a template gives for a file (C83).

    After doc/scribbu.texi ("scribbu rename").  Which text each replacement stands
    for, and when there is none, as relations. *)
From Verif Require Import Base M_Charset M_Tbt S_Tbt.
#[local] Open Scope N_scope.

(** ** Texts of the tags. *)
(** The encoding of an ID3v1 field: the one named, or else what its byte order mark
    says. *)
Inductive v1_encoded (raw : bytes) : v1encoding -> enc -> Prop :=
| en_named e x : named_encoding e = Some x -> v1_encoded raw e x
| en_utf8 r : raw = 0xef :: 0xbb :: 0xbf :: r -> v1_encoded raw V1Auto E_UTF_8
| en_be r : raw = 0xfe :: 0xff :: r -> v1_encoded raw V1Auto E_UTF_16BE
| en_le r : raw = 0xff :: 0xfe :: r -> v1_encoded raw V1Auto E_UTF_16LE.
Definition v1_means (ic : iconv_t) (e : v1encoding) (raw text : bytes) : Prop :=
  raw = [] /\ text = [] \/ raw <> [] /\ exists x, v1_encoded raw e x /\ to_string ic raw x E_UTF_8 NoFail = Ok text.

(** The text to use of those of both tags, [v1] and [v2]: none, [], if neither tag
    that may be used has any. *)
Definition preferred (p : preference) (v1 v2 : bytes) : bytes :=
  match p with
  | PreferV2 => match v2 with [] => v1 | _ => v2 end
  | PreferV1 => match v1 with [] => v2 | _ => v1 end
  | V2Only => v2
  | V1Only => v1
  end.
(** The ID3v1 field matters. *)
Definition needs_v1 (p : preference) (v2 : bytes) : Prop :=
  p = PreferV1 \/ p = V1Only \/ p = PreferV2 /\ v2 = [].
Definition chosen (ic : iconv_t) (p : preference) (e : v1encoding) (raw v2 text : bytes) : Prop :=
  (exists v1, v1_means ic e raw v1 /\ needs_v1 p v2 /\ text = preferred p v1 v2) \/ ~ needs_v1 p v2 /\ text = v2.

Definition v1_year (c : context) : bytes := match c_v1 c with Some t => o_year t | None => [] end.
Definition v2_year (c : context) : bytes := match c_v2 c with Some t => match t_year t with Some s => s | None => [] end | None => [] end.
Definition v2_encoder (c : context) : bytes := match c_v2 c with Some t => match t_encoded t with Some s => s | None => [] end | None => [] end.

(** ** Adapting a text. *)
(** "The X" as "X, The"; "X, The" as "The X"; other texts as they are. *)
Inductive article (ct : ctype) : the_xform -> bytes -> bytes -> Prop :=
| ar_suffix a c r : spells ct (B "The ") a -> article ct MakeSuffix (a ++ c :: r) (c :: r ++ B ", The")
| ar_suffix_no t : (forall a c r, spells ct (B "The ") a -> t <> a ++ c :: r) -> article ct MakeSuffix t t
| ar_prefix a r : spells ct (B ", The") a -> article ct MakePrefix (r ++ a) (B "The " ++ r)
| ar_prefix_no t : (forall a r, spells ct (B ", The") a -> t <> r ++ a) -> article ct MakePrefix t t
| ar_none t : article ct TheNil t t.
Inductive cased (ct : ctype) : cap_xform -> bytes -> bytes -> Prop :=
| ca_first c r : cased ct Capitalize (c :: r) (ct_upper ct c :: r)
| ca_empty : cased ct Capitalize [] []
| ca_upper t : cased ct AllUpper t (map (ct_upper ct) t)
| ca_lower t : cased ct AllLower t (map (ct_lower ct) t)
| ca_none t : cased ct CapNil t t.
(** Blanks: as they are; or each replaced, by a space if no other text is given
    (runs are not merged, see C58). *)
Definition spaced (compress : bool) (w t u : bytes) : Prop :=
  compress = false /\ w = [] /\ u = t \/ w <> [] /\ u = replace_each w t \/ compress = true /\ w = [] /\ u = replace_each [32] t.
Inductive encoded_as (ic : iconv_t) : out_encoding -> bytes -> bytes -> Prop :=
| ea_utf8 t : encoded_as ic OutUtf8 t t
| ea_ascii t u : to_string ic t E_UTF_8 E_ASCII NoFail = Ok u -> encoded_as ic OutAscii t u
| ea_cp1252 t u : to_string ic t E_UTF_8 E_CP1252 NoFail = Ok u -> encoded_as ic OutCp1252 t u
| ea_iso t u : to_string ic t E_UTF_8 E_ISO_8859_1 NoFail = Ok u -> encoded_as ic OutIso t u.

(** ** The file. *)
(** [n] is the last part of the path. *)
Definition last_part (p n : bytes) : Prop := ~ In 47 n /\ exists d, p = d ++ n /\ (d = [] \/ exists d', d = d' ++ [47]).
(** Its extension begins with the last dot, unless that is the first character. *)
Inductive name_split (n : bytes) : bytes -> bytes -> Prop :=
| ns_ext s e : n = s ++ 46 :: e -> s <> [] -> n <> B ".." -> ~ In 46 e -> name_split n s (46 :: e)
| ns_none : (forall s e, n = s ++ 46 :: e -> s <> [] -> n <> B ".." -> In 46 e) -> name_split n n [].
(** The decimal numeral of a number. *)
Inductive numeral : N -> bytes -> Prop :=
| nu_digit d : d < 10 -> numeral d [48 + d]
| nu_more n d s : 0 < n -> d < 10 -> numeral n s -> numeral (n * 10 + d) (s ++ [48 + d]).

(** ** What parts of templates stand for. *)
Section Meaning.
Variables (ct : ctype) (ic : iconv_t) (c : context).

(** There is no text for [t]. *)
Inductive lacks : term -> Prop :=
| la_tag k o : chosen ic (a_sp o) (a_v1 o) (v1_value c k) (v2_value c k) [] -> lacks (TAacet k o)
| la_encoder : v2_encoder c = [] -> lacks TEncodedBy
| la_year f : chosen ic PreferV2 V1Auto (v1_year c) (v2_year c) [] -> lacks (TYear f).
(** The part [t] stands for [s]. *)
Inductive shows : term -> bytes -> Prop :=
| sh_text s : shows (TText s) s
| sh_tag k o t u v w s : chosen ic (a_sp o) (a_v1 o) (v1_value c k) (v2_value c k) t -> t <> [] ->
    article ct (a_the o) t u -> cased ct (a_cap o) u v -> spaced (a_compress o) (a_replace o) v w -> encoded_as ic (a_out o) w s ->
    shows (TAacet k o) s
| sh_encoder u s : v2_encoder c <> [] -> article ct MakeSuffix (v2_encoder c) u -> cased ct Capitalize u s -> shows TEncodedBy s
| sh_year y : chosen ic PreferV2 V1Auto (v1_year c) (v2_year c) y -> y <> [] -> shows (TYear FourDigits) (takeN 4 y)
| sh_year2 y : chosen ic PreferV2 V1Auto (v1_year c) (v2_year c) y -> y <> [] -> shows (TYear TwoDigits) (dropN 2 (takeN 4 y))
| sh_base o n t e u v s : last_part (c_name c) n -> name_split n t e -> article ct (f_the o) t u -> cased ct (f_cap o) u v ->
    spaced (f_compress o) (f_replace o) v s -> shows (TFile Basename o) s
| sh_ext o n t e u v s : last_part (c_name c) n -> name_split n t e -> article ct (f_the o) e u -> cased ct (f_cap o) u v ->
    spaced (f_compress o) (f_replace o) v s -> shows (TFile Extension o) s
| sh_size h s : numeral (c_size c) s -> shows (TSize (Some Decimal) h) s
| sh_optional l ss : Forall2 shows l ss -> shows (TSub l) (concat ss)
| sh_optional_not l1 x l2 ss : Forall2 shows l1 ss -> lacks x -> shows (TSub (l1 ++ x :: l2)) [].

(** What goes wrong (see C46, C57 and below), left out: ID3v1 texts whose encoding is
    to be guessed or which begin with the mark of UTF-16LE; an ID3v1 field of blanks
    that hides the ID3v2 text; an empty "encoded by"; years that have not four
    characters; numbers in base sixteen and digests; capitalizing where there is no
    extension. *)
Definition guessed (e : v1encoding) (raw : bytes) : Prop :=
  e = V1Auto /\ raw <> [] /\ (no_bom raw \/ exists r, raw = 0xff :: 0xfe :: r).
Inductive regular : term -> Prop :=
| re_text s : regular (TText s)
| re_tag k o : (needs_v1 (a_sp o) (v2_value c k) -> ~ guessed (a_v1 o) (v1_value c k)) ->
    (a_sp o = PreferV1 -> v1_value c k <> [] -> ~ v1_means ic (a_v1 o) (v1_value c k) []) -> regular (TAacet k o)
| re_encoder : match c_v2 c with Some t => t_encoded t | None => None end <> Some [] -> regular TEncodedBy
| re_year f : (v2_year c = [] -> ~ guessed V1Auto (v1_year c)) -> (forall y, chosen ic PreferV2 V1Auto (v1_year c) (v2_year c) y -> y = [] \/ len y = 4) ->
    regular (TYear f)
| re_base o : c_name c <> [] -> ~ (exists d, c_name c = d ++ [47]) -> regular (TFile Basename o)
| re_ext o : (forall n s, f_cap o = Capitalize -> last_part (c_name c) n -> ~ name_split n s []) -> regular (TFile Extension o)
| re_size h : regular (TSize (Some Decimal) h)
| re_optional l : Forall regular l -> regular (TSub l).
End Meaning.
