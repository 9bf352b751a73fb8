(** * Specification: ID3v1 tags that scripts write and read. *)
From Verif Require Import Base M_Charset M_Id3v1 M_Scheme S_Charset S_Id3v1.
#[local] Open Scope N_scope.

(** The bytes of a text given for a field: in the locale's encoding, which is taken
    to be UTF-8. *)
Definition v1_stored (G : guile) (s b : bytes) : Prop :=
  no_nul s /\ exists l, g_to_locale G s = Some l /\ no_nul l /\
  (l = [] /\ b = [] \/
   l <> [] /\ g_ic G E_UTF_8 E_UTF_8 NoFail l = Some b /\ len b <= 4 * len l /\ no_nul b).

(** The text shown for a field of [n] bytes: these, cut or filled with NULs, taken
    to be in the encoding [e] and converted to UTF-8, without NULs and spaces at the
    end. *)
Definition trimmed (out s : bytes) : Prop :=
  exists t, out = s ++ t /\ Forall (fun c => c = 0 \/ c = 32) t /\ no_trailing s.
Definition v1_text (G : guile) (e : enc) (r : noenc) (n : N) (b s : bytes) : Prop :=
  exists out, g_ic G e E_UTF_8 r (fixed n b) = Some out /\ no_bom out /\ trimmed out s /\ g_utf8 G s = true.
Definition v1_latin (G : guile) : N -> bytes -> bytes -> Prop := v1_text G E_ISO_8859_1 NoTranslit.

(** A year is four bytes, or none. *)
Definition v1_year (G : guile) (x : scm) (b : bytes) : Prop :=
  (x = SNull \/ x = SNil) /\ b = [] \/
  exists s, x = SStr s /\ no_nul s /\ g_to_locale G s = Some b /\ no_nul b /\ (b = [] \/ len b = 4).
(** A track number, or none. *)
Definition v1_track_slot (x : scm) (n : N) : Prop :=
  (x = SNull \/ x = SNil) /\ n = 0 \/ x = SInt (Z.of_N n) /\ n < 256.
Definition nothing (x : scm) : Prop := x = SNull \/ x = SNil \/ x = SInt 0.

(** The object [x], written as an ID3v1 tag, is read as [y].  A comment has 28 bytes
    if there is a track number, else 30. *)
Inductive v1_back (G : guile) : scm -> scm -> Prop :=
| v1_back_std ti ar al co bti bar bal bco ti' ar' al' co' yr byr yr' (g trk : N) xtrk speed :
    v1_stored G ti bti -> v1_stored G ar bar -> v1_stored G al bal -> v1_stored G co bco -> v1_year G yr byr ->
    g < 256 -> v1_track_slot xtrk trk -> nothing speed -> g_to_locale G [] = Some [] ->
    v1_latin G 30 bti ti' -> v1_latin G 30 bar ar' -> v1_latin G 30 bal al' ->
    v1_latin G (if trk =? 0 then 30 else 28) bco co' ->
    v1_text G E_ASCII NoFail 4 byr yr' ->
    v1_back G (SObj CV1 [SStr ti; SStr ar; SStr al; yr; SStr co; SInt (Z.of_N g); xtrk; SStr []; speed; SStr []; SStr []])
              (SObj CV1 [SStr ti'; SStr ar'; SStr al'; SStr yr'; SStr co'; SInt (Z.of_N g);
                         if trk =? 0 then SNull else SInt (Z.of_N trk); SStr []; SNull; SStr []; SStr []]).

(** ASCII text that fits. *)
Definition plain_text (n : N) (s : bytes) : Prop :=
  Forall (fun c => 0 < c < 128) s /\ no_trailing s /\ len s <= n.
(** Conversions that leave ASCII alone, as those of glibc do in a UTF-8 locale. *)
Definition ascii (s : bytes) : Prop := Forall (fun c => c < 128) s.
Definition ascii_kept (G : guile) : Prop :=
  forall s, ascii s -> (no_nul s -> g_to_locale G s = Some s) /\ g_utf8 G s = true /\
    forall src dst r, (src = E_UTF_8 \/ src = E_ISO_8859_1 \/ src = E_ASCII) -> dst = E_UTF_8 -> g_ic G src dst r s = Some s.

(** Latin-1 as UTF-8. *)
Definition latin_utf8 (s : bytes) : bytes :=
  concat (map (fun c => if c <? 128 then [c] else [192 + c / 64; 128 + c mod 64]) s).

(** A file without the ID3v1 tag it may have at its end. *)
Definition without_v1 (file base : bytes) : Prop :=
  (base = file /\ ~ ends_in_block file 355 (B "TAG+") /\ ~ ends_in_block file 128 (B "TAG")) \/
  (exists blk, file = base ++ blk /\
     ((len blk = 128 /\ takeN 3 blk = B "TAG" /\ ~ ends_in_block file 355 (B "TAG+")) \/
      (len blk = 355 /\ takeN 4 blk = B "TAG+" /\ slice 227 3 blk = B "TAG"))).
