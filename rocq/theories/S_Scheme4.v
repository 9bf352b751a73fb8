(** * Specification: the objects a script gets for the frames of a tag. *)
From Verif Require Import Base M_Charset M_Payload M_Cloud M_Frame M_Tag22 M_Tag23 M_Tag24 M_Unsync M_Read M_Process M_Cmds M_Scheme S_Ints S_Charset S_Payload S_Cloud S_Cmds S_Scheme2.
#[local] Open Scope N_scope.

(** ** Texts *)

(** ID3v2.2 section 3.2, ID3v2.3 section 3.3, ID3v2.4 section 4: what the byte in
    front of a text says of it.  Texts in UCS-2 and UTF-16 start with a mark of
    their byte order. *)
Definition stored_as (v : version) (n : N) (b : bytes) : option enc :=
  match v, n with
  | _, 0 => Some E_ISO_8859_1
  | V24, 1 => Some (match b with 254 :: 255 :: _ => E_UTF_16BE | 255 :: 254 :: _ => E_UTF_16LE | _ => E_UTF_16 end)
  | V24, 2 => Some E_UTF_16BE
  | V24, 3 => Some E_UTF_8
  | V24, _ => None
  | _, 1 => Some (match b with 254 :: 255 :: _ => E_UCS_2BE | 255 :: 254 :: _ => E_UCS_2LE | _ => E_UCS_2 end)
  | _, _ => None
  end.
(** Text in UTF-16BE without mark (2 in ID3v2.4). *)
Definition unmarked_be (v : version) (n : N) (b : bytes) : Prop :=
  v = V24 /\ n = 2 /\ b <> [] /\ (forall r, b <> 254 :: 255 :: r).

(** [m] is [out] without mark of byte order and without trailing spaces and NULs. *)
Definition trimmed (out m : bytes) : Prop :=
  exists p q, out = p ++ m ++ q /\ (p = [239; 187; 191] \/ p = [] /\ forall r, out <> 239 :: 187 :: 191 :: r) /\
    Forall (fun c => c = 0 \/ c = 32) q /\ no_trailing m.
(** The first of the texts in [m], if NULs separate several. *)
Definition first_text (m s : bytes) : Prop := no_nul s /\ (m = s \/ exists r, m = s ++ 0 :: r).

(** What is converted to UTF-8 is UTF-8: it has no bytes that UTF-8 does not use, and
    Guile takes it, also when cut at a NUL or a space; and so with ASCII. *)
Definition gives_utf8 (G : guile) : Prop :=
  (forall e r b out, g_ic G e E_UTF_8 r b = Some out -> Forall (fun c => c < 248) out /\
     forall m s, trimmed out m -> first_text m s -> g_utf8 G s = true) /\
  (forall s, Forall (fun c => c < 128) s -> g_utf8 G s = true).

(** The text [s] that is stored as [b] after the byte [n]; and texts that cannot be
    converted. *)
Definition text_shown (G : guile) (v : version) (n : N) (b s : bytes) : Prop :=
  b = [] /\ s = [] \/
  b <> [] /\ exists e out m, stored_as v n b = Some e /\ g_ic G e E_UTF_8 NoFail b = Some out /\ trimmed out m /\ first_text m s.
Definition text_lost (G : guile) (v : version) (n : N) (b : bytes) : Prop :=
  b <> [] /\ forall e, stored_as v n b = Some e -> g_ic G e E_UTF_8 NoFail b = None.
(** E-mail addresses are ASCII. *)
Definition email_shown (G : guile) (b s : bytes) : Prop :=
  b = [] /\ s = [] \/ b <> [] /\ exists out m, g_ic G E_ASCII E_UTF_8 NoFail b = Some out /\ trimmed out m /\ first_text m s.
Definition email_lost (G : guile) (b : bytes) : Prop := b <> [] /\ g_ic G E_ASCII E_UTF_8 NoFail b = None.

(** Counters of up to four bytes. *)
Definition counts (c : bytes) (n : N) : Prop := 0 < len c <= 4 /\ positional 256 c = n.
Definition uncountable (c : bytes) : Prop := 4 < len c.

(** ** Marks *)
Definition marks_of (v : version) (fl : fflags) : list scm :=
  match v with
  | V22 => [SNull; SNull; SNull; SNull]
  | V23 => [SBool (negb (fl_tap fl)); SBool (negb (fl_fap fl)); SBool (fl_ro fl); SNull]
  | V24 => [SBool (negb (fl_tap fl)); SBool (negb (fl_fap fl)); SBool (fl_ro fl); SBool (fl_unsync fl)]
  end.

(** ** Frames with a documented symbol *)
Definition said (G : guile) (s : bytes) (x : scm) : Prop := g_utf8 G s = true /\ x = SStr s.
(** A value in a tag cloud that is not UTF-8 is shown with escape sequences. *)
Definition value_shown (G : guile) (s : bytes) (x : scm) : Prop :=
  g_utf8 G s = true /\ x = SStr s \/ g_utf8 G s = false /\ exists r, g_escape G s = Some r /\ x = SStr r.
Definition entry_shown (G : guile) (kv : bytes * list bytes) (x : scm) : Prop :=
  exists k s vs, x = SPair k (slist vs) /\ first_text (fst kv) s /\ said G s k /\ Forall2 (value_shown G) (snd kv) vs.
Inductive known_object (G : guile) (v : version) (f : frame) : scm -> Prop :=
| ko_text sym t s x : text_symbol v sym (f_id f) -> f_body f = BText t -> text_shown G v (tx_unicode t) (tx_text t) s -> said G s x ->
    known_object G v f (SObj CText (SSym sym :: marks_of v (f_flags f) ++ [x]))
| ko_comment c n l d s x5 x6 x7 : documented_id v (B "comment-frame") (f_id f) -> f_body f = BComm c ->
    co_unicode c = Some n -> co_lang c = Some l -> first_text (map (fun c => if c <? 128 then c else 0) l) d -> said G d x5 ->
    (exists dsc, text_shown G v n (co_desc c) dsc /\ said G dsc x6) -> text_shown G v n (co_text c) s -> said G s x7 ->
    known_object G v f (SObj CComment (SSym (B "comment-frame") :: marks_of v (f_flags f) ++ [x5; x6; x7]))
| ko_udt t dsc s x5 x6 : documented_id v (B "udt-frame") (f_id f) -> f_body f = BTxxx t ->
    text_shown G v (ud_unicode t) (ud_desc t) dsc -> said G dsc x5 -> text_shown G v (ud_unicode t) (ud_text t) s -> said G s x6 ->
    known_object G v f (SObj CUdt (SSym (B "udt-frame") :: marks_of v (f_flags f) ++ [x5; x6]))
| ko_count c n : documented_id v (B "play-count-frame") (f_id f) -> f_body f = BCount c -> counts c n ->
    known_object G v f (SObj CCount (SSym (B "play-count-frame") :: marks_of v (f_flags f) ++ [SInt (Z.of_N n)]))
| ko_popm p s x5 n : documented_id v (B "popm-frame") (f_id f) -> f_body f = BPopm p -> email_shown G (po_email p) s -> said G s x5 ->
    counts (po_counter p) n ->
    known_object G v f (SObj CPopm (SSym (B "popm-frame") :: marks_of v (f_flags f) ++ [x5; SInt (Z.of_N (po_rating p)); SInt (Z.of_N n)]))
| ko_cloud c s x5 es : documented_id v (B "tag-cloud-frame") (f_id f) -> f_body f = BCloud c -> first_text (tc_owner c) s -> said G s x5 ->
    Forall2 (entry_shown G) (tc_tags c) es ->
    known_object G v f (SObj CCloud (SSym (B "tag-cloud-frame") :: marks_of v (f_flags f) ++ [x5; slist (rev es)])).

(** ** Frames with none, or with a text or counter that cannot be converted *)
Definition inconvertible (G : guile) (v : version) (f : frame) : Prop :=
  match f_body f with
  | BText t => text_lost G v (tx_unicode t) (tx_text t)
  | BComm c => exists n, co_unicode c = Some n /\ (text_lost G v n (co_desc c) \/ text_lost G v n (co_text c))
  | BTxxx t => text_lost G v (ud_unicode t) (ud_desc t) \/ text_lost G v (ud_unicode t) (ud_text t)
  | BCount c => uncountable c
  | BPopm p => email_lost G (po_email p) \/ uncountable (po_counter p)
  | _ => False
  end.
Definition no_symbol (v : version) (f : frame) : Prop := forall sym, ~ documented_id v sym (f_id f).
(** The bytes of the frame in a tag, unsynchronised in an unsynchronised one. *)
Definition in_tag (z : zlib) (v : version) (u : bool) (f : frame) (w : bytes) : Prop :=
  exists p, wire_of z v f = Ok p /\ w = if u then unsynchronise p false else p.
Inductive other_object (G : guile) (z : zlib) (v : version) (u : bool) (f : frame) : scm -> Prop :=
| oo_unknown i idt w : first_text (f_id f) i -> g_from_locale G i = Some idt ->
    in_tag z v (match v with V22 => negb u | _ => u end) f w ->
    other_object G z v u f (SObj CUnk (SSym (B "unknown-frame") :: marks_of v (f_flags f) ++ [SStr idt; SBytes w])).

(** ** Frames that are complete: comments with a language, counters that are not
    empty; and that have no text in UTF-16BE without mark. *)
Definition complete (v : version) (f : frame) : Prop :=
  match f_body f with
  | BText t => ~ unmarked_be v (tx_unicode t) (tx_text t)
  | BComm c => (exists l, co_lang c = Some l) /\ exists n, co_unicode c = Some n /\ ~ unmarked_be v n (co_desc c) /\ ~ unmarked_be v n (co_text c)
  | BTxxx t => ~ unmarked_be v (ud_unicode t) (ud_desc t) /\ ~ unmarked_be v (ud_unicode t) (ud_text t)
  | BCount c => is_bytes c /\ c <> []
  | BPopm p => is_bytes (po_counter p) /\ po_counter p <> []
  | _ => True
  end.
(** The identifier says of which kind a frame is. *)
Definition of_its_kind (v : version) (f : frame) : Prop := kind_of_body (f_body f) = kind_of v (f_id f).

(** ** Objects of frames, of tags, of files *)
Definition frame_shown (G : guile) (z : zlib) (v : version) (u : bool) (f : frame) (x : scm) : Prop :=
  known_object G v f x \/ (no_symbol v f \/ inconvertible G v f) /\ other_object G z v u f x.
Definition version_number (t : anytag) : Z := match t with A22 _ => 2 | A23 _ => 3 | A24 _ => 4 end.
Definition is_unsync (t : anytag) : bool :=
  match t with A22 t => match t2_unsync t with Some b => b | None => false end | A23 t => match t3_unsync t with Some b => b | None => false end
  | A24 t => match t4_unsync t with Some b => b | None => false end end.
Definition experimental (t : anytag) : scm := match t with A22 _ => SNull | A23 t => SBool (t3_exp t) | A24 t => SBool (t4_exp t) end.
Definition padding (t : anytag) : N := match t with A22 t => t2_pad t | A23 t => t3_pad t | A24 t => t4_pad t end.
Definition tag_shown (G : guile) (z : zlib) (t : anytag) (x : scm) : Prop :=
  exists ys, Forall2 (frame_shown G z (any_version t) (is_unsync t)) (shown t) ys /\
    x = slist [SObj CTag [experimental t; slist ys; SInt (Z.of_N (padding t))]; SInt (version_number t); SBool (is_unsync t)].
