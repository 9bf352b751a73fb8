(** * C83: what a template gives for a file. *)
From Verif Require Import Base M_Charset M_Fs M_Tbt S_Tbt S_Tbt2 L_Tbt7.
#[local] Open Scope N_scope.

(** Each part gives what the manual says ([shows]), and the parts are joined in order;
    an optional part gives nothing exactly if something in it lacks a text; and lacking
    texts outside of optional parts are errors.  Missing: what is not [regular], see
    below. *)
Theorem C83_template_partial : forall ct ic c l, Forall (regular ic c) l ->
  (forall s, process ct ic c l = Ok s <-> exists ss, Forall2 (shows ct ic c) l ss /\ s = concat ss) /\
  (process ct ic c l = Throw TemplateError <-> exists l1 x l2 ss, l = l1 ++ x :: l2 /\ Forall2 (shows ct ic c) l1 ss /\ lacks ic c x).
Proof. exact template_l. Qed.
Print Assumptions C83_template_partial.
Definition upcase : ctype := mkCtype (fun c => if (97 <=? c) && (c <=? 122) then c - 32 else c) (fun c => if (65 <=? c) && (c <=? 90) then c + 32 else c).
Definition same : iconv_t := fun _ _ _ s => Some s.
Definition some_file : context :=
  mkContext (B "d/x.y.mp3") 1024 [200; 7] (Some (mkV2 None (Some (B "the pogues")) None (Some (B "sally ")) None (Some (B "1985")))) (Some (mkV1t (B "Rum  sod") [] [] [] 17 [])).
Definition latin : aacet := mkAacet PreferV1 V1Iso TheNil AllUpper true (B "_") OutUtf8.
Definition some_template : list term :=
  [TAacet Artist aacet_default; TText (B " - "); TAacet Album latin; TSub [TText (B " ["); TEncodedBy; TText (B "]")]; TSub [TText (B " ("); TYear TwoDigits; TText (B ")")];
   TFile Extension fileopt_default; TText (B "."); TSize (Some Decimal) (Some LowerCase)].
Ltac prefers := intros [?|[?|[_ ?]]]; discriminate.
Example C83_template_nontrivial : Forall (regular same some_file) some_template /\ process upcase same some_file some_template = Ok (B "Pogues, The - RUM__SOD (85).mp3.1024") /\
  process upcase same some_file [TText (B "x"); TEncodedBy] = Throw TemplateError /\ regular same some_file TEncodedBy.
Proof.
  assert (HY : forall y, chosen same PreferV2 V1Auto (v1_year some_file) (v2_year some_file) y -> y = [] \/ len y = 4).
  { intros y [(v & _ & K & _)|[_ ->]]; [exfalso; revert K; prefers|now right]. }
  split; [|split; [vm_compute; reflexivity|split; [vm_compute; reflexivity|constructor; discriminate]]]. unfold some_template.
  apply Forall_cons; [apply re_tag; [prefers|discriminate]|]. apply Forall_cons; [constructor|].
  apply Forall_cons; [apply re_tag; [intros _ [K _]; discriminate K|]; intros _ _ [[K _]|[_ (x & E & K)]]; [discriminate K|]; inversion E as [e x' F| | |]; subst; injection F as <-; discriminate K|].
  apply Forall_cons. { apply re_optional. repeat (apply Forall_cons || apply Forall_nil); constructor. discriminate. }
  apply Forall_cons. { apply re_optional. apply Forall_cons; [constructor|]. apply Forall_cons; [apply re_year; [discriminate|exact HY]|]. apply Forall_cons; constructor. }
  apply Forall_cons. { apply re_ext. discriminate. }
  repeat (apply Forall_cons || apply Forall_nil); constructor.
Qed.

(** ID3v1 texts that begin with the byte order mark of UTF-16LE are taken to be UTF-16BE. *)
Theorem C83_byte_order_refuted : forall ct ic c k o r s, a_v1 o = V1Auto -> needs_v1 (a_sp o) (v2_value c k) -> v1_value c k = 0xff :: 0xfe :: r ->
  process ct ic c [TAacet k o] = Ok s -> exists t, to_string ic (v1_value c k) E_UTF_16BE E_UTF_8 NoFail = Ok t /\ xform_and_encode ct ic o t = Ok s.
Proof. exact le_l. Qed.
Print Assumptions C83_byte_order_refuted.
Definition two_orders : iconv_t := fun e _ _ s =>
  match e, s with E_UTF_16LE, [255; 254; 72; 0; 105; 0] => Some (B "Hi") | E_UTF_16BE, [255; 254; 72; 0; 105; 0] => Some [228; 160; 128; 230; 164; 128] | _, _ => None end.
Definition little_file : context := mkContext (B "x") 9 [] None (Some (mkV1t [] [255; 254; 72; 0; 105; 0] [] [] 17 [])).
Example C83_byte_order_nontrivial : to_string two_orders (v1_value little_file Artist) E_UTF_16LE E_UTF_8 NoFail = Ok (B "Hi") /\
  process upcase two_orders little_file [TAacet Artist aacet_default] = Ok [228; 160; 128; 230; 164; 128].
Proof. split; vm_compute; reflexivity. Qed.

(** A year is whatever the frame has, less the first two characters in the short form. *)
Theorem C83_year_refuted : forall ct ic c, v2_year c <> [] ->
  process ct ic c [TYear FourDigits] = Ok (v2_year c) /\ (2 <= len (v2_year c) -> process ct ic c [TYear TwoDigits] = Ok (dropN 2 (v2_year c))).
Proof. exact year_l. Qed.
Print Assumptions C83_year_refuted.
Definition dated_file : context := mkContext (B "x") 9 [] (Some (mkV2 None None None None None (Some (B "1985-08-05")))) None.
Example C83_year_nontrivial : shows upcase same dated_file (TYear TwoDigits) (B "85") /\ process upcase same dated_file [TYear TwoDigits] = Ok (B "85-08-05").
Proof. split; [|vm_compute; reflexivity]. apply (sh_year2 upcase same dated_file (B "1985-08-05")); [right; split; [prefers|reflexivity]|discriminate]. Qed.

(** The year of an ID3v1 tag is never used; not even an optional part makes up for it. *)
Theorem C83_year_v1_refuted : forall ct ic c f, v2_year c = [] -> v1_year c <> [] -> no_bom (v1_year c) ->
  process ct ic c [TYear f] = Throw InvalidArgument /\ process ct ic c [TSub [TYear f]] = Throw InvalidArgument.
Proof. exact year1_l. Qed.
Print Assumptions C83_year_v1_refuted.
Example C83_year_v1_nontrivial : let c := mkContext (B "x") 9 [] None (Some (mkV1t [] [] [] (B "1985") 17 [])) in v2_year c = [] /\ v1_year c = B "1985" /\ no_bom (v1_year c).
Proof. split; [reflexivity|]. split; [reflexivity|]. repeat split; discriminate. Qed.

(** Capitalizing the extension of a file that has none. *)
Theorem C83_extension_refuted : forall ct ic c o n, f_cap o = Capitalize -> last_part (c_name c) n -> name_split n n [] ->
  process ct ic c [TFile Extension o] = Throw OutOfRange /\ process ct ic c [TSub [TFile Extension o]] = Throw OutOfRange.
Proof. exact ext_l. Qed.
Print Assumptions C83_extension_refuted.
Example C83_extension_nontrivial : last_part (B "d/.x") (B ".x") /\ name_split (B ".x") (B ".x") [].
Proof.
  split.
  - split; [cbn; intros [K|[K|[]]]; discriminate|]. exists (B "d/"). split; [reflexivity|]. right. exists (B "d"). reflexivity.
  - apply ns_none. intros s e E HS _. change (B ".x") with [46; 120] in E. destruct s as [|a [|b s]]; [congruence|discriminate E|]. destruct s; discriminate E.
Qed.
Theorem C83_encoder_refuted : forall ct ic c t, c_v2 c = Some t -> t_encoded t = Some [] ->
  process ct ic c [TEncodedBy] = Throw OutOfRange /\ process ct ic c [TSub [TEncodedBy]] = Throw OutOfRange.
Proof. exact encoder_l. Qed.
Print Assumptions C83_encoder_refuted.
Example C83_encoder_nontrivial : exists c t, c_v2 c = Some t /\ t_encoded t = Some [].
Proof. exists (mkContext (B "x") 9 [] (Some (mkV2 None None None None (Some []) None)) None), (mkV2 None None None None (Some []) None). split; reflexivity. Qed.

(** The MD5 digest is not written in digits: its bytes are, as they are. *)
Theorem C83_md5_refuted : forall ct ic c b h, process ct ic c [TMd5 (Some b) (Some h)] = Ok (c_md5 c).
Proof. exact md5_l. Qed.
Print Assumptions C83_md5_refuted.
Example C83_md5_nontrivial : template_processor Init (B "%5") = (Ok [TMd5 (Some Decimal) (Some LowerCase)], Init) /\
  process upcase same some_file [TMd5 (Some Decimal) (Some LowerCase)] = Ok [200; 7].
Proof. split; vm_compute; reflexivity. Qed.
