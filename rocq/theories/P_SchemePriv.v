(** * C79: objects for private frames. *)
From Verif Require Import Base M_Ints M_Stream M_Id3v1 M_Charset M_Payload M_Cloud M_Frame M_Tag22 M_Tag23 M_Tag24 M_Read M_Fs M_Tagset M_Cmds M_Lang
  M_Scheme M_Scheme2 S_Charset S_Payload S_Cloud S_Lang S_Tag S_Tag23 S_Tagset S_Stream S_Read S_Saved S_Scheme2 L_Payload L_Scheme2 L_Scheme3 L_Scheme4 L_Scheme5 L_Scheme6 P_Tagset P_Scheme2.
#[local] Open Scope N_scope.

Lemma priv_unknown G v a b c d own r data : no_nul own -> g_to_locale G own = Some r ->
  ser G v (SObj CPriv [SSym (B "priv-frame"); a; b; c; d; SStr own; SBytes data]) =
  ser_unknown G v [SSym (B "priv-frame"); a; b; c; d; SStr own; SBytes data].
Proof.
  intros HN HL. unfold ser. cbn [is_frame]. unfold slot at 1. cbn [nth_error gbind]. unfold symbol_text.
  change (has_nul (B "priv-frame")) with false. cbn [gbind].
  assert (K : assoc_b (B "priv-frame") (ser_table v) = None) by (destruct v; reflexivity). now rewrite K.
Qed.

(** The module defines a class of private frames, whose slots are an owner and some
    data (scheme/scribbu.scm:270-273), and a symbol for them.  There is no version of
    ID3v2 in which such an object is written as a private frame.  The frame that is
    written is named by the first letters of the owner, and the data it holds lack
    their first ten bytes (six in ID3v2.2); the program reads out of bounds if the
    data are fewer. *)
Theorem C79_private_refuted : forall G v a b c d own r data, no_nul own -> g_to_locale G own = Some r -> no_nul r ->
  let width := match v with V22 => 3 | _ => 4 end in let header := match v with V22 => 6 | _ => 10 end in
  match ser G v (SObj CPriv [SSym (B "priv-frame"); a; b; c; d; SStr own; SBytes data]) with
  | GOk f => (exists rest, r ++ [0] = f_id f ++ rest) /\ len (f_id f) = width /\
             exists h body, len h = header /\ data = h ++ body /\ f_body f = BUnknown body
  | GUB _ => len r + 1 < width \/ len data < header
  | _ => False
  end.
Proof.
  intros G v a b c d own r data HN HL HR width header. rewrite (priv_unknown G v a b c d own r data HN HL).
  assert (L : to_locale G (SStr own) = GOk r) by (unfold to_locale; rewrite (to_utf8_ok own HN); cbn [gbind]; now rewrite HL).
  unfold ser_unknown. unfold slot at 1. cbn [nth_error gbind]. rewrite L. cbn [gbind]. rewrite (c_str_id r HR).
  change (id_size v) with width. change (header_size v) with header.
  destruct (len r + 1 <? width) eqn:E1; [left; now apply N.ltb_lt|]. cbn [gbind].
  match goal with |- context [gbind ?x _] => assert (F : exists fl, x = GOk fl) by (destruct v; eexists; reflexivity) end.
  destruct F as (fl & ->). cbn [gbind]. unfold slot. cbn [nth_error gbind bytevector].
  destruct (len data <? header) eqn:E2; [right; now apply N.ltb_lt|]. cbn [f_id f_body].
  apply N.ltb_ge in E1. apply N.ltb_ge in E2. split; [|split].
  - exists (dropN width (r ++ [0])). symmetry. apply takeN_dropN.
  - rewrite len_takeN, len_app. change (len [0]) with 1. clear - E1. lia.
  - exists (takeN header data), (dropN header data). split; [|split; [symmetry; apply takeN_dropN|reflexivity]].
    rewrite len_takeN. clear - E2. lia.
Qed.
Print Assumptions C79_private_refuted.
Example C79_private_refuted_nontrivial : no_nul (B "WM/Provider") /\ g_to_locale ex_guile2 (B "WM/Provider") = Some (B "WM/Provider") /\
  ser ex_guile2 V23 (ex_object CPriv (B "priv-frame") [SStr (B "WM/Provider"); SBytes (B "0123456789abc")]) =
    GOk (mkFrame (B "WM/P") no_flags (BUnknown (B "abc"))) /\
  ser ex_guile2 V24 (ex_object CPriv (B "priv-frame") [SStr (B "WM/Provider"); SBytes (B "A")]) = GUB BadIterator /\
  ser ex_guile2 V23 (ex_object CPriv (B "priv-frame") [SStr []; SBytes []]) = GUB OutOfBounds.
Proof. split; [vm_compute; intuition discriminate|]. repeat split; vm_compute; reflexivity. Qed.

Lemma known_class G v k f slots : de_known G v k f <> GOk (SObj CPriv slots).
Proof.
  intros E. unfold de_known in E. destruct k, (f_body f); try discriminate E.
  - unfold de_text in E. destruct (symbol_of_id v (f_id f)); [|discriminate E].
    repeat match type of E with gbind ?x _ = _ => destruct x; cbn [gbind] in E; try discriminate E end.
  - unfold de_comment in E. destruct (co_lang _); [|discriminate E].
    repeat match type of E with gbind ?x _ = _ => destruct x; cbn [gbind] in E; try discriminate E end.
  - unfold de_udt in E. repeat match type of E with gbind ?x _ = _ => destruct x; cbn [gbind] in E; try discriminate E end.
  - unfold de_count in E. repeat match type of E with gbind ?x _ = _ => destruct x; cbn [gbind] in E; try discriminate E end.
  - unfold de_popm in E. repeat match type of E with gbind ?x _ = _ => destruct x; cbn [gbind] in E; try discriminate E end.
  - unfold de_cloud in E. repeat match type of E with gbind ?x _ = _ => destruct x; cbn [gbind] in E; try discriminate E end.
Qed.

(** Nor is any frame of a file given to a script as an object of that class: a
    private frame comes as an unknown one. *)
Theorem C82_private_refuted : forall G z v u f x, de G z v u (new_frame f) = GOk x ->
  (forall slots, x <> SObj CPriv slots) /\
  (v <> V22 -> f_id f = B "PRIV" -> exists idt bv, x = SObj CUnk (SSym (B "unknown-frame") :: flag_slots v (f_flags f) ++ [SStr idt; SBytes bv])).
Proof.
  intros G z v u f x H.
  assert (U : forall y, de_unknown G z v u (new_frame f) = GOk y ->
            exists idt bv, y = SObj CUnk (SSym (B "unknown-frame") :: flag_slots v (f_flags f) ++ [SStr idt; SBytes bv])).
  { clear. intros y H. unfold de_unknown in H. cbn [new_frame c_frame] in H.
    unfold from_locale in H. destruct (g_from_locale G (c_str (f_id f))) as [idt|] eqn:E; cbn [gbind] in H; try discriminate H.
    destruct (glift _) as [bv| | | |]; cbn [gbind] in H; try discriminate H. injection H as <-. exists idt, bv. reflexivity. }
  unfold de in H. cbn [new_frame c_frame] in H. split.
  - assert (W : forall y slots, de_unknown G z v u (new_frame f) = GOk y -> y <> SObj CPriv slots).
    { intros y slots Hy. destruct (U y Hy) as (idt & bv & ->). discriminate. }
    intros slots. destruct (assoc_b (f_id f) (de_table v)) as [k|]; [|now apply W].
    destruct (de_known G v k f) as [y| | | |] eqn:E; cbn [gcatch] in H; try discriminate H; try (now apply W).
    injection H as <-. intros ->. exact (known_class G v k f slots E).
  - intros Hv HI. rewrite HI in H. assert (K : assoc_b (B "PRIV") (de_table v) = None) by (destruct v; [congruence|reflexivity|reflexivity]).
    rewrite K in H. now apply U.
Qed.
Print Assumptions C82_private_refuted.
Example C82_private_refuted_nontrivial :
  de ex_guile2 no_zlib V23 false (new_frame (mkFrame (B "PRIV") no_flags (BPriv (mkPriv (B "me") [7])))) =
    GOk (SObj CUnk (SSym (B "unknown-frame") :: flag_slots V23 no_flags ++ [SStr (B "PRIV"); SBytes (B "PRIV" ++ [0; 0; 0; 4; 0; 0] ++ B "me" ++ [0; 7])])).
Proof. vm_compute. reflexivity. Qed.
