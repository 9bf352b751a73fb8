(** * C80: ID3v1 tags that scripts write and read again. *)
From Verif Require Import Base M_Id3v1 M_Charset M_Fs M_Lang M_Scheme M_Scheme2 S_Charset S_Id3v1 S_Scheme3 L_Id3v1c L_Scheme7.
#[local] Open Scope N_scope.

Definition ex_obj (ti co : bytes) (trk : scm) : scm :=
  SObj CV1 [SStr ti; SStr (B "Artist"); SStr (B "Album"); SStr (B "1999"); SStr co; SInt 17; trk; SStr []; SNull; SStr []; SStr []].
Definition ex_utf8 : guile :=
  mkGuile (fun src dst _ s => match src, dst with E_ISO_8859_1, E_UTF_8 => Some (latin_utf8 s) | _, _ => Some s end)
    (fun _ => true) (fun _ => None) (fun s => Some s) (fun s => Some s) (mkLenv None None None).
Definition ex_dir : fsys := [([B "m"; B "a"], File (B "audio" ++ B "TAG" ++ repeatN 65 125)); ([B "m"], Dir)].

(** The tag takes the place of the one at the end of the file, the bytes before that
    stay, and the object that is read is the one that was written, each text as its
    field can hold it.  Excluded: files with "TAG+" 355 bytes before their end. *)
Theorem C80_written_partial : forall G cwd x y pth q fs st r fs', let k := resolve cwd q in
  v1_back G x y -> to_locale G pth = GOk q -> write_v1_scm G cwd x pth fs = (st, (GOk r, fs')) ->
  exists base blk, find_node k fs' = Some (File (base ++ blk)) /\ len blk = 128 /\
    without_v1 (match find_node k fs with Some (File d) => d | _ => [] end) base /\
    (~ ends_in_block (base ++ blk) 355 (B "TAG+") -> read_v1_scm G cwd fs' pth = GOk y).
Proof. exact v1_kept. Qed.
Print Assumptions C80_written_partial.

(** With texts of ASCII characters that fit, that is the same object. *)
Theorem C80_ascii : forall G ti ar al yr co (g trk : N), ascii_kept G ->
  plain_text 30 ti -> plain_text 30 ar -> plain_text 30 al -> plain_text 4 yr -> (yr = [] \/ len yr = 4) ->
  plain_text (if trk =? 0 then 30 else 28) co -> g < 256 -> trk < 256 ->
  let x := SObj CV1 [SStr ti; SStr ar; SStr al; SStr yr; SStr co; SInt (Z.of_N g);
                     if trk =? 0 then SNull else SInt (Z.of_N trk); SStr []; SNull; SStr []; SStr []] in
  v1_back G x x.
Proof. exact plain_v1_back. Qed.
Print Assumptions C80_ascii.
Lemma ex_kept : ascii_kept ex_utf8.
Proof.
  intros s Hs. split; [reflexivity|]. split; [reflexivity|]. intros src dst r [->|[->| ->]] ->; cbn [g_ic ex_utf8]; try reflexivity.
  f_equal. unfold latin_utf8. induction Hs as [|c s Hc Hs IH]; [reflexivity|]. cbn [map concat]. rewrite IH.
  destruct (N.ltb_spec c 128); [reflexivity|lia].
Qed.
Lemma ex_plain n s : forallb (fun c => (33 <=? c) && (c <? 128)) s = true -> (len s <=? n) = true -> plain_text n s.
Proof.
  intros H L. rewrite forallb_forall in H.
  assert (K : forall c, In c s -> 33 <= c < 128).
  { intros c Hc. specialize (H c Hc). apply andb_true_iff in H as [X Y]. apply N.leb_le in X. apply N.ltb_lt in Y. lia. }
  split; [apply Forall_forall; intros c Hc; specialize (K c Hc); lia|]. split; [|now apply N.leb_le].
  intros s' c ->. assert (X : 33 <= c < 128) by (apply K, in_or_app; right; now left). lia.
Qed.
Example C80_ascii_nontrivial : v1_back ex_utf8 (ex_obj (B "Title") (B "Comment") (SInt 7)) (ex_obj (B "Title") (B "Comment") (SInt 7)).
Proof.
  refine (C80_ascii ex_utf8 (B "Title") (B "Artist") (B "Album") (B "1999") (B "Comment") 17 7 ex_kept _ _ _ _ _ _ _ _);
    try (apply ex_plain; reflexivity); try reflexivity. right. reflexivity.
Qed.
Example C80_written_nontrivial : to_locale ex_utf8 (SStr (B "a")) = GOk (B "a") /\ exists st r fs' base blk,
  write_v1_scm ex_utf8 (B "/m") (ex_obj (B "Title") (B "Comment") (SInt 7)) (SStr (B "a")) ex_dir = (st, (GOk r, fs')) /\
  find_node [B "m"; B "a"] fs' = Some (File (base ++ blk)) /\ base = B "audio" /\ len blk = 128 /\
  ~ ends_in_block (base ++ blk) 355 (B "TAG+").
Proof.
  split; [reflexivity|]. eexists _, _, _, (B "audio"), (B "TAG" ++ fixed 30 (B "Title") ++ fixed 30 (B "Artist") ++ fixed 30 (B "Album") ++ B "1999" ++ fixed 28 (B "Comment") ++ [0; 7; 17]).
  split; [vm_compute; reflexivity|]. split; [vm_compute; reflexivity|]. split; [reflexivity|]. split; [reflexivity|].
  intros H. apply ends_in_block_len in H. vm_compute in H. now apply H.
Qed.

(** Full statement: a text that fits its field is read as it was written.  It is
    false of every text with other characters than those of ASCII: it is stored as
    UTF-8 and read as ISO-8859-1. *)
Theorem C80_latin_refuted : forall G ti rest y,
  (forall s, g_to_locale G s = Some s) -> (forall r s, g_ic G E_UTF_8 E_UTF_8 r s = Some s) ->
  (forall r s, g_ic G E_ISO_8859_1 E_UTF_8 r s = Some (latin_utf8 s)) ->
  ~ ascii ti -> no_trailing ti -> len ti <= 30 ->
  v1_back G (SObj CV1 (SStr ti :: rest)) y -> exists ti' rest', y = SObj CV1 (SStr ti' :: rest') /\ ti' <> ti.
Proof. exact title_encoded_twice. Qed.
Print Assumptions C80_latin_refuted.
Definition ex_e : bytes := [195; 169].
Definition ex_e_twice : bytes := [195; 131; 194; 169].
Example C80_latin_nontrivial : ~ ascii ex_e /\ no_trailing ex_e /\ exists st r fs',
  write_v1_scm ex_utf8 (B "/m") (ex_obj ex_e (B "c") SNull) (SStr (B "a")) ex_dir = (st, (GOk r, fs')) /\
  read_v1_scm ex_utf8 (B "/m") fs' (SStr (B "a")) = GOk (ex_obj ex_e_twice (B "c") SNull).
Proof.
  split; [intros H; inversion H; lia|]. split.
  { intros s c E. destruct s as [|? [|? [|? ?]]]; try discriminate E. injection E as _ <-. lia. }
  eexists _, _, _. split; vm_compute; reflexivity.
Qed.

(** Nor can the object read from an enhanced tag be written: its genre stands where
    the track number is expected (which is lost). *)
Theorem C80_enhanced_refuted : forall G t x cwd pth fs, v_extended t = true -> from_v1 G t = GOk x ->
  forall st r fs', write_v1_scm G cwd x pth fs <> (st, (GOk r, fs')).
Proof.
  intros G t x cwd pth fs HE HF st r fs' H. unfold write_v1_scm in H. destruct (to_v1 G x) as [t'|e|e|u|] eqn:E; try discriminate H.
  exact (enhanced_stuck G t x t' HE HF E).
Qed.
Print Assumptions C80_enhanced_refuted.
Example C80_enhanced_nontrivial : exists t x,
  init_extended (B "TAG+" ++ repeatN 65 180 ++ [2] ++ fixed 30 (B "genre") ++ B "000:00" ++ B "003:00" ++ B "TAG" ++ repeatN 65 90 ++ B "1999" ++ repeatN 66 28 ++ [0; 7; 17]) = Ok t /\
  v_extended t = true /\ v_track t = Some 7 /\ from_v1 ex_utf8 t = GOk x /\
  exists slots, x = SObj CV1 slots /\ nth_error slots 6 = Some (SStr (B "genre")).
Proof. eexists _, _. split; [vm_compute; reflexivity|]. do 3 (split; [vm_compute; reflexivity|]). eexists. split; reflexivity. Qed.
