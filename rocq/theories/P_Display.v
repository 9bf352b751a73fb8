(** * C105: what the interpreter prints for tags and frames. *)
From Verif Require Import Base M_Fs M_Tagset M_Scheme M_Scheme2 M_Display S_Tag23 S_Json S_Scheme S_Tagset S_Display L_Scheme L_Display.
From Verif Require P_Scheme L_Scheme9.
#[local] Open Scope N_scope.

(** Data is shown by its first eight bytes, each of them, in order, in
    hexadecimal and as a character, in printable ASCII and on one line... *)
Theorem C105_data : forall data, is_bytes data -> exists text,
  pp_bytevector (SBytes data) = GOk text /\ dump_of (firstn 8 data) text /\
  Forall (fun c => 32 <= c <= 126) text /\ length text = (5 + 4 * Nat.min 8 (length data))%nat.
Proof.
  intros data H. exists (dump_text (firstn 8 data)). split; [apply pp_text|].
  assert (D : dump_of (firstn 8 data) (dump_text (firstn 8 data))).
  { apply dump_ok. rewrite Forall_forall. intros x Hx. unfold is_bytes in H. rewrite Forall_forall in H. apply H.
    rewrite <- (firstn_skipn 8 data). apply in_or_app. now left. }
  split; [exact D|]. destruct D as (hs & cs & D & ->). destruct (dumped_printable _ _ _ D) as (A & A' & L1 & L2).
  split.
  - repeat (apply Forall_app; split); auto; cbn; repeat constructor; discriminate.
  - rewrite !app_length, L1, L2, firstn_length. cbn [length B].
    change (length (B "{")) with 1%nat. change (length (B " <")) with 2%nat. change (length (B ">}")) with 2%nat. lia.
Qed.
Print Assumptions C105_data.
Example C105_data_nontrivial :
  pp_bytevector (SBytes [65; 80; 73; 67; 0; 1; 195; 98; 7; 7]) = GOk (B "{41 50 49 43 00 01 c3 62  <APIC...b>}").
Proof. vm_compute. reflexivity. Qed.

(** ...so that it tells apart what differs there, and nothing else. *)
Theorem C105_told_apart : forall d1 d2, is_bytes d1 -> is_bytes d2 ->
  (pp_bytevector (SBytes d1) = pp_bytevector (SBytes d2) <-> firstn 8 d1 = firstn 8 d2).
Proof.
  intros d1 d2 H1 H2. destruct (C105_data d1 H1) as (t1 & E1 & D1 & _). destruct (C105_data d2 H2) as (t2 & E2 & D2 & _).
  split; intros E.
  - rewrite E1, E2 in E. injection E as ->. eapply dump_of_inj; eauto.
  - rewrite !pp_text, E. reflexivity.
Qed.
Print Assumptions C105_told_apart.
Example C105_told_apart_nontrivial :
  pp_bytevector (SBytes [1; 2]) <> pp_bytevector (SBytes [3; 4]) /\
  pp_bytevector (SBytes [1; 2]) <> pp_bytevector (SBytes [1; 2; 0]) /\
  pp_bytevector (SBytes [1; 2; 3; 4; 5; 6; 7; 8]) = pp_bytevector (SBytes [1; 2; 3; 4; 5; 6; 7; 8; 9]).
Proof. split; [|split]; vm_compute; congruence. Qed.

(** A frame that has its slots can be printed, and this is what is printed. *)
Theorem C105_frame : forall P x, full_frame x -> exists text,
  display P x = GOk text /\ printed (p_written P) (p_shown P) x text.
Proof. exact full_prints. Qed.
Print Assumptions C105_frame.
Definition ex_printer : printer := mkPrinter (fun _ => B "()") (fun x => match x with SStr s => [34] ++ s ++ [34] | _ => B "?" end).
Example C105_frame_nontrivial :
  display ex_printer (P_Scheme.ex_text (B "title-frame") (B "Lorca")) = GOk (B "<title-frame " ++ [34] ++ B "Lorca" ++ [34] ++ B ">") /\
  display ex_printer (SObj CPopm [SSym (B "popm-frame"); SNull; SNull; SNull; SNull; SStr (B "a@b"); SInt 128; SInt 41]) =
    GOk (B "<popularimeter a@b, 128, 41>") /\
  display ex_printer (SObj CUnk [SSym (B "unknown-frame"); SNull; SNull; SNull; SNull; SStr (B "APIC"); SBytes [65; 255]]) =
    GOk (B "<unk-frame " ++ [34] ++ B "APIC" ++ [34] ++ B " {41 ff  <A.>}>").
Proof. split; [|split]; vm_compute; reflexivity. Qed.

(** A tag is printed with the texts of its first artist and its first title, and
    the size of its padding. *)
Theorem C105_tag : forall P e fs n, Forall full_frame fs -> exists artist title ns,
  first_text_of (B "artist-frame") fs artist /\ first_text_of (B "title-frame") fs title /\ numeral_of n ns /\
  display P (SObj CTag [e; slist fs; SInt n]) =
    GOk (B "<id3v2-tag " ++ artist ++ B " - " ++ title ++ B " (" ++ ns ++ B " bytes padding)>").
Proof.
  intros P e fs n F. destruct (tag_prints P e fs (SInt n) F) as (a & t & H1 & H2 & E).
  exists a, t, (show P (SInt n)). repeat split; auto. apply show_int.
Qed.
Print Assumptions C105_tag.
Example C105_tag_nontrivial : Forall full_frame P_Scheme.ex_frames /\
  display ex_printer (SObj CTag [SNull; slist P_Scheme.ex_frames; SInt 1335]) = GOk (B "<id3v2-tag x - one (1335 bytes padding)>") /\
  display ex_printer (SObj CTag [SNull; SNull; SInt 0]) = GOk (B "<id3v2-tag  -  (0 bytes padding)>").
Proof. split; [repeat constructor|split; vm_compute; reflexivity]. Qed.

(** Whatever is read from a file can be printed: the tags, each of their frames,
    and the ID3v1 tag. *)
Theorem C105_whatever_is_read : forall P G z passes cwd fs pth x, read_tagset_scm G z passes cwd fs pth = GOk x ->
  exists tags, x = slist tags /\
  Forall (fun y => exists e frames n v u text, y = slist [SObj CTag [e; slist frames; SInt n]; v; u] /\
    display P (SObj CTag [e; slist frames; SInt n]) = GOk text /\
    Forall (fun f => exists line, display P f = GOk line /\ printed (p_written P) (p_shown P) f line) frames) tags.
Proof.
  intros P G z passes cwd fs pth x E. destruct (read_full G z passes cwd fs pth x E) as (tags & -> & F).
  exists tags. split; [reflexivity|]. eapply Forall_impl; [|exact F]. intros y (e & frames & n & v & u & -> & _ & Ff).
  destruct (C105_tag P e frames n Ff) as (a & t & ns & _ & _ & _ & Ed).
  eexists e, frames, n, v, u, _. split; [reflexivity|]. split; [exact Ed|].
  eapply Forall_impl; [|exact Ff]. intros f Hf. apply full_prints. exact Hf.
Qed.
Print Assumptions C105_whatever_is_read.
Example C105_whatever_is_read_nontrivial :
  read_tagset_scm L_Scheme9.ex_G no_zlib 3 (B "/") L_Scheme9.ex_files (SStr (B "f")) =
    GOk (slist [slist [SObj CTag [SBool false; slist L_Scheme9.ex_objects; SInt 3]; SInt 3; SBool false]]) /\
  display ex_printer (SObj CTag [SBool false; slist L_Scheme9.ex_objects; SInt 3]) =
    GOk (B "<id3v2-tag  - caf" ++ [195; 169] ++ B " (3 bytes padding)>") /\
  map (display ex_printer) (skipn 1 L_Scheme9.ex_objects) =
    [GOk (B "<unk-frame " ++ [34] ++ B "TPE1" ++ [34] ++ B " {54 50 45 31 00 00 00 02  <TPE1....>}>");
     GOk (B "<popularimeter a@b, 200, 258>"); GOk (B "<comment (eng, ) hi>");
     GOk (B "<unk-frame " ++ [34] ++ B "WXYZ" ++ [34] ++ B " {57 58 59 5a 00 00 00 03  <WXYZ....>}>")].
Proof. split; [|split]; vm_compute; reflexivity. Qed.
Theorem C105_v1 : forall P G cwd fs pth x, read_v1_scm G cwd fs pth = GOk x -> x = SNil \/
  exists title artist rest, x = SObj CV1 (SStr title :: SStr artist :: rest) /\
    display P x = GOk (B "<id3v1-tag " ++ artist ++ B " - " ++ title ++ B ">").
Proof.
  intros P G cwd fs pth x. unfold read_v1_scm, as_scribbu, gcatch. intros E.
  destruct (to_locale G pth) as [p| | | |]; try discriminate. cbn [gbind] in E.
  destruct (file_data cwd fs p) as [d|]; [|discriminate].
  destruct (fst _) as [[t|]| | |]; cbn [glift gbind] in E; try discriminate.
  - destruct (from_v1 G t) as [y| | | |] eqn:Ev; try discriminate. injection E as <-. right.
    destruct (v1_prints P G t y Ev) as (ti & ar & rest & Ex & Ed). eauto 6.
  - injection E as <-. left. reflexivity.
Qed.
Print Assumptions C105_v1.
Definition ex_v1_fs : fsys := [([B "m"], Dir); ([B "m"; B "a"], File (repeat 0 200 ++ B "TAG" ++ B "Song" ++ repeat 0 26 ++ B "Band" ++ repeat 0 91))].
Example C105_v1_nontrivial : exists x, read_v1_scm P_Scheme.ex_guile (B "/m") ex_v1_fs (SStr (B "a")) = GOk x /\
  display ex_printer x = GOk (B "<id3v1-tag Band - Song>").
Proof. eexists. split; vm_compute; reflexivity. Qed.

(** Not all of a frame is printed: of a user-defined text, the text is not. *)
Theorem C105_user_text_refuted : forall P s a b c d dsc t t',
  display P (SObj CUdt [SSym s; a; b; c; d; SStr dsc; SStr t]) = display P (SObj CUdt [SSym s; a; b; c; d; SStr dsc; SStr t']).
Proof. reflexivity. Qed.
Print Assumptions C105_user_text_refuted.
