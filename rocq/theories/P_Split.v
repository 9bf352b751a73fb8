(** * Properties: splitting a file (C40). *)
From Verif Require Import Base M_Fs M_Tagset M_Split S_Stream S_Read S_Split L_Split L_Split2.

(** C40: when the command succeeds, its pieces -- the ID3v2 tags in order, the
    track and the ID3v1 tag -- make up the file.  Missing: the file that is itself
    called like a piece, below. *)
Theorem C40_pieces_partial : forall cwd p suffix data fs states fs',
  find_node (resolve cwd p) fs = Some (File data) -> len data < 2 ^ 63 -> ~ In 47 suffix ->
  no_piece cwd suffix (resolve cwd p) ->
  split_file cwd p suffix fs = (states, (Ok tt, fs')) ->
  exists tags track v1,
    data = concat tags ++ track ++ v1 /\
    Forall one_tag tags /\ ~ starts_with_tag (track ++ v1) /\ len (concat tags ++ track) = v1_start data /\
    (forall i t, nth_error tags i = Some t ->
       find_node (resolve cwd (tag_piece (N.of_nat i) suffix)) fs' = Some (File t)) /\
    find_node (resolve cwd (track_piece suffix)) fs' = Some (File track) /\
    (v1 <> [] -> find_node (resolve cwd (v1_piece suffix)) fs' = Some (File v1)) /\
    (v1 = [] -> find_node (resolve cwd (v1_piece suffix)) fs' = find_node (resolve cwd (v1_piece suffix)) fs).
Proof. exact split_pieces. Qed.
Print Assumptions C40_pieces_partial.

(** A file with two tags, some audio and an ID3v1 tag. *)
Definition ex_tag1 : bytes := B "ID3" ++ [3; 0; 0; 0; 0; 0; 2; 7; 8].
Definition ex_tag2 : bytes := B "ID3" ++ [4; 0; 0; 0; 0; 0; 1; 9].
Definition ex_v1 : bytes := B "TAG" ++ repeatN 32 125.
Definition ex_data : bytes := ex_tag1 ++ ex_tag2 ++ [255; 251; 1; 2] ++ ex_v1.
Definition ex_fs : fsys :=
  [([B "m"; B "a.mp3"], File ex_data); ([B "m"], Dir); ([B "m"; B "id3v21.x"], File (B "old"))].
Definition ex_now : fsys := snd (snd (split_file (B "/m") (B "a.mp3") (B ".x") ex_fs)).

Example ex_no_piece : no_piece (B "/m") (B ".x") (resolve (B "/m") (B "a.mp3")).
Proof.
  intros n Hn. rewrite (resolve_plain (B "/m") n).
  - change (resolve (B "/m") (B "a.mp3")) with (resolve_abs (B "/m") ++ [B "a.mp3"]). intros E. apply app_inj_tail in E.
    destruct E as [_ E]. subst n. destruct Hn as [[i E]|[E|E]]; discriminate E.
  - apply (piece_plain (B ".x")); [|exact Hn]. cbn. intuition discriminate.
Qed.
Example C40_pieces_nontrivial :
  find_node (resolve (B "/m") (B "a.mp3")) ex_fs = Some (File ex_data) /\ no_piece (B "/m") (B ".x") (resolve (B "/m") (B "a.mp3")) /\
  fst (snd (split_file (B "/m") (B "a.mp3") (B ".x") ex_fs)) = Ok tt /\
  find_node [B "m"; B "id3v20.x"] ex_now = Some (File ex_tag1) /\
  find_node [B "m"; B "id3v21.x"] ex_now = Some (File ex_tag2) /\
  find_node [B "m"; B "track.x"] ex_now = Some (File [255; 251; 1; 2]) /\
  find_node [B "m"; B "id3v1.x"] ex_now = Some (File ex_v1).
Proof. split; [reflexivity|]. split; [exact ex_no_piece|]. repeat split; vm_compute; reflexivity. Qed.

(** It succeeds exactly on the files whose ID3v2 tags end before the ID3v1 tag
    (or the end of the file); otherwise it reports an error. *)
Theorem C40_accepts : forall cwd p suffix data l fs,
  find_node (resolve cwd p) fs = Some (File data) -> len data < 2 ^ 63 -> ~ In 47 suffix ->
  no_piece cwd suffix (resolve cwd p) -> room cwd suffix fs -> tags_from data 0 l ->
  match fst (snd (split_file cwd p suffix fs)) with
  | Ok _ => tags_end 0 l <= v1_start data
  | Throw _ => v1_start data < tags_end 0 l
  | _ => False
  end.
Proof. exact split_accepts. Qed.
Print Assumptions C40_accepts.

Example C40_accepts_nontrivial : room (B "/m") (B ".x") ex_fs /\
  fst (snd (split_file (B "/m") (B "a.mp3") (B ".x")
     [([B "m"; B "a.mp3"], File (B "ID3" ++ [3; 0; 0; 0; 0; 0; 3; 7; 8])); ([B "m"], Dir)])) = Throw IosFailure /\
  fst (snd (split_file (B "/m") (B "a.mp3") (B ".x")
     [([B "m"; B "a.mp3"], File (B "ID3" ++ [3; 0; 0; 0; 0; 0; 3] ++ ex_v1)); ([B "m"], Dir)])) = Throw BadAlloc.
Proof.
  split; [|split; vm_compute; reflexivity]. split; [reflexivity|]. intros n Hn. rewrite (resolve_plain (B "/m")).
  - cbn [ex_fs find_node]. change (resolve_abs (B "/m") ++ [n]) with [B "m"; n]. cbn [key_eqb].
    rewrite !andb_true_r. change (bytes_eqb (B "m") (B "m")) with true. cbn [andb].
    destruct (bytes_eqb n _); [discriminate|]. destruct (bytes_eqb n _); discriminate.
  - apply (piece_plain (B ".x")); [|exact Hn]. cbn. intuition discriminate.
Qed.

(** Whatever happens, and wherever the run is cut short, the file keeps its
    content, and no file other than the pieces changes. *)
Theorem C40_input_kept : forall cwd p suffix data fs,
  find_node (resolve cwd p) fs = Some (File data) -> len data < 2 ^ 63 -> ~ In 47 suffix ->
  no_piece cwd suffix (resolve cwd p) ->
  Forall (fun s => find_node (resolve cwd p) s = Some (File data) /\
                   forall j, no_piece cwd suffix j -> find_node j s = find_node j fs)
    (snd (snd (split_file cwd p suffix fs)) :: fst (split_file cwd p suffix fs)).
Proof. exact split_kept. Qed.
Print Assumptions C40_input_kept.

Example C40_input_kept_nontrivial : List.length (fst (split_file (B "/m") (B "a.mp3") (B ".x") ex_fs)) = 163%nat.
Proof. vm_compute. reflexivity. Qed.

(** The property fails for a file that is itself called like the track: the file
    is lost.  (With the empty suffix: "scribbu split track".) *)
Theorem C40_own_name_refuted : forall cwd p suffix data l fs,
  find_node (resolve cwd p) fs = Some (File data) -> len data < 2 ^ 63 -> ~ In 47 suffix ->
  resolve cwd p = resolve cwd (track_piece suffix) ->
  tags_from data 0 l -> tags_end 0 l <= len data -> room cwd suffix fs ->
  find_node (resolve cwd p) (snd (snd (split_file cwd p suffix fs))) = Some (File []).
Proof. exact own_name. Qed.
Print Assumptions C40_own_name_refuted.

Example C40_own_name_nontrivial :
  split_file (B "/m") (B "track") [] [([B "m"; B "track"], File [1; 2; 3]); ([B "m"], Dir)]
  = ([[([B "m"; B "track"], File []); ([B "m"], Dir)]],
     (Throw IosFailure, [([B "m"; B "track"], File []); ([B "m"], Dir)])).
Proof. vm_compute. reflexivity. Qed.
