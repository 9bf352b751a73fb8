(** * C86: what a stream remembers about printing. *)
From Verif Require Import Base M_Charset M_Encodings M_Ios S_Ios L_Ios L_Ios2 L_Ios3 L_Ios4 L_Ios5.
#[local] Open Scope nat_scope.

(** Examples: two streams; one is given a printer and an encoding, then the printer is
    replaced. *)
Definition ex_csv : printer := PCsv 4 (Some E_ISO_8859_1) None 59%N.
Definition ex_ops : list op :=
  [NewStream; NewStream; NewManip ex_csv; Insert 0 0; DropManip 0; SetOut 0 E_CP1252 NoIgnore;
   NewManip (PJson None None); Insert 0 1].

(** Full property: in every history, a stream's printer and encoding are those last set
    on it or copied to it, or the defaults.  Missing: histories that put one
    manipulator into streams twice (see [C86_reused_refuted]), and encodings that came
    by copying (see [C86_copied_refuted]).  In all others no deleted object is used or
    deleted, and the settings are the right ones. *)
Theorem C86_settings_partial : forall l,
  once l ->
  exists w, run l empty_world = Ok w /\
    forall s x, bk_streams (notes l empty_book) s = Some x ->
      get_pretty_printer s w = Ok (printer_used x) /\
      (copied_encoding l s = false -> ienc_retrieve s w = Ok (encoding_used x)).
Proof. exact all_settings. Qed.
Print Assumptions C86_settings_partial.

Example C86_settings_nontrivial :
  once (ex_ops ++ [CopyFmt 1 0; CloseStream 0]) /\
  option_map printer_used (bk_streams (notes (ex_ops ++ [CopyFmt 1 0; CloseStream 0]) empty_book) 1) =
    Some (PJson None None) /\
  option_map encoding_used (bk_streams (notes ex_ops empty_book) 0) = Some (E_CP1252, NoIgnore) /\
  copied_encoding ex_ops 0 = false.
Proof.
  split; [|vm_compute; repeat split]. unfold once. vm_compute.
  constructor; [intros [H | []]; discriminate|]. constructor; [intros []|]. constructor.
Qed.

(** Copying formatting from a stream that has an encoding: reading the encoding of the
    other stream then reads past the end of the memory it lies in. *)
Theorem C86_copied_refuted : forall l d s x,
  once l -> d <> s ->
  bk_streams (notes l empty_book) d <> None ->
  bk_streams (notes l empty_book) s = Some x -> se_enc x <> None ->
  exists w, run (l ++ [CopyFmt d s]) empty_world = Ok w /\ ienc_retrieve d w = UB OutOfBounds.
Proof. exact copied_lost. Qed.
Print Assumptions C86_copied_refuted.

Example C86_copied_nontrivial :
  once ex_ops /\ bk_streams (notes ex_ops empty_book) 1 = Some (mkSettings None None) /\
  bk_streams (notes ex_ops empty_book) 0 = Some (mkSettings (Some (PJson None None)) (Some (E_CP1252, NoIgnore))).
Proof.
  split; [|vm_compute; repeat split]. unfold once. vm_compute.
  constructor; [intros [H | []]; discriminate|]. constructor; [intros []|]. constructor.
Qed.

(** Everything a history allocates is freed when its streams and manipulators are
    gone. *)
Theorem C86_freed : forall l w,
  once l -> run l empty_world = Ok w -> all_gone (notes l empty_book) -> forall a, w_heap w a = None.
Proof. exact all_freed. Qed.
Print Assumptions C86_freed.

Example C86_freed_nontrivial :
  let l := ex_ops ++ [CopyFmt 1 0; CloseStream 0; DropManip 1; CloseStream 1] in
  once l /\ all_gone (notes l empty_book) /\
  match run l empty_world with Ok w => w_next w = 5 | _ => False end.
Proof.
  split; [|split; [|vm_compute; reflexivity]].
  - unfold once. vm_compute.
    constructor; [intros [H | []]; discriminate|]. constructor; [intros []|]. constructor.
  - split.
    + intros [|[|s]]; reflexivity.
    + intros [|[|m]]; reflexivity.
Qed.

(** Full property: memory is freed by the means it was allocated with.  Missing:
    encodings, see [C86_deletes_refuted]; it holds of histories that set none. *)
Theorem C86_deletes_partial : forall l w,
  once l -> (forall s e r, ~ In (SetOut s e r) l /\ ~ In (SetIn s e r) l) ->
  run l empty_world = Ok w -> w_odd w = 0.
Proof. exact no_wrong_deletes. Qed.
Print Assumptions C86_deletes_partial.

Example C86_deletes_nontrivial :
  let l := [NewStream; NewManip ex_csv; Insert 0 0; CloseStream 0; DropManip 0] in
  once l /\ (forall s e r, ~ In (SetOut s e r) l /\ ~ In (SetIn s e r) l) /\
  match run l empty_world with Ok w => w_next w = 1 /\ w_heap w 0 = None | _ => False end.
Proof.
  split; [unfold once; vm_compute; constructor; [intros []|constructor]|]. split.
  - intros s e r. split; intros H; cbn [In] in H;
      repeat (destruct H as [H | H]; [discriminate|]); exact H.
  - vm_compute. split; reflexivity.
Qed.

(** Closing a stream that has an encoding frees the encoding as though it were one
    character, or, if it came by copying, with the wrong allocator. *)
Theorem C86_deletes_refuted : forall l s w,
  once l -> has_encoding (notes l empty_book) s = true -> run l empty_world = Ok w ->
  exists w', run (l ++ [CloseStream s]) empty_world = Ok w' /\ w_odd w' = S (w_odd w).
Proof. exact close_wrong. Qed.
Print Assumptions C86_deletes_refuted.

Example C86_deletes_refuted_nontrivial :
  once ex_ops /\ has_encoding (notes ex_ops empty_book) 0 = true.
Proof.
  split; [|reflexivity]. unfold once. vm_compute.
  constructor; [intros [H | []]; discriminate|]. constructor; [intros []|]. constructor.
Qed.

(** A manipulator that was put into a stream once and is put into one again: the second
    stream goes back to the standard printer, whatever it had; and when it is then
    given another printer and closed, that printer is deleted twice. *)
Theorem C86_reused_refuted : forall l1 l2 s0 m s,
  once (l1 ++ Insert s0 m :: l2) ->
  bk_streams (notes l1 empty_book) s0 <> None -> bk_manips (notes l1 empty_book) m <> None ->
  let l := l1 ++ Insert s0 m :: l2 in
  let b := notes l empty_book in
  bk_streams b s <> None -> bk_manips b m <> None ->
  (exists w, run (l ++ [Insert s m]) empty_world = Ok w /\ get_pretty_printer s w = Ok standard_printer) /\
  (forall p, run (l ++ [Insert s m; NewManip p; Insert s (bk_nmanips b); CloseStream s]) empty_world = UB Dangling).
Proof. exact used_twice. Qed.
Print Assumptions C86_reused_refuted.

Example C86_reused_nontrivial :
  let l1 := [NewStream; NewStream; NewManip ex_csv] in
  let l := l1 ++ [Insert 0 0] in
  once l /\ bk_streams (notes l1 empty_book) 0 <> None /\ bk_manips (notes l1 empty_book) 0 = Some ex_csv /\
  bk_streams (notes l empty_book) 1 <> None /\ bk_manips (notes l empty_book) 0 <> None.
Proof.
  split; [unfold once; vm_compute; constructor; [intros []|constructor]|].
  split; [discriminate|]. split; [reflexivity|]. split; discriminate.
Qed.
