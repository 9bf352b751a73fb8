(** * The example for C79: one frame of each kind. *)
From Coq Require Import Sorting.
From Verif Require Import Base M_Ints M_Stream M_Id3v1 M_Charset M_Payload M_Cloud M_Frame M_Tag22 M_Tag23 M_Tag24 M_Read M_Fs M_Tagset M_Cmds M_Lang
  M_Scheme M_Scheme2 S_Ints S_Charset S_Payload S_Cloud S_Lang S_Tag S_Scheme2 L_Scheme3.
#[local] Open Scope N_scope.

(** A Guile whose texts are ASCII; Latin-1 and UTF-8 are then the same, and UCS-2
    has a zero byte before each character. *)
Definition ex_wide (s : bytes) : bytes := concat (map (fun c => [0; c]) s).
Fixpoint ex_narrow (s : bytes) : bytes := match s with a :: b :: r => b :: ex_narrow r | _ => [] end.
Definition ex_ic : iconv_t := fun src dst _ s =>
  match src, dst with
  | E_UTF_8, E_UCS_2 => Some (ex_wide s)
  | E_UCS_2, E_UTF_8 => Some (ex_narrow s)
  | E_UTF_8, E_ISO_8859_1 => if forallb (fun c => c <? 128) s then Some s else None
  | _, _ => Some s
  end.
Definition ex_guile2 : guile := mkGuile ex_ic (fun _ => true) (fun _ => None) (fun s => Some s) (fun s => Some s) (mkLenv None None None).
Definition ex_object (c : cls) (sym : bytes) (slots : list scm) : scm := SObj c (SSym sym :: [SNull; SNull; SNull; SNull] ++ slots).
Definition ex_given : list scm :=
  [ex_object CText (B "title-frame") [SStr (B "One")];
   ex_object CComment (B "comment-frame") [SStr (B "deu"); SStr (B "d"); SStr (B "text")];
   ex_object CUdt (B "udt-frame") [SStr (B "mood"); SStr (B "calm")];
   ex_object CCount (B "play-count-frame") [SInt 4711];
   ex_object CPopm (B "popm-frame") [SStr (B "me@x"); SInt 255; SInt 3];
   ex_object CCloud (B "tag-cloud-frame") [SStr (B "me"); alist [(B "mood", Many [B "sad"; B "bad"]); (B "k", One (B "v"))]];
   ex_object CUnk (B "unknown-frame") [SStr (B "WXYZ"); SBytes ([0; 0; 0; 0; 0; 0; 0; 0; 0; 0] ++ [1; 2; 3])]].
Definition ex_marks (c : cls) (sym : bytes) (slots : list scm) : scm := SObj c (SSym sym :: marks_read V23 ++ slots).
Definition ex_got : list scm :=
  [ex_marks CText (B "title-frame") [SStr (B "One")];
   ex_marks CComment (B "comment-frame") [SStr (B "deu"); SStr (B "d"); SStr (B "text")];
   ex_marks CUdt (B "udt-frame") [SStr (B "mood"); SStr (B "calm")];
   ex_marks CCount (B "play-count-frame") [SInt 4711];
   ex_marks CPopm (B "popm-frame") [SStr (B "me@x"); SInt 255; SInt 3];
   ex_marks CCloud (B "tag-cloud-frame") [SStr (B "me"); cloud_scm [(B "k", [B "v"]); (B "mood", [B "bad"; B "sad"])]];
   ex_marks CUnk (B "unknown-frame") [SStr (B "WXYZ"); SBytes ((B "WXYZ" ++ [0; 0; 0; 3] ++ [0; 0]) ++ [1; 2; 3])]].

Lemma ex_unmarked : unmarked V23 SNull SNull SNull SNull.
Proof. repeat split; discriminate. Qed.
Lemma ex_short (s b : bytes) e1 e2 : forallb (fun c => (33 <=? c) && (c <? 128)) s = true -> s <> [] -> b <> [] -> len b <= 4 * len s ->
  ex_ic E_UTF_8 e1 NoFail s = Some b -> ex_ic e2 E_UTF_8 NoFail b = Some s -> converts ex_guile2 e1 e2 s b.
Proof.
  intros H Hs Hb HL H1 H2. rewrite forallb_forall in H.
  assert (K : forall x, In x s -> 33 <= x < 128).
  { intros x Hx. specialize (H x Hx). apply andb_true_iff in H as [X Y]. apply N.leb_le in X. apply N.ltb_lt in Y. lia. }
  split; [reflexivity|]. split; [intros X; apply K in X; lia|]. right. split; [exact Hs|]. split.
  { intros r. repeat split; intros ->; specialize (K _ (or_introl eq_refl)); lia. }
  split. { intros s' c ->. assert (X : In c (s' ++ [c])) by (apply in_or_app; right; now left). apply K in X. lia. }
  auto.
Qed.
Lemma existsb_exists_eq (x : bytes) l : existsb (bytes_eqb x) l = true -> In x l.
Proof. intros H. apply existsb_exists in H as (y & Hy & E). apply L_Scheme3.bytes_eqb_true in E. now subst. Qed.
Example ex_back : Forall2 (comes_back ex_guile2 V23 false) ex_given ex_got.
Proof.
  unfold ex_given, ex_got, ex_object, ex_marks. cbn [app].
  constructor; [|constructor; [|constructor; [|constructor; [|constructor; [|constructor; [|constructor; [|constructor]]]]]]].
  - apply (cb_text _ _ _ _ (B "TIT2")); [|exact ex_unmarked|].
    + split; [exists (Some (B "TT2")), (B "TIT2"); split; [|reflexivity]|vm_compute; intuition discriminate].
      unfold documented. repeat (first [left; reflexivity|right]).
    + exists (B "One"). apply ex_short; try reflexivity; discriminate.
  - apply cb_comment; [exact ex_unmarked| |reflexivity| |].
    + right. split; [reflexivity|]. exists (B "deu"). split; [|reflexivity]. unfold standard_code.
      apply existsb_exists_eq. vm_compute. reflexivity.
    + exists (ex_wide (B "d")). split; [apply ex_short; try reflexivity; discriminate|]. vm_compute. constructor; [intros [_ X]; discriminate X|constructor].
    + exists (ex_wide (B "text")). apply ex_short; try reflexivity; discriminate.
  - apply cb_udt; [discriminate|exact ex_unmarked| |].
    + exists (ex_wide (B "mood")). split; [apply ex_short; try reflexivity; discriminate|]. vm_compute. repeat (constructor; [intros [_ X]; discriminate X|]). constructor.
    + exists (ex_wide (B "calm")). apply ex_short; try reflexivity; discriminate.
  - apply cb_count; [exact ex_unmarked|split; reflexivity || discriminate].
  - apply cb_popm; [exact ex_unmarked| |split; reflexivity || discriminate|split; reflexivity || discriminate].
    destruct (ex_short (B "me@x") (B "me@x") E_ASCII E_ASCII) as (X1 & X2 & X); try reflexivity; try discriminate.
    destruct X as [[X _]|(_ & X3 & X4 & _)]; [discriminate X|].
    split; [exact X1|]. split; [exact X2|]. right. auto.
  - apply cb_cloud; [now left|exact ex_unmarked|reflexivity|vm_compute; intuition discriminate| | | |].
    + split; [|split; [|split]].
      * repeat constructor; vm_compute; intuition discriminate.
      * split; repeat constructor.
      * intros k. unfold keyed. cbn [In map fst]. split; [intros (s & [X|[X|[]]]); injection X as <- _; auto|].
        intros [<-|[<-|[]]]; eauto.
      * intros k v. unfold paired. cbn [In]. split.
        -- intros (s & [X|[X|[]]] & Y); injection X as <- <-.
           ++ destruct Y as [<-|[]]. exists (One (B "v")). cbn. auto.
           ++ exists (Many [B "sad"; B "bad"]). split; [auto|]. cbn [vals_list In]. destruct Y as [<-|[<-|[]]]; auto.
        -- intros (x & [X|[X|[]]] & Y); injection X as <- <-; cbn [vals_list In] in Y.
           ++ exists [B "bad"; B "sad"]. split; [auto|]. destruct Y as [<-|[<-|[]]]; cbn; auto.
           ++ exists [B "v"]. split; [auto|]. destruct Y as [<-|[]]; cbn; auto.
    + repeat constructor; vm_compute; intuition discriminate.
    + repeat constructor.
    + repeat constructor.
  - refine (cb_unknown ex_guile2 V23 false (B "unknown-frame") SNull SNull SNull SNull (B "WXYZ") (B "WXYZ") (repeat 0 10) (B "WXYZ" ++ [0; 0; 0; 3; 0; 0]) [1; 2; 3] _ _ _ _ _ _ _ _ _ _ _ _ _ _); try reflexivity; try discriminate; try exact ex_unmarked; try (vm_compute; intuition discriminate).
    + intros i (i3 & i4 & H & _). apply (in_map (fun r => fst (fst r))) in H. vm_compute in H. intuition discriminate.
    + exists [0; 0; 0; 3]. repeat split; repeat constructor.
Qed.
