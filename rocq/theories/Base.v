(** * Base: outcomes, byte strings, slices.

    Shared vocabulary of the model.  Nothing here models a particular C++
    function; it fixes how C++ exits and memory are represented. *)
From Coq Require Export String Ascii.
From Coq Require Export Bool NArith ZArith List Lia.
From Coq Require Export ZifyBool ZifyNat ZifyN.
Export ListNotations.

Ltac Zify.zify_post_hook ::= Z.div_mod_to_equations.

#[global] Open Scope N_scope.

(** C++ exceptions that the modelled code throws. *)
Inductive exn :=
| InvalidArgument      (* std::invalid_argument *)
| OutOfRange           (* std::out_of_range *)
| DomainError          (* std::domain_error *)
| LogicError           (* std::logic_error *)
| IosFailure           (* std::ios_base::failure *)
| FsError              (* std::filesystem::filesystem_error / std::system_error *)
| InvalidTag           (* scribbu invalid_tag *)
| NoTag                (* scribbu id3v2_tag::no_tag *)
| UnknownVersion       (* scribbu id3v2_tag::unknown_version *)
| UnknownFrame         (* scribbu id3v2_tag::unknown_frame_error, unknown_text_frame *)
| BadUnicode           (* scribbu bad_unicode_value *)
| BadHeader            (* scribbu mp3 frame header errors *)
| MismatchSize         (* scribbu emplace_mismatch_sz *)
| NotEnoughPadding     (* scribbu adj_pad_not_enough *)
| TemplateError        (* scribbu template (tbt) evaluation error *)
| BadOperation         (* other scribbu errors *)
| RuntimeError         (* std::runtime_error *)
| ZlibError            (* scribbu zlib_error *)
| BadExtHeader         (* scribbu invalid_ext_header *)
| BadCodeUnit          (* scribbu bad_code_unit *)
| IconvError           (* scribbu iconv_error *)
| RangeError           (* std::range_error *)
| BadAlloc             (* std::bad_alloc *)
| BadCast.             (* std::bad_cast *)

(** Kinds of undefined behaviour the modelled code can run into. *)
Inductive ubkind :=
| OutOfBounds          (* access outside an array, string or container *)
| Uninitialised        (* read of an indeterminate value *)
| NullDeref            (* dereference of a null pointer *)
| BadIterator          (* erase(end()), dereference of end(), front() of empty *)
| Dangling             (* access through a pointer to a destroyed object *)
| DivByZero            (* integer division by zero *)
| Overflow.            (* signed overflow, or atoi of a number out of range *)

(** How a modelled call ends: a value, a C++ exception, undefined behaviour,
    or no end at all (the loop's fuel bound, which exceeds every terminating
    run, was exhausted). *)
Inductive outcome (A : Type) :=
| Ok (a : A)
| Throw (e : exn)
| UB (u : ubkind)
| NonTerm.
Arguments Ok {A} a.
Arguments Throw {A} e.
Arguments UB {A} u.
Arguments NonTerm {A}.

Definition bind {A B} (x : outcome A) (f : A -> outcome B) : outcome B :=
  match x with
  | Ok a => f a
  | Throw e => Throw e
  | UB u => UB u
  | NonTerm => NonTerm
  end.

Notation "'let*' p ':=' x 'in' k" := (bind x (fun p => k))
  (at level 61, p pattern, x at next level, right associativity).

Definition is_ok {A} (x : outcome A) : bool :=
  match x with Ok _ => true | _ => false end.

Lemma Ok_inj {A} (a b : A) : Ok a = Ok b -> a = b.
Proof. congruence. Qed.

(** A successful [bind] is a successful first part and continuation. *)
Lemma bind_ok {A B} (x : outcome A) (f : A -> outcome B) b :
  bind x f = Ok b <-> exists a, x = Ok a /\ f a = Ok b.
Proof.
  destruct x; cbn; split; intros H; try discriminate; try (destruct H as (a' & E & H); congruence).
  now exists a.
Qed.

(** ** Bytes *)
Definition byte := N.
Definition bytes := list N.

Definition is_byte (b : N) : Prop := b < 256.
Definition is_bytes (l : bytes) : Prop := Forall is_byte l.

(** A C string literal as bytes. *)
Fixpoint B (s : string) : bytes :=
  match s with
  | EmptyString => []
  | String a s' => N_of_ascii a :: B s'
  end.

Definition len {A} (l : list A) : N := N.of_nat (List.length l).

(** The first [n] elements (all, if there are fewer), and the rest. *)
Fixpoint takeN {A} (n : N) (l : list A) : list A :=
  match l with
  | [] => []
  | x :: r => if n =? 0 then [] else x :: takeN (N.pred n) r
  end.

Fixpoint dropN {A} (n : N) (l : list A) : list A :=
  match l with
  | [] => []
  | x :: r => if n =? 0 then l else dropN (N.pred n) r
  end.

(** [n] bytes starting at offset [i]. *)
Definition slice {A} (i n : N) (l : list A) : list A := takeN n (dropN i l).

(** [repeatN x n]: [n] copies of [x]. *)
Definition repeatN {A} (x : A) (n : N) : list A := repeat x (N.to_nat n).

Fixpoint bytes_eqb (x y : bytes) : bool :=
  match x, y with
  | [], [] => true
  | a :: x', b :: y' => (a =? b) && bytes_eqb x' y'
  | _, _ => false
  end.

(** ** Facts about the vocabulary *)
Lemma takeN_firstn {A} (n : N) (l : list A) : takeN n l = firstn (N.to_nat n) l.
Proof.
  revert n. induction l as [|x r IH]; intros n; simpl.
  - now rewrite firstn_nil.
  - destruct (N.eqb_spec n 0) as [->|H]; [reflexivity|].
    rewrite IH. replace (N.to_nat n) with (S (N.to_nat (N.pred n))) by lia. reflexivity.
Qed.

Lemma dropN_skipn {A} (n : N) (l : list A) : dropN n l = skipn (N.to_nat n) l.
Proof.
  revert n. induction l as [|x r IH]; intros n; simpl.
  - now rewrite skipn_nil.
  - destruct (N.eqb_spec n 0) as [->|H]; [reflexivity|].
    rewrite IH. replace (N.to_nat n) with (S (N.to_nat (N.pred n))) by lia. reflexivity.
Qed.

Lemma len_nil {A} : len (@nil A) = 0. Proof. reflexivity. Qed.
Lemma len_cons {A} (x : A) l : len (x :: l) = 1 + len l.
Proof. unfold len. simpl List.length. lia. Qed.
Lemma len_app {A} (l m : list A) : len (l ++ m) = len l + len m.
Proof. unfold len. rewrite app_length. lia. Qed.
Lemma len_repeatN {A} (x : A) n : len (repeatN x n) = n.
Proof. unfold len, repeatN. rewrite repeat_length. lia. Qed.
Lemma len_map {A C} (f : A -> C) l : len (map f l) = len l.
Proof. unfold len. now rewrite map_length. Qed.
Lemma len_0_nil {A} (l : list A) : len l = 0 -> l = [].
Proof. destruct l; [reflexivity|]. rewrite len_cons. lia. Qed.

Lemma len_takeN {A} n (l : list A) : len (takeN n l) = N.min n (len l).
Proof. rewrite takeN_firstn. unfold len. rewrite firstn_length. lia. Qed.
Lemma len_dropN {A} n (l : list A) : len (dropN n l) = len l - n.
Proof. rewrite dropN_skipn. unfold len. rewrite skipn_length. lia. Qed.

Lemma takeN_dropN {A} n (l : list A) : takeN n l ++ dropN n l = l.
Proof. rewrite takeN_firstn, dropN_skipn. apply firstn_skipn. Qed.

Lemma takeN_app_exact {A} n (l m : list A) : len l = n -> takeN n (l ++ m) = l.
Proof.
  intros H. rewrite takeN_firstn. subst n. unfold len.
  rewrite Nat2N.id, firstn_app, firstn_all, Nat.sub_diag. simpl. apply app_nil_r.
Qed.
Lemma dropN_app_exact {A} n (l m : list A) : len l = n -> dropN n (l ++ m) = m.
Proof.
  intros H. rewrite dropN_skipn. subst n. unfold len.
  rewrite Nat2N.id, skipn_app, skipn_all, Nat.sub_diag. reflexivity.
Qed.
Lemma takeN_all {A} n (l : list A) : len l <= n -> takeN n l = l.
Proof. intros H. rewrite takeN_firstn. apply firstn_all2. unfold len in H. lia. Qed.
Lemma dropN_all {A} n (l : list A) : len l <= n -> dropN n l = [].
Proof. intros H. rewrite dropN_skipn. apply skipn_all2. unfold len in H. lia. Qed.
Lemma takeN_app_ge {A} n (l m : list A) : len l <= n -> takeN n (l ++ m) = l ++ takeN (n - len l) m.
Proof.
  intros H. rewrite !takeN_firstn, firstn_app. f_equal.
  - apply firstn_all2. unfold len in H. lia.
  - f_equal. unfold len. lia.
Qed.
Lemma dropN_app_ge {A} n (l m : list A) : len l <= n -> dropN n (l ++ m) = dropN (n - len l) m.
Proof.
  intros H. rewrite !dropN_skipn, skipn_app.
  rewrite skipn_all2 by (unfold len in H; lia). simpl. f_equal. unfold len. lia.
Qed.
Lemma takeN_app_le {A} n (l m : list A) : n <= len l -> takeN n (l ++ m) = takeN n l.
Proof.
  intros H. rewrite !takeN_firstn, firstn_app.
  replace (N.to_nat n - List.length l)%nat with O by (unfold len in H; lia).
  simpl. apply app_nil_r.
Qed.
Lemma dropN_app_le {A} n (l m : list A) : n <= len l -> dropN n (l ++ m) = dropN n l ++ m.
Proof.
  intros H. rewrite !dropN_skipn, skipn_app.
  replace (N.to_nat n - List.length l)%nat with O by (unfold len in H; lia). reflexivity.
Qed.
Lemma dropN_dropN {A} i j (l : list A) : dropN i (dropN j l) = dropN (j + i) l.
Proof.
  rewrite !dropN_skipn. rewrite N2Nat.inj_add.
  revert l. induction (N.to_nat j) as [|k IH]; intros l; [reflexivity|].
  destruct l; simpl; [now rewrite skipn_nil|apply IH].
Qed.
Lemma takeN_0 {A} (l : list A) : takeN 0 l = [].
Proof. now destruct l. Qed.
Lemma dropN_0 {A} (l : list A) : dropN 0 l = l.
Proof. now destruct l. Qed.

Lemma takeN_takeN {A} i j (l : list A) : takeN i (takeN j l) = takeN (N.min i j) l.
Proof. rewrite !takeN_firstn, firstn_firstn. f_equal. lia. Qed.

Lemma is_bytes_app l m : is_bytes (l ++ m) <-> is_bytes l /\ is_bytes m.
Proof. apply Forall_app. Qed.
Lemma is_bytes_takeN n l : is_bytes l -> is_bytes (takeN n l).
Proof.
  intros H. rewrite <- (takeN_dropN n l) in H. apply is_bytes_app in H. apply H.
Qed.
Lemma is_bytes_dropN n l : is_bytes l -> is_bytes (dropN n l).
Proof.
  intros H. rewrite <- (takeN_dropN n l) in H. apply is_bytes_app in H. apply H.
Qed.
Lemma is_bytes_repeat0 n : is_bytes (repeatN 0 n).
Proof.
  unfold repeatN. induction (N.to_nat n); constructor; auto. unfold is_byte. lia.
Qed.

Lemma bytes_eqb_eq x y : bytes_eqb x y = true <-> x = y.
Proof.
  revert y. induction x as [|a x IH]; destruct y as [|b y]; simpl; split; intros H;
    try reflexivity; try discriminate.
  - apply andb_true_iff in H as [H1 H2]. apply N.eqb_eq in H1. apply IH in H2. congruence.
  - injection H as -> ->. rewrite N.eqb_refl. simpl. now apply IH.
Qed.
Lemma bytes_eqb_refl x : bytes_eqb x x = true.
Proof. now apply bytes_eqb_eq. Qed.
Lemma bytes_eqb_spec x y : reflect (x = y) (bytes_eqb x y).
Proof. apply iff_reflect. symmetry. apply bytes_eqb_eq. Qed.

(** Reading a list at an offset: [nthN]. *)
Definition nthN (i : N) (l : bytes) : N := nth (N.to_nat i) l 0.

Lemma repeatN_add {A} (x : A) i j : repeatN x (i + j) = repeatN x i ++ repeatN x j.
Proof. unfold repeatN. rewrite N2Nat.inj_add. apply repeat_app. Qed.
Lemma repeatN_succ {A} (x : A) n : repeatN x (N.succ n) = x :: repeatN x n.
Proof. unfold repeatN. rewrite N2Nat.inj_succ. reflexivity. Qed.

(** A finite statement about bytes may be checked for each of the 256 values. *)
Definition all_bytes : list N := map N.of_nat (seq 0 256).

Lemma in_all_bytes b : b < 256 -> In b all_bytes.
Proof.
  intros H. unfold all_bytes. apply in_map_iff. exists (N.to_nat b). split; [lia|].
  apply in_seq. lia.
Qed.

Lemma byte_sweep (P : N -> bool) :
  forallb P all_bytes = true -> forall b, b < 256 -> P b = true.
Proof. intros H b Hb. rewrite forallb_forall in H. apply H, in_all_bytes, Hb. Qed.
