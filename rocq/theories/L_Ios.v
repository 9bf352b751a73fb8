(** * Lemmas: what a stream remembers, in every history. *)
From Verif Require Import Base M_Charset M_Encodings M_Ios S_Ios.

(** ** Who owns what *)
Inductive owner := OPp (s : nat) | OIe (s : nat) | OMan (m : nat).
Lemma owner_eq_dec (a b : owner) : {a = b} + {a <> b}.
Proof. decide equality; apply Nat.eq_dec. Defined.

Definition own (w : world) (o : owner) : option nat :=
  match o with
  | OPp s => io_pp (w_ios w s)
  | OIe s => io_ie (w_ios w s)
  | OMan m => mn_pp (w_man w m)
  end.

Definition oput (ow : owner -> option nat) (o : owner) (v : option nat) : owner -> option nat :=
  fun x => if owner_eq_dec x o then v else ow x.

Definition vl (h : nat -> option block) (ow : owner -> option nat) (o : owner) : option block :=
  match ow o with Some a => h a | None => None end.

Record Good (h : nat -> option block) (n : nat) (ow : owner -> option nat) : Prop := {
  g_inj : forall o1 o2 a, ow o1 = Some a -> ow o2 = Some a -> o1 = o2;
  g_cov : forall a, h a <> None -> exists o, ow o = Some a;
  g_fresh : forall a, h a <> None -> (a < n)%nat;
  g_live : forall o a, ow o = Some a -> h a <> None
}.

Lemma good_ext h n ow h' ow' :
  Good h n ow -> (forall a, h' a = h a) -> (forall o, ow' o = ow o) -> Good h' n ow'.
Proof.
  intros G Hh Ho. constructor.
  - intros o1 o2 a. rewrite !Ho. apply (g_inj _ _ _ G).
  - intros a. rewrite Hh. intros H. destruct (g_cov _ _ _ G a H) as [o E]. exists o. rewrite Ho. exact E.
  - intros a. rewrite Hh. apply (g_fresh _ _ _ G).
  - intros o a. rewrite Hh, Ho. apply (g_live _ _ _ G).
Qed.

Lemma upd_eq {A} (f : nat -> A) k v : upd f k v k = v.
Proof. unfold upd. rewrite Nat.eqb_refl. reflexivity. Qed.
Lemma upd_neq {A} (f : nat -> A) k v x : x <> k -> upd f k v x = f x.
Proof. intros H. unfold upd. destruct (Nat.eqb_spec x k); congruence. Qed.
Lemma put_eq {A} (f : nat -> A) k v : put f k v k = v.
Proof. unfold put. destruct (Nat.eq_dec k k); congruence. Qed.
Lemma put_neq {A} (f : nat -> A) k v x : x <> k -> put f k v x = f x.
Proof. intros H. unfold put. destruct (Nat.eq_dec x k); congruence. Qed.
Lemma oput_eq ow o v : oput ow o v o = v.
Proof. unfold oput. destruct (owner_eq_dec o o); congruence. Qed.
Lemma oput_neq ow o v x : x <> o -> oput ow o v x = ow x.
Proof. intros H. unfold oput. destruct (owner_eq_dec x o); congruence. Qed.

Lemma good_put h n ow o b :
  Good h n ow -> ow o = None ->
  Good (upd h n (Some b)) (S n) (oput ow o (Some n)) /\
  vl (upd h n (Some b)) (oput ow o (Some n)) o = Some b /\
  (forall o', o' <> o -> vl (upd h n (Some b)) (oput ow o (Some n)) o' = vl h ow o').
Proof.
  intros G E.
  assert (Hn : forall o' a, ow o' = Some a -> a <> n).
  { intros o' a H ->. pose proof (g_live _ _ _ G _ _ H) as H1.
    pose proof (g_fresh _ _ _ G _ H1). lia. }
  split; [constructor|split].
  - intros o1 o2 a. unfold oput.
    destruct (owner_eq_dec o1 o) as [-> | N1]; destruct (owner_eq_dec o2 o) as [-> | N2]; intros H1 H2.
    + reflexivity.
    + injection H1 as <-. exfalso. exact (Hn _ _ H2 eq_refl).
    + injection H2 as <-. exfalso. exact (Hn _ _ H1 eq_refl).
    + exact (g_inj _ _ _ G _ _ _ H1 H2).
  - intros a. unfold upd. destruct (Nat.eqb_spec a n) as [-> | Na]; intros H.
    + exists o. apply oput_eq.
    + destruct (g_cov _ _ _ G a H) as [o' E']. exists o'. rewrite oput_neq; [exact E'|congruence].
  - intros a. unfold upd. destruct (Nat.eqb_spec a n) as [-> | Na]; intros H; [lia|].
    pose proof (g_fresh _ _ _ G _ H). lia.
  - intros o' a. unfold oput. destruct (owner_eq_dec o' o) as [-> | No]; intros H.
    + injection H as <-. rewrite upd_eq. discriminate.
    + rewrite upd_neq by exact (Hn _ _ H). exact (g_live _ _ _ G _ _ H).
  - unfold vl. rewrite oput_eq, upd_eq. reflexivity.
  - intros o' No. unfold vl. rewrite oput_neq by exact No.
    destruct (ow o') as [a|] eqn:Ea; [|reflexivity]. apply upd_neq. exact (Hn _ _ Ea).
Qed.

(** Freeing what an owner has, if anything. *)
Definition hfree (h : nat -> option block) (p : option nat) : nat -> option block :=
  match p with None => h | Some a => upd h a None end.

Lemma good_drop h n ow o :
  Good h n ow ->
  Good (hfree h (ow o)) n (oput ow o None) /\
  (forall o', o' <> o -> vl (hfree h (ow o)) (oput ow o None) o' = vl h ow o').
Proof.
  intros G. destruct (ow o) as [a|] eqn:E; cbn [hfree].
  - assert (Hn : forall o' a', o' <> o -> ow o' = Some a' -> a' <> a).
    { intros o' a' N1 H ->. apply N1. exact (g_inj _ _ _ G _ _ _ H E). }
    split; [constructor|].
    + intros o1 o2 a'. unfold oput.
      destruct (owner_eq_dec o1 o); [discriminate|]. destruct (owner_eq_dec o2 o); [discriminate|].
      apply (g_inj _ _ _ G).
    + intros a'. unfold upd. destruct (Nat.eqb_spec a' a) as [-> | Na]; [congruence|]. intros H.
      destruct (g_cov _ _ _ G a' H) as [o' E']. exists o'. rewrite oput_neq; [exact E'|congruence].
    + intros a'. unfold upd. destruct (Nat.eqb_spec a' a) as [-> | Na]; [congruence|].
      apply (g_fresh _ _ _ G).
    + intros o' a'. unfold oput. destruct (owner_eq_dec o' o) as [-> | No]; [discriminate|]. intros H.
      rewrite upd_neq by exact (Hn _ _ No H). exact (g_live _ _ _ G _ _ H).
    + intros o' No. unfold vl. rewrite oput_neq by exact No.
      destruct (ow o') as [a'|] eqn:Ea; [|reflexivity]. apply upd_neq. exact (Hn _ _ No Ea).
  - split.
    + apply (good_ext _ _ _ _ _ G); [reflexivity|]. intros o'. unfold oput.
      destruct (owner_eq_dec o' o) as [-> | No]; congruence.
    + intros o' No. unfold vl. rewrite oput_neq by exact No. reflexivity.
Qed.

(** Handing what one owner has to another that has nothing. *)
Lemma good_move h n ow o1 o2 :
  Good h n ow -> ow o2 = None -> o1 <> o2 ->
  Good h n (oput (oput ow o2 (ow o1)) o1 None) /\
  vl h (oput (oput ow o2 (ow o1)) o1 None) o2 = vl h ow o1 /\
  (forall o', o' <> o1 -> o' <> o2 -> vl h (oput (oput ow o2 (ow o1)) o1 None) o' = vl h ow o').
Proof.
  intros G E N12. split; [constructor|split].
  - intros x y a. unfold oput.
    destruct (owner_eq_dec x o1) as [-> | X1]; [discriminate|].
    destruct (owner_eq_dec y o1) as [-> | Y1]; [discriminate|].
    destruct (owner_eq_dec x o2) as [-> | X2]; destruct (owner_eq_dec y o2) as [-> | Y2]; intros H1 H2.
    + reflexivity.
    + exfalso. apply Y1. exact (g_inj _ _ _ G _ _ _ H2 H1).
    + exfalso. apply X1. exact (g_inj _ _ _ G _ _ _ H1 H2).
    + exact (g_inj _ _ _ G _ _ _ H1 H2).
  - intros a H. destruct (g_cov _ _ _ G a H) as [o E'].
    destruct (owner_eq_dec o o1) as [-> | No].
    + exists o2. rewrite oput_neq by congruence. rewrite oput_eq. exact E'.
    + exists o. rewrite oput_neq by exact No. rewrite oput_neq by congruence. exact E'.
  - apply (g_fresh _ _ _ G).
  - intros o a. unfold oput. destruct (owner_eq_dec o o1); [discriminate|].
    destruct (owner_eq_dec o o2); apply (g_live _ _ _ G).
  - unfold vl. rewrite oput_neq by congruence. rewrite oput_eq. reflexivity.
  - intros o' A1 A2. unfold vl. rewrite !oput_neq by assumption. reflexivity.
Qed.

(** ** Encodings in memory *)
Lemma ienc_read e r :
  (length (ienc_bytes e r) <? 8)%nat = false /\
  nth_error enc_values (N.to_nat (word_of (firstn 4 (ienc_bytes e r)))) = Some e /\
  noenc_at (word_of (firstn 4 (skipn 4 (ienc_bytes e r)))) = Some r.
Proof. destruct e, r; vm_compute; repeat split. Qed.

Lemma ienc_cstr e r :
  exists l, cstr (ienc_bytes e r) = Ok l /\ (length l < 8)%nat /\ cstr l = Ok l.
Proof.
  assert (H : match cstr (ienc_bytes e r) with
              | Ok l => ((length l <? 8)%nat && match cstr l with Ok l' => bytes_eqb l' l | _ => false end)%bool = true
              | _ => False
              end) by (destruct e, r; vm_compute; reflexivity).
  destruct (cstr (ienc_bytes e r)) as [l| | |]; try contradiction.
  exists l. apply andb_prop in H. destruct H as [H1 H2]. split; [reflexivity|].
  split; [apply Nat.ltb_lt; exact H1|].
  destruct (cstr l) as [l'| | |]; try discriminate. f_equal. apply bytes_eqb_eq. exact H2.
Qed.
