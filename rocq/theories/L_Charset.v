(** * Proofs about character encodings. *)
From Verif Require Import Base M_Charset S_Charset.

Lemma enc_names_l e : enc_of_name (enc_name e) = Ok e.
Proof. destruct e; vm_compute; reflexivity. Qed.

Lemma enc_at_In t k e : enc_at t k = Ok e -> In (k, e) t.
Proof.
  induction t as [|(n, x) r IH]; cbn [enc_at]; [discriminate|].
  destruct (bytes_eqb_spec n k).
  - intros E. apply Ok_inj in E. subst. left. reflexivity.
  - intros E. right. apply IH. exact E.
Qed.

Lemma enc_names_only_l w e : enc_of_name w = Ok e -> w = enc_name e.
Proof.
  intros E. apply enc_at_In in E.
  assert (G : forall p, In p enc_names -> fst p = enc_name (snd p)).
  { assert (F : forallb (fun p => bytes_eqb (fst p) (enc_name (snd p))) enc_names = true) by (vm_compute; reflexivity).
    intros p I. rewrite forallb_forall in F. specialize (F p I).
    destruct (bytes_eqb_spec (fst p) (enc_name (snd p))); [assumption|discriminate F]. }
  exact (G _ E).
Qed.

Lemma iconv_name_l e : iconv_name e = enc_name e.
Proof. destruct e; reflexivity. Qed.

(** ** Locales *)
Lemma rfind_dot_app a l : rfind_dot l <> None -> rfind_dot (a ++ l) = rfind_dot l.
Proof.
  induction a as [|c a IH]; intros H; [reflexivity|].
  cbn [app rfind_dot]. rewrite IH by exact H. destruct (rfind_dot l); [reflexivity|congruence].
Qed.

Lemma rfind_dot_none l : ~ In 46 l -> rfind_dot l = None.
Proof.
  induction l as [|c l IH]; intros H; [reflexivity|]. cbn [rfind_dot].
  rewrite IH by (intros I; apply H; right; exact I).
  destruct (c =? 46) eqn:E; [|reflexivity].
  exfalso. apply H. left. apply N.eqb_eq in E. exact E.
Qed.

Lemma rfind_dot_hit a cs : ~ In 46 cs -> rfind_dot (a ++ 46 :: cs) = Some (46 :: cs).
Proof.
  intros H. assert (E : rfind_dot (46 :: cs) = Some (46 :: cs)).
  { cbn [rfind_dot]. rewrite (rfind_dot_none _ H). reflexivity. }
  rewrite rfind_dot_app; rewrite E; [reflexivity|discriminate].
Qed.

Lemma locale_key cs : enc_at locale_encs (46 :: cs) = Throw OutOfRange.
Proof.
  assert (F : forallb (fun p => negb (hd 0 (fst p) =? 46)) locale_encs = true) by (vm_compute; reflexivity).
  revert F. generalize locale_encs. induction l as [|(n, x) r IH]; [reflexivity|].
  cbn [forallb enc_at]. intros F. apply andb_prop in F. destruct F as (F & G).
  destruct (bytes_eqb_spec n (46 :: cs)).
  - subst n. discriminate F.
  - apply IH. exact G.
Qed.

Lemma locale_dot_l a cs : ~ In 46 cs -> enc_of_locale_name (a ++ 46 :: cs) = None.
Proof. intros H. unfold enc_of_locale_name. rewrite rfind_dot_hit by exact H. rewrite locale_key. reflexivity. Qed.

Lemma locale_nodot_l name : ~ In 46 name -> enc_of_locale_name name = Some E_UTF_8.
Proof. intros H. unfold enc_of_locale_name. rewrite rfind_dot_none by exact H. reflexivity. Qed.

Lemma dot_dec (l : bytes) : ~ In 46 l \/ exists a cs, l = a ++ 46 :: cs /\ ~ In 46 cs.
Proof.
  induction l as [|c l IH]; [left; intros []|].
  destruct IH as [N|(a & cs & -> & N)].
  - destruct (N.eq_dec c 46) as [->|D].
    + right. exists [], l. split; [reflexivity|exact N].
    + left. intros [E|E]; [congruence|exact (N E)].
  - right. exists (c :: a), cs. split; [reflexivity|exact N].
Qed.

Lemma locale_l g s : enc_of_locale g s =
  if existsb (N.eqb 46) g && existsb (N.eqb 46) s then Throw RangeError else Ok E_UTF_8.
Proof.
  assert (E : forall l, existsb (N.eqb 46) l = false -> ~ In 46 l).
  { intros l F I. assert (G : existsb (N.eqb 46) l = true) by (apply existsb_exists; exists 46; split; [exact I|reflexivity]).
    congruence. }
  assert (D : forall l, existsb (N.eqb 46) l = true -> exists a cs, l = a ++ 46 :: cs /\ ~ In 46 cs).
  { intros l F. destruct (dot_dec l) as [N|X]; [|exact X]. exfalso. apply N.
    apply existsb_exists in F. destruct F as (x & I & Q). apply N.eqb_eq in Q. subst x. exact I. }
  unfold enc_of_locale.
  destruct (existsb (N.eqb 46) g) eqn:G.
  - destruct (D _ G) as (a & cs & -> & N). rewrite locale_dot_l by exact N.
    destruct (existsb (N.eqb 46) s) eqn:Q.
    + destruct (D _ Q) as (a' & cs' & -> & N'). rewrite locale_dot_l by exact N'. reflexivity.
    + rewrite locale_nodot_l by (apply E; exact Q). reflexivity.
  - rewrite locale_nodot_l by (apply E; exact G). reflexivity.
Qed.

(** ** Conversion to bytes *)
Lemma c_str_no_nul s : no_nul s -> c_str s = s.
Proof.
  induction s as [|c s IH]; intros H; [reflexivity|]. cbn [c_str].
  destruct (c =? 0) eqn:E.
  - apply N.eqb_eq in E. exfalso. apply H. left. exact E.
  - rewrite IH; [reflexivity|]. intros I. apply H. right. exact I.
Qed.

Lemma to_bytes_short ic s src dst bom rsp out :
  no_nul s -> s <> [] -> char_unit src = true -> ic src dst rsp s = Some out ->
  len out <= 4 * len s ->
  to_bytes ic s src dst bom rsp = Ok ((if bom then bom_for dst else []) ++ out).
Proof.
  intros H1 H2 H3 H4 H5. unfold to_bytes. rewrite H3, (c_str_no_nul _ H1). cbn [negb].
  destruct s as [|c s]; [congruence|]. rewrite H4.
  apply N.leb_le in H5. rewrite H5. reflexivity.
Qed.

Definition be32 (e : enc) : Prop := e = E_UCS_4BE \/ e = E_UTF_32BE.

Lemma bom_for_l e : ~ be32 e -> bom_for e = standard_bom e.
Proof. intros H. destruct e; try reflexivity; exfalso; apply H; unfold be32; tauto. Qed.

Lemma grow_spec fuel : forall bom need room,
  bom <= room -> room < need -> need <= room * 4 ^ N.of_nat fuel ->
  grow fuel bom need room = Ok [] \/ grow fuel bom need room = UB OutOfBounds.
Proof.
  induction fuel as [|f IH]; intros bom need room H1 H2 H3.
  - change (4 ^ N.of_nat 0) with 1 in H3. lia.
  - cbn [grow]. destruct (need <=? room * 4) eqn:E.
    + destruct (bom + need <=? room * 4); [left|right]; reflexivity.
    + apply N.leb_gt in E. apply IH; [lia|exact E|].
      rewrite Nat2N.inj_succ, N.pow_succ_r' in H3. lia.
Qed.

Lemma pow4_ge n : N.of_nat n < 4 ^ N.of_nat n.
Proof.
  induction n as [|n IH]; [vm_compute; reflexivity|].
  rewrite Nat2N.inj_succ, N.pow_succ_r'. lia.
Qed.

Lemma len_pos (s : bytes) : s <> [] -> 1 <= len s.
Proof. destruct s; [congruence|]. rewrite len_cons. lia. Qed.

Lemma bom_len e : len (bom_for e) <= 4.
Proof. destruct e; vm_compute; discriminate. Qed.

Lemma long_grow (s out : bytes) b : s <> [] -> 4 * len s < len out -> len b <= 4 ->
  let r := if len out <=? 4 * len s then Ok (b ++ out)
           else grow (length out) (len b) (len out) (len b + 4 * len s) in
  r = Ok [] \/ r = UB OutOfBounds \/ (len out <= len b + 4 * len s).
Proof.
  intros H1 H2 H3. cbn zeta. pose proof (len_pos _ H1).
  destruct (len out <=? 4 * len s) eqn:E; [apply N.leb_le in E; lia|].
  destruct (N.le_gt_cases (len out) (len b + 4 * len s)) as [L|L]; [right; right; exact L|].
  destruct (grow_spec (length out) (len b) (len out) (len b + 4 * len s)) as [G|G]; [lia|lia| |left; exact G|right; left; exact G].
  pose proof (pow4_ge (length out)). change (N.of_nat (length out)) with (len out) in *. nia.
Qed.

Lemma to_bytes_long ic s src dst bom rsp out :
  no_nul s -> s <> [] -> char_unit src = true -> ic src dst rsp s = Some out ->
  4 * len s < len out ->
  to_bytes ic s src dst bom rsp = Ok [] \/ to_bytes ic s src dst bom rsp = UB OutOfBounds.
Proof.
  intros H1 H2 H3 H4 H5. unfold to_bytes. rewrite H3, (c_str_no_nul _ H1). cbn [negb].
  destruct s as [|c s]; [congruence|]. rewrite H4.
  set (b := if bom then bom_for dst else []).
  assert (HB : len b <= 4) by (subst b; destruct bom; [apply bom_len|vm_compute; discriminate]).
  pose proof (len_pos (c :: s) ltac:(discriminate)) as HL.
  destruct (len out <=? 4 * len (c :: s)) eqn:E; [apply N.leb_le in E; lia|].
  destruct (length out) as [|f] eqn:EL; [change (len out) with (N.of_nat (length out)) in H5; lia|].
  cbn [grow].
  destruct (len out <=? (len b + 4 * len (c :: s)) * 4) eqn:Q.
  - destruct (len b + len out <=? (len b + 4 * len (c :: s)) * 4); [left|right]; reflexivity.
  - apply N.leb_gt in Q. apply grow_spec; [lia|exact Q|].
    assert (G : len out = N.succ (N.of_nat f)) by (unfold len; lia).
    pose proof (pow4_ge f). nia.
Qed.

Lemma to_bytes_terminates ic s src dst bom rsp : to_bytes ic s src dst bom rsp <> NonTerm.
Proof.
  unfold to_bytes. destruct (char_unit src); [|discriminate]. cbn [negb].
  destruct (c_str s) as [|c t] eqn:ES; [discriminate|]. rewrite <- ES.
  destruct (ic src dst rsp (c_str s)) as [out|]; [|discriminate].
  destruct (len out <=? 4 * len (c_str s)) eqn:E; [discriminate|].
  set (b := if bom then bom_for dst else []).
  assert (HL : 1 <= len (c_str s)) by (apply len_pos; rewrite ES; discriminate).
  apply N.leb_gt in E.
  destruct (length out) as [|f] eqn:EL; [change (len out) with (N.of_nat (length out)) in E; lia|].
  cbn [grow].
  destruct (len out <=? (len b + 4 * len (c_str s)) * 4) eqn:Q.
  - destruct (len b + len out <=? (len b + 4 * len (c_str s)) * 4); discriminate.
  - apply N.leb_gt in Q.
    assert (G : len out = N.succ (N.of_nat f)) by (unfold len; lia).
    destruct (grow_spec f (len b) (len out) ((len b + 4 * len (c_str s)) * 4)) as [X|X]; [lia|exact Q| |rewrite X; discriminate|rewrite X; discriminate].
    pose proof (pow4_ge f). nia.
Qed.

Lemma bom32_l ic s src dst rsp out :
  be32 dst -> no_nul s -> s <> [] -> char_unit src = true -> ic src dst rsp s = Some out ->
  to_bytes ic s src dst true rsp <> Ok (standard_bom dst ++ out).
Proof.
  intros HB H1 H2 H3 H4.
  destruct (N.le_gt_cases (len out) (4 * len s)) as [L|L].
  - rewrite (to_bytes_short _ _ _ _ _ _ _ H1 H2 H3 H4 L).
    intros E. apply Ok_inj in E. apply app_inv_tail in E.
    destruct HB as [-> | ->]; vm_compute in E; discriminate E.
  - destruct (to_bytes_long _ _ _ _ true _ _ H1 H2 H3 H4 L) as [E|E]; rewrite E; intros Q; [|discriminate Q].
    apply Ok_inj in Q. destruct HB as [-> | ->]; vm_compute in Q; discriminate Q.
Qed.

(** ** Conversion to a string *)
Lemma rtrim_keep c r : (c <> 0 /\ c <> 32) \/ rtrim r <> [] -> rtrim (c :: r) = c :: rtrim r.
Proof.
  intros H. cbn [rtrim]. destruct (rtrim r); [|reflexivity].
  destruct H as [(A & C)|H]; [|congruence].
  apply N.eqb_neq in A. apply N.eqb_neq in C. rewrite A, C. reflexivity.
Qed.

Lemma rtrim_id s : no_trailing s -> rtrim s = s.
Proof.
  induction s as [|c s IH]; intros H; [reflexivity|].
  destruct s as [|d s].
  - rewrite rtrim_keep; [reflexivity|]. left. apply (H [] c). reflexivity.
  - assert (G : rtrim (d :: s) = d :: s).
    { apply IH. intros s' x E. apply (H (c :: s') x). cbn. rewrite E. reflexivity. }
    rewrite rtrim_keep; rewrite G; [reflexivity|]. right. discriminate.
Qed.

Lemma rtrim_last s : forall c, (c = 0 \/ c = 32) -> rtrim (s ++ [c]) = rtrim s.
Proof.
  induction s as [|d s IH]; intros c H.
  - cbn. destruct H as [-> | ->]; reflexivity.
  - cbn [app rtrim]. rewrite IH by exact H. reflexivity.
Qed.

Lemma rtrim_len s : len (rtrim s) <= len s.
Proof.
  induction s as [|c s IH]; [apply N.le_refl|]. cbn [rtrim].
  destruct (rtrim s) as [|n l] eqn:E.
  - destruct ((c =? 0) || (c =? 32)); rewrite !len_cons; change (len (@nil N)) with 0; lia.
  - rewrite (len_cons c s), (len_cons c (n :: l)). lia.
Qed.

Lemma drop_bom_len s : len (drop_bom s) <= len s.
Proof.
  unfold drop_bom.
  repeat match goal with |- context [match ?x with _ => _ end] => destruct x end; rewrite ?len_cons; lia.
Qed.

Lemma drop_bom_or s : drop_bom s = s \/ len (drop_bom s) + 2 <= len s.
Proof.
  unfold drop_bom.
  repeat match goal with |- context [match ?x with _ => _ end] => destruct x end;
    first [left; reflexivity | right; rewrite ?len_cons; lia].
Qed.

Lemma drop_bom_id s : no_bom s -> drop_bom s = s.
Proof.
  intros H.
  destruct s as [|a [|b [|c [|d r]]]]; try reflexivity; unfold drop_bom.
  all: repeat match goal with |- context [match ?x with _ => _ end] => destruct x end; try reflexivity.
  all: exfalso; edestruct H as (A1 & A2 & A3 & A4); first [eapply A1; reflexivity|eapply A2; reflexivity|eapply A3; reflexivity|eapply A4; reflexivity].
Qed.

Lemma to_string_l ic buf src dst rsp out :
  buf <> [] -> char_unit dst = true -> ic src dst rsp buf = Some out ->
  no_bom out -> no_trailing out -> to_string ic buf src dst rsp = Ok out.
Proof.
  intros H1 H2 H3 H4 H5. unfold to_string. rewrite H2. cbn [negb].
  destruct buf as [|b buf]; [congruence|]. rewrite H3, drop_bom_id, rtrim_id by assumption. reflexivity.
Qed.

Lemma to_string_lost ic buf src dst rsp out c :
  buf <> [] -> char_unit dst = true -> ic src dst rsp buf = Some (out ++ [c]) -> c = 0 \/ c = 32 ->
  to_string ic buf src dst rsp <> Ok (out ++ [c]).
Proof.
  intros H1 H2 H3 H4. unfold to_string. rewrite H2. cbn [negb].
  destruct buf as [|b buf]; [congruence|]. rewrite H3. intros E. apply Ok_inj in E.
  destruct (drop_bom_or (out ++ [c])) as [D|D].
  - rewrite D, rtrim_last in E by exact H4. pose proof (rtrim_len out) as L. rewrite E, len_app in L.
    change (len [c]) with 1 in L. lia.
  - pose proof (rtrim_len (drop_bom (out ++ [c]))) as L. rewrite E in L. lia.
Qed.
