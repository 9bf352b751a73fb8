(** * Lemmas: streams and header probing. *)
From Verif Require Import Base M_Ints M_Stream S_Ints S_Stream L_Ints.

Definition good (s : istream) : Prop := s_state s = 0.

Lemma land_0_l' m : N.land 0 m =? 0 = true. Proof. reflexivity. Qed.

Definition info_at (data : bytes) (pos : N) : option id3v2_info :=
  classify_header (slice pos 10 data).

Lemma seekg_good p s : good s ->
  seekg p s = (Ok tt, mkIs (s_data s) p (s_exc s) 0).
Proof. destruct s as [d q e st]. unfold good. simpl. intros ->. reflexivity. Qed.

Lemma seekg_cur_good p s : good s ->
  seekg_cur p s = (Ok tt, mkIs (s_data s) (s_pos s + p) (s_exc s) 0).
Proof. intros H. unfold seekg_cur. now apply seekg_good. Qed.

Lemma set_exc_good m s : good s ->
  set_exc m s = (Ok tt, mkIs (s_data s) (s_pos s) m 0).
Proof. destruct s as [d q e st]. unfold good. simpl. intros ->. reflexivity. Qed.

Lemma tellg_good s : good s -> tellg s = (Ok (s_pos s), s).
Proof. destruct s as [d q e st]. unfold good. simpl. intros ->. reflexivity. Qed.

Lemma sread_good n s : good s -> len (slice (s_pos s) n (s_data s)) = n ->
  sread n s = (Ok (slice (s_pos s) n (s_data s)), mkIs (s_data s) (s_pos s + n) (s_exc s) 0).
Proof.
  destruct s as [d q e st]. unfold good, sread. simpl. intros -> H.
  rewrite H, (N.eqb_refl n). reflexivity.
Qed.

Lemma sread_short_throw n s : good s -> s_exc s = all_bits ->
  len (slice (s_pos s) n (s_data s)) <> n ->
  sread n s = (Throw IosFailure,
               mkIs (s_data s) (s_pos s + len (slice (s_pos s) n (s_data s))) all_bits 6).
Proof.
  destruct s as [d q e st]. unfold good, sread. simpl. intros -> -> H.
  apply N.eqb_neq in H. rewrite H. reflexivity.
Qed.

Lemma classify_length b : classify_header b <> None -> len b = 10.
Proof.
  do 10 (destruct b as [|? b]; [intros H; now elim H|]).
  destruct b; [reflexivity|]. intros H; now elim H.
Qed.

Lemma looking_at_eq restore s : good s ->
  looking_at_id3v2 restore s =
  (Ok (info_at (s_data s) (s_pos s)),
   mkIs (s_data s)
        (match info_at (s_data s) (s_pos s) with
         | Some _ => if restore then s_pos s else s_pos s + 10
         | None => s_pos s
         end) (s_exc s) 0).
Proof.
  intros Hg. destruct s as [d q e st]. unfold good in Hg. simpl in Hg. subst st.
  unfold looking_at_id3v2, sbind, get_exc. cbn [s_exc].
  rewrite set_exc_good by reflexivity. cbn [s_data s_pos].
  rewrite tellg_good by reflexivity. cbn [s_data s_pos s_exc].
  unfold scatch, info_at. cbn [s_data s_pos].
  destruct (N.eq_dec (len (slice q 10 d)) 10) as [H10|Hn].
  - rewrite sread_good by (reflexivity || exact H10). cbn [s_data s_pos s_exc].
    unfold sret at 1. cbv beta iota.
    destruct (classify_header (slice q 10 d)) as [h|].
    + destruct restore; unfold sret.
      * rewrite seekg_good by reflexivity. cbn [s_data s_pos s_exc].
        rewrite set_exc_good by reflexivity. reflexivity.
      * rewrite set_exc_good by reflexivity. reflexivity.
    + rewrite seekg_good by reflexivity. cbn [s_data s_pos s_exc].
      rewrite set_exc_good by reflexivity. reflexivity.
  - rewrite sread_short_throw by (reflexivity || exact Hn).
    cbn [s_data s_pos]. unfold sclear. cbn [s_data s_pos s_exc].
    rewrite set_exc_good by reflexivity. cbn [s_data s_pos s_exc].
    rewrite seekg_good by reflexivity. cbn [s_data s_pos s_exc].
    assert (classify_header (slice q 10 d) = None) as ->.
    { destruct (classify_header (slice q 10 d)) eqn:E; [|reflexivity].
      elim Hn. apply classify_length. congruence. }
    reflexivity.
Qed.

Lemma takeN_some_drop {A} n (l m : list A) : takeN n l = m -> len m = n ->
  exists rest, l = m ++ rest.
Proof. intros H _. exists (dropN n l). rewrite <- H. symmetry. apply takeN_dropN. Qed.

Lemma info_at_spec data pos v r f sz :
  info_at data pos = Some (mkInfo v r f sz) <-> id3v2_header_at data pos v r f sz.
Proof.
  unfold info_at, id3v2_header_at. split.
  - intros H.
    assert (Hl : len (slice pos 10 data) = 10) by (apply classify_length; congruence).
    destruct (takeN_some_drop 10 (dropN pos data) _ eq_refl Hl) as [rest Hr].
    fold (slice pos 10 data) in Hr.
    remember (slice pos 10 data) as b eqn:Eb. clear Eb.
    do 10 (destruct b as [|? b]; [discriminate|]). destruct b; [|discriminate].
    cbn [classify_header] in H.
    destruct ((n =? 73) && (n0 =? 68) && (n1 =? 51)) eqn:E1; [|discriminate].
    destruct (negb (n2 =? 255) && negb (n3 =? 255)) eqn:E2; [|discriminate].
    destruct ((n5 <? 128) && (n6 <? 128) && (n7 <? 128) && (n8 <? 128)) eqn:E3; [|discriminate].
    injection H as <- <- <- <-.
    exists n5, n6, n7, n8, rest.
    assert (n = 73 /\ n0 = 68 /\ n1 = 51) as (-> & -> & ->) by lia.
    split; [exact Hr|]. split; [lia|]. split; [lia|].
    split; [repeat constructor; lia|].
    destruct (sync_safe_positional n5 n6 n7 n8 0) as (_ & -> & _).
    rewrite !N.mod_small by lia. reflexivity.
  - intros (z0 & z1 & z2 & z3 & rest & Hd & Hv & Hr & Hz & ->).
    unfold slice. rewrite Hd. rewrite app_assoc.
    rewrite takeN_app_exact by reflexivity.
    repeat (apply Forall_cons_iff in Hz as [? Hz]).
    cbn [B app classify_header]. change (N_of_ascii "I") with 73.
    change (N_of_ascii "D") with 68. change (N_of_ascii "3") with 51.
    cbn [N.eqb Pos.eqb andb].
    replace (negb (v =? 255) && negb (r =? 255)) with true by lia.
    replace ((z0 <? 128) && (z1 <? 128) && (z2 <? 128) && (z3 <? 128)) with true by lia.
    destruct (sync_safe_positional z0 z1 z2 z3 0) as (_ & -> & _).
    rewrite !N.mod_small by lia. reflexivity.
Qed.

(** Summary for the property file. *)
Lemma looking_at_exact data pos exc restore :
  let s := mkIs data pos exc 0 in
  (exists v r f sz,
      id3v2_header_at data pos v r f sz /\
      looking_at_id3v2 restore s =
      (Ok (Some (mkInfo v r f sz)), mkIs data (if restore then pos else pos + 10) exc 0)) \/
  ((forall v r f sz, ~ id3v2_header_at data pos v r f sz) /\
   looking_at_id3v2 restore s = (Ok None, s)).
Proof.
  intros s. pose proof (looking_at_eq restore s eq_refl) as H. cbn [s_data s_pos s_exc s] in H.
  destruct (info_at data pos) as [[v r f sz]|] eqn:E.
  - left. exists v, r, f, sz. split; [now apply info_at_spec|exact H].
  - right. split; [|exact H]. intros v r f sz Hc. apply info_at_spec in Hc. congruence.
Qed.

Lemma header_at_unique data pos v r f sz v' r' f' sz' :
  id3v2_header_at data pos v r f sz -> id3v2_header_at data pos v' r' f' sz' ->
  v = v' /\ r = r' /\ f = f' /\ sz = sz'.
Proof.
  intros H H'. apply info_at_spec in H. apply info_at_spec in H'.
  rewrite H in H'. injection H' as -> -> -> ->. auto.
Qed.
