(** * Lemmas: writing ID3v2.3 tags, and reading them back. *)
From Verif Require Import Base M_Ints M_Unsync M_Stream M_Payload M_Cloud M_Frame M_Tag23
  S_Ints S_Stream S_Unsync S_Payload S_Cloud S_Tag L_Ints L_Unsync L_Stream L_Payload L_Cloud L_Cloud2 L_Frame L_Tag23.

Definition clean (c : cframe) : Prop := c_dirty c = false.

(** [l'] holds the frames of [l], serialized. *)
Definition refreshed (wire : frame -> outcome bytes) (l l' : list cframe) : Prop :=
  map c_frame l' = map c_frame l /\ Forall clean l' /\
  (Forall (coherent wire) l -> Forall (coherent wire) l').

Lemma map_refresh_spec wire l : forall l', map_refresh wire l = Ok l' -> refreshed wire l l'.
Proof.
  unfold refreshed. induction l as [|c r IH]; intros l' H; cbn [map_refresh] in H.
  - apply Ok_inj in H. subst l'. repeat split; auto.
  - apply bind_ok in H as (c' & Hc & H). apply bind_ok in H as (r' & Hr & H).
    apply Ok_inj in H. subst l'. destruct (refresh_spec wire _ _ _ Hc) as (E1 & E2 & E3).
    destruct (IH _ Hr) as (F1 & F2 & F3). cbn [map]. split; [now rewrite E1, F1|].
    split; [now constructor|]. intros Hf. apply Forall_cons_iff in Hf as [? ?]. constructor; auto.
Qed.

Lemma refresh_all_cons wire b c d r : refresh_all wire b (c :: d :: r) =
  let* c' := refresh wire false c in let* r' := refresh_all wire b (d :: r) in Ok (c' :: r').
Proof. reflexivity. Qed.

Lemma refresh_all_spec wire b l : forall l', refresh_all wire b l = Ok l' -> refreshed wire l l'.
Proof.
  unfold refreshed. induction l as [|c r IH]; intros l' H.
  - apply Ok_inj in H. subst l'. repeat split; auto.
  - destruct r as [|d r].
    + cbn [refresh_all] in H. apply bind_ok in H as (c' & Hc & H).
      apply Ok_inj in H. subst l'. destruct (refresh_spec wire _ _ _ Hc) as (E1 & E2 & E3).
      cbn [map]. split; [now rewrite E1|]. split; [now repeat constructor|].
      intros Hf. apply Forall_cons_iff in Hf as [? ?]. constructor; auto.
    + rewrite refresh_all_cons in H. apply bind_ok in H as (c' & Hc & H). apply bind_ok in H as (r' & Hr & H).
      apply Ok_inj in H. subst l'. destruct (refresh_spec wire _ _ _ Hc) as (E1 & E2 & E3).
      destruct (IH _ Hr) as (F1 & F2 & F3). split; [cbn [map]; now rewrite E1, F1|].
      split; [now constructor|]. intros Hf. apply Forall_cons_iff in Hf as [? ?]. constructor; auto.
Qed.

Lemma map_refresh_clean wire l : Forall clean l -> map_refresh wire l = Ok l.
Proof.
  induction 1 as [|c r Hc _ IH]; [reflexivity|]. cbn [map_refresh].
  rewrite refresh_clean by exact Hc. cbn [bind]. now rewrite IH.
Qed.

Lemma refresh_all_clean wire b l : Forall clean l -> refresh_all wire b l = Ok l.
Proof.
  induction 1 as [|c r Hc _ IH]; [reflexivity|]. destruct r as [|d r].
  - cbn [refresh_all]. now rewrite refresh_clean.
  - rewrite refresh_all_cons, refresh_clean by exact Hc. cbn [bind]. now rewrite IH.
Qed.

Lemma refreshed_trans wire a b c : refreshed wire a b -> refreshed wire b c -> refreshed wire a c.
Proof. intros (A1 & A2 & A3) (B1 & B2 & B3). repeat split; auto. now rewrite B1. Qed.

(** ** The extended header *)
Definition ext_coherent (x : ext23) : Prop :=
  x_dirty x = false -> x_plain x = ext_wire23 x /\ x_unsync x = unsynchronise (ext_wire23 x) false.

Lemma ext_refresh_spec x : let y := ext_refresh x in
  x_pad y = x_pad x /\ x_crc y = x_crc x /\ x_dirty y = false /\ (ext_coherent x -> ext_coherent y).
Proof.
  unfold ext_refresh, ext_coherent. destruct (x_dirty x) eqn:E; cbv zeta; cbn [x_pad x_crc x_dirty].
  - do 3 (split; [reflexivity|]). intros _ _. split; reflexivity.
  - auto.
Qed.

Lemma ext_refresh_clean x : x_dirty x = false -> ext_refresh x = x.
Proof. unfold ext_refresh. now intros ->. Qed.

Lemma ext_crc_spec z x fs : let y := ext_crc z x fs in
  x_pad y = x_pad x /\ x_crc y = Some (fold_left (fun n c => z_crc z n (c_plain c)) fs (z_crc z 0 [])) /\
  (ext_coherent x -> ext_coherent y).
Proof.
  unfold ext_crc. destruct (x_crc x) as [c|] eqn:E.
  - destruct (N.eqb_spec c (fold_left (fun n c => z_crc z n (c_plain c)) fs (z_crc z 0 []))) as [->|Hc].
    + cbn zeta. rewrite E. auto.
    + cbn [x_pad x_crc]. do 2 (split; [reflexivity|]). intros _ H. discriminate.
  - cbn [x_pad x_crc]. do 2 (split; [reflexivity|]). intros _ H. discriminate.
Qed.

Lemma ext_crc_same z x fs : x_crc x = Some (fold_left (fun n c => z_crc z n (c_plain c)) fs (z_crc z 0 [])) ->
  ext_crc z x fs = x.
Proof. intros H. unfold ext_crc. rewrite H. now rewrite N.eqb_refl. Qed.

Definition ext_rel (x y : option ext23) : Prop :=
  match x, y with
  | None, None => True
  | Some x, Some y => x_pad y = x_pad x /\ is_some (x_crc y) = is_some (x_crc x) /\ x_dirty y = false /\
                      (ext_coherent x -> ext_coherent y)
  | _, _ => False
  end.

Lemma prep_ext_spec z t t1 : prep_ext z t = Ok t1 ->
  t3_unsync t1 = t3_unsync t /\ t3_exp t1 = t3_exp t /\ t3_pad t1 = t3_pad t /\
  (t3_frames t1 = t3_frames t \/ refreshed (wire23 z) (t3_frames t) (t3_frames t1)) /\
  ext_rel (t3_ext t) (t3_ext t1) /\
  (forall fs, (t3_frames t1 = fs \/ Forall clean fs /\ t3_frames t1 = t3_frames t) ->
     Forall clean fs ->
     (match t3_ext t with Some x => is_some (x_crc x) = true -> fs = t3_frames t1 | None => True end) ->
     let t2 := mkTag23 (t3_unsync t1) (t3_exp t1) (t3_ext t1) (t3_pad t1) fs in prep_ext z t2 = Ok t2).
Proof.
  unfold prep_ext. destruct (t3_ext t) as [x|] eqn:Ex.
  - destruct (is_some (x_crc x)) eqn:Ec.
    + intros H. apply bind_ok in H as (fs & Hf & H). apply Ok_inj in H. subst t1. cbn [t3_unsync t3_exp t3_ext t3_pad t3_frames ext_rel].
      destruct (ext_crc_spec z x fs) as (C1 & C2 & C3).
      destruct (ext_refresh_spec (ext_crc z x fs)) as (R1 & R2 & R3 & R4).
      refine (conj eq_refl (conj eq_refl (conj eq_refl (conj (or_intror (map_refresh_spec _ _ _ Hf))
        (conj (conj _ (conj _ (conj R3 _))) _))))).
      * now rewrite R1.
      * now rewrite R2, C2, Ec.
      * auto.
      * intros gs _ Hcl Hgs. rewrite R2, C2. cbn [is_some].
        assert (gs = fs) as -> by now apply Hgs.
        rewrite map_refresh_clean by exact Hcl. cbn [bind].
        rewrite ext_crc_same by now rewrite R2. rewrite (ext_refresh_clean (ext_refresh _)) by exact R3.
        reflexivity.
    + intros H. apply Ok_inj in H. subst t1. cbn [t3_unsync t3_exp t3_ext t3_pad t3_frames ext_rel].
      destruct (ext_refresh_spec x) as (R1 & R2 & R3 & R4).
      refine (conj eq_refl (conj eq_refl (conj eq_refl (conj (or_introl eq_refl)
        (conj (conj R1 (conj _ (conj R3 R4))) _))))); [now rewrite R2|].
      intros gs _ Hcl _. rewrite R2, Ec. rewrite (ext_refresh_clean (ext_refresh _)) by exact R3. reflexivity.
  - intros H. apply Ok_inj in H. subst t1.
    refine (conj eq_refl (conj eq_refl (conj eq_refl (conj (or_introl eq_refl) (conj _ _)))));
      [now rewrite Ex|].
    intros fs _ _ _. cbn [t3_ext t3_unsync t3_exp t3_pad t3_frames]. now rewrite Ex.
Qed.

(** ** [size] and [write] *)
Lemma size23_inv z t u n t1 : size23 z t u = Ok (n, t1) ->
  t3_unsync t1 = t3_unsync t /\ t3_exp t1 = t3_exp t /\ t3_pad t1 = t3_pad t /\
  refreshed (wire23 z) (t3_frames t) (t3_frames t1) /\
  ext_rel (t3_ext t) (t3_ext t1) /\
  n = match t3_ext t1 with Some x => len (ext_serialized23 u x) | None => 0 end
      + sum_len (map (cached u) (t3_frames t1)) + t3_pad t1 /\
  prep_ext z t1 = Ok t1.
Proof.
  unfold size23. intros H. apply bind_ok in H as (t0 & H0 & H). apply bind_ok in H as (fs & Hf & H).
  apply Ok_inj in H. injection H as Hn Ht. subst t1. cbn [t3_unsync t3_exp t3_ext t3_pad t3_frames].
  destruct (prep_ext_spec z t t0 H0) as (E1 & E2 & E3 & E4 & E5 & E6).
  pose proof (refresh_all_spec _ _ _ _ Hf) as Hr.
  do 3 (split; [assumption|]). split.
  - destruct E4 as [E4|E4]; [now rewrite E4 in Hr|now apply (refreshed_trans _ _ (t3_frames t0))].
  - split; [exact E5|]. split; [now symmetry|]. destruct Hr as (_ & Hcl & _).
    apply E6; [..|exact Hcl|].
    + destruct E4 as [E4|E4]; [right; auto|left]. destruct E4 as (_ & Hc & _).
      rewrite refresh_all_clean in Hf by exact Hc. now apply Ok_inj in Hf.
    + destruct (t3_ext t) as [x|] eqn:Ex; [|exact I]. intros Hc.
      unfold prep_ext in H0. rewrite Ex, Hc in H0. apply bind_ok in H0 as (gs & Hg & H0).
      apply Ok_inj in H0. subst t0. cbn [t3_frames] in *.
      apply map_refresh_spec in Hg as (_ & Hcg & _).
      rewrite refresh_all_clean in Hf by exact Hcg. now apply Ok_inj in Hf.
Qed.

Lemma tag23_eta t : mkTag23 (t3_unsync t) (t3_exp t) (t3_ext t) (t3_pad t) (t3_frames t) = t.
Proof. now destruct t. Qed.

Lemma write23_inv z t u b t' : write23 z t u = Ok (b, t') ->
  exists n h, size23 z t u = Ok (n, t') /\
    tag_header 3 0 (N.lor (flags23 t) (bit_if u 128)) n = Ok h /\
    b = h ++ match t3_ext t' with Some x => ext_written23 u x | None => [] end
          ++ concat (map (cached u) (t3_frames t')) ++ repeatN 0 (t3_pad t').
Proof.
  unfold write23. cbv zeta. intros H. apply bind_ok in H as ([n t1] & Hs & H).
  apply bind_ok in H as (h & Hh & H). apply bind_ok in H as (t2 & H2 & H).
  apply bind_ok in H as (fs & Hf & H).
  destruct (size23_inv z t u n t1 Hs) as (_ & _ & _ & (_ & Hcl & _) & _ & _ & Hp).
  rewrite Hp in H2. apply Ok_inj in H2. subst t2.
  rewrite map_refresh_clean in Hf by exact Hcl. apply Ok_inj in Hf. subst fs.
  apply Ok_inj in H. injection H as Hb Ht. rewrite tag23_eta in Ht. subst t1 b.
  exists n, h. auto.
Qed.

Lemma write23_of_size z t u n t' h : size23 z t u = Ok (n, t') ->
  tag_header 3 0 (N.lor (flags23 t) (bit_if u 128)) n = Ok h ->
  write23 z t u = Ok (h ++ match t3_ext t' with Some x => ext_written23 u x | None => [] end
          ++ concat (map (cached u) (t3_frames t')) ++ repeatN 0 (t3_pad t'), t').
Proof.
  intros Hs Hh. unfold write23. cbv zeta. rewrite Hs. cbn [bind]. rewrite Hh. cbn [bind].
  destruct (size23_inv z t u n t' Hs) as (_ & _ & _ & (_ & Hcl & _) & _ & _ & Hp).
  rewrite Hp. cbn [bind]. rewrite map_refresh_clean by exact Hcl. cbn [bind]. now rewrite tag23_eta.
Qed.

Lemma tag_header_inv v r f n h : tag_header v r f n = Ok h ->
  exists z0 z1 z2 z3, h = B "ID3" ++ [v; r; f; z0; z1; z2; z3] /\
    Forall (fun z => z < 128) [z0; z1; z2; z3] /\ n = positional 128 [z0; z1; z2; z3] /\
    uint32_from_sync_safe4 z0 z1 z2 z3 = n /\ n < 2 ^ 28.
Proof.
  unfold tag_header. intros H. apply bind_ok in H as (s & Hs & H). apply Ok_inj in H. subst h.
  destruct (N.lt_ge_cases n (2 ^ 28)) as [L|L].
  - destruct (sync_safe_roundtrip_l n L) as (b0 & b1 & b2 & b3 & E & Hb & Hd).
    rewrite E in Hs. apply Ok_inj in Hs. subst s. exists b0, b1, b2, b3.
    split; [reflexivity|]. split; [exact Hb|]. split; [|split; [exact Hd|exact L]].
    rewrite <- Hd. repeat (apply Forall_cons_iff in Hb as [? Hb]).
    rewrite uss4_spec, !N.mod_small by assumption.
    cbn [positional fold_left]. change (128 ^ 3) with 2097152. change (128 ^ 2) with 16384. lia.
  - rewrite ssfu_throw in Hs by exact L. discriminate.
Qed.

Lemma sum_len_concat l : sum_len l = len (concat l).
Proof. induction l; [reflexivity|]. cbn. rewrite len_app. unfold sum_len in IHl. now rewrite IHl. Qed.
