(** * Lemmas: how each frame lies in the bytes of a tag that has been written. *)
From Verif Require Import Base M_Ints M_Unsync M_Stream M_Payload M_Cloud M_Frame M_Tag22 M_Tag23 M_Tag24
  S_Ints S_Unsync S_Payload S_Cloud S_Tag S_Tag22 S_Tag23 S_Tag24 S_Wire
  L_Ints L_Frame L_Tag23 L_Tag23b L_Tag23c L_Tag23d L_Tag22 L_Tag24.

Lemma pos4 a b c d : positional 256 [a; b; c; d] = 16777216 * a + 65536 * b + 256 * c + d.
Proof. cbn [positional fold_left]. lia. Qed.

Lemma be32_pos x : len (be32 x) = 4 /\ is_bytes (be32 x) /\ positional 256 (be32 x) = x mod 2 ^ 32.
Proof.
  split; [reflexivity|]. split; [apply be32_bytes|]. rewrite be32_spec, pos4.
  change (2 ^ 32) with 4294967296. lia.
Qed.

Lemma le32_spec x : le32 x = [x mod 256; x / 256 mod 256; x / 65536 mod 256; x / 16777216 mod 256].
Proof. unfold le32. rewrite !N.shiftr_div_pow2, !land255. reflexivity. Qed.

Lemma le32_pos x p : x = len p -> length_le (le32 x) p.
Proof.
  intros ->. unfold length_le. rewrite le32_spec. split; [reflexivity|]. split.
  - repeat constructor; apply N.mod_lt; discriminate.
  - cbn [rev List.app]. rewrite pos4. change (2 ^ 32) with 4294967296.
    generalize (len p). intros x. lia.
Qed.

Lemma double_flags a b c : 2 * (bit_if a 64 + bit_if b 32 + bit_if c 16) = flag a 128 + flag b 64 + flag c 32.
Proof. now destruct a, b, c. Qed.
Lemma double_format a c : 2 * (bit_if a 64 + bit_if false 32 + bit_if c 16) = flag a 128 + flag c 32.
Proof. now destruct a, c. Qed.
Lemma double_flags24 a b c : 2 * (bit_if a 32 + bit_if b 16 + bit_if c 8) = flag a 64 + flag b 32 + flag c 16.
Proof. now destruct a, b, c. Qed.
Lemma format24 a b c d : bit_if a 32 + bit_if b 8 + bit_if false 4 + bit_if c 2 + bit_if d 1 =
  flag a 32 + flag b 8 + flag c 2 + flag d 1.
Proof. now destruct a, b, c, d. Qed.

Lemma size_arith (i g q u w s : N) (c h : bool) : u = flag c 4 -> g = flag h 1 ->
  w = i + (4 + (2 + (u + (g + q)))) -> w < 2 ^ 32 ->
  s = (q + bit_if c 4 + bit_if false 1 + bit_if h 1) mod 2 ^ 32 -> s + (i + 6) = w.
Proof.
  intros -> -> -> L ->. change (2 ^ 32) with 4294967296 in *.
  destruct c, h; cbn [flag bit_if] in *; rewrite N.mod_small by lia; lia.
Qed.

Lemma wire23_stored z f w : wire23 z f = Ok w -> stored23 z f w.
Proof.
  unfold wire23, stored23. intros H. apply bind_ok in H as (p & Hp & H).
  destruct (fl_enc (f_flags f)) as [m|] eqn:Ee; [discriminate|]. cbn [is_some] in H.
  apply bind_ok in H as (q & Hq & H). apply bind_ok in H as (h & Hh & H). apply Ok_inj in H.
  unfold header23 in Hh. cbv zeta in Hh. rewrite Ee in Hh. cbn [is_some opt_bytes] in Hh.
  destruct (4294967295 <? len q); [discriminate|]. apply Ok_inj in Hh.
  set (fl := f_flags f) in *.
  set (sz := len q + bit_if (fl_cmp fl) 4 + bit_if false 1 + bit_if (is_some (fl_gid fl)) 1) in *.
  destruct (be32_pos sz) as (B1 & B2 & B3).
  exists p, q, (be32 sz), (bit_if (fl_tap fl) 64 + bit_if (fl_fap fl) 32 + bit_if (fl_ro fl) 16),
    (bit_if (fl_cmp fl) 64 + bit_if false 32 + bit_if (is_some (fl_gid fl)) 16),
    (if fl_cmp fl then le32 (len p) else []).
  assert (Ew : w = f_id f ++ be32 sz ++ [bit_if (fl_tap fl) 64 + bit_if (fl_fap fl) 32 + bit_if (fl_ro fl) 16;
     bit_if (fl_cmp fl) 64 + bit_if false 32 + bit_if (is_some (fl_gid fl)) 16] ++
     (if fl_cmp fl then le32 (len p) else []) ++ opt_bytes (fl_gid fl) ++ q).
  { rewrite <- H, <- Hh. rewrite <- !app_assoc. reflexivity. }
  refine (conj Hp (conj _ (conj eq_refl (conj Ew (conj B1 (conj B2 (conj _ (conj (double_flags _ _ _)
    (conj (double_format _ _) _))))))))).
  - unfold packed. destruct (fl_cmp fl).
    + destruct (z_compress z p) as [q'|]; [|discriminate]. apply Ok_inj in Hq. now subst.
    + apply Ok_inj in Hq. now subst.
  - intros L. refine (size_arith _ (len (opt_bytes (fl_gid fl))) (len q) (len (if fl_cmp fl then le32 (len p) else [])) _ _
      (fl_cmp fl) (is_some (fl_gid fl)) _ _ _ L B3).
    + now destruct (fl_cmp fl).
    + now destruct (fl_gid fl).
    + rewrite Ew, !len_app, B1. reflexivity.
  - destruct (fl_cmp fl); [now apply le32_pos|reflexivity].
Qed.

Lemma wire24_stored z f w : wire24 z f = Ok w -> stored24 z f w.
Proof.
  unfold wire24, stored24. intros H. apply bind_ok in H as (p & Hp & H).
  destruct (fl_enc (f_flags f)) as [m|] eqn:Ee; [discriminate|]. cbn [is_some] in H.
  apply bind_ok in H as (q & Hq & H). apply bind_ok in H as (h & Hh & H). apply Ok_inj in H.
  unfold header24 in Hh. cbv zeta in Hh. apply bind_ok in Hh as (s & Hs & Hh).
  rewrite Ee in Hh. cbn [is_some opt_bytes] in Hh. apply Ok_inj in Hh. set (fl := f_flags f) in *.
  destruct (N.lt_ge_cases (size_body (f_body f)) (2 ^ 28)) as [L|L];
    [|rewrite ssfu_throw in Hs by exact L; discriminate].
  destruct (sync_safe_roundtrip_l _ L) as (b0 & b1 & b2 & b3 & E & Hb & Hd).
  rewrite E in Hs. apply Ok_inj in Hs. subst s.
  exists p, q, [b0; b1; b2; b3], (bit_if (fl_tap fl) 32 + bit_if (fl_fap fl) 16 + bit_if (fl_ro fl) 8),
    (bit_if (is_some (fl_gid fl)) 32 + bit_if (fl_cmp fl) 8 + bit_if false 4 + bit_if (fl_unsync fl) 2 + bit_if (fl_dli fl) 1),
    (if fl_dli fl then le32 (len p) else []).
  refine (conj Hp (conj _ (conj eq_refl (conj _ (conj eq_refl (conj Hb (conj _ (conj (double_flags24 _ _ _)
    (conj (format24 _ _ _ _) _))))))))).
  - unfold packed. destruct (fl_cmp fl).
    + destruct (z_compress z p) as [q'|]; [|discriminate]. apply Ok_inj in Hq. now subst.
    + apply Ok_inj in Hq. now subst.
  - rewrite <- H, <- Hh. rewrite <- !app_assoc. reflexivity.
  - intros W. destruct (body_roundtrip _ _ W) as (p' & Hp' & Hl & _). rewrite Hp in Hp'.
    apply Ok_inj in Hp'. subst p'. rewrite Hl, <- Hd. symmetry. now apply uss4_pos.
  - destruct (fl_dli fl); [now apply le32_pos|reflexivity].
Qed.

Lemma wire22_stored f w : wire22 f = Ok w -> stored22 f w.
Proof.
  intros H. apply wire22_inv in H as (p & Hp & L & E). exists p, (be24 (len p)).
  split; [exact Hp|]. split; [exact E|]. split; [reflexivity|]. split; [apply be24_bytes|].
  destruct (be24_sum _ L) as (a & b & c & -> & _ & E'). rewrite E'. cbn [positional fold_left]. lia.
Qed.

(** ** Tags *)
Lemma in_turn_cons b w x l : in_turn b (w :: x :: l) = unsynchronise w false :: in_turn b (x :: l).
Proof. reflexivity. Qed.

Lemma refresh_fresh wire b c c' : c_dirty c = true -> refresh wire b c = Ok c' -> c_unsync c' = unsynchronise (c_plain c') b.
Proof.
  unfold refresh. intros -> H. apply bind_ok in H as (w & _ & H). apply Ok_inj in H. now subst c'.
Qed.

Lemma refresh_all_fresh wire b l : forall l', refresh_all wire b l = Ok l' -> Forall (fun c => c_dirty c = true) l ->
  map c_unsync l' = in_turn b (map c_plain l').
Proof.
  induction l as [|c r IH]; intros l' H D.
  - apply Ok_inj in H. now subst l'.
  - apply Forall_cons_iff in D as [D1 D2]. destruct r as [|d r].
    + cbn [refresh_all] in H. apply bind_ok in H as (c' & Hc & H). apply Ok_inj in H. subst l'.
      cbn [map in_turn]. now rewrite (refresh_fresh _ _ _ _ D1 Hc).
    + rewrite refresh_all_cons in H. apply bind_ok in H as (c' & Hc & H). apply bind_ok in H as (r' & Hr & H).
      apply Ok_inj in H. subst l'. specialize (IH _ Hr D2).
      destruct r' as [|d' r'].
      { apply refresh_all_spec in Hr as (R1 & _). discriminate R1. }
      cbn [map] in *. now rewrite in_turn_cons, <- IH, (refresh_fresh _ _ _ _ D1 Hc).
Qed.

Lemma chunks (wire : frame -> outcome bytes) (St : frame -> bytes -> Prop) (u : bool) l :
  (forall f w, wire f = Ok w -> St f w) -> Forall (fun c => c_dirty c = false) l -> Forall (coherent wire) l ->
  Forall2 St (map c_frame l) (map c_plain l) /\
  Forall2 (guarded u) (map c_plain l) (map (cached u) l).
Proof.
  intros HS. induction l as [|c l IH]; intros HC HH; [split; constructor|].
  apply Forall_cons_iff in HC as [C1 C2]. apply Forall_cons_iff in HH as [H1 H2].
  destruct (IH C2 H2) as [I1 I2]. destruct (H1 C1) as [W U]. cbn [map]. split; constructor; auto.
  destruct u; unfold guarded, cached; [|reflexivity]. destruct U as [<-|<-]; eauto.
Qed.

Lemma crc_fold z fs : crc_joins z ->
  fold_left (fun n c => z_crc z n (c_plain c)) fs (z_crc z 0 []) = z_crc z 0 (concat (map c_plain fs)).
Proof.
  intros [Z0 ZJ]. assert (G : forall a fs, fold_left (fun n c => z_crc z n (c_plain c)) fs (z_crc z 0 a) =
      z_crc z 0 (a ++ concat (map c_plain fs))).
  { intros a gs. revert a. induction gs as [|c gs IH]; intros a; cbn [fold_left map concat].
    - now rewrite app_nil_r.
    - rewrite ZJ, IH, <- app_assoc. reflexivity. }
  apply (G []).
Qed.

Lemma ext_stored z x ws :
  (forall c, x_crc x = Some c -> c = z_crc z 0 (concat ws)) ->
  stored_ext23 z (x_pad x) (is_some (x_crc x)) ws (ext_wire23 x).
Proof.
  intros Hc. unfold stored_ext23, ext_wire23.
  exists (be32 (ext_size23 x)), (be32 (x_pad x)), (match x_crc x with Some c => be32 c | None => [] end).
  destruct (be32_pos (ext_size23 x)) as (A1 & A2 & A3). destruct (be32_pos (x_pad x)) as (B1 & B2 & B3).
  split; [now destruct (is_some (x_crc x))|]. split; [exact A1|]. split; [exact A2|]. split.
  - rewrite !len_app, A1, B1, A3. unfold ext_size23. now destruct (x_crc x).
  - split; [exact B1|]. split; [exact B2|]. split; [exact B3|]. destruct (x_crc x) as [c|]; [|reflexivity].
    cbn [is_some]. rewrite <- (Hc c eq_refl). apply be32_pos.
Qed.

Lemma written23 z t u b t' : crc_joins z -> Forall (coherent (wire23 z)) (t3_frames t) ->
  (forall x, t3_ext t = Some x -> x_dirty x = false ->
     x_plain x = ext_wire23 x /\ x_unsync x = unsynchronise (ext_wire23 x) false) ->
  write23 z t u = Ok (b, t') ->
  exists h e ws cs, b = h ++ e ++ concat cs ++ repeatN 0 (t3_pad t) /\ len h = 10 /\
    Forall2 (stored23 z) (map c_frame (t3_frames t)) ws /\ Forall2 (guarded u) ws cs /\
    (u = true -> Forall (fun c => c_dirty c = true) (t3_frames t) ->
     (forall x, t3_ext t = Some x -> x_crc x = None) -> cs = in_turn (t3_pad t =? 0) ws) /\
    match t3_ext t with
    | None => e = []
    | Some x => exists e', stored_ext23 z (x_pad x) (is_some (x_crc x)) ws e' /\ guarded (negb u) e' e
    end.
Proof.
  intros HZ HF HX H. apply write23_inv in H as (n & h & Hs & Hh & E).
  apply tag_header_inv in Hh as (z0 & z1 & z2 & z3 & Eh & _).
  pose proof Hs as Hs0. apply size23_inv in Hs as (_ & _ & Ep & (R1 & R2 & R3) & Hrel & _ & Hp).
  destruct (chunks _ _ u _ (wire23_stored z) R2 (R3 HF)) as [S1 S2]. rewrite R1 in S1. rewrite Ep in E.
  exists h, (match t3_ext t' with Some x => ext_written23 u x | None => [] end), (map c_plain (t3_frames t')),
    (map (cached u) (t3_frames t')).
  split; [exact E|]. split; [now rewrite Eh|]. split; [exact S1|]. split; [exact S2|]. split.
  { intros -> Hd Hn. rewrite map_cached_true. unfold size23 in Hs0. apply bind_ok in Hs0 as (t1 & Ht1 & Hs0).
    apply bind_ok in Hs0 as (fs & Hfs & Hs0). apply Ok_inj in Hs0. injection Hs0 as _ Ht'.
    assert (t3_frames t1 = t3_frames t /\ t3_pad t1 = t3_pad t) as [F1 F2].
    { unfold prep_ext in Ht1. destruct (t3_ext t) as [x|].
      - rewrite (Hn x eq_refl) in Ht1. cbn [is_some] in Ht1. apply Ok_inj in Ht1. now subst t1.
      - apply Ok_inj in Ht1. now subst t1. }
    rewrite F1, F2 in Hfs. apply refresh_all_fresh in Hfs; [|exact Hd]. rewrite <- Ht'. exact Hfs. }
  destruct (t3_ext t') as [y|] eqn:Ey; destruct (t3_ext t) as [x|] eqn:Ex; try contradiction; [|reflexivity].
  destruct Hrel as (P & C & D & K). specialize (K (HX x eq_refl)). destruct (K D) as [K1 K2].
  exists (ext_wire23 y). split.
  - rewrite <- P, <- C. apply ext_stored. intros c Hc.
    unfold prep_ext in Hp. rewrite Ey, Hc in Hp. cbn [is_some] in Hp.
    rewrite map_refresh_clean in Hp by exact R2. cbn [bind] in Hp.
    apply Ok_inj in Hp. apply (f_equal t3_ext) in Hp. cbn [t3_ext] in Hp. rewrite Ey in Hp. injection Hp as Hp.
    pose proof (ext_crc_spec z y (t3_frames t')) as (_ & C2 & _).
    pose proof (ext_refresh_spec (ext_crc z y (t3_frames t'))) as (_ & R2' & _). cbv zeta in R2', C2. rewrite Hp in R2'.
    rewrite R2', C2 in Hc. injection Hc as <-. now apply crc_fold.
  - unfold ext_written23, guarded. destruct u; cbn [negb]; [exact K1|]. exists false. exact K2.
Qed.

Lemma written24 z t u b t' : Forall (coherent (wire24 z)) (t4_frames t) -> write24 z t u = Ok (b, t') ->
  exists h e ws cs ft, b = h ++ e ++ concat cs ++ repeatN 0 (t4_pad t) ++ ft /\ len h = 10 /\
    Forall2 (stored24 z) (map c_frame (t4_frames t)) ws /\ Forall2 (guarded u) ws cs /\
    (u = true -> Forall (fun c => c_dirty c = true) (t4_frames t) -> cs = in_turn (t4_pad t =? 0) ws) /\
    (t4_ext t = None -> e = []) /\
    ft = if t4_foot t then B "3DI" ++ dropN 3 h else [].
Proof.
  intros HF H. unfold write24 in H. apply bind_ok in H as ([n t1] & Hs & H).
  apply bind_ok in H as (h & Hh & H). apply bind_ok in H as (x & Hx & H).
  apply bind_ok in H as (fs & Hf & H). apply bind_ok in H as (ft & Hft & H).
  apply Ok_inj in H. injection H as Hb _.
  unfold size24 in Hs. apply bind_ok in Hs as (gs & Hg & Hs). apply Ok_inj in Hs. injection Hs as Hn Ht. subst t1.
  cbn [t4_frames t4_pad t4_foot t4_ext] in *.
  pose proof Hg as Hg0. apply refresh_all_spec in Hg as (R1 & R2 & R3). rewrite map_refresh_clean in Hf by exact R2. apply Ok_inj in Hf. subst fs.
  destruct (chunks _ _ u _ (wire24_stored z) R2 (R3 HF)) as [S1 S2]. rewrite R1 in S1.
  exists h, x, (map c_plain gs), (map (cached u) gs), ft.
  split; [now rewrite <- Hb|].
  pose proof (tag_header_inv _ _ _ _ _ Hh) as (z0 & z1 & z2 & z3 & Eh & _).
  split; [now rewrite Eh|]. split; [exact S1|]. split; [exact S2|]. split; [|split].
  - intros -> Hd. exact (refresh_all_fresh _ _ _ _ Hg0 Hd).
  - intros E. rewrite E in Hx. apply Ok_inj in Hx. now subst.
  - destruct (t4_foot t); [|apply Ok_inj in Hft; now subst].
    unfold tag_header in Hh. unfold tag_footer in Hft.
    apply bind_ok in Hh as (s & Hs & Hh). apply bind_ok in Hft as (s' & Hs' & Hft).
    rewrite Hs in Hs'. apply Ok_inj in Hs'. subst s'. apply Ok_inj in Hh. apply Ok_inj in Hft.
    rewrite <- Hh, <- Hft. reflexivity.
Qed.

Lemma written22 t u b t' : Forall coherent22 (t2_frames t) -> write22 t u = Ok (b, t') ->
  exists h ws cs, b = h ++ concat cs ++ repeatN 0 (t2_pad t) /\ len h = 10 /\
    Forall2 stored22 (map c_frame (t2_frames t)) ws /\ Forall2 (guarded (negb u)) ws cs.
Proof.
  intros HF H. unfold write22 in H. cbv zeta in H. apply bind_ok in H as ([n t1] & Hs & H).
  apply bind_ok in H as (h & Hh & H). apply bind_ok in H as (fs & Hf & H).
  apply Ok_inj in H. injection H as Hb _.
  unfold size22 in Hs. apply bind_ok in Hs as (gs & Hg & Hs). apply Ok_inj in Hs. injection Hs as Hn Ht. subst t1.
  cbn [t2_frames t2_pad] in *.
  pose proof (map_refresh_spec _ _ _ Hg) as (R1 & R2 & _). pose proof (map_refresh_coherent22 _ _ Hg HF) as R3.
  rewrite map_refresh_clean in Hf by exact R2. apply Ok_inj in Hf. subst fs.
  exists h, (map c_plain gs), (map (cached22 u) gs).
  pose proof (tag_header_inv _ _ _ _ _ Hh) as (z0 & z1 & z2 & z3 & Eh & _).
  split; [now rewrite <- Hb|]. split; [now rewrite Eh|]. rewrite <- R1. clear - R2 R3. induction gs as [|c gs IH]; [split; constructor|].
  apply Forall_cons_iff in R2 as [C1 C2]. apply Forall_cons_iff in R3 as [H1 H2].
  destruct (IH C2 H2) as [I1 I2]. destruct (H1 C1) as [W U]. cbn [map]. split; constructor; auto.
  - now apply wire22_stored.
  - destruct u; unfold guarded, cached22; cbn [negb]; [reflexivity|]. eauto.
Qed.

Lemma pos256_rev a b c d n : is_bytes [a; b; c; d] -> positional 256 (rev [a; b; c; d]) = n -> 0 < n < 65536 ->
  positional 256 [a; b; c; d] <> n.
Proof.
  intros H E L. cbn [rev List.app] in E. rewrite pos4 in *.
  repeat (apply Forall_cons_iff in H as [? H]). lia.
Qed.

Lemma mod_small32 n : n < 65536 -> n mod 2 ^ 32 = n.
Proof. intros L. apply N.mod_small. change (2 ^ 32) with 4294967296. lia. Qed.

Lemma length23_refuted z un ex pad f b t' p : len (f_id f) = 4 -> fl_cmp (f_flags f) = true ->
  write_body (f_body f) = Ok p -> 0 < len p < 65536 ->
  write23 z (mkTag23 un ex None pad [new_frame f]) false = Ok (b, t') ->
  positional 256 (takeN 4 (dropN 20 b)) <> len p.
Proof.
  intros Hi Hc Hp L H. apply write23_inv in H as (n & h & Hs & Hh & E).
  apply tag_header_inv in Hh as (z0 & z1 & z2 & z3 & Eh & _).
  apply size23_inv in Hs as (_ & _ & _ & (R1 & R2 & R3) & Hrel & _ & _). cbn [t3_ext t3_frames map] in *.
  destruct (t3_ext t') as [y|]; [contradiction|].
  assert (K : Forall (coherent (wire23 z)) [new_frame f]) by (repeat constructor; discriminate).
  destruct (chunks _ _ false _ (wire23_stored z) R2 (R3 K)) as [S1 S2]. rewrite R1 in S1. cbn [map c_frame new_frame] in S1.
  destruct (map c_plain (t3_frames t')) as [|w [|w' ws]] eqn:E2; inversion S1 as [|? ? ? ? S Hn]; [|inversion Hn].
  rewrite map_cached_false, E2 in E. cbn [List.app concat] in E.
  destruct S as (p' & q & s & c0 & c1 & u & Hp' & _ & _ & Ew & Ls & _ & _ & _ & _ & Hu).
  rewrite Hp in Hp'. apply Ok_inj in Hp'. subst p'. rewrite Hc in Hu. destruct Hu as (Lu & Bu & Pu).
  apply len4 in Hi as (i0 & i1 & i2 & i3 & Ei). apply len4 in Ls as (s0 & s1 & s2 & s3 & ->).
  apply len4 in Lu as (u0 & u1 & u2 & u3 & ->). rewrite Ei in Ew. rewrite E, Eh, Ew.
  match goal with |- positional 256 ?l <> _ => assert (EE : l = [u0; u1; u2; u3]) end.
  { rewrite takeN_firstn, dropN_skipn. reflexivity. }
  rewrite EE.
  apply pos256_rev; [exact Bu| |exact L]. rewrite Pu. now apply mod_small32.
Qed.
