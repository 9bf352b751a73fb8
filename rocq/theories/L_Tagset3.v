(** * Lemmas: adjusting paddings to a target. *)
From Verif Require Import Base M_Ints M_Unsync M_Stream M_Payload M_Frame M_Tag22 M_Tag23 M_Tag24 M_Read M_Fs M_Tagset
  S_Ints S_Stream S_Tag S_Tag23 S_Tag24 S_Tagset L_Tagset L_Tagset2.

Notation padded := (fun t : anytag => any_padding t < 2 ^ 63).

Lemma quot_down d n : 0 < n -> Z.quot (- Z.of_N d) (Z.of_N n) = (- Z.of_N (d / n))%Z /\
  Z.rem (- Z.of_N d) (Z.of_N n) = (- Z.of_N (d mod n))%Z.
Proof.
  intros Hn. split.
  - rewrite Z.quot_opp_l by lia. now rewrite N2Z.inj_quot.
  - rewrite Z.rem_opp_l by lia. now rewrite N2Z.inj_rem.
Qed.

Definition le_decN (a b : N) : {a <= b} + {~ a <= b}.
Proof. destruct (a <=? b) eqn:E; [left|right]; [now apply N.leb_le|]. apply N.leb_gt in E. lia. Defined.

Lemma share_le d n : 0 < n -> d / n + d mod n <= d.
Proof.
  intros H. assert (E : d = n * (d / n) + d mod n) by (apply N.div_mod; lia).
  assert (E2 : 1 * (d / n) <= n * (d / n)) by (apply N.mul_le_mono_r; lia). rewrite E at 3.
  rewrite N.mul_1_l in E2. now apply N.add_le_mono_r.
Qed.

Lemma adjust_up t r target current : current <= target -> target < 2 ^ 63 -> Forall padded (t :: r) ->
  let d := target - current in let n := len (t :: r) in
  adjust_padding_to (t :: r) target current =
    (set_pad t (any_padding t + (d / n + d mod n)) :: map (fun t => set_pad t (any_padding t + d / n)) r, Ok tt).
Proof.
  intros Hl Ht Hp d n. apply Forall_cons_iff in Hp as [Hp Hr].
  assert (Hn : 0 < n) by (unfold n; rewrite len_cons; lia).
  unfold adjust_padding_to. rewrite to_signed_sub by lia. cbv zeta. fold n.
  replace (Z.of_N target - Z.of_N current)%Z with (Z.of_N d) by (unfold d; lia).
  rewrite <- N2Z.inj_quot, <- N2Z.inj_rem. pose proof (share_le d n Hn) as Hs. clearbody n.
  assert (Hd : d < 2 ^ 63) by (unfold d; lia). clearbody d. set (q := d / n) in *. set (k := d mod n) in *. clearbody q k.
  destruct (Z.ltb_spec (Z.of_N q) 0); [lia|]. cbn [andb].
  rewrite adjust_rest_pos by (lia || exact Hr). rewrite N2Z.id. do 2 f_equal. unfold add_signed.
  rewrite Z.mod_small by lia. f_equal. lia.
Qed.

Lemma adjust_rest_zero ts : adjust_rest 0 ts = (map (fun t => set_pad t (add_signed (any_padding t) 0)) ts, Ok tt).
Proof. induction ts as [|t r IH]; [reflexivity|]. cbn [adjust_rest Z.ltb Z.compare andb map]. now rewrite IH. Qed.

Lemma adjust_few t r target current : target < current -> current < 2 ^ 63 -> Forall padded (t :: r) ->
  current - target < len (t :: r) ->
  adjust_padding_to (t :: r) target current =
    (set_pad t (add_signed (any_padding t) (- Z.of_N (current - target))) :: r, Ok tt).
Proof.
  intros Hl Hc Hp Hd. apply Forall_cons_iff in Hp as [Hp Hr].
  unfold adjust_padding_to. rewrite to_signed_sub by lia. cbv zeta.
  replace (Z.of_N target - Z.of_N current)%Z with (- Z.of_N (current - target))%Z by lia.
  destruct (quot_down (current - target) (len (t :: r))) as [E1 E2]; [lia|]. rewrite E1, E2.
  rewrite N.div_small, N.mod_small by exact Hd. change (- Z.of_N 0)%Z with 0%Z. cbn [Z.ltb Z.compare andb].
  rewrite adjust_rest_zero. rewrite Z.add_0_l. do 2 f_equal.
  clear - Hr. induction Hr as [|x r Hx _ IH]; [reflexivity|]. cbn [map]. rewrite IH. f_equal. unfold add_signed.
  rewrite Z.add_0_r, Z.mod_small by lia. rewrite N2Z.id. apply set_pad_same.
Qed.

Lemma adjust_down t r target current : target < current -> current < 2 ^ 63 -> Forall padded (t :: r) ->
  let d := current - target in let n := len (t :: r) in n <= d ->
  (d / n + d mod n <= any_padding t -> Forall (fun x => d / n <= any_padding x) r ->
   adjust_padding_to (t :: r) target current =
     (set_pad t (any_padding t - (d / n + d mod n)) :: map (fun t => set_pad t (any_padding t - d / n)) r, Ok tt)) /\
  (any_padding t < d / n + d mod n \/ Exists (fun x => any_padding x < d / n) r ->
   snd (adjust_padding_to (t :: r) target current) = Throw NotEnoughPadding).
Proof.
  intros Hl Hc Hp d n Hnd. apply Forall_cons_iff in Hp as [Hp Hr].
  assert (Hn : 0 < n) by (unfold n; rewrite len_cons; lia).
  unfold adjust_padding_to. rewrite to_signed_sub by lia. cbv zeta. fold n.
  replace (Z.of_N target - Z.of_N current)%Z with (- Z.of_N d)%Z by (unfold d; lia).
  destruct (quot_down d n Hn) as [E1 E2]. rewrite E1, E2.
  assert (Hq : 0 < d / n) by (apply N.div_str_pos; lia). pose proof (share_le d n Hn) as Hs.
  assert (Hd : d < 2 ^ 63) by (unfold d; lia). clearbody n d. set (q := d / n) in *. set (k := d mod n) in *. clearbody q k.
  destruct (Z.ltb_spec (- Z.of_N q) 0); [|lia]. cbn [andb].
  destruct (adjust_rest_neg (- Z.of_N q) r) as [A1 A2]; [lia|]. split.
  - intros H1 H2. destruct (Z.ltb_spec (Z.of_N (any_padding t)) (- (- Z.of_N q + - Z.of_N k))); [lia|].
    rewrite A1.
    + rewrite Z.opp_involutive, N2Z.id. do 2 f_equal. unfold add_signed. rewrite Z.mod_small by lia. f_equal. lia.
    + rewrite Forall_forall in *. intros x Hx. specialize (Hr x Hx). specialize (H2 x Hx). lia.
  - intros H1. destruct (Z.ltb_spec (Z.of_N (any_padding t)) (- (- Z.of_N q + - Z.of_N k))) as [|L]; [reflexivity|].
    destruct H1 as [H1|H1]; [lia|].
    assert (HE : Exists (fun x => (Z.of_N (any_padding x) < - - Z.of_N q)%Z) r).
    { rewrite Exists_exists in *. destruct H1 as (x & Hx & H1). exists x. split; [exact Hx|]. lia. }
    specialize (A2 HE). destruct (adjust_rest _ r) as [r' o]. exact A2.
Qed.

(** ** What it comes to *)
Lemma unpadded_set t p : unpadded (set_pad t p) = unpadded t.
Proof. apply set_pad_set. Qed.

Lemma sum_map_add q (r : list anytag) : total_padding (map (fun t => set_pad t (any_padding t + q)) r) = total_padding r + len r * q.
Proof.
  induction r as [|t r IH]; [reflexivity|]. cbn [map total_padding fold_right]. unfold total_padding in IH. rewrite pad_set, IH, len_cons. lia.
Qed.
Lemma sum_map_sub q (r : list anytag) : Forall (fun x => q <= any_padding x) r ->
  total_padding (map (fun t => set_pad t (any_padding t - q)) r) + len r * q = total_padding r.
Proof.
  induction 1 as [|t r H _ IH]; [reflexivity|]. cbn [map total_padding fold_right].
  unfold total_padding in IH. rewrite pad_set, len_cons. lia.
Qed.

Definition repadded (t t' : anytag) : Prop := unpadded t' = unpadded t.

Lemma repadded_map (f : anytag -> N) r : Forall2 repadded r (map (fun t => set_pad t (f t)) r).
Proof. induction r as [|t r IH]; constructor; [apply unpadded_set|exact IH]. Qed.

Lemma share_sum d n : 0 < n -> d / n + d mod n + (n - 1) * (d / n) = d.
Proof.
  intros H. pose proof (N.div_mod d n) as E. assert (E' : d = n * (d / n) + d mod n) by (apply E; lia).
  clear E. set (q := d / n) in *. set (k := d mod n) in *. clearbody q k. rewrite E'.
  replace n with (1 + (n - 1)) at 2 by lia. rewrite N.mul_add_distr_r. lia.
Qed.

Lemma adjust_exact ts target current ts' : target < 2 ^ 63 -> current < 2 ^ 63 -> Forall padded ts ->
  adjust_padding_to ts target current = (ts', Ok tt) -> ~ wraps ts target current ->
  Forall2 repadded ts ts' /\ total_padding ts' + current = total_padding ts + target.
Proof.
  intros Ht Hc Hp H Hw. destruct ts as [|t r]; [discriminate|].
  assert (Hn : 0 < len (t :: r)) by (rewrite len_cons; lia).
  destruct (N.le_gt_cases current target) as [L|L].
  - rewrite adjust_up in H by assumption. cbv zeta in H. injection H as <-.
    split; [constructor; [apply unpadded_set|apply (repadded_map (fun t => any_padding t + _))]|].
    cbn [total_padding fold_right]. fold (total_padding r).
    pose proof (sum_map_add ((target - current) / len (t :: r)) r) as Hsum. unfold total_padding in Hsum |- *.
    rewrite Hsum, pad_set. pose proof (share_sum (target - current) (len (t :: r)) Hn) as Hsh.
    assert (len r = len (t :: r) - 1) as Er by (rewrite len_cons; lia). rewrite Er.
    set (a := (target - current) / len (t :: r)) in *. set (b := (target - current) mod len (t :: r)) in *.
    set (k := (len (t :: r) - 1) * a) in *. clearbody a b k. lia.
  - destruct (N.lt_ge_cases (current - target) (len (t :: r))) as [F|F].
    + assert (Hpad : current - target <= any_padding t).
      { apply N.nlt_ge. intros HH. apply Hw. exists t, r. auto. }
      rewrite adjust_few in H by assumption. injection H as <-. apply Forall_cons_iff in Hp as [Hp Hr].
      split; [constructor; [apply unpadded_set|]; clear; induction r; constructor; [reflexivity|assumption]|].
      cbn [total_padding fold_right]. rewrite pad_set. unfold add_signed. rewrite Z.mod_small by lia.
      set (x := fold_right _ 0 r). clearbody x. lia.
    + destruct (adjust_down t r target current L Hc Hp F) as [A1 A2].
      set (d := current - target) in *. set (q := d / len (t :: r)) in *. set (k := d mod len (t :: r)) in *.
      destruct (N.le_gt_cases (q + k) (any_padding t)) as [G|G].
      2:{ rewrite H in A2. discriminate A2. auto. }
      destruct (Forall_Exists_dec (fun x => q <= any_padding x) (fun x => le_decN q (any_padding x)) r) as [G2|G2].
      2:{ rewrite H in A2. discriminate A2. right. apply Exists_exists in G2 as (x & Hx & Hx2).
          apply Exists_exists. exists x. split; [exact Hx|]. lia. }
      rewrite (A1 G G2) in H. injection H as <-.
      split; [constructor; [apply unpadded_set|apply (repadded_map (fun t => any_padding t - _))]|].
      cbn [total_padding fold_right]. pose proof (sum_map_sub q r G2) as Hsum. unfold total_padding in Hsum.
      rewrite pad_set. pose proof (share_sum d (len (t :: r)) Hn) as Hsh.
      assert (len r = len (t :: r) - 1) as Er by (rewrite len_cons; lia). rewrite Er in Hsum. fold q k in Hsh.
      set (j := (len (t :: r) - 1) * q) in *.
      set (x1 := fold_right _ 0 (map _ r)) in *. set (x2 := fold_right _ 0 r) in *.
      assert (d + target = current) by (unfold d; lia). clearbody q k j x1 x2 d. lia.
Qed.

(** Refusal. *)
Lemma adjust_refuses t r target current : target < 2 ^ 63 -> current < 2 ^ 63 -> Forall padded (t :: r) ->
  let d := current - target in let n := len (t :: r) in
  snd (adjust_padding_to (t :: r) target current) <> Ok tt <->
  target < current /\ n <= d /\ (any_padding t < d / n + d mod n \/ Exists (fun x => any_padding x < d / n) r).
Proof.
  intros Ht Hc Hp d n. split.
  - intros H. destruct (N.le_gt_cases current target) as [L|L].
    { elim H. now rewrite adjust_up. }
    split; [exact L|]. destruct (N.lt_ge_cases d n) as [F|F].
    { elim H. unfold d, n in F. now rewrite adjust_few. }
    split; [exact F|]. destruct (adjust_down t r target current L Hc Hp F) as [A1 A2]. fold d n in A1, A2.
    destruct (N.le_gt_cases (d / n + d mod n) (any_padding t)) as [G|G]; [|now left]. right.
    destruct (Forall_Exists_dec (fun x => d / n <= any_padding x) (fun x => le_decN (d / n) (any_padding x)) r) as [G2|G2].
    { elim H. now rewrite (A1 G G2). }
    apply Exists_exists in G2 as (x & Hx & Hx2). apply Exists_exists. exists x. split; [exact Hx|]. lia.
  - intros (L & F & G). destruct (adjust_down t r target current L Hc Hp F) as [_ A2]. rewrite (A2 G). discriminate.
Qed.

(** The wrap. *)
Lemma adjust_wraps t r target current : current < 2 ^ 63 -> Forall padded (t :: r) ->
  wraps (t :: r) target current ->
  exists t', adjust_padding_to (t :: r) target current = (t' :: r, Ok tt) /\ unpadded t' = unpadded t /\
    any_padding t' = 2 ^ 64 - (current - target - any_padding t).
Proof.
  intros Hc Hp (t0 & r0 & E & L & F & G). injection E as <- <-.
  rewrite adjust_few by assumption. eexists. split; [reflexivity|]. split; [apply unpadded_set|].
  rewrite pad_set. unfold add_signed. apply Forall_cons_iff in Hp as [Hp _].
  replace (Z.of_N (any_padding t) + - Z.of_N (current - target))%Z
    with (Z.of_N (2 ^ 64 - (current - target - any_padding t)) + (-1) * 2 ^ 64)%Z.
  - rewrite Z.mod_add by discriminate. rewrite Z.mod_small.
    + apply N2Z.id.
    + change (2 ^ 64)%Z with 18446744073709551616%Z. change (2 ^ 64) with 18446744073709551616.
      change (2 ^ 63) with 9223372036854775808 in *. lia.
  - change (2 ^ 64)%Z with 18446744073709551616%Z. change (2 ^ 64) with 18446744073709551616.
    change (2 ^ 63) with 9223372036854775808 in *. lia.
Qed.

(** Sizes follow paddings, for 2.2 and 2.3. *)
Lemma repadded_set t t' : repadded t t' -> t' = set_pad t (any_padding t').
Proof.
  unfold repadded, unpadded. intros H. rewrite <- (set_pad_same t') at 1.
  rewrite <- (set_pad_set t' 0), H. now rewrite set_pad_set.
Qed.
Lemma repadded_total z m ts ts' : Forall2 repadded ts ts' -> Forall (Settled z m) ts -> Forall simple_tag ts ->
  Forall (Settled z m) ts' /\ Forall simple_tag ts' /\
  total_size z m ts' + total_padding ts = total_size z m ts + total_padding ts'.
Proof.
  induction 1 as [|t t' r r' H _ IH]; intros HS HP; [repeat split; constructor|].
  apply Forall_cons_iff in HS as [S1 S2]. apply Forall_cons_iff in HP as [P1 P2].
  destruct (IH S2 P2) as (I1 & I2 & I3). apply repadded_set in H.
  split; [constructor; [rewrite H; now apply Settled_set|exact I1]|].
  split; [constructor; [rewrite H; now apply simple_set|exact I2]|].
  cbn [total_size total_padding fold_right]. fold (total_size z m r) (total_size z m r') (total_padding r) (total_padding r').
  pose proof (full_size_set z m t (any_padding t') S1) as E. rewrite <- H in E.
  assert (mult t = 1) as Hm by (destruct t; [reflexivity|reflexivity|elim P1]). rewrite Hm in E.
  unfold total_size, total_padding in *. lia.
Qed.
Lemma same_all (P : anytag -> Prop) ts ts1 : (forall a b, same_but_caches a b -> P a -> P b) ->
  Forall2 same_but_caches ts ts1 -> Forall P ts -> Forall P ts1.
Proof.
  intros HP. induction 1; intros HF; constructor; apply Forall_cons_iff in HF as [? ?]; eauto.
Qed.
Lemma same_len ts ts1 : Forall2 same_but_caches ts ts1 -> len ts1 = len ts.
Proof. induction 1; [reflexivity|]. now rewrite !len_cons, IHForall2. Qed.

Lemma simple_sounds ts : Forall simple_tag ts -> Forall sound_tag ts.
Proof. apply Forall_impl, simple_sound. Qed.

Lemma adjust_size z m ts n p ts1 target ts2 : Forall simple_tag ts -> Forall padded ts ->
  sizes z m ts = Ok (n, p, ts1) -> n < 2 ^ 63 -> target < 2 ^ 63 -> ~ wraps ts1 target n ->
  adjust_padding_to ts1 target n = (ts2, Ok tt) ->
  exists p2, sizes z m ts2 = Ok (target, p2, ts2).
Proof.
  intros HS HP Hz Hn Ht Hw Ha.
  destruct (sizes_settled z m ts (simple_sounds _ HS) n p ts1 Hz) as (S1 & En & Ep & Hsame & _).
  assert (HP1 : Forall padded ts1).
  { apply (same_all padded ts ts1); auto. intros a b Hab. now rewrite (pad_same a b Hab). }
  assert (HS1 : Forall simple_tag ts1) by (apply (same_all simple_tag ts ts1); [exact simple_same|assumption..]).
  destruct (adjust_exact ts1 target n ts2 Ht Hn HP1 Ha Hw) as [R1 R2].
  destruct (repadded_total z m ts1 ts2 R1 S1 HS1) as (S2 & _ & E).
  exists (total_padding ts2). rewrite sizes_stable by exact S2. do 3 f_equal. lia.
Qed.

(** 2.4: the padding counts twice. *)
Lemma adjust_size24 z m t n p t1 target t2 : sound_tag (A24 t) -> t4_pad t < 2 ^ 63 ->
  sizes z m [A24 t] = Ok (n, p, [t1]) -> n < 2 ^ 63 -> target < 2 ^ 63 ->
  adjust_padding_to [t1] target n = ([t2], Ok tt) ->
  exists n2 p2, sizes z m [t2] = Ok (n2, p2, [t2]) /\ n2 + n = 2 * target.
Proof.
  intros HS HP Hz Hn Ht Ha.
  destruct (sizes_settled z m [A24 t] (Forall_cons _ HS (Forall_nil _)) n p [t1] Hz) as (S1 & En & Ep & Hsame & _).
  assert (HP1 : Forall padded [t1]).
  { apply (same_all padded [A24 t] [t1]); auto. intros a b Hab. now rewrite (pad_same a b Hab). }
  assert (Hw : ~ wraps [t1] target n).
  { intros (x & r & E & L & F & G). injection E as <- <-. rewrite len_cons in F. change (len (@nil anytag)) with 0 in F. lia. }
  destruct (adjust_exact [t1] target n [t2] Ht Hn HP1 Ha Hw) as [R1 R2].
  apply Forall_cons_iff in S1 as [S1 _]. inversion R1 as [|? ? ? ? R _]; subst. apply repadded_set in R.
  assert (S2 : Settled z m t2) by (rewrite R; now apply Settled_set).
  exists (total_size z m [t2]), (total_padding [t2]).
  split; [apply sizes_stable; now constructor|].
  inversion Hsame as [|? ? ? ? Hs1 _]; subst. pose proof (mult_same _ _ Hs1) as Hm.
  pose proof (full_size_set z m t1 (any_padding t2) S1) as E. rewrite <- R in E.
  cbn [mult] in Hm. rewrite Hm in E. cbn [total_size total_padding fold_right] in *. lia.
Qed.
