(** * Lemmas: saving ID3v2.4 tags. *)
From Verif Require Import Base M_Ints M_Unsync M_Stream M_Payload M_Frame M_Tag22 M_Tag23 M_Tag24 M_Read M_Fs M_Tagset
  S_Ints S_Stream S_Tag S_Tag23 S_Tag24 S_Read S_Tagset L_Stream L_Tag23b L_Read L_Fs L_Backup L_Tagset L_Tagset2 L_Tagset3 L_Tagset4 L_Tagset5 L_Tagset6.

Lemma v24_cons t r : v24_padding (t :: r) = (mult t - 1) * any_padding t + v24_padding r.
Proof.
  unfold v24_padding. destruct t as [t|t|t]; cbn [filter is_v24 mult]; rewrite ?N.sub_diag, ?N.mul_0_l, ?N.add_0_l; try reflexivity.
  change (2 - 1) with 1. rewrite N.mul_1_l. reflexivity.
Qed.
Lemma total_cons t r : total_padding (t :: r) = any_padding t + total_padding r.
Proof. reflexivity. Qed.
Lemma size_cons z m t r : total_size z m (t :: r) = full_size z m t + 10 + total_size z m r.
Proof. reflexivity. Qed.
Lemma v24_le ts : v24_padding ts <= total_padding ts.
Proof.
  induction ts as [|t r IH]; [reflexivity|]. rewrite v24_cons, total_cons.
  assert (mult t - 1 <= 1) by (destruct t; cbn; lia). 
  assert ((mult t - 1) * any_padding t <= 1 * any_padding t) by (apply N.mul_le_mono_r; assumption). lia.
Qed.
Lemma v24_all ts : Forall (fun t => is_v24 t = true) ts -> v24_padding ts = total_padding ts.
Proof.
  induction 1 as [|t r Ht _ IH]; [reflexivity|]. rewrite v24_cons, total_cons, IH.
  destruct t; try discriminate. cbn [mult]. change (2 - 1) with 1. lia.
Qed.
Lemma simple_v24 ts : Forall simple_tag ts -> v24_padding ts = 0.
Proof.
  induction 1 as [|t r Ht _ IH]; [reflexivity|]. rewrite v24_cons, IH. destruct t; try contradiction; reflexivity.
Qed.

(** What is written, to the byte. *)
Lemma emit_all_exact z m ts : Forall (Settled z m) ts -> total_size z m ts < 2 ^ 28 ->
  exists w, emit_all z m ts = (w, Ok ts) /\ len w + v24_padding ts = total_size z m ts.
Proof.
  induction 1 as [|t r Ht Hr IH]; intros HT.
  - exists []. split; reflexivity.
  - rewrite size_cons in HT. destruct IH as (w & Ew & Lw); [lia|].
    destruct (emit_settled z m t Ht) as [E _].
    assert (Hw : wrap64 (full_size z m t) = full_size z m t).
    { unfold wrap64. apply N.mod_small. apply N.lt_trans with (2 ^ 28); [lia|reflexivity]. }
    cbv zeta in E. rewrite Hw in E. destruct E as (h & rest & E1 & (v & f & E2) & E3 & _); [lia|].
    exists ((h ++ rest) ++ w). cbn [emit_all]. rewrite E1, Ew. cbn [bind]. split; [reflexivity|].
    pose proof (header_len _ _ _ _ _ E2) as Hh. rewrite size_cons, v24_cons, <- Lw, <- E3, !len_app, Hh. lia.
Qed.

Lemma repadded_sound z m ts ts' : Forall2 repadded ts ts' -> Forall (Settled z m) ts -> Forall sound_tag ts ->
  Forall (Settled z m) ts' /\ Forall sound_tag ts' /\
  total_size z m ts' + (total_padding ts + v24_padding ts) = total_size z m ts + (total_padding ts' + v24_padding ts').
Proof.
  induction 1 as [|t t' r r' H _ IH]; intros HS HP; [repeat split; constructor|].
  apply Forall_cons_iff in HS as [S1 S2]. apply Forall_cons_iff in HP as [P1 P2].
  destruct (IH S2 P2) as (I1 & I2 & I3). apply repadded_set in H.
  split; [constructor; [rewrite H; now apply Settled_set|exact I1]|].
  split; [constructor; [rewrite H; now apply sound_set|exact I2]|].
  pose proof (full_size_set z m t (any_padding t') S1) as E. rewrite <- H in E.
  assert (Hm : mult t' = mult t) by (rewrite H; apply mult_set).
  rewrite !size_cons, !total_cons, !v24_cons, Hm. clear - E I3.
  assert (K : mult t = 1 \/ mult t = 2) by (destruct t; cbn; auto).
  destruct K as [K|K]; rewrite K in *; [change (1 - 1) with 0|change (2 - 1) with 1]; lia.
Qed.

Lemma repadded_v24 ts ts' : Forall2 repadded ts ts' -> Forall (fun t => is_v24 t = true) ts -> Forall (fun t => is_v24 t = true) ts'.
Proof.
  induction 1 as [|t t' r r' H _ IH]; intros HF; [constructor|]. apply Forall_cons_iff in HF as [F1 F2].
  constructor; [|now apply IH]. apply repadded_set in H. rewrite H. destruct t; [discriminate..|reflexivity].
Qed.
Lemma same_v24 a b : same_but_caches a b -> is_v24 a = true -> is_v24 b = true.
Proof. destruct a, b; cbn; tauto. Qed.

(** ** Emplacing *)

(** What an emplacing save of such tags leaves. *)
Definition emplaced z (m : apply_unsync) k fs data l ts ts' fs' : Prop :=
  exists w, emit_all z m ts' = (w, Ok ts') /\ Forall2 (fun t t' => exists t0, same_but_caches t t0 /\ repadded t0 t') ts ts' /\
    len w + v24_padding ts' = tags_end 0 l /\
    fs' = set_node k (File (w ++ dropN (len w) data)) fs.

Lemma emplace_sound z e p ts m fs data l r st fs' : let k := resolve (e_cwd e) p in
  find_node k fs = Some (File data) -> tags_from data 0 l -> tags_end 0 l < 2 ^ 28 -> tags_end 0 l <= len data ->
  Forall (Settled z m) ts -> Forall sound_tag ts -> total_size z m ts < 2 ^ 64 ->
  replace_tagset_emplace z e p ts m fs = (st, (Ok r, fs')) ->
  r = ts /\ total_size z m ts = tags_end 0 l /\ exists w, emit_all z m ts = (w, Ok ts) /\ len w + v24_padding ts = tags_end 0 l /\
    fs' = set_node k (File (w ++ dropN (len w) data)) fs.
Proof.
  intros k Hk Hl HT HL HS HP HN H.
  pose proof (emplace_cases z e p ts m fs data l _ _ _ Hk Hl HP (sizes_stable z m ts HS) HN HT HL) as C.
  destruct ((tags_end 0 l =? total_size z m ts) && (0 <? len data)) eqn:B.
  - destruct C as (w & E1 & E2 & L1 & L2 & E3). rewrite E3 in H. injection H as _ <- <-. split; [reflexivity|].
    apply andb_prop in B as [B _]. apply N.eqb_eq in B. split; [now symmetry|].
    exists w. split; [exact E1|]. split; [|reflexivity].
    destruct (emit_all_exact z m ts HS) as (w' & W1 & W2); [lia|].
    rewrite E1 in W1. injection W1 as <-. rewrite W2. now symmetry.
  - destruct C as (x & E). rewrite E in H. discriminate.
Qed.
Lemma emplace_other_size z e p ts m fs data l : let k := resolve (e_cwd e) p in
  find_node k fs = Some (File data) -> tags_from data 0 l -> tags_end 0 l < 2 ^ 28 -> tags_end 0 l <= len data ->
  Forall (Settled z m) ts -> Forall sound_tag ts -> total_size z m ts < 2 ^ 64 -> total_size z m ts <> tags_end 0 l ->
  exists x, replace_tagset_emplace z e p ts m fs = ([], (Throw x, fs)).
Proof.
  intros k Hk Hl HT HL HS HP HN NE.
  pose proof (emplace_cases z e p ts m fs data l _ _ _ Hk Hl HP (sizes_stable z m ts HS) HN HT HL) as C.
  destruct (N.eqb_spec (tags_end 0 l) (total_size z m ts)) as [E|_]; [congruence|]. exact C.
Qed.

Lemma adjust_total tp2 tp1 n T : tp2 + n = tp1 + T -> tp1 <= n -> tp2 <= T.
Proof. lia. Qed.
Lemma size_bound s2 tp1 v1 s1 tp2 v2 n T : s2 + (tp1 + v1) = s1 + (tp2 + v2) -> tp2 <= T -> v2 <= tp2 -> s1 = n -> n < 2 ^ 28 -> T < 2 ^ 28 -> s2 < 2 ^ 64.
Proof. intros. change (2 ^ 28) with 268435456 in *. change (2 ^ 64) with 18446744073709551616. lia. Qed.

Section Save.
  Variables (z : zlib) (e : env) (p : bytes) (m : apply_unsync) (fs : fsys) (data : bytes) (l : list head) (ts ts1 : list anytag) (n pd : N).
  Let k := resolve (e_cwd e) p.
  Let T := tags_end 0 l.
  Hypothesis Hk : find_node k fs = Some (File data).
  Hypothesis Hl : tags_from data 0 l.
  Hypothesis HT : T < 2 ^ 28.
  Hypothesis HL : T <= len data.
  Hypothesis HS : Forall sound_tag ts.
  Hypothesis HP : Forall (fun t => any_padding t < 2 ^ 62) ts.
  Hypothesis Hz : sizes z m ts = Ok (n, pd, ts1).
  Hypothesis Hn : n < 2 ^ 28.

  Lemma sv_facts : Forall (Settled z m) ts1 /\ n = total_size z m ts1 /\ pd = total_padding ts1 /\ Forall2 same_but_caches ts ts1 /\
    Forall sound_tag ts1 /\ Forall padded ts1 /\ pd <= n.
  Proof.
    destruct (sizes_settled z m ts HS n pd ts1 Hz) as (S1 & En & Ep & Hsame & _).
    split; [exact S1|]. split; [exact En|]. split; [exact Ep|]. split; [exact Hsame|].
    split; [apply (same_all sound_tag ts ts1); [exact sound_same|assumption..]|]. split.
    - apply (same_all padded ts ts1); [|exact Hsame|].
      + intros a b Hab. now rewrite (pad_same a b Hab).
      + eapply Forall_impl; [|exact HP]. cbn. intros a Ha. eapply N.lt_trans; [exact Ha|reflexivity].
    - rewrite Ep, En. apply settled_padding_le.
  Qed.
  Lemma small63 x : x < 2 ^ 28 -> x < 2 ^ 63. Proof. intros H. eapply N.lt_trans; [exact H|reflexivity]. Qed.

  Lemma sv_adjusted ts2 : adjust_padding_to ts1 T n = (ts2, Ok tt) -> ~ wraps ts1 T n ->
    Forall2 repadded ts1 ts2 /\ Forall (Settled z m) ts2 /\ Forall sound_tag ts2 /\ total_size z m ts2 < 2 ^ 64 /\
    total_padding ts2 + n = total_padding ts1 + T /\
    total_size z m ts2 + (total_padding ts1 + v24_padding ts1) = n + (total_padding ts2 + v24_padding ts2).
  Proof.
    intros Ha Hw. destruct sv_facts as (S1 & En & Ep & Hsame & HS1 & HP1 & Hpd).
    destruct (adjust_exact ts1 T n ts2 (small63 _ HT) (small63 _ Hn) HP1 Ha Hw) as [R1 R2].
    destruct (repadded_sound z m ts1 ts2 R1 S1 HS1) as (S2 & P2 & E).
    split; [exact R1|]. split; [exact S2|]. split; [exact P2|].
    assert (B : total_padding ts2 <= T) by (rewrite Ep in Hpd; exact (adjust_total _ _ _ _ R2 Hpd)).
    split; [exact (size_bound _ _ _ _ _ _ _ _ E B (v24_le ts2) (eq_sym En) Hn HT)|]. split; [exact R2|]. now rewrite En.
  Qed.

  Lemma sv_emplaced ts2 st r fs' : adjust_padding_to ts1 T n = (ts2, Ok tt) -> ~ wraps ts1 T n ->
    replace_tagset_emplace z e p ts2 m fs = (st, (Ok r, fs')) -> emplaced z m k fs data l ts r fs'.
  Proof.
    intros Ha Hw H. destruct sv_facts as (_ & _ & _ & Hsame & _).
    destruct (sv_adjusted ts2 Ha Hw) as (R1 & S2 & P2 & B & _ & _).
    destruct (emplace_sound z e p ts2 m fs data l r st fs' Hk Hl HT HL S2 P2 B H) as (-> & _ & w & E1 & E2 & E3).
    exists w. split; [exact E1|]. split; [|split; [exact E2|exact E3]]. clear - Hsame R1. revert ts2 R1.
    induction Hsame as [|a b ra rb Hab _ IH]; intros ts2 R; inversion R; subst; constructor; eauto.
  Qed.

  Lemma v24_differs s2 tp1 tp2 : s2 + (tp1 + tp1) = n + (tp2 + tp2) -> tp2 + n = tp1 + T -> n <> T -> s2 <> T.
  Proof. clear. lia. Qed.

  Lemma sv_v24 ts2 : adjust_padding_to ts1 T n = (ts2, Ok tt) -> ~ wraps ts1 T n -> Forall (fun t => is_v24 t = true) ts -> n <> T ->
    exists x, replace_tagset_emplace z e p ts2 m fs = ([], (Throw x, fs)).
  Proof.
    intros Ha Hw H4 NE. destruct sv_facts as (_ & _ & _ & Hsame & _).
    destruct (sv_adjusted ts2 Ha Hw) as (R1 & S2 & P2 & B & E1 & E2).
    assert (F1 : Forall (fun t => is_v24 t = true) ts1) by (apply (same_all _ ts ts1 same_v24 Hsame H4)).
    rewrite (v24_all ts1 F1), (v24_all ts2 (repadded_v24 _ _ R1 F1)) in E2.
    apply (emplace_other_size z e p ts2 m fs data l Hk Hl HT HL S2 P2 B). exact (v24_differs _ _ _ E2 E1 NE).
  Qed.
End Save.

Lemma keep_gap (w data : bytes) T : len w <= T -> T <= len data ->
  w ++ dropN (len w) data = w ++ dropN (len w) (takeN T data) ++ dropN T data /\ len w + len (dropN (len w) (takeN T data)) = T.
Proof.
  intros H H2. assert (L : len (takeN T data) = T) by (rewrite len_takeN; lia). split.
  - f_equal. rewrite <- (takeN_dropN T data) at 1. apply dropN_app_le. now rewrite L.
  - rewrite len_dropN, L. lia.
Qed.
Lemma adjust_rest_outcome a ts : match snd (adjust_rest a ts) with Ok _ | Throw _ => True | _ => False end.
Proof.
  induction ts as [|t r IH]; cbn [adjust_rest]; [exact Logic.I|]. destruct (_ && _)%bool; [exact Logic.I|].
  destruct (adjust_rest a r) as [r' o]. exact IH.
Qed.
Lemma adjust_outcome ts a b : ts <> [] -> match snd (adjust_padding_to ts a b) with Ok _ | Throw _ => True | _ => False end.
Proof.
  intros H. destruct ts as [|t r]; [congruence|]. unfold adjust_padding_to. cbv zeta. destruct (_ && _)%bool; [exact Logic.I|].
  pose proof (adjust_rest_outcome (Z.quot (to_signed (wrap64 (a + 2 ^ 64 - wrap64 b))) (Z.of_N (len (t :: r)))) r) as G.
  destruct (adjust_rest _ r) as [r' o]. exact G.
Qed.

(** ** Saving *)
Lemma save_sound z e p d nm ts m strat keep fs data l st r fs' n pd ts1 : let k := resolve (e_cwd e) p in
  p <> [] -> hd 0 (e_cwd e) = 47 -> dir_path d -> plain_name nm -> absolute (e_cwd e) p = spelled d nm ->
  find_node k fs = Some (File data) -> tags_from data 0 l -> tags_end 0 l < 2 ^ 28 -> tags_end 0 l <= len data ->
  Forall sound_tag ts -> Forall (fun t => any_padding t < 2 ^ 62) ts -> sizes z m ts = Ok (n, pd, ts1) -> n < 2 ^ 28 ->
  ~ wraps ts (tags_end 0 l) n -> e_tmp e <> k -> ~ In 46 (last (e_tmp e) []) ->
  maybe_emplace_tagset z e p ts m strat keep fs = (st, (Ok r, fs')) ->
  map contents r = map contents ts /\
  (exists w, emit_all z m r = (w, Ok r) /\
     (find_node k fs' = Some (File (w ++ dropN (tags_end 0 l) data)) /\ tags_end 0 l < n \/
      find_node k fs' = Some (File (w ++ dropN (len w) data)) /\ len w + v24_padding r = tags_end 0 l)) /\
  forall j, j <> k -> j <> e_tmp e -> ~ is_backup d nm j -> find_node j fs' = find_node j fs.
Proof.
  intros k Hp Hc Hd Hnm HA Hk Hl HT HL HS HP Hz Hn Hw Htk Hdot H. set (T := tags_end 0 l) in *.
  destruct (sv_facts z m ts ts1 n pd HS HP Hz) as (S1 & En & Ep & Hsame & HS1 & _ & Hpd).
  assert (Hw1 : ~ wraps ts1 T n) by (intros HW; apply Hw; now apply (wraps_same ts ts1)).
  assert (D : forall ts2, emplaced z m k fs data l ts ts2 fs' -> map contents ts2 = map contents ts /\
    (exists w, emit_all z m ts2 = (w, Ok ts2) /\
      (find_node k fs' = Some (File (w ++ dropN T data)) /\ T < n \/
       find_node k fs' = Some (File (w ++ dropN (len w) data)) /\ len w + v24_padding ts2 = T)) /\
    forall j, j <> k -> j <> e_tmp e -> ~ is_backup d nm j -> find_node j fs' = find_node j fs).
  { intros ts2 (w & W1 & W2 & W3 & W4). split; [now apply saved_contents|]. split.
    - exists w. split; [exact W1|]. right. split; [rewrite W4; apply find_set_same|exact W3].
    - intros j Hj _ _. rewrite W4. now apply find_set_other. }
  assert (HAdj : forall ts2 o, adjust_padding_to ts1 T n = (ts2, o) ->
     (run _ <- flift o;; replace_tagset_emplace z e p ts2 m) fs = (st, (Ok r, fs')) -> emplaced z m k fs data l ts r fs').
  { intros ts2 o HA2 HR. rewrite fbind_lift in HR. destruct o as [[]|x|u|]; try discriminate.
    exact (sv_emplaced z e p m fs data l ts ts1 n pd Hk Hl HT HL HS HP Hz Hn ts2 st r fs' HA2 Hw1 HR). }
  unfold maybe_emplace_tagset in H. cbv zeta in H. fold k in H. unfold tagset_size in H. rewrite Hk, (extant_ok data l Hl) in H. fold T in H.
  rewrite fbind_lift in H. unfold tagset_sizes in H. rewrite Hz in H. cbn [bind] in H.
  assert (N64 : n < 2 ^ 64) by (apply N.lt_trans with (2 ^ 28); [exact Hn|reflexivity]).
  assert (Ew : wrap64 n = n) by (unfold wrap64; apply N.mod_small; exact N64).
  rewrite Ew in H. rewrite fbind_lift in H.
  destruct (n <=? T) eqn:L1.
  - apply D. destruct (n <? T) eqn:L2.
    + destruct (adjust_padding_to ts1 T n) as [ts2 o] eqn:EA. now apply (HAdj ts2 o).
    + destruct (emplace_sound z e p ts1 m fs data l r st fs' Hk Hl HT HL S1 HS1) as (-> & _ & w & W1 & W2 & W3); [rewrite <- En; exact N64|exact H|].
      exists w. split; [exact W1|]. split; [|split; [exact W2|exact W3]]. clear - Hsame. induction Hsame; constructor; [|assumption].
      exists y. split; [assumption|reflexivity].
  - apply N.leb_gt in L1. destruct (_ && _).
    + apply D. destruct (adjust_padding_to ts1 T n) as [ts2 o] eqn:EA. now apply (HAdj ts2 o).
    + destruct (emit_all_exact z m ts1 S1) as (w & W1 & _); [rewrite <- En; exact Hn|].
      pose proof (copy_any z e p d nm ts1 m keep w (Ok ts1) fs data l Hp Hc Hd Hnm HA Hk Hl W1 Hdot Htk) as C. cbv zeta in C.
      rewrite H in C. destruct C as (_ & [_ C1] & C2 & C3). apply Ok_inj in C2. subst r.
      split; [now apply same_contents|]. split; [exists w; split; [exact W1|left; split; [exact C3|exact L1]]|exact C1].
Qed.

(** Where all tags are ID3v2.4 tags, and their size is not exactly that of the
    tags there, they are not written in place. *)
Lemma save_v24_refused z e p ts m strat keep fs data l n pd ts1 : let k := resolve (e_cwd e) p in
  find_node k fs = Some (File data) -> tags_from data 0 l -> tags_end 0 l < 2 ^ 28 -> tags_end 0 l <= len data ->
  Forall sound_tag ts -> Forall (fun t => any_padding t < 2 ^ 62) ts -> sizes z m ts = Ok (n, pd, ts1) -> n < 2 ^ 28 ->
  ts <> [] -> Forall (fun t => is_v24 t = true) ts -> ~ wraps ts (tags_end 0 l) n ->
  n < tags_end 0 l \/ (tags_end 0 l < n /\ n - pd <= tags_end 0 l /\ strat = ReducePaddingEvenly) ->
  exists x, maybe_emplace_tagset z e p ts m strat keep fs = ([], (Throw x, fs)).
Proof.
  intros k Hk Hl HT HL HS HP Hz Hn Hne H4 Hw Hcase. set (T := tags_end 0 l) in *.
  destruct (sv_facts z m ts ts1 n pd HS HP Hz) as (S1 & En & Ep & Hsame & HS1 & HP1 & Hpd).
  assert (Hw1 : ~ wraps ts1 T n) by (intros HW; apply Hw; now apply (wraps_same ts ts1)).
  assert (NE : n <> T) by (destruct Hcase as [C|(C & _)]; intros E; rewrite E in C; exact (N.lt_irrefl _ C)).
  assert (HAdj : exists x, (let '(ts2, o) := adjust_padding_to ts1 T n in run _ <- flift o;; replace_tagset_emplace z e p ts2 m) fs = ([], (Throw x, fs))).
  { destruct (adjust_padding_to ts1 T n) as [ts2 o] eqn:EA. rewrite fbind_lift.
    assert (HO : match o with Ok _ => True | Throw _ => True | _ => False end).
    { pose proof (adjust_outcome ts1 T n) as G. rewrite EA in G. apply G. intros ->. inversion Hsame; subst; congruence. }
    destruct o as [[]|x|u|]; [|eauto|contradiction..].
    exact (sv_v24 z e p m fs data l ts ts1 n pd Hk Hl HT HL HS HP Hz Hn ts2 EA Hw1 H4 NE). }
  unfold maybe_emplace_tagset. cbv zeta. fold k. unfold tagset_size. rewrite Hk, (extant_ok data l Hl). fold T.
  rewrite fbind_lift. unfold tagset_sizes. rewrite Hz. cbn [bind].
  assert (N64 : n < 2 ^ 64) by (apply N.lt_trans with (2 ^ 28); [exact Hn|reflexivity]).
  assert (Ew : wrap64 n = n) by (unfold wrap64; apply N.mod_small; exact N64).
  rewrite Ew. rewrite fbind_lift. destruct Hcase as [C|(C1 & C2 & ->)].
  - assert (B1 : n <=? T = true) by (apply N.leb_le, N.lt_le_incl, C). assert (B2 : n <? T = true) by (apply N.ltb_lt, C).
    rewrite B1, B2. exact HAdj.
  - assert (B1 : n <=? T = false) by (apply N.leb_gt, C1). rewrite B1.
    rewrite (wrap_sub n pd Hpd N64). apply N.leb_le in C2. rewrite C2. cbn [andb]. exact HAdj.
Qed.

(** ** What is read back *)
Lemma write24_version z t u b t' : any_write z (A24 t) u = Ok (b, t') -> nth 3 b 0 = 4.
Proof.
  cbn [any_write]. intros H. apply bind_ok in H as ([cb t1] & _ & H). apply bind_ok in H as (h & Hh & H).
  apply bind_ok in H as (x & _ & H). apply bind_ok in H as (fs & _ & H). apply bind_ok in H as (ft & _ & H).
  apply Ok_inj in H. injection H as <- _. apply tag_header_inv in Hh as (z0 & z1 & z2 & z3 & -> & _). reflexivity.
Qed.
Lemma emit24_header z m t : Settled z m (A24 t) -> full_size z m (A24 t) < 2 ^ 28 -> forall rest,
  exists b f, emit z m (A24 t) = Ok (b, A24 t) /\ id3v2_header_at (b ++ rest) 0 4 0 f (full_size z m (A24 t)) /\
    len b + t4_pad t = 10 + full_size z m (A24 t).
Proof.
  intros HS HF rest. destruct (emit_settled z m (A24 t) HS) as [E _]. cbv zeta in E.
  assert (Hw : wrap64 (full_size z m (A24 t)) = full_size z m (A24 t)).
  { unfold wrap64. apply N.mod_small. apply N.lt_trans with (2 ^ 28); [exact HF|reflexivity]. }
  rewrite Hw in E. destruct (E HF) as (h & r & E1 & (v & f & E2) & E3 & _). clear E.
  set (n := full_size z m (A24 t)) in *. exists (h ++ r), f. split; [exact E1|].
  assert (EV : nth 3 (h ++ r) 0 = 4).
  { unfold emit in E1. rewrite Settled_compute in E1 by exact HS. cbn [bind] in E1. now apply write24_version in E1. }
  apply tag_header_inv in E2 as (z0 & z1 & z2 & z3 & -> & Fz & En & _).
  change (nth 3 ((B "ID3" ++ [v; 0; f; z0; z1; z2; z3]) ++ r) 0) with v in EV. subst v. split.
  - exists z0, z1, z2, z3, (r ++ rest). split; [unfold dropN; reflexivity|]. repeat split; try discriminate; assumption.
  - rewrite len_app. change (len (B "ID3" ++ [4; 0; f; z0; z1; z2; z3])) with 10. cbn [mult any_padding] in E3. lia.
Qed.

Lemma swallow_drop (b x : bytes) P s : len b + P = s -> dropN s (b ++ x) = dropN P x.
Proof. intros <-. rewrite dropN_app_ge by lia. f_equal. lia. Qed.

Lemma save_v24_swallows z e p d nm t m strat keep fs data l st r fs' n pd t1 : let k := resolve (e_cwd e) p in
  p <> [] -> hd 0 (e_cwd e) = 47 -> dir_path d -> plain_name nm -> absolute (e_cwd e) p = spelled d nm ->
  find_node k fs = Some (File data) -> tags_from data 0 l -> tags_end 0 l < 2 ^ 28 -> tags_end 0 l <= len data ->
  ext_simple (t4_ext t) -> t4_pad t < 2 ^ 62 -> sizes z m [A24 t] = Ok (n, pd, t1) -> n < 2 ^ 28 ->
  e_tmp e <> k -> ~ In 46 (last (e_tmp e) []) -> tags_end 0 l < n ->
  maybe_emplace_tagset z e p [A24 t] m strat keep fs = (st, (Ok r, fs')) ->
  exists data' f sz, find_node k fs' = Some (File data') /\ id3v2_header_at data' 0 4 0 f sz /\
    dropN (10 + sz) data' = dropN (t4_pad t) (dropN (tags_end 0 l) data).
Proof.
  intros k Hp Hc Hd Hnm HA Hk Hl HT HL HX HP Hz Hn Htk Hdot Hlt H. set (T := tags_end 0 l) in *.
  assert (HS : Forall sound_tag [A24 t]) by (constructor; [exact HX|constructor]).
  assert (HP1 : Forall (fun t => any_padding t < 2 ^ 62) [A24 t]) by (constructor; [exact HP|constructor]).
  assert (Hw : forall ts, len ts = 1 -> ~ wraps ts T n).
  { intros ts L1 (a & b & _ & L2 & L3 & _). rewrite L1 in L3. clear - L2 L3. lia. }
  assert (NR : ~ (n - pd <= T /\ strat = ReducePaddingEvenly)).
  { intros [C1 C2]. destruct (save_v24_refused z e p [A24 t] m strat keep fs data l n pd t1 Hk Hl HT HL HS HP1 Hz Hn) as (x & E);
      [discriminate|repeat constructor|now apply Hw|right; auto|]. rewrite E in H. discriminate. }
  destruct (sv_facts z m [A24 t] t1 n pd HS HP1 Hz) as (S1 & En & Ep & Hsame & HS1 & _ & Hpd).
  inversion Hsame as [|? b ? ? Hab Hr]; subst t1. inversion Hr; subst. destruct b as [b|b|b]; try contradiction.
  assert (EP : t4_pad b = t4_pad t) by exact (pad_same _ _ Hab).
  apply Forall_cons_iff in S1 as [S1 _].
  unfold maybe_emplace_tagset in H. cbv zeta in H. fold k in H. unfold tagset_size in H. rewrite Hk, (extant_ok data l Hl) in H. fold T in H.
  rewrite fbind_lift in H. unfold tagset_sizes in H. rewrite Hz in H. cbn [bind] in H. set (n := total_size z m [A24 b]) in *. set (pd := total_padding [A24 b]) in *.
  assert (N64 : n < 2 ^ 64) by (apply N.lt_trans with (2 ^ 28); [exact Hn|reflexivity]).
  assert (Ew : wrap64 n = n) by (unfold wrap64; apply N.mod_small; exact N64).
  rewrite Ew in H. rewrite fbind_lift in H.
  assert (B1 : n <=? T = false) by (apply N.leb_gt, Hlt). rewrite B1 in H. rewrite (wrap_sub n pd Hpd N64) in H.
  assert (B2 : ((n - pd <=? T) && match strat with OnlyWithFullPadding => false | ReducePaddingEvenly => true end = false)%bool).
  { destruct (N.leb_spec (n - pd) T) as [L|L]; [|reflexivity]. destruct strat; [reflexivity|]. elim NR. auto. }
  rewrite B2 in H. assert (EN : n = full_size z m (A24 b) + 10) by (unfold n; rewrite size_cons; cbn [total_size fold_right]; lia).
  assert (FB : full_size z m (A24 b) < 2 ^ 28) by (clear - EN Hn; lia).
  destruct (emit24_header z m b S1 FB (dropN T data)) as (w & f & E1 & E2 & E3).
  assert (EA : emit_all z m [A24 b] = (w, Ok [A24 b])) by (cbn [emit_all]; rewrite E1; cbn [bind]; now rewrite app_nil_r).
  pose proof (copy_any z e p d nm [A24 b] m keep w (Ok [A24 b]) fs data l Hp Hc Hd Hnm HA Hk Hl EA Hdot Htk) as C. cbv zeta in C.
  rewrite H in C. destruct C as (_ & _ & _ & C3). fold T in C3. exists (w ++ dropN T data), f, (full_size z m (A24 b)).
  split; [exact C3|]. split; [exact E2|]. rewrite <- EP. now apply swallow_drop.
Qed.

Lemma save_audio z e p d nm ts m strat keep fs data l st r fs' n pd ts1 : let k := resolve (e_cwd e) p in
  p <> [] -> hd 0 (e_cwd e) = 47 -> dir_path d -> plain_name nm -> absolute (e_cwd e) p = spelled d nm ->
  find_node k fs = Some (File data) -> tags_from data 0 l -> tags_end 0 l < 2 ^ 28 -> tags_end 0 l <= len data ->
  Forall sound_tag ts -> Forall (fun t => any_padding t < 2 ^ 62) ts -> sizes z m ts = Ok (n, pd, ts1) -> n < 2 ^ 28 ->
  ~ wraps ts (tags_end 0 l) n -> e_tmp e <> k -> ~ In 46 (last (e_tmp e) []) ->
  maybe_emplace_tagset z e p ts m strat keep fs = (st, (Ok r, fs')) ->
  map contents r = map contents ts /\
  (exists w gap, emit_all z m r = (w, Ok r) /\ find_node k fs' = Some (File (w ++ gap ++ dropN (tags_end 0 l) data)) /\
     (gap = [] \/ gap = dropN (len w) (takeN (tags_end 0 l) data) /\ len gap = v24_padding r)) /\
  forall j, j <> k -> j <> e_tmp e -> ~ is_backup d nm j -> find_node j fs' = find_node j fs.
Proof.
  intros k Hp Hc Hd Hnm HA Hk Hl HT HL HS HP Hz Hn Hw Htk Hdot H. set (T := tags_end 0 l) in *.
  destruct (save_sound z e p d nm ts m strat keep fs data l st r fs' n pd ts1 Hp Hc Hd Hnm HA Hk Hl HT HL HS HP Hz Hn Hw Htk Hdot H)
    as (R1 & (w & W1 & W2) & R3).
  split; [exact R1|]. split; [|exact R3]. fold k in W2. fold T in W2. exists w. destruct W2 as [[W2 _]|[W2 W3]].
  - exists []. split; [exact W1|]. split; [exact W2|left; reflexivity].
  - assert (LW : len w <= T) by (rewrite <- W3; apply N.le_add_r).
    destruct (keep_gap w data T LW HL) as [G1 G2].
    exists (dropN (len w) (takeN T data)). split; [exact W1|]. split; [rewrite W2; now rewrite G1|]. right. split; [reflexivity|].
    rewrite <- W3 in G2 at 2. exact (proj1 (N.add_cancel_l _ _ _) G2).
Qed.
