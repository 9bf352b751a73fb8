(** * Lemmas: one cell of the distance array. *)
From Coq Require Import ZArith.
From Verif Require Import Base M_Genres M_Match S_Match L_Match.
Open Scope Z_scope.

Section Cell.
Variables A B : list N.
Notation m := (Z.of_nat (length A)).
Notation n := (Z.of_nat (length B)).

(** What the array holds for diagonal [k] and [q] edits: the furthest cell where
    there is one, one less than the first cell of the diagonal where one edit is
    lacking, and something small elsewhere. *)
Definition good (inf k q x : Z) : Prop :=
  (Z.abs k <= q -> best A B k q x) /\ (q = Z.abs k - 1 -> x = lo k - 1) /\ (q < Z.abs k - 1 -> x <= q - inf + 1).

Lemma furthest inf k p x y z t2 : Z.abs k <= p -> p <= inf -> k + 1 <= inf ->
  good inf k (p - 1) x -> good inf (k - 1) (p - 1) y -> good inf (k + 1) (p - 1) z ->
  (t2 = x + 2 /\ TR A B k x \/ t2 = x + 1 /\ ~ TR A B k x) ->
  let T := Z.max (Z.max (Z.max (x + 1) y) (z + 1)) t2 in
  reach A B k p T /\ forall v, reach A B k p v -> exists u, u <= T /\ u <= v /\ forall i, u <= i < v -> MT A B k i.
Proof.
  intros Hk Hp Hk1 (X1 & X2 & X3) (Y1 & Y2 & Y3) (Z1 & Z2 & Z3) Ht2 T.
  assert (RX : reach A B k p (x + 1)).
  { destruct (Z.eq_dec (Z.abs k) p) as [E|E].
    - rewrite X2 by lia. replace (lo k - 1 + 1) with (lo k) by lia. apply reach_lo. lia.
    - apply reach_sub. apply X1. lia. }
  assert (LX : lo k <= x + 1) by (eapply reach_ge_lo; exact RX).
  assert (RY : reach A B k p y \/ y <= lo k).
  { destruct (Z.lt_ge_cases (p - 1) (Z.abs (k - 1))) as [L|L].
    - right. destruct (Z.eq_dec (p - 1) (Z.abs (k - 1) - 1)) as [E|E].
      + rewrite (Y2 E). unfold lo. lia.
      + unfold lo. specialize (Y3 ltac:(lia)). lia.
    - left. apply reach_ins. now apply Y1. }
  assert (RZ : reach A B k p (z + 1) \/ z + 1 <= lo k).
  { destruct (Z.lt_ge_cases (p - 1) (Z.abs (k + 1))) as [L|L].
    - right. destruct (Z.eq_dec (p - 1) (Z.abs (k + 1) - 1)) as [E|E].
      + rewrite (Z2 E). unfold lo. lia.
      + unfold lo. specialize (Z3 ltac:(lia)). lia.
    - left. apply reach_del. now apply Z1. }
  assert (RT : reach A B k p t2).
  { destruct Ht2 as [[-> TRx]|[-> _]]; [|exact RX]. apply reach_swap; [|exact TRx].
    destruct (Z.lt_ge_cases (p - 1) (Z.abs k)) as [L|L]; [exfalso|now apply X1].
    assert (E : x = lo k - 1) by (apply X2; lia). destruct TRx as (T1 & T2 & _). unfold lo in E. lia. }
  split.
  - unfold T. clear T. destruct (Z.max_spec (Z.max (Z.max (x + 1) y) (z + 1)) t2) as [[_ ->]|[C1 ->]]; [exact RT|].
    destruct (Z.max_spec (Z.max (x + 1) y) (z + 1)) as [[C2 ->]|[C2 ->]].
    + destruct RZ as [RZ|RZ]; [exact RZ|]. exfalso. lia.
    + destruct (Z.max_spec (x + 1) y) as [[C3 ->]|[C3 ->]]; [|exact RX].
      destruct RY as [RY|RY]; [exact RY|]. exfalso. lia.
  - intros v Hv. destruct (reach_back _ _ _ _ _ Hv) as (u & U1 & U2 & U3). exists u.
    split; [|split; [exact U1|exact U2]].
    destruct U3 as [[-> ->]|[U|[U|[U|[[U TU]|U]]]]].
    + unfold lo in LX. unfold T. lia.
    + apply reach_abs in U as K. apply X1 in K. apply K in U. unfold T. lia.
    + apply reach_abs in U as K. apply Z1 in K. apply K in U. unfold T. lia.
    + apply reach_abs in U as K. apply Y1 in K. apply K in U. unfold T. lia.
    + apply reach_abs in U as K. apply X1 in K. apply K in U. unfold T.
      destruct (Z.eq_dec (u - 2) x) as [E|E]; [|lia].
      destruct Ht2 as [[-> _]|[_ NT]]; [lia|]. rewrite E in TU. contradiction.
    + apply reach_abs in U as K. apply X1 in K. apply K in U. unfold T. lia.
Qed.

Lemma chr_ok s i : 0 <= i < Z.of_nat (length s) -> exists c, chr s i = Ok c /\ nth_error s (Z.to_nat i) = Some c.
Proof.
  intros H. unfold chr. rewrite (proj2 (Z.ltb_ge i 0)) by lia.
  destruct (nth_error s (Z.to_nat i)) as [c|] eqn:E; [eauto|].
  apply nth_error_None in E. lia.
Qed.

Lemma slide_ok (inf : Z) k p L : k <= n -> L = Z.min m (n - k) -> forall fuel t, reach A B k p t -> L - t <= Z.of_nat fuel ->
  exists v, slide fuel A B k L t = Ok v /\ t <= v /\ reach A B k p v /\ ~ MT A B k v.
Proof.
  intros Hk -> fuel. induction fuel as [|fuel IH]; intros t Ht Hf.
  - assert (G : (t <? Z.min m (n - k)) = false) by (apply Z.ltb_ge; lia).
    cbn [slide]. rewrite G, andb_false_r. exists t. split; [reflexivity|]. split; [lia|]. split; [exact Ht|].
    intros (M1 & M2 & M3). apply mt_lt in M3. lia.
  - cbn [slide]. pose proof Ht as (T1 & T2 & _). rewrite (proj2 (Z.leb_le 0 t) T1). rewrite (proj2 (Z.leb_le (- k) t)) by lia.
    cbn [andb]. destruct (Z.ltb_spec t (Z.min m (n - k))) as [Lt|Lt].
    + destruct (chr_ok A t) as (a & Ea & Na); [lia|]. destruct (chr_ok B (t + k)) as (b & Eb & Nb); [lia|].
      rewrite Ea, Eb. cbn [bind]. destruct (N.eqb_spec a b) as [->|NE].
      * destruct (IH (t + 1)) as (v & V1 & V2 & V3 & V4).
        -- apply reach_match; [exact Ht|]. split; [lia|]. split; [lia|]. exists b. auto.
        -- lia.
        -- exists v. split; [exact V1|]. split; [lia|auto].
      * exists t. split; [reflexivity|]. split; [lia|]. split; [exact Ht|].
        intros (M1 & M2 & c & C1 & C2). rewrite Na in C1. rewrite Nb in C2. congruence.
    + exists t. split; [reflexivity|]. split; [lia|]. split; [exact Ht|].
      intros (M1 & M2 & M3). apply mt_lt in M3. lia.
Qed.

(** The lookahead for a swap. *)
Lemma swap_ok k x : let t := x + 1 in
  exists t2, (if (0 <? t) && (t <? m) && (0 <=? k + t - 1) && (k + t <? n) then
      let* a1 := chr A (t - 1) in
      let* b1 := chr B (k + t) in
      let* a2 := chr A t in
      let* b2 := chr B (k + t - 1) in
      Ok (if (a1 =? b1)%N && (a2 =? b2)%N then t + 1 else t)
    else Ok t) = Ok t2 /\ (t2 = x + 2 /\ TR A B k x \/ t2 = x + 1 /\ ~ TR A B k x).
Proof.
  intros t. unfold t. clear t.
  destruct ((0 <? x + 1) && (x + 1 <? m) && (0 <=? k + (x + 1) - 1) && (k + (x + 1) <? n)) eqn:C.
  - apply andb_true_iff in C as [C C4]. apply andb_true_iff in C as [C C3]. apply andb_true_iff in C as [C1 C2].
    apply Z.ltb_lt in C1, C2, C4. apply Z.leb_le in C3.
    destruct (chr_ok A (x + 1 - 1)) as (a1 & E1 & N1); [lia|]. destruct (chr_ok B (k + (x + 1))) as (b1 & E2 & N2); [lia|].
    destruct (chr_ok A (x + 1)) as (a2 & E3 & N3); [lia|]. destruct (chr_ok B (k + (x + 1) - 1)) as (b2 & E4 & N4); [lia|].
    rewrite E1, E2, E3, E4. cbn [bind]. eexists. split; [reflexivity|].
    replace (Z.to_nat (x + 1 - 1)) with (Z.to_nat x) in N1 by lia.
    replace (Z.to_nat (k + (x + 1))) with (S (Z.to_nat (x + k))) in N2 by lia.
    replace (Z.to_nat (x + 1)) with (S (Z.to_nat x)) in N3 by lia.
    replace (Z.to_nat (k + (x + 1) - 1)) with (Z.to_nat (x + k)) in N4 by lia.
    destruct ((a1 =? b1)%N && (a2 =? b2)%N) eqn:E.
    + left. split; [lia|]. apply andb_true_iff in E as [Ea Eb]. apply N.eqb_eq in Ea, Eb. subst.
      split; [lia|]. split; [lia|]. exists b1, b2. auto.
    + right. split; [reflexivity|]. intros (_ & _ & u & v & U1 & U2 & U3 & U4).
      rewrite N1 in U1. rewrite N3 in U2. rewrite N4 in U3. rewrite N2 in U4.
      assert (a1 = b1) by congruence. assert (a2 = b2) by congruence. subst. now rewrite !N.eqb_refl in E.
  - eexists. split; [reflexivity|]. right. split; [reflexivity|]. intros (T1 & T2 & T3). apply tr_lt in T3.
    assert (Z1 : (0 <? x + 1) = true) by (apply Z.ltb_lt; lia). assert (Z2 : (x + 1 <? m) = true) by (apply Z.ltb_lt; lia).
    assert (Z3 : (0 <=? k + (x + 1) - 1) = true) by (apply Z.leb_le; lia). assert (Z4 : (k + (x + 1) <? n) = true) by (apply Z.ltb_lt; lia).
    rewrite Z1, Z2, Z3, Z4 in C. discriminate.
Qed.

(** ** One cell *)
Definition idx (inf k q : Z) : Z := (k + inf) * (inf + 2) + (q + 1).
Definition cell (inf : Z) (a : arr) (k q : Z) : Z := at_ a (idx inf k q).
Definition sized (inf : Z) (a : arr) : Prop := a_size a = (2 * inf + 1) * (inf + 2).
Definition inside (inf k q : Z) : Prop := - inf <= k <= inf /\ -1 <= q <= inf.

Lemma idx_range inf a k q : sized inf a -> inside inf k q -> 0 <= idx inf k q < a_size a.
Proof.
  unfold sized, inside, idx. intros -> [Hk Hq].
  assert (0 <= (k + inf) * (inf + 2)) by (apply Z.mul_nonneg_nonneg; lia).
  assert ((k + inf) * (inf + 2) <= (2 * inf) * (inf + 2)) by (apply Z.mul_le_mono_nonneg_r; lia).
  assert ((2 * inf + 1) * (inf + 2) = 2 * inf * (inf + 2) + (inf + 2)) by ring. lia.
Qed.
Lemma idx_inj inf k q k' q' : inside inf k q -> inside inf k' q' -> idx inf k q = idx inf k' q' -> k = k' /\ q = q'.
Proof.
  unfold inside, idx. intros [Hk Hq] [Hk' Hq'] E.
  assert (W : 0 < inf + 2) by lia.
  assert (E1 : (idx inf k q) / (inf + 2) = k + inf).
  { unfold idx. rewrite Z.div_add_l by lia. rewrite Z.div_small by lia. lia. }
  assert (E2 : (idx inf k' q') / (inf + 2) = k' + inf).
  { unfold idx. rewrite Z.div_add_l by lia. rewrite Z.div_small by lia. lia. }
  unfold idx in E1, E2. rewrite E in E1. assert (K : k = k') by lia. subst. split; [reflexivity|lia].
Qed.

(** What a comparison does to the array: a cell gets a value, all others stay. *)
Definition put (inf : Z) (a a' : arr) (k q v : Z) : Prop :=
  sized inf a' /\ cell inf a' k q = v /\
  forall k' q', inside inf k' q' -> (k', q') <> (k, q) -> cell inf a' k' q' = cell inf a k' q'.

Lemma wr_put inf a k q v : sized inf a -> inside inf k q -> exists a', wr a (idx inf k q) v = Ok a' /\ put inf a a' k q v.
Proof.
  intros S H. destruct (wr_ok a (idx inf k q) v (idx_range _ _ _ _ S H)) as (a' & W & W1 & W2 & W3).
  exists a'. split; [exact W|]. split; [unfold sized in *; congruence|]. split; [exact W2|].
  intros k' q' H' NE. unfold cell. apply W3; [apply (idx_range inf a); assumption|].
  intros E. apply idx_inj in E; [|assumption|assumption]. destruct E. subst. congruence.
Qed.

Lemma fcell_best inf a k p : sized inf a -> inside inf k p -> 0 <= p -> Z.abs k <= p ->
  -inf + 1 <= k -> k + 1 <= inf -> k <= n ->
  good inf k (p - 1) (cell inf a k (p - 1)) -> good inf (k - 1) (p - 1) (cell inf a (k - 1) (p - 1)) ->
  good inf (k + 1) (p - 1) (cell inf a (k + 1) (p - 1)) ->
  exists a' v, fcell A B inf a k p = Ok a' /\ put inf a a' k p v /\ best A B k p v.
Proof.
  intros S H P0 Pk K1 K2 Kn GX GY GZ.
  set (x := cell inf a k (p - 1)) in *. set (y := cell inf a (k - 1) (p - 1)) in *. set (z := cell inf a (k + 1) (p - 1)) in *.
  assert (RX : rd a ((k + inf) * (inf + 2) + p) = Ok x).
  { rewrite rd_ok; [unfold x, cell, idx; do 2 f_equal; lia|].
    replace ((k + inf) * (inf + 2) + p) with (idx inf k (p - 1)) by (unfold idx; lia).
    apply idx_range; [assumption|]. unfold inside in *. lia. }
  assert (RY : rd a ((k - 1 + inf) * (inf + 2) + p) = Ok y).
  { rewrite rd_ok; [unfold y, cell, idx; do 2 f_equal; lia|].
    replace ((k - 1 + inf) * (inf + 2) + p) with (idx inf (k - 1) (p - 1)) by (unfold idx; lia).
    apply idx_range; [assumption|]. unfold inside in *. lia. }
  assert (RZ : rd a ((k + 1 + inf) * (inf + 2) + p) = Ok z).
  { rewrite rd_ok; [unfold z, cell, idx; do 2 f_equal; lia|].
    replace ((k + 1 + inf) * (inf + 2) + p) with (idx inf (k + 1) (p - 1)) by (unfold idx; lia).
    apply idx_range; [assumption|]. unfold inside in *. lia. }
  clearbody x y z.
  unfold fcell. cbv zeta. rewrite (proj2 (Z.leb_le 0 p) P0). rewrite RX, RY, RZ. cbn [bind].
  destruct (swap_ok k x) as (t2 & E2 & T2). cbv zeta in E2. rewrite E2. cbn [bind]. clear E2.
  destruct (furthest inf k p x y z t2 Pk (proj2 (proj2 H)) K2 GX GY GZ T2) as [F1 F2].
  set (T := Z.max (Z.max (Z.max (x + 1) y) (z + 1)) t2) in *.
  rewrite (proj2 (Z.ltb_ge (n - k) 0)) by lia.
  destruct (slide_ok inf k p (Z.min m (n - k)) Kn eq_refl (length A) T F1) as (v & V1 & V2 & V3 & V4).
  { destruct F1 as (F1 & _). lia. }
  rewrite V1. cbn [bind]. rewrite (proj2 (Z.leb_le 0 (k + inf))) by lia. rewrite (proj2 (Z.ltb_lt (-2) p)) by lia. cbn [andb].
  replace ((k + inf) * (inf + 2) + p + 1) with (idx inf k p) by (unfold idx; lia).
  destruct (wr_put inf a k p v S H) as (a' & W & PU). exists a', v. split; [exact W|]. split; [exact PU|].
  split; [exact V3|]. intros v' Hv'. destruct (F2 v' Hv') as (u & U1 & U2 & U3).
  destruct (Z.le_gt_cases v' v) as [|G]; [assumption|]. exfalso. apply V4. apply U3. lia.
Qed.

Lemma low_max inf k p x y z : 0 <= p -> p < - k -> - inf + 1 <= k -> x <= p - inf -> y <= p - inf ->
  (p = - k - 1 /\ z = p - 1 \/ p < - k - 1 /\ z <= p - inf) ->
  let T := Z.max (Z.max (Z.max (x + 1) y) (z + 1)) (x + 1) in
  p = - k - 1 /\ T = p \/ p < - k - 1 /\ T <= p - inf + 1.
Proof.
  intros H0 H1 H2 Hx Hy [[E1 E2]|[E1 E2]]; cbv zeta.
  - left. split; [assumption|]. rewrite E2. replace (p - 1 + 1) with p by lia.
    apply Z.le_antisymm; [repeat apply Z.max_lub; lia|].
    etransitivity; [|apply Z.le_max_l]. apply Z.le_max_r.
  - right. split; [assumption|]. repeat apply Z.max_lub; lia.
Qed.

(** Below the first cell of a negative diagonal. *)
Lemma fcell_low inf a k p : sized inf a -> inside inf k p -> 0 <= p -> p < - k -> - inf + 1 <= k ->
  good inf k (p - 1) (cell inf a k (p - 1)) -> good inf (k - 1) (p - 1) (cell inf a (k - 1) (p - 1)) ->
  good inf (k + 1) (p - 1) (cell inf a (k + 1) (p - 1)) ->
  exists a' v, fcell A B inf a k p = Ok a' /\ put inf a a' k p v /\ good inf k p v.
Proof.
  intros S H P0 Pk K1 (_ & GX2 & GX3) (_ & GY2 & GY3) (_ & GZ2 & GZ3).
  set (x := cell inf a k (p - 1)) in *. set (y := cell inf a (k - 1) (p - 1)) in *. set (z := cell inf a (k + 1) (p - 1)) in *.
  assert (RX : rd a ((k + inf) * (inf + 2) + p) = Ok x).
  { rewrite rd_ok; [unfold x, cell, idx; do 2 f_equal; lia|].
    replace ((k + inf) * (inf + 2) + p) with (idx inf k (p - 1)) by (unfold idx; lia).
    apply idx_range; [assumption|]. unfold inside in *. lia. }
  assert (RY : rd a ((k - 1 + inf) * (inf + 2) + p) = Ok y).
  { rewrite rd_ok; [unfold y, cell, idx; do 2 f_equal; lia|].
    replace ((k - 1 + inf) * (inf + 2) + p) with (idx inf (k - 1) (p - 1)) by (unfold idx; lia).
    apply idx_range; [assumption|]. unfold inside in *. lia. }
  assert (RZ : rd a ((k + 1 + inf) * (inf + 2) + p) = Ok z).
  { rewrite rd_ok; [unfold z, cell, idx; do 2 f_equal; lia|].
    replace ((k + 1 + inf) * (inf + 2) + p) with (idx inf (k + 1) (p - 1)) by (unfold idx; lia).
    apply idx_range; [assumption|]. unfold inside in *. lia. }
  clearbody x y z. destruct H as [Hk Hp].
  assert (X : x <= p - inf) by (specialize (GX3 ltac:(lia)); lia).
  assert (Y : y <= p - inf) by (specialize (GY3 ltac:(lia)); lia).
  assert (ZZ : p = - k - 1 /\ z = p - 1 \/ p < - k - 1 /\ z <= p - inf).
  { destruct (Z.eq_dec p (- k - 1)) as [E|E].
    - left. split; [assumption|]. specialize (GZ2 ltac:(lia)). unfold lo in GZ2. lia.
    - right. split; [lia|]. specialize (GZ3 ltac:(lia)). lia. }
  unfold fcell. cbv zeta. rewrite (proj2 (Z.leb_le 0 p) P0). rewrite RX, RY, RZ. cbn [bind].
  assert (C : (0 <? x + 1) && (x + 1 <? m) && (0 <=? k + (x + 1) - 1) && (k + (x + 1) <? n) = false).
  { rewrite (proj2 (Z.leb_gt 0 (k + (x + 1) - 1))) by lia. now rewrite andb_false_r. }
  rewrite C. cbn [bind].
  set (T := Z.max (Z.max (Z.max (x + 1) y) (z + 1)) (x + 1)).
  assert (TK : p = - k - 1 /\ T = p \/ p < - k - 1 /\ T <= p - inf + 1) by (exact (low_max inf k p x y z P0 Pk K1 X Y ZZ)).
  clear GX2 GX3 GY2 GY3 GZ2 GZ3 ZZ RX RY RZ C. clearbody T.
  assert (SL : slide (length A) A B k (if n - k <? 0 then m else Z.min m (n - k)) T = Ok T).
  { destruct (length A); cbn [slide]; rewrite (proj2 (Z.leb_gt (- k) T)) by lia; now rewrite andb_false_r. }
  rewrite SL. cbn [bind]. rewrite (proj2 (Z.leb_le 0 (k + inf))) by lia. rewrite (proj2 (Z.ltb_lt (-2) p)) by lia. cbn [andb].
  replace ((k + inf) * (inf + 2) + p + 1) with (idx inf k p) by (unfold idx; lia).
  destruct (wr_put inf a k p T S (conj Hk Hp)) as (a' & W & PU). exists a', T. split; [exact W|]. split; [exact PU|].
  unfold good, lo. split; [lia|]. split; lia.
Qed.

(** With a negative number of edits. *)
Lemma fcell_neg inf a k p : sized inf a -> -inf <= k <= inf -> p < 0 -> 0 < inf ->
  exists a', fcell A B inf a k p = Ok a' /\ ((p = -1 /\ put inf a a' k (-1) (- inf)) \/ (p < -1 /\ a' = a)).
Proof.
  intros S Hk P0 I0. unfold fcell. cbv zeta. rewrite (proj2 (Z.leb_gt 0 p)) by lia. cbn [bind].
  rewrite (proj2 (Z.ltb_ge 0 (- inf))) by lia. cbn [andb bind].
  replace (Z.max (Z.max (Z.max (- inf) (- inf)) (- inf)) (- inf)) with (- inf) by lia.
  assert (SL : forall L, slide (length A) A B k L (- inf) = Ok (- inf)).
  { intros L. destruct (length A); cbn [slide]; now rewrite (proj2 (Z.leb_gt 0 (- inf))) by lia. }
  rewrite SL. cbn [bind]. rewrite (proj2 (Z.leb_le 0 (k + inf))) by lia. cbn [andb].
  destruct (Z.ltb_spec (-2) p) as [L|L].
  - assert (p = -1) by lia. subst p.
    replace ((k + inf) * (inf + 2) + -1 + 1) with (idx inf k (-1)) by (unfold idx; lia).
    destruct (wr_put inf a k (-1) (- inf) S) as (a' & W & PU); [unfold inside; lia|]. exists a'. split; [exact W|]. left. auto.
  - exists a. split; [reflexivity|]. right. split; [lia|reflexivity].
Qed.
End Cell.
