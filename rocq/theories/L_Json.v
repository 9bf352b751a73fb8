(** * Lemmas: the JSON reader. *)
From Verif Require Import Base M_Payload M_Cloud M_Csv L_Csv S_Json M_Json.

(** ** Unfolding. *)
Lemma value_S f l :
  value (S f) l =
  match skip_ws l with
  | [] => None
  | c :: r =>
      if c =? 123 then
        match skip_ws r with
        | [] => None
        | d :: r1 => if d =? 125 then Some (JObj [], r1)
                     else match members f r with Some (ms, r2) => Some (JObj ms, r2) | None => None end
        end
      else if c =? 91 then
        match skip_ws r with
        | [] => None
        | d :: r1 => if d =? 93 then Some (JArr [], r1)
                     else match elements f r with Some (vs, r2) => Some (JArr vs, r2) | None => None end
        end
      else if c =? 34 then match chars r with Some (s, r1) => Some (JStr s, r1) | None => None end
      else scalar (c :: r)
  end.
Proof. reflexivity. Qed.

Lemma members_S f l :
  members (S f) l =
  match skip_ws l with
  | [] => None
  | q :: r =>
      if q =? 34 then
        match chars r with
        | None => None
        | Some (k, r1) =>
            match skip_ws r1 with
            | [] => None
            | c :: r2 =>
                if c =? 58 then
                  match value f r2 with
                  | None => None
                  | Some (v, r3) =>
                      match skip_ws r3 with
                      | [] => None
                      | e :: r4 =>
                          if e =? 125 then Some ([(k, v)], r4)
                          else if e =? 44 then
                            match members f r4 with Some (ms, r5) => Some ((k, v) :: ms, r5) | None => None end
                          else None
                      end
                  end
                else None
            end
        end
      else None
  end.
Proof. reflexivity. Qed.

Lemma elements_S f l :
  elements (S f) l =
  match value f l with
  | None => None
  | Some (v, r3) =>
      match skip_ws r3 with
      | [] => None
      | e :: r4 =>
          if e =? 93 then Some ([v], r4)
          else if e =? 44 then
            match elements f r4 with Some (vs, r5) => Some (v :: vs, r5) | None => None end
          else None
      end
  end.
Proof. reflexivity. Qed.

(** ** The ways a reader succeeds. *)
Lemma value_inv f l v r : value (S f) l = Some (v, r) ->
  exists c r0, skip_ws l = c :: r0 /\
  ((c = 123 /\ exists d r1, skip_ws r0 = d :: r1 /\
      ((d = 125 /\ v = JObj [] /\ r = r1) \/ (d <> 125 /\ exists ms, members f r0 = Some (ms, r) /\ v = JObj ms))) \/
   (c = 91 /\ exists d r1, skip_ws r0 = d :: r1 /\
      ((d = 93 /\ v = JArr [] /\ r = r1) \/ (d <> 93 /\ exists vs, elements f r0 = Some (vs, r) /\ v = JArr vs))) \/
   (c = 34 /\ exists s, chars r0 = Some (s, r) /\ v = JStr s) \/
   (c <> 123 /\ c <> 91 /\ c <> 34 /\ scalar (c :: r0) = Some (v, r))).
Proof.
  rewrite value_S. destruct (skip_ws l) as [|c r0] eqn:E0; [discriminate|]. intros H. exists c, r0. split; [reflexivity|].
  destruct (N.eqb_spec c 123) as [-> | N1].
  { left. split; [reflexivity|]. destruct (skip_ws r0) as [|d r1]; [discriminate|]. exists d, r1. split; [reflexivity|].
    destruct (N.eqb_spec d 125) as [-> | Nd].
    - left. injection H as <- <-. auto.
    - right. split; [assumption|]. destruct (members f r0) as [[ms r2]|]; [|discriminate]. injection H as <- <-. eauto. }
  destruct (N.eqb_spec c 91) as [-> | N2].
  { right; left. split; [reflexivity|]. destruct (skip_ws r0) as [|d r1]; [discriminate|]. exists d, r1. split; [reflexivity|].
    destruct (N.eqb_spec d 93) as [-> | Nd].
    - left. injection H as <- <-. auto.
    - right. split; [assumption|]. destruct (elements f r0) as [[ms r2]|]; [|discriminate]. injection H as <- <-. eauto. }
  destruct (N.eqb_spec c 34) as [-> | N3].
  { right; right; left. split; [reflexivity|]. destruct (chars r0) as [[s r1]|]; [|discriminate]. injection H as <- <-. eauto. }
  right; right; right. auto.
Qed.

Lemma members_inv f l ms r : members (S f) l = Some (ms, r) ->
  exists r0 k r1 r2 v r3 e r4,
    skip_ws l = 34 :: r0 /\ chars r0 = Some (k, r1) /\ skip_ws r1 = 58 :: r2 /\ value f r2 = Some (v, r3) /\
    skip_ws r3 = e :: r4 /\
    ((e = 125 /\ ms = [(k, v)] /\ r = r4) \/
     (e = 44 /\ exists ms', members f r4 = Some (ms', r) /\ ms = (k, v) :: ms')).
Proof.
  rewrite members_S. destruct (skip_ws l) as [|q r0] eqn:E0; [discriminate|].
  destruct (N.eqb_spec q 34) as [-> | _]; [|discriminate].
  destruct (chars r0) as [[k r1]|] eqn:E1; [|discriminate].
  destruct (skip_ws r1) as [|c r2] eqn:E2; [discriminate|].
  destruct (N.eqb_spec c 58) as [-> | _]; [|discriminate].
  destruct (value f r2) as [[v r3]|] eqn:E3; [|discriminate].
  destruct (skip_ws r3) as [|e r4] eqn:E4; [discriminate|]. intros H.
  exists r0, k, r1, r2, v, r3, e, r4. do 5 (split; [reflexivity || assumption|]).
  destruct (N.eqb_spec e 125) as [-> | _].
  - left. injection H as <- <-. auto.
  - right. destruct (N.eqb_spec e 44) as [-> | _]; [|discriminate]. split; [reflexivity|].
    destruct (members f r4) as [[ms' r5]|]; [|discriminate]. injection H as <- <-. eauto.
Qed.

Lemma elements_inv f l vs r : elements (S f) l = Some (vs, r) ->
  exists v r3 e r4, value f l = Some (v, r3) /\ skip_ws r3 = e :: r4 /\
    ((e = 93 /\ vs = [v] /\ r = r4) \/ (e = 44 /\ exists vs', elements f r4 = Some (vs', r) /\ vs = v :: vs')).
Proof.
  rewrite elements_S. destruct (value f l) as [[v r3]|] eqn:E3; [|discriminate].
  destruct (skip_ws r3) as [|e r4] eqn:E4; [discriminate|]. intros H.
  exists v, r3, e, r4. do 2 (split; [reflexivity || assumption|]).
  destruct (N.eqb_spec e 93) as [-> | _].
  - left. injection H as <- <-. auto.
  - right. destruct (N.eqb_spec e 44) as [-> | _]; [|discriminate]. split; [reflexivity|].
    destruct (elements f r4) as [[ms' r5]|]; [|discriminate]. injection H as <- <-. eauto.
Qed.

(** ** What is read is a prefix. *)
Lemma skip_ws_app l : exists w, l = w ++ skip_ws l /\ forallb is_ws w = true.
Proof.
  induction l as [|c r (w & E & W)]; [exists []; auto|]. cbn. destruct (is_ws c) eqn:Ec.
  - exists (c :: w). cbn. rewrite Ec, W. split; [f_equal; exact E | reflexivity].
  - exists []. auto.
Qed.

Lemma skip_ws_length l : (List.length (skip_ws l) <= List.length l)%nat.
Proof. destruct (skip_ws_app l) as (w & E & _). rewrite E at 2. rewrite app_length. lia. Qed.

Lemma prefixed_inv p x s r : prefixed p x = Some (s, r) -> exists s', x = Some (s', r) /\ s = p ++ s'.
Proof. destruct x as [[s' r']|]; cbn; [|discriminate]. intros H. injection H as <- <-. eauto. Qed.

Lemma chars_inv c l s r : chars (c :: l) = Some (s, r) ->
  (c = 34 /\ s = [] /\ r = l) \/
  (c = 92 /\ exists e l1, l = e :: l1 /\
     ((e = 117 /\ exists a b c' d l2 s' u, l1 = a :: b :: c' :: d :: l2 /\ chars l2 = Some (s', r) /\ s = utf8 u ++ s' /\
         hex_value a <> None /\ hex_value b <> None /\ hex_value c' <> None /\ hex_value d <> None) \/
      (e <> 117 /\ exists x s', simple_escape e = Some x /\ chars l1 = Some (s', r) /\ s = x :: s'))) \/
  (c <> 34 /\ c <> 92 /\ 32 <= c /\ exists s', chars l = Some (s', r) /\ s = c :: s').
Proof.
  cbn [chars]. destruct (N.eqb_spec c 34) as [-> | N1].
  { intros H. injection H as <- <-. auto. }
  destruct (N.eqb_spec c 92) as [-> | N2].
  { right; left. split; [reflexivity|]. destruct l as [|e l1]; [discriminate|]. exists e, l1. split; [reflexivity|].
    destruct (N.eqb_spec e 117) as [-> | Ne].
    - left. split; [reflexivity|]. destruct l1 as [|a [|b [|c [|d l2]]]]; try discriminate.
      destruct (hex_value a) eqn:Ha; [|discriminate]. destruct (hex_value b) eqn:Hb; [|discriminate].
      destruct (hex_value c) eqn:Hc; [|discriminate]. destruct (hex_value d) eqn:Hd; [|discriminate].
      apply prefixed_inv in H. destruct H as (s' & E & ->).
      exists a, b, c, d, l2, s', (n * 4096 + n0 * 256 + n1 * 16 + n2). repeat split; congruence.
    - right. split; [assumption|]. destruct (simple_escape e) as [x|]; [|discriminate].
      apply prefixed_inv in H. destruct H as (s' & E & ->). exists x, s'. auto. }
  destruct (N.ltb_spec c 32) as [L | L]; [discriminate|].
  intros H. apply prefixed_inv in H. destruct H as (s' & E & ->).
  right; right. repeat split; try assumption. exists s'. auto.
Qed.

Lemma chars_length l : forall s r, chars l = Some (s, r) -> (List.length r < List.length l)%nat.
Proof.
  induction l as [l IH] using (well_founded_induction (Wf_nat.well_founded_ltof _ (@List.length N))). unfold Wf_nat.ltof in IH.
  intros s r H. destruct l as [|c l]; [discriminate|]. apply chars_inv in H.
  destruct H as [(-> & -> & ->) | [(-> & e & l1 & -> & [(-> & a & b & c' & d & l2 & s' & u & -> & E & _) | (_ & x & s' & _ & E & _)]) | (_ & _ & _ & s' & E & _)]].
  - cbn. lia.
  - apply IH in E; cbn in *; lia.
  - apply IH in E; cbn in *; lia.
  - apply IH in E; cbn in *; lia.
Qed.

Lemma stripped_app w : forall l r, stripped w l = Some r -> l = w ++ r.
Proof.
  induction w as [|a w IH]; intros l r; cbn; [congruence|]. destruct l as [|b l]; [discriminate|].
  destruct (N.eqb_spec a b) as [-> | _]; [|discriminate]. intros H. apply IH in H. now subst.
Qed.

Lemma span_app p : forall l a b, span p l = (a, b) -> l = a ++ b /\ forallb p a = true.
Proof.
  induction l as [|c l IH]; intros a b; cbn; [intros H; injection H as <- <-; auto|].
  destruct (p c) eqn:Ec; [|intros H; injection H as <- <-; auto].
  destruct (span p l) as [a' b']. intros H. injection H as <- <-.
  destruct (IH _ _ eq_refl) as (-> & W). cbn. rewrite Ec. auto.
Qed.

Definition tok_char (c : N) : bool :=
  negb (is_ws c) && (32 <=? c) && negb (existsb (N.eqb c) [34; 92; 123; 125; 91; 93; 44; 58]).

Lemma in_number_tok c : in_number c = true -> tok_char c = true.
Proof.
  unfold in_number, tok_char, is_dec, is_ws. cbn [existsb]. intros H.
  repeat rewrite Bool.orb_true_iff in H. rewrite Bool.andb_true_iff in H.
  repeat rewrite N.eqb_eq in H. repeat rewrite N.leb_le in H.
  repeat match goal with |- context [?a =? ?b] => destruct (N.eqb_spec a b); [exfalso; lia|] end.
  cbn. destruct (N.leb_spec 32 c); [reflexivity | lia].
Qed.

Lemma scalar_app l v r : scalar l = Some (v, r) ->
  exists w, l = w ++ r /\ w <> [] /\ forallb tok_char w = true /\ (forall s, v <> JStr s).
Proof.
  unfold scalar. destruct (stripped (B "true") l) as [r1|] eqn:E1.
  { intros H. injection H as <- <-. exists (B "true"). apply stripped_app in E1. repeat split; auto; discriminate. }
  destruct (stripped (B "false") l) as [r2|] eqn:E2.
  { intros H. injection H as <- <-. exists (B "false"). apply stripped_app in E2. repeat split; auto; discriminate. }
  destruct (stripped (B "null") l) as [r3|] eqn:E3.
  { intros H. injection H as <- <-. exists (B "null"). apply stripped_app in E3. repeat split; auto; discriminate. }
  destruct (span in_number l) as [n r'] eqn:E. destruct (number_ok n) eqn:Hn; [|discriminate].
  intros H. injection H as <- <-. apply span_app in E. destruct E as (-> & W).
  exists n. repeat split; auto; try discriminate.
  - intros ->. discriminate.
  - clear - W. induction n as [|c n IH]; [reflexivity|]. cbn in *. apply Bool.andb_true_iff in W as [W1 W2].
    rewrite in_number_tok by assumption. auto.
Qed.

(** ** Fuel. *)
Lemma shrink f :
  (forall l v r, value f l = Some (v, r) -> (List.length r < List.length l)%nat) /\
  (forall l v r, members f l = Some (v, r) -> (List.length r < List.length l)%nat) /\
  (forall l v r, elements f l = Some (v, r) -> (List.length r < List.length l)%nat).
Proof.
  induction f as [|f (IHv & IHm & IHe)]; [repeat split; discriminate|]. repeat split; intros l v r H.
  - apply value_inv in H. destruct H as (c & r0 & E0 & H). pose proof (skip_ws_length l) as L0. rewrite E0 in L0. cbn in L0.
    pose proof (skip_ws_length r0) as L1.
    destruct H as [(_ & d & r1 & E1 & H) | [(_ & d & r1 & E1 & H) | [(_ & s & E & _) | (_ & _ & _ & E)]]].
    + rewrite E1 in L1. cbn in L1. destruct H as [(_ & _ & ->) | (_ & ms & E & _)]; [lia|]. apply IHm in E. lia.
    + rewrite E1 in L1. cbn in L1. destruct H as [(_ & _ & ->) | (_ & ms & E & _)]; [lia|]. apply IHe in E. lia.
    + apply chars_length in E. lia.
    + apply scalar_app in E. destruct E as (w & E & Nw & _). apply (f_equal (@List.length N)) in E. rewrite app_length in E.
      destruct w; [easy|]. cbn in E. lia.
  - apply members_inv in H. destruct H as (r0 & k & r1 & r2 & x & r3 & e & r4 & E0 & E1 & E2 & E3 & E4 & H).
    pose proof (skip_ws_length l) as L0. rewrite E0 in L0. apply chars_length in E1.
    pose proof (skip_ws_length r1) as L2. rewrite E2 in L2. apply IHv in E3.
    pose proof (skip_ws_length r3) as L4. rewrite E4 in L4. cbn in *.
    destruct H as [(_ & _ & ->) | (_ & ms' & E & _)]; [lia|]. apply IHm in E. lia.
  - apply elements_inv in H. destruct H as (x & r3 & e & r4 & E3 & E4 & H). apply IHv in E3.
    pose proof (skip_ws_length r3) as L4. rewrite E4 in L4. cbn in *.
    destruct H as [(_ & _ & ->) | (_ & ms' & E & _)]; [lia|]. apply IHe in E. lia.
Qed.

Lemma more_fuel f :
  (forall l x, value f l = Some x -> forall g, (f <= g)%nat -> value g l = Some x) /\
  (forall l x, members f l = Some x -> forall g, (f <= g)%nat -> members g l = Some x) /\
  (forall l x, elements f l = Some x -> forall g, (f <= g)%nat -> elements g l = Some x).
Proof.
  induction f as [|f (IHv & IHm & IHe)]; [repeat split; discriminate|].
  repeat split; intros l [v r] H g G; (destruct g as [|g]; [lia|]); assert (f <= g)%nat as G' by lia; clear G.
  - apply value_inv in H. destruct H as (c & r0 & E0 & H). rewrite value_S, E0.
    destruct H as [(-> & d & r1 & E1 & H) | [(-> & d & r1 & E1 & H) | [(-> & s & E & ->) | (N1 & N2 & N3 & E)]]].
    + rewrite E1. cbn. destruct H as [(-> & -> & ->) | (Nd & ms & E & ->)]; [reflexivity|].
      rewrite (proj2 (N.eqb_neq d 125) Nd), (IHm _ _ E _ G'). reflexivity.
    + rewrite E1. cbn. destruct H as [(-> & -> & ->) | (Nd & ms & E & ->)]; [reflexivity|].
      rewrite (proj2 (N.eqb_neq d 93) Nd), (IHe _ _ E _ G'). reflexivity.
    + cbn. now rewrite E.
    + now rewrite (proj2 (N.eqb_neq _ _) N1), (proj2 (N.eqb_neq _ _) N2), (proj2 (N.eqb_neq _ _) N3).
  - apply members_inv in H. destruct H as (r0 & k & r1 & r2 & x & r3 & e & r4 & E0 & E1 & E2 & E3 & E4 & H).
    rewrite members_S, E0. cbn. rewrite E1, E2. cbn. rewrite (IHv _ _ E3 _ G'), E4.
    destruct H as [(-> & -> & ->) | (-> & ms' & E & ->)]; [reflexivity|]. cbn. now rewrite (IHm _ _ E _ G').
  - apply elements_inv in H. destruct H as (x & r3 & e & r4 & E3 & E4 & H).
    rewrite elements_S, (IHv _ _ E3 _ G'), E4.
    destruct H as [(-> & -> & ->) | (-> & ms' & E & ->)]; [reflexivity|]. cbn. now rewrite (IHe _ _ E _ G').
Qed.

Lemma enough_fuel f :
  (forall l x, value f l = Some x -> value (S (2 * List.length l)) l = Some x) /\
  (forall l x, members f l = Some x -> members (S (2 * List.length l)) l = Some x) /\
  (forall l x, elements f l = Some x -> elements (S (S (2 * List.length l))) l = Some x).
Proof.
  induction f as [|f (IHv & IHm & IHe)]; [repeat split; discriminate|]. repeat split; intros l [v r] H.
  - apply value_inv in H. destruct H as (c & r0 & E0 & H). rewrite value_S, E0.
    pose proof (skip_ws_length l) as L0. rewrite E0 in L0. cbn [List.length] in L0.
    destruct H as [(-> & d & r1 & E1 & H) | [(-> & d & r1 & E1 & H) | [(-> & s & E & ->) | (N1 & N2 & N3 & E)]]].
    + rewrite E1. cbn. destruct H as [(-> & -> & ->) | (Nd & ms & E & ->)]; [reflexivity|].
      rewrite (proj2 (N.eqb_neq d 125) Nd). apply IHm in E.
      erewrite (proj1 (proj2 (more_fuel _)) _ _ E); [reflexivity | lia].
    + rewrite E1. cbn. destruct H as [(-> & -> & ->) | (Nd & ms & E & ->)]; [reflexivity|].
      rewrite (proj2 (N.eqb_neq d 93) Nd). apply IHe in E.
      erewrite (proj2 (proj2 (more_fuel _)) _ _ E); [reflexivity | lia].
    + cbn. now rewrite E.
    + now rewrite (proj2 (N.eqb_neq _ _) N1), (proj2 (N.eqb_neq _ _) N2), (proj2 (N.eqb_neq _ _) N3).
  - apply members_inv in H. destruct H as (r0 & k & r1 & r2 & x & r3 & e & r4 & E0 & E1 & E2 & E3 & E4 & H).
    rewrite members_S, E0. pose proof (chars_length _ _ _ E1) as L1.
    pose proof (skip_ws_length l) as L0. rewrite E0 in L0. cbn [List.length] in L0.
    pose proof (skip_ws_length r1) as L2. rewrite E2 in L2. pose proof (proj1 (shrink f) _ _ _ E3) as L3.
    pose proof (skip_ws_length r3) as L4. rewrite E4 in L4. cbn [List.length] in *.
    cbn. rewrite E1, E2. cbn. apply IHv in E3. erewrite (proj1 (more_fuel _) _ _ E3) by lia. rewrite E4.
    destruct H as [(-> & -> & ->) | (-> & ms' & E & ->)]; [reflexivity|]. cbn. apply IHm in E.
    erewrite (proj1 (proj2 (more_fuel _)) _ _ E); [reflexivity | lia].
  - apply elements_inv in H. destruct H as (x & r3 & e & r4 & E3 & E4 & H).
    pose proof (proj1 (shrink f) _ _ _ E3) as L3. pose proof (skip_ws_length r3) as L4. rewrite E4 in L4. cbn [List.length] in *.
    rewrite elements_S. apply IHv in E3. rewrite E3, E4. remember (S (2 * List.length l)) as g eqn:Eg.
    destruct H as [(-> & -> & ->) | (-> & ms' & E & ->)]; [reflexivity|]. cbn. apply IHe in E.
    erewrite (proj2 (proj2 (more_fuel _)) _ _ E); [reflexivity | lia].
Qed.

Lemma next_value_iff l x : next_value l = Some x <-> exists f, value f l = Some x.
Proof. unfold next_value. split; [eauto|]. intros (f & E). now apply (enough_fuel f). Qed.

(** ** Printing and reading back. *)
Lemma chars_escape s rest : printable s -> chars (jescape s ++ 34 :: rest) = Some (s, rest).
Proof.
  induction 1 as [|c s Hc Hs IH]; [reflexivity|].
  change (jescape (c :: s)) with (jescape_char c ++ jescape s). rewrite <- app_assoc. unfold jescape_char.
  destruct (N.eqb_spec c 8) as [-> | N1]; [cbn; now rewrite IH|].
  destruct (N.eqb_spec c 12) as [-> | N2]; [cbn; now rewrite IH|].
  destruct (N.eqb_spec c 10) as [-> | N3]; [cbn; now rewrite IH|].
  destruct (N.eqb_spec c 13) as [-> | N4]; [cbn; now rewrite IH|].
  destruct (N.eqb_spec c 9) as [-> | N5]; [cbn; now rewrite IH|].
  destruct (N.eqb_spec c 34) as [-> | N6]; [cbn; now rewrite IH|].
  destruct (N.eqb_spec c 92) as [-> | N7]; [cbn; now rewrite IH|].
  cbn [orb app chars]. rewrite (proj2 (N.eqb_neq _ _) N6), (proj2 (N.eqb_neq _ _) N7).
  destruct (N.ltb_spec c 32) as [L | _]; [|now rewrite IH].
  destruct Hc as [Hc | Hc]; [lia|]. cbn in Hc. exfalso. lia.
Qed.

Lemma escape_plain s : plain s -> jescape s = s.
Proof.
  induction 1 as [|c s (H1 & H2 & H3) Hs IH]; [reflexivity|].
  change (jescape (c :: s)) with (jescape_char c ++ jescape s). rewrite IH. unfold jescape_char.
  repeat match goal with |- context [c =? ?b] => destruct (N.eqb_spec c b); [exfalso; lia|] end. reflexivity.
Qed.
Lemma plain_printable s : plain s -> printable s.
Proof. apply Forall_impl. intros c (H & _). now left. Qed.

(** The text of a value, without white space. *)
Fixpoint show (v : json) : bytes :=
  match v with
  | JNull => B "null"
  | JBool b => if b then B "true" else B "false"
  | JNum n => n
  | JStr s => 34 :: jescape s ++ [34]
  | JArr l => 91 :: join 44 (map show l) ++ [93]
  | JObj l => 123 :: join 44 (map (fun kv => 34 :: jescape (fst kv) ++ 34 :: 58 :: show (snd kv)) l) ++ [125]
  end.
Fixpoint wf (v : json) : Prop :=
  match v with
  | JNull | JBool _ => True
  | JNum n => number_ok n = true /\ forallb in_number n = true
  | JStr s => printable s
  | JArr l => (fix all l := match l with [] => True | v :: r => wf v /\ all r end) l
  | JObj l => (fix all l := match l with [] => True | kv :: r => (printable (fst kv) /\ wf (snd kv)) /\ all r end) l
  end.
Definition stops (rest : bytes) : Prop := match rest with [] => True | c :: _ => in_number c = false end.

Lemma span_stops n rest : forallb in_number n = true -> stops rest -> span in_number (n ++ rest) = (n, rest).
Proof.
  induction n as [|c n IH]; intros W St.
  - cbn. destruct rest as [|c r]; [reflexivity|]. cbn in *. now rewrite St.
  - cbn in *. apply Bool.andb_true_iff in W as [W1 W2]. now rewrite W1, IH.
Qed.

Lemma stripped_number w l c r : l = c :: r -> in_number c = true -> (match w with a :: _ => in_number a | [] => true end) = false ->
  stripped w l = None.
Proof.
  intros -> Hc Hw. destruct w as [|a w]; [discriminate|]. cbn. destruct (N.eqb_spec a c) as [-> | _]; congruence.
Qed.

Lemma number_first n : number_ok n = true -> exists c r, n = c :: r /\ (c = 45 \/ is_dec c = true).
Proof.
  destruct n as [|c r]; [discriminate|]. intros H. exists c, r. split; [reflexivity|]. unfold number_ok in H.
  destruct (N.eqb_spec c 45) as [-> | _]; [auto|]. right. unfold int_ok in H.
  destruct (N.eqb_spec c 48) as [-> | _]; [reflexivity|]. now apply Bool.andb_true_iff in H as [H _].
Qed.

Lemma value_num n rest f : number_ok n = true -> forallb in_number n = true -> stops rest ->
  value (S f) (n ++ rest) = Some (JNum n, rest).
Proof.
  intros Hn W St. pose proof (number_first n Hn) as (c & r & E & Hc).
  assert (Ic : in_number c = true) by (subst n; cbn in W; now apply Bool.andb_true_iff in W).
  assert (Hw : is_ws c = false) by (apply in_number_tok in Ic; unfold tok_char in Ic; destruct (is_ws c); [discriminate | reflexivity]).
  rewrite value_S. assert (skip_ws (n ++ rest) = n ++ rest) as -> by (subst n; cbn; now rewrite Hw).
  assert (Ec : c <> 123 /\ c <> 91 /\ c <> 34).
  { destruct Hc as [-> | Hc]; [lia|]. unfold is_dec in Hc. apply Bool.andb_true_iff in Hc as [H1 H2].
    apply N.leb_le in H1, H2. lia. }
  destruct Ec as (N1 & N2 & N3).
  replace (n ++ rest) with (c :: r ++ rest) by (subst n; reflexivity).
  rewrite (proj2 (N.eqb_neq _ _) N1), (proj2 (N.eqb_neq _ _) N2), (proj2 (N.eqb_neq _ _) N3).
  replace (c :: r ++ rest) with (n ++ rest) by (subst n; reflexivity). unfold scalar.
  rewrite !(stripped_number _ (n ++ rest) c (r ++ rest)) by (subst n; try reflexivity; assumption).
  rewrite span_stops by assumption. now rewrite Hn.
Qed.

Lemma show_first v : wf v -> exists c r, show v = c :: r /\ is_ws c = false /\ c <> 125 /\ c <> 93.
Proof.
  destruct v as [| b | n | s | l | l]; cbn [show wf]; intros H.
  - exists 110, (B "ull"). repeat split; lia.
  - destruct b; [exists 116, (B "rue") | exists 102, (B "alse")]; repeat split; lia.
  - destruct H as (Hn & W). destruct (number_first n Hn) as (c & r & -> & Hc). exists c, r. split; [reflexivity|].
    cbn in W. apply Bool.andb_true_iff in W as [W _]. apply in_number_tok in W. unfold tok_char in W.
    destruct (is_ws c); [discriminate|]. cbn [existsb negb andb] in W.
    repeat split; intros ->; cbn in W; discriminate.
  - eexists _, _. split; [reflexivity|]. repeat split; lia.
  - eexists _, _. split; [reflexivity|]. repeat split; lia.
  - eexists _, _. split; [reflexivity|]. repeat split; lia.
Qed.

Definition member_text (kv : bytes * json) : bytes := 34 :: jescape (fst kv) ++ 34 :: 58 :: show (snd kv).

Lemma join_cons2 sep x y l : join sep (x :: y :: l) = x ++ sep :: join sep (y :: l).
Proof. reflexivity. Qed.

Lemma skip_first v rest : wf v -> skip_ws (show v ++ rest) = show v ++ rest.
Proof. intros W. destruct (show_first v W) as (c & r & -> & Hw & _). cbn. now rewrite Hw. Qed.

Lemma elements_show vs rest :
  vs <> [] -> (forall v, In v vs -> forall rest, stops rest -> exists f, value f (show v ++ rest) = Some (v, rest)) ->
  exists f, elements f (join 44 (map show vs) ++ 93 :: rest) = Some (vs, rest).
Proof.
  induction vs as [|v vs IH]; [easy|]. intros _ H. destruct vs as [|v' vs].
  - destruct (H v (or_introl eq_refl) (93 :: rest)) as (f & E); [reflexivity|].
    exists (S f). cbn [map join]. rewrite elements_S, E. reflexivity.
  - destruct IH as (f1 & E1); [discriminate | intros; apply H; [now right | assumption] |].
    cbn [map]. rewrite join_cons2, <- app_assoc. cbn [app map] in *.
    destruct (H v (or_introl eq_refl) (44 :: join 44 (show v' :: map show vs) ++ 93 :: rest)) as (f2 & E2); [reflexivity|].
    exists (S (f1 + f2)). rewrite elements_S. erewrite (proj1 (more_fuel _) _ _ E2) by lia.
    cbn [skip_ws is_ws]. cbn. erewrite (proj2 (proj2 (more_fuel _)) _ _ E1); [reflexivity | lia].
Qed.

Lemma members_show ms rest :
  ms <> [] ->
  (forall kv, In kv ms -> printable (fst kv) /\ forall rest, stops rest -> exists f, value f (show (snd kv) ++ rest) = Some (snd kv, rest)) ->
  exists f, members f (join 44 (map member_text ms) ++ 125 :: rest) = Some (ms, rest).
Proof.
  induction ms as [|[k v] ms IH]; [easy|]. intros _ H. destruct ms as [|kv' ms].
  - destruct (H (k, v) (or_introl eq_refl)) as (Pk & Hv). cbn [fst snd] in *.
    destruct (Hv (125 :: rest)) as (f & E); [reflexivity|].
    exists (S f). cbn [map join]. rewrite members_S. unfold member_text. cbn [fst snd app]. rewrite <- app_assoc.
    cbn [app skip_ws]. change (is_ws 34) with false. cbn [N.eqb Pos.eqb].
    change (if 34 =? 34 then ?a else ?b) with a. rewrite chars_escape by assumption. cbn. rewrite E. reflexivity.
  - destruct IH as (f1 & E1); [discriminate | intros; apply H; now right |].
    cbn [map]. rewrite join_cons2, <- app_assoc. cbn [app map] in *.
    destruct (H (k, v) (or_introl eq_refl)) as (Pk & Hv). cbn [fst snd] in *.
    destruct (Hv (44 :: join 44 (member_text kv' :: map member_text ms) ++ 125 :: rest)) as (f2 & E2); [reflexivity|].
    exists (S (f1 + f2)). rewrite members_S. unfold member_text at 1. cbn [fst snd app]. rewrite <- app_assoc.
    cbn [app skip_ws]. change (is_ws 34) with false. cbn [N.eqb Pos.eqb].
    change (if 34 =? 34 then ?a else ?b) with a. rewrite chars_escape by assumption.
    cbn [skip_ws]. change (is_ws 58) with false. cbn iota. change (58 =? 58) with true. cbn iota.
    erewrite (proj1 (more_fuel _) _ _ E2) by lia.
    cbn [skip_ws]. change (is_ws 44) with false. cbn iota. change (44 =? 125) with false. change (44 =? 44) with true. cbn iota.
    erewrite (proj1 (proj2 (more_fuel _)) _ _ E1); [reflexivity | lia].
Qed.

Lemma value_show v : wf v -> forall rest, stops rest -> exists f, value f (show v ++ rest) = Some (v, rest).
Proof.
  revert v. fix IH 1. intros v. destruct v as [| b | n | s | l | l]; intros W rest St.
  - exists 1%nat. reflexivity.
  - exists 1%nat. now destruct b.
  - exists 1%nat. destruct W. now apply value_num.
  - exists 1%nat. rewrite value_S. cbn [show app]. rewrite <- app_assoc. cbn [app skip_ws]. change (is_ws 34) with false. cbn iota.
    change (34 =? 123) with false. change (34 =? 91) with false. change (34 =? 34) with true. cbn iota.
    now rewrite chars_escape.
  - destruct l as [|v l]; [exists 1%nat; reflexivity|].
    assert (A : forall x, In x (v :: l) -> wf x /\ forall rest, stops rest -> exists f, value f (show x ++ rest) = Some (x, rest)).
    { clear rest St. cbn in W. destruct W as (W1 & W2). intros x [<- | Hx].
      - split; [assumption|]. apply IH. assumption.
      - revert x Hx W2. induction l as [|y l IHl]; intros x Hx W2; [easy|]. cbn in W2. destruct W2 as (Wy & W2).
        destruct Hx as [<- | Hx]; [split; [assumption|]; apply IH; assumption|]. now apply IHl. }
    destruct (elements_show (v :: l) rest) as (f & E); [discriminate | intros; now apply A |].
    exists (S f). rewrite value_S. cbn [show]. cbn [app]. rewrite <- app_assoc. cbn [app].
    cbn [skip_ws]. change (is_ws 91) with false. cbn iota. change (91 =? 123) with false. change (91 =? 91) with true. cbn iota.
    destruct (show_first v) as (c & r & Ec & Hw & Nc1 & Nc2); [now apply A; left|].
    assert (Es : exists r', skip_ws (join 44 (map show (v :: l)) ++ 93 :: rest) = c :: r').
    { cbn [map]. destruct l; cbn [map join]; rewrite Ec; cbn; rewrite Hw; eauto. }
    destruct Es as (r' & ->). rewrite (proj2 (N.eqb_neq _ _) Nc2). now rewrite E.
  - destruct l as [|kv l]; [exists 1%nat; reflexivity|].
    assert (A : forall x, In x (kv :: l) -> printable (fst x) /\ forall rest, stops rest -> exists f, value f (show (snd x) ++ rest) = Some (snd x, rest)).
    { clear rest St. cbn in W. destruct W as ((W0 & W1) & W2). intros x [<- | Hx].
      - split; [assumption|]. destruct kv as [k v]. cbn in *. apply IH. assumption.
      - revert x Hx W2. induction l as [|[k y] l IHl]; intros x Hx W2; [easy|]. cbn in W2. destruct W2 as ((Wk & Wy) & W2).
        destruct Hx as [<- | Hx]; [split; [assumption|]; cbn; apply IH; assumption|]. now apply IHl. }
    destruct (members_show (kv :: l) rest) as (f & E); [discriminate | exact A |].
    exists (S f). rewrite value_S. cbn [show]. cbn [app]. rewrite <- app_assoc. cbn [app].
    cbn [skip_ws]. change (is_ws 123) with false. cbn iota. change (123 =? 123) with true. cbn iota.
    change (map (fun kv0 : bytes * json => 34 :: jescape (fst kv0) ++ 34 :: 58 :: show (snd kv0)) (kv :: l)) with (map member_text (kv :: l)).
    assert (Es : exists r', skip_ws (join 44 (map member_text (kv :: l)) ++ 125 :: rest) = 34 :: r').
    { cbn [map]. destruct l; cbn [map join]; unfold member_text; cbn; eauto. }
    destruct Es as (r' & ->). change (34 =? 125) with false. cbn iota. now rewrite E.
Qed.

Lemma next_value_show v rest : wf v -> stops rest -> next_value (show v ++ rest) = Some (v, rest).
Proof. intros W St. apply next_value_iff. now apply value_show. Qed.

Lemma json_of_show v : wf v -> json_of (show v) = Some v.
Proof.
  intros W. unfold json_of. rewrite <- (app_nil_r (show v)), next_value_show; [reflexivity | assumption | exact I].
Qed.
