(** * Lemmas: unsynchronisation. *)
From Verif Require Import Base M_Unsync S_Unsync.

(** ** The decoder as a plain recursion *)
Fixpoint strip (l : bytes) : bytes :=
  match l with
  | [] => []
  | b :: r =>
      if b =? 255 then
        match r with
        | [] => [255]
        | q :: r' => if q =? 0 then 255 :: strip r' else 255 :: strip r
        end
      else b :: strip r
  end.

Fixpoint split_ff00 (l : bytes) : option (bytes * bytes) :=
  match l with
  | [] => None
  | b :: r =>
      match r with
      | q :: r' =>
          if (b =? 255) && (q =? 0) then Some ([], r')
          else match split_ff00 r with
               | Some (s, t) => Some (b :: s, t)
               | None => None
               end
      | [] => None
      end
  end.

Lemma split_ff00_cons2 b q r :
  split_ff00 (b :: q :: r) =
  if (b =? 255) && (q =? 0) then Some ([], r)
  else match split_ff00 (q :: r) with
       | Some (s, t) => Some (b :: s, t)
       | None => None
       end.
Proof. reflexivity. Qed.

Lemma strip_split l :
  strip l = match split_ff00 l with
            | None => l
            | Some (s, t) => s ++ 255 :: strip t
            end.
Proof.
  induction l as [|b r IH]; [reflexivity|].
  cbn [strip split_ff00]. destruct r as [|q r'].
  - destruct (N.eqb_spec b 255); subst; reflexivity.
  - destruct (N.eqb_spec b 255) as [->|Hb]; cbn [andb].
    + destruct (N.eqb_spec q 0) as [->|Hq]; [reflexivity|].
      rewrite IH. destruct (split_ff00 (q :: r')) as [[s t]|]; reflexivity.
    + rewrite IH. destruct (split_ff00 (q :: r')) as [[s t]|]; reflexivity.
Qed.

Lemma split_ff00_eq l s t : split_ff00 l = Some (s, t) -> l = s ++ 255 :: 0 :: t.
Proof.
  revert s t. induction l as [|b r IH]; intros s t; [discriminate|].
  cbn [split_ff00]. destruct r as [|q r']; [discriminate|].
  destruct (N.eqb_spec b 255) as [->|Hb]; cbn [andb].
  - destruct (N.eqb_spec q 0) as [->|Hq].
    + intros [= <- <-]. reflexivity.
    + destruct (split_ff00 (q :: r')) as [[s' t']|]; [|discriminate].
      intros [= <- <-]. rewrite (IH s' t' eq_refl). reflexivity.
  - destruct (split_ff00 (q :: r')) as [[s' t']|]; [|discriminate].
    intros [= <- <-]. rewrite (IH s' t' eq_refl). reflexivity.
Qed.

(** ** The indexed code computes [strip] *)
Lemma nth_skipn_cons (p : bytes) i b r :
  skipn i p = b :: r -> nth i p 0 = b /\ skipn (S i) p = r.
Proof.
  revert p. induction i as [|i IH]; intros p H; destruct p as [|x p]; simpl in *;
    try discriminate.
  - injection H as -> ->. auto.
  - destruct (IH p H) as [H1 H2]. auto.
Qed.

Lemma rs_search_spec fuel p i :
  (length p - i <= fuel)%nat -> (i <= length p)%nat ->
  rs_search fuel p (length p) i =
  match split_ff00 (skipn i p) with
  | Some (s, _) => (i + length s)%nat
  | None => if Nat.ltb i (length p) then (length p - 1)%nat else i
  end.
Proof.
  revert i. induction fuel as [|f IH]; intros i Hf Hi.
  - assert (i = length p) as -> by lia. rewrite skipn_all. simpl.
    now rewrite Nat.ltb_irrefl.
  - cbn [rs_search]. destruct (Nat.ltb_spec i (length p - 1)) as [Hlt|Hge].
    + destruct (skipn i p) as [|b r] eqn:E.
      { apply (f_equal (@length N)) in E. rewrite skipn_length in E. simpl in E. lia. }
      destruct (nth_skipn_cons p i b r E) as [Hb Hr].
      destruct r as [|q r'].
      { apply (f_equal (@length N)) in E. rewrite skipn_length in E. simpl in E. lia. }
      destruct (nth_skipn_cons p (S i) q r' Hr) as [Hq _].
      rewrite Hb, Hq, split_ff00_cons2.
      rewrite (N.eqb_sym 255 b), (N.eqb_sym 0 q).
      destruct ((b =? 255) && (q =? 0)) eqn:Eff; [simpl; lia|].
      rewrite IH by lia. rewrite Hr.
      destruct (split_ff00 (q :: r')) as [[s t]|]; [simpl; lia|].
      replace (Nat.ltb (S i) (length p)) with true by lia.
      now replace (Nat.ltb i (length p)) with true by lia.
    + assert (split_ff00 (skipn i p) = None) as ->.
      { destruct (skipn i p) as [|b [|q r]] eqn:E; [reflexivity|reflexivity|].
        apply (f_equal (@length N)) in E. rewrite skipn_length in E. simpl in E. lia. }
      destruct (Nat.ltb_spec i (length p)); lia.
Qed.

Lemma store_length p i v : length (store p i v) = length p.
Proof. revert i. induction p; destruct i; simpl; auto. Qed.

Lemma store_skipn p i v j : (i < j)%nat -> skipn j (store p i v) = skipn j p.
Proof.
  revert i j. induction p as [|x p IH]; intros [|i] [|j] H; simpl; try lia; auto.
  apply IH. lia.
Qed.

Lemma store_firstn p i v : (i < length p)%nat ->
  firstn (S i) (store p i v) = firstn i p ++ [v].
Proof.
  revert i. induction p as [|x p IH]; intros [|i] H; simpl in *; try lia; auto.
  f_equal. rewrite <- IH by lia. reflexivity.
Qed.

Lemma rs_move_spec n p from k :
  (1 <= k <= from)%nat -> (from + n <= length p)%nat ->
  length (rs_move n p from k) = length p /\
  skipn (from + n) (rs_move n p from k) = skipn (from + n) p /\
  firstn (from - k + n) (rs_move n p from k) =
    firstn (from - k) p ++ firstn n (skipn from p).
Proof.
  revert p from. induction n as [|m IH]; intros p from Hk Hn.
  - simpl. rewrite !Nat.add_0_r, app_nil_r. auto.
  - cbn [rs_move].
    set (p1 := store p (from - k) (nth from p 0)).
    assert (Hl : length p1 = length p) by apply store_length.
    destruct (IH p1 (S from)) as (H1 & H2 & H3); [lia|lia|].
    replace (from + S m)%nat with (S from + m)%nat by lia.
    replace (from - k + S m)%nat with (S from - k + m)%nat by lia.
    split; [congruence|]. split.
    + rewrite H2. apply store_skipn. lia.
    + rewrite H3. replace (S from - k)%nat with (S (from - k)) by lia.
      unfold p1. rewrite store_firstn by lia.
      rewrite store_skipn by lia.
      destruct (skipn from p) as [|b r] eqn:E.
      { apply (f_equal (@length N)) in E. rewrite skipn_length in E. simpl in E. lia. }
      destruct (nth_skipn_cons p from b r E) as [-> ->].
      rewrite <- app_assoc. reflexivity.
Qed.

Lemma rs_loop_spec fuel p i0 k :
  (1 <= k <= i0)%nat -> (i0 < length p)%nat -> (length p - i0 <= fuel)%nat ->
  let (p', k') := rs_loop fuel p (length p) i0 k in
  firstn (length p - k') p' = firstn (S i0 - k) p ++ strip (skipn (S i0) p).
Proof.
  revert p i0 k. induction fuel as [|f IH]; intros p i0 k Hk Hi Hf; [lia|].
  cbn [rs_loop]. replace (Nat.ltb i0 (length p)) with true by lia.
  rewrite rs_search_spec by lia. rewrite strip_split.
  destruct (split_ff00 (skipn (S i0) p)) as [[s t]|] eqn:E.
  - pose proof (split_ff00_eq _ _ _ E) as Heq.
    assert (Hlen : (length s + 2 + length t = length p - S i0)%nat).
    { apply (f_equal (@length N)) in Heq. rewrite skipn_length, app_length in Heq.
      simpl in Heq. lia. }
    replace (Nat.ltb (S i0 + length s) (length p)) with true by lia.
    replace (Nat.eqb (S (S i0 + length s)) (length p)) with false by lia.
    replace (S (S i0 + length s) - S i0)%nat with (S (length s)) by lia.
    set (p' := rs_move (S (length s)) p (S i0) k).
    destruct (rs_move_spec (S (length s)) p (S i0) k) as (H1 & H2 & H3); [lia|lia|].
    fold p' in H1, H2, H3.
    specialize (IH p' (S (S i0 + length s))%nat (S k)).
    rewrite H1 in IH.
    destruct (rs_loop f p' (length p) (S (S i0 + length s)) (S k)) as [q k'].
    rewrite IH by lia.
    replace (S (S (S i0 + length s)) - S k)%nat with (S i0 - k + S (length s))%nat by lia.
    rewrite H3.
    replace (S (S (S i0 + length s)))%nat with ((S i0 + S (length s)) + 1)%nat by lia.
    rewrite <- app_assoc. f_equal.
    rewrite Heq.
    replace (firstn (S (length s)) (s ++ 255 :: 0 :: t)) with (s ++ [255]).
    2:{ rewrite firstn_app. replace (S (length s) - length s)%nat with 1%nat by lia.
        rewrite firstn_all2 by lia. reflexivity. }
    rewrite <- app_assoc. f_equal. cbn [app]. f_equal. f_equal.
    rewrite (Nat.add_comm _ 1).
    assert (Hsk : forall a b (l : bytes), skipn (a + b) l = skipn a (skipn b l)).
    { intros a b l. revert a l. induction b as [|b IHb]; intros a l.
      - now rewrite Nat.add_0_r.
      - rewrite Nat.add_succ_r. destruct l; simpl; [now rewrite skipn_nil|apply IHb]. }
    rewrite Hsk, H2. rewrite (Nat.add_comm (S i0)), Hsk, Heq.
    replace (S (length s)) with (1 + length s)%nat by lia. rewrite Hsk.
    rewrite skipn_app, skipn_all, Nat.sub_diag. reflexivity.
  - assert (Hi1 : (if Nat.ltb (S i0) (length p) then (length p - 1)%nat else S i0) =
                  if Nat.ltb (S i0) (length p) then (length p - 1)%nat else length p).
    { destruct (Nat.ltb_spec (S i0) (length p)); lia. }
    rewrite Hi1.
    assert (Hi2 : (if Nat.ltb (if Nat.ltb (S i0) (length p) then (length p - 1)%nat else length p) (length p)
                  then S (if Nat.ltb (S i0) (length p) then (length p - 1)%nat else length p)
                  else (if Nat.ltb (S i0) (length p) then (length p - 1)%nat else length p)) = length p).
    { destruct (Nat.ltb_spec (S i0) (length p)).
      - replace (Nat.ltb (length p - 1) (length p)) with true by lia. lia.
      - now rewrite Nat.ltb_irrefl. }
    rewrite Hi2, Nat.eqb_refl.
    destruct (rs_move_spec (length p - S i0) p (S i0) k) as (H1 & H2 & H3); [lia|lia|].
    replace (length p - k)%nat with (S i0 - k + (length p - S i0))%nat by lia.
    rewrite H3. f_equal. apply firstn_all2. rewrite skipn_length. lia.
Qed.

Lemma resynchronise_strip p : resynchronise p = strip p.
Proof.
  unfold resynchronise. destruct p as [|x p0]; [reflexivity|].
  set (p := x :: p0). change (Nat.eqb (length p) 0) with false. cbv iota.
  rewrite rs_search_spec by lia. cbn [skipn]. rewrite strip_split.
  destruct (split_ff00 p) as [[s t]|] eqn:E.
  - pose proof (split_ff00_eq _ _ _ E) as Heq.
    assert (Hlen : (length p = length s + 2 + length t)%nat).
    { rewrite Heq, app_length. simpl. lia. }
    replace (Nat.eqb (S (0 + length s)) (length p)) with false by lia.
    pose proof (rs_loop_spec (length p) p (S (0 + length s)) 1) as H.
    destruct (rs_loop (length p) p (length p) (S (0 + length s)) 1) as [p' k'].
    rewrite H by lia. rewrite Heq.
    replace (S (S (0 + length s)) - 1)%nat with (length (s ++ [255])) by (rewrite app_length; simpl; lia).
    replace (S (S (0 + length s)))%nat with (length (s ++ [255; 0])) by (rewrite app_length; simpl; lia).
    change (s ++ 255 :: 0 :: t) with (s ++ [255] ++ 0 :: t) at 1. rewrite app_assoc.
    rewrite firstn_app, firstn_all, Nat.sub_diag. simpl firstn. rewrite app_nil_r.
    change (s ++ 255 :: 0 :: t) with (s ++ [255;0] ++ t). rewrite (app_assoc s [255;0]).
    rewrite skipn_app, skipn_all, Nat.sub_diag. simpl. now rewrite <- app_assoc.
  - replace (Nat.ltb 0 (length p)) with true by (unfold p; simpl; lia).
    replace (Nat.eqb (S (length p - 1)) (length p)) with true by (unfold p; simpl; lia).
    reflexivity.
Qed.

(** ** [strip] is the specified decoder *)
Lemma desync_strip l : desync l (strip l).
Proof.
  remember (length l) as n eqn:Hn. assert (Hle : (length l <= n)%nat) by lia. clear Hn.
  revert l Hle. induction n as [|n IH]; intros l Hle.
  - destruct l; [constructor|simpl in Hle; lia].
  - destruct l as [|b r]; [constructor|]. cbn [strip]. simpl in Hle.
    destruct (N.eqb_spec b 255) as [->|Hb].
    + destruct r as [|q r'].
      * apply (desync_other 255 [] []); [right; discriminate|constructor].
      * destruct (N.eqb_spec q 0) as [->|Hq].
        -- constructor. apply IH. simpl in Hle. lia.
        -- constructor; [right; simpl; congruence|]. apply IH. lia.
    + constructor; [now left|]. apply IH. lia.
Qed.

Lemma desync_fun l m : desync l m -> m = strip l.
Proof.
  induction 1 as [|l m H IH|b l m Hc H IH].
  - reflexivity.
  - simpl. now f_equal.
  - cbn [strip]. destruct (N.eqb_spec b 255) as [->|Hb].
    + destruct l as [|q l']; [inversion H; reflexivity|].
      destruct (N.eqb_spec q 0) as [->|Hq].
      * destruct Hc as [Hc|Hc]; [congruence|]. now elim Hc.
      * now f_equal.
    + now f_equal.
Qed.

Lemma resynchronise_desync p m : desync p m <-> resynchronise p = m.
Proof.
  rewrite resynchronise_strip. split.
  - intros H. symmetry. now apply desync_fun.
  - intros <-. apply desync_strip.
Qed.

Lemma strip_length l : (length (strip l) <= length l)%nat.
Proof.
  remember (length l) as n eqn:Hn.
  assert (Hle : (length l <= n)%nat) by lia. rewrite Hn. clear Hn.
  revert l Hle. induction n as [|n IH]; intros l Hle.
  - destruct l; simpl in *; lia.
  - destruct l as [|b r]; [simpl; lia|]. cbn [strip]. simpl in Hle.
    destruct (b =? 255).
    + destruct r as [|q r']; [simpl; lia|]. destruct (q =? 0).
      * simpl in *. pose proof (IH r'). lia.
      * pose proof (IH (q :: r')). simpl in *. lia.
    + pose proof (IH r). simpl. lia.
Qed.

(** ** The encoder *)
Lemma land224_ge q : q < 256 -> (N.land q 224 =? 224) = (224 <=? q).
Proof.
  intros H. apply (byte_sweep (fun q => Bool.eqb (N.land q 224 =? 224) (224 <=? q))) in H.
  - now apply eqb_prop.
  - vm_compute. reflexivity.
Qed.

Lemma unsync_ff_cons q r last :
  unsynchronise (255 :: q :: r) last =
  if (q =? 0) || (N.land q 224 =? 224)
  then 255 :: 0 :: unsynchronise (q :: r) last
  else 255 :: unsynchronise (q :: r) last.
Proof. reflexivity. Qed.

Lemma unsync_cons_ne b r last : b <> 255 ->
  unsynchronise (b :: r) last = b :: unsynchronise r last.
Proof. intros H. cbn [unsynchronise]. now replace (b =? 255) with false by lia. Qed.

Lemma unsynchronise_hd l last : hd_error (unsynchronise l last) = hd_error l.
Proof.
  destruct l as [|b r]; [reflexivity|]. cbn [unsynchronise].
  destruct (N.eqb_spec b 255) as [->|Hb]; [|reflexivity].
  destruct r as [|q r']; [destruct last; reflexivity|].
  destruct ((q =? 0) || (N.land q 224 =? 224)); reflexivity.
Qed.

(** Decoding inverts encoding, whatever follows, provided that what follows does
    not start with a zero byte when the data ends in an unprotected ff. *)
Lemma strip_unsynchronise l last :
  strip (unsynchronise l last) = l.
Proof.
  induction l as [|b r IH]; [reflexivity|].
  cbn [unsynchronise]. destruct (N.eqb_spec b 255) as [->|Hb].
  - destruct r as [|q r']; [destruct last; reflexivity|].
    destruct ((q =? 0) || (N.land q 224 =? 224)) eqn:E.
    + cbn [strip]. change (255 =? 255) with true. change (0 =? 0) with true. cbv iota.
      now rewrite IH.
    + pose proof (unsynchronise_hd (q :: r') last) as Hh.
      destruct (unsynchronise (q :: r') last) as [|q' t] eqn:Eu; [discriminate|].
      simpl in Hh. injection Hh as ->.
      cbn [strip]. change (255 =? 255) with true. cbv iota.
      destruct (N.eqb_spec q 0); [subst; discriminate|]. now rewrite <- IH.
  - cbn [strip]. replace (b =? 255) with false by lia. now rewrite IH.
Qed.

Lemma resync_unsync l last : resynchronise (unsynchronise l last) = l.
Proof. rewrite resynchronise_strip. apply strip_unsynchronise. Qed.

Lemma unsync_no_false_sync l last i : is_bytes l ->
  ~ false_sync_at (unsynchronise l last) i.
Proof.
  intros Hl. revert i. induction l as [|b r IH]; intros i [H1 [c [H2 H3]]].
  - destruct i; discriminate.
  - apply Forall_cons_iff in Hl as [Hb Hr]. specialize (IH Hr). cbn [unsynchronise] in *.
    destruct (N.eqb_spec b 255) as [->|Hb'].
    + destruct r as [|q r'].
      * destruct last, i as [|[|[|i]]]; simpl in *; try discriminate; injection H2 as <-; lia.
      * destruct ((q =? 0) || (N.land q 224 =? 224)) eqn:E.
        -- destruct i as [|[|i]].
           ++ simpl in H2. injection H2 as <-. lia.
           ++ simpl in H1. discriminate.
           ++ apply (IH i). split; [exact H1|]. exists c. auto.
        -- destruct i as [|i].
           ++ pose proof (unsynchronise_hd (q :: r') last) as Hh.
              change (nth_error (unsynchronise (q :: r') last) 0 = Some c) in H2.
              destruct (unsynchronise (q :: r') last) as [|q' t]; [discriminate|].
              simpl in H2, Hh. injection H2 as ->. injection Hh as ->.
              apply orb_false_iff in E as [_ E].
              rewrite land224_ge in E by (inversion Hr; auto). lia.
           ++ apply (IH i). split; [exact H1|]. exists c. auto.
    + destruct i as [|i].
      * simpl in H1. injection H1 as ->. lia.
      * apply (IH i). split; [exact H1|]. exists c. auto.
Qed.

Lemma unsync_bytes l last : is_bytes l -> is_bytes (unsynchronise l last).
Proof.
  intros Hl. induction l as [|b r IH]; [constructor|].
  apply Forall_cons_iff in Hl as [Hb Hr]. cbn [unsynchronise].
  destruct (b =? 255).
  - destruct r as [|q r'].
    + destruct last; repeat constructor; unfold is_byte; lia.
    + destruct ((q =? 0) || (N.land q 224 =? 224));
        (constructor; [unfold is_byte; lia|]); [|apply IH, Hr].
      constructor; [unfold is_byte; lia|apply IH, Hr].
  - constructor; [exact Hb|apply IH, Hr].
Qed.

Lemma unsync_last_not_ff l : last (unsynchronise l true) 0 <> 255.
Proof.
  induction l as [|b r IH]; [simpl; lia|].
  assert (Hc : forall x (t : bytes), x <> 255 \/ t <> [] -> last t 0 <> 255 -> last (x :: t) 0 <> 255).
  { intros x t H Ht. destruct t; simpl in *; [destruct H; congruence|exact Ht]. }
  cbn [unsynchronise]. destruct (N.eqb_spec b 255) as [->|Hb].
  - destruct r as [|q r']; [simpl; lia|].
    assert (Hne : unsynchronise (q :: r') true <> []).
    { intros E. pose proof (unsynchronise_hd (q :: r') true) as Hh. rewrite E in Hh. discriminate. }
    destruct ((q =? 0) || (N.land q 224 =? 224)).
    + apply Hc; [right; discriminate|]. apply Hc; auto.
    + apply Hc; auto.
  - apply Hc; auto.
Qed.

Lemma unsync_length l last : is_bytes l ->
  length (unsynchronise l last) =
  (length l + length (filter (needs_protection l last) (seq 0 (length l))))%nat.
Proof.
  intros Hl. induction l as [|b r IH]; [reflexivity|].
  apply Forall_cons_iff in Hl as [Hb Hr]. specialize (IH Hr).
  assert (Hshift : length (filter (needs_protection (b :: r) last) (seq 1 (length r))) =
                   length (filter (needs_protection r last) (seq 0 (length r)))).
  { rewrite <- seq_shift. generalize (seq 0 (length r)). intros s.
    induction s as [|i s IHs]; [reflexivity|]. simpl.
    change (needs_protection (b :: r) last (S i)) with (needs_protection r last i).
    destruct (needs_protection r last i); simpl; congruence. }
  assert (Hf : length (filter (needs_protection (b :: r) last) (seq 0 (length (b :: r)))) =
    ((if needs_protection (b :: r) last 0 then 1 else 0) +
     length (filter (needs_protection r last) (seq 0 (length r))))%nat).
  { rewrite <- Hshift. cbn [length]. change (seq 0 (S (length r))) with (0%nat :: seq 1 (length r)).
    cbn [filter]. destruct (needs_protection (b :: r) last 0); reflexivity. }
  rewrite Hf. clear Hf Hshift.
  destruct (N.eqb_spec b 255) as [->|Hb'].
  - destruct r as [|q r'].
    + unfold needs_protection. simpl. destruct last; reflexivity.
    + rewrite unsync_ff_cons.
      unfold needs_protection at 1. cbn [nth_error].
      rewrite (land224_ge q) by (inversion Hr; auto).
      destruct ((q =? 0) || (224 <=? q)) eqn:E;
        cbn [length]; cbn [length] in IH; unfold bytes in *; rewrite IH; lia.
  - rewrite unsync_cons_ne by assumption.
    replace (needs_protection (b :: r) last 0) with false.
    + cbn [length]. rewrite IH. lia.
    + unfold needs_protection. simpl. destruct b as [|p]; [reflexivity|].
      repeat (destruct p as [p|p|]; try reflexivity). now elim Hb'.
Qed.

(** ** The deciding predicate *)
Lemma count_syncs_0 l : is_bytes l ->
  (forall i q, nth_error l i = Some 255 -> nth_error l (S i) = Some q -> ~ (224 <= q <= 233)) ->
  (count_syncs l false = 0 <-> unsynchronise l false = l).
Proof.
  intros Hl Hno. induction l as [|b r IH]; [split; reflexivity|].
  apply Forall_cons_iff in Hl as [Hb Hr].
  assert (IH' := IH Hr (fun i q => Hno (S i) q)). clear IH.
  destruct r as [|q r'].
  - simpl. destruct (N.eqb_spec b 255); subst; split; reflexivity.
  - change (count_syncs (b :: q :: r') false) with
      ((if needs_unsync b q then 1 else 0) + count_syncs (q :: r') false).
    unfold needs_unsync.
    destruct (N.eqb_spec 255 b) as [<-|Hb']; cbn [andb].
    + rewrite unsync_ff_cons.
      rewrite (land224_ge q) by (inversion Hr; auto).
      assert (Hq : ~ (224 <= q <= 233)) by (apply (Hno O q); reflexivity).
      replace ((q =? 0) || (224 <=? q)) with ((233 <? q) || (0 =? q)) by lia.
      destruct ((233 <? q) || (0 =? q)) eqn:E.
      * split; intros H; [lia|]. injection H as H1 H2.
        exfalso.
        apply (f_equal (@length N)) in H2. pose proof (unsync_length (q :: r') false Hr).
        simpl in H2, H. unfold bytes in *. lia.
      * rewrite N.add_0_l, IH'. split; intros H; [now rewrite H|].
        injection H as H. exact H.
    + rewrite unsync_cons_ne by congruence.
      rewrite N.add_0_l, IH'. split; intros H; [now rewrite H|].
      injection H as H. exact H.
Qed.

Lemma resynchronise_length l : (length (resynchronise l) <= length l)%nat.
Proof. rewrite resynchronise_strip. apply strip_length. Qed.

Lemma count_syncs_refuted : exists l : bytes, is_bytes l /\
  count_syncs l false = 0 /\ unsynchronise l false <> l.
Proof.
  exists [255; 224]. split; [repeat constructor|]. split; [reflexivity|discriminate].
Qed.

Lemma false_sync_disagreement x y : x < 256 -> y < 256 ->
  (is_false_sync x y = true <-> x = 255 /\ 224 <= y) <-> ~ (x = 255 /\ 224 <= y <= 233).
Proof. unfold is_false_sync. lia. Qed.
