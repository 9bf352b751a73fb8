(** * Lemmas: processing tagsets. *)
From Verif Require Import Base M_Stream M_Id3v1 M_Payload M_Frame M_Tag22 M_Tag23 M_Tag24 M_Read S_Read M_Fs M_Tagset S_Tagset M_Process S_Process L_Fs L_Id3v1c L_Tagset5 L_Tagset6 L_Tagset8.
From Coq Require Import Sorting.Sorted.

Section Process.
  Context (c : command).

  (** The outcome of going over the tags with_index [l], those of which [sel] holds
      being processed. *)
  Definition swept (sel : N -> bool) (l : list (N * anytag)) (s : list call) : list anytag * bool * list call :=
    (map (fun it => if sel (fst it) then snd (does_v2 c (snd it)) else snd it) l,
     existsb (fun it => fst (does_v2 c (snd it))) (filter (fun it => sel (fst it)) l),
     s ++ map (fun it => ProcessV2 (snd it)) (filter (fun it => sel (fst it)) l)).

  Lemma swept_nil sel s : swept sel [] s = ([], false, s).
  Proof. unfold swept. cbn. now rewrite app_nil_r. Qed.

  (** The indices left are those still to come that are wanted, in order, or
      beyond. *)
  Lemma process_tags_eq (sel : N -> bool) v2 : forall i tags s,
    StronglySorted N.lt tags -> Forall (fun x => i <= x) tags ->
    (v2 = [] \/ exists x, In x tags /\ i + len v2 <= x + 1) ->
    (forall j, i <= j < i + len v2 -> (sel j = true <-> In j tags)) ->
    process_tags (logged c) i tags v2 s = Ok (swept sel (combine (iota (List.length v2) i) v2) s).
  Proof.
    induction v2 as [|t r IH]; intros i tags s HS HF HL HI.
    - cbn [process_tags List.length iota combine]. now rewrite swept_nil.
    - destruct HL as [HL|(x0 & Hx0 & HL)]; [discriminate|]. rewrite len_cons in HL.
      destruct tags as [|x rest]; [elim Hx0|]. cbn [process_tags List.length iota combine].
      inversion HS as [|? ? HS' HF']; subst. inversion HF as [|? ? Hix HFi]; subst. rewrite len_cons in HI.
      destruct (N.eqb_spec x i) as [->|NE].
      + assert (Si : sel i = true) by (apply HI; [lia|now left]).
        cbn [logged process_v2 bind]. destruct (does_v2 c t) as [upd t'] eqn:ED. cbn [bind].
        rewrite (IH (i + 1) rest (s ++ [ProcessV2 t]) HS').
        * cbn [bind]. unfold swept. cbn [map filter existsb fst snd]. rewrite Si. cbn [map existsb fst snd]. rewrite ED. cbn [fst snd].
          rewrite <- app_assoc. reflexivity.
        * eapply Forall_impl; [|exact HF']. intros; lia.
        * destruct r as [|t2 r2]; [left; reflexivity|]. right. exists x0. destruct Hx0 as [<-|Hx0].
          -- rewrite len_cons in HL. lia.
          -- split; [exact Hx0|]. lia.
        * intros j Hj. rewrite HI by lia. cbn [In]. split; [intros [E|E]; [lia|exact E]|auto].
      + assert (Si : sel i = false).
        { destruct (sel i) eqn:E; [|reflexivity]. apply HI in E; [|lia]. destruct E as [E|E]; [congruence|].
          rewrite Forall_forall in HF'. specialize (HF' _ E). lia. }
        rewrite (IH (i + 1) (x :: rest) s HS).
        * cbn [bind]. unfold swept. cbn [map filter existsb fst snd]. rewrite Si. reflexivity.
        * constructor; [lia|]. eapply Forall_impl; [|exact HF']. cbn. intros; lia.
        * right. exists x0. split; [exact Hx0|]. lia.
        * intros j Hj. apply HI. lia.
  Qed.

  Lemma iota_sorted n : forall i, StronglySorted N.lt (iota n i) /\ Forall (fun x => i <= x) (iota n i) /\
    (forall j, In j (iota n i) <-> i <= j < i + N.of_nat n).
  Proof.
    induction n as [|n IH]; intros i; cbn [iota].
    - split; [constructor|]. split; [constructor|]. cbn. intros j. lia.
    - destruct (IH (i + 1)) as (A & C & D). split; [|split].
      + constructor; [exact A|]. eapply Forall_impl; [|exact C]. cbn. intros; lia.
      + constructor; [lia|]. eapply Forall_impl; [|exact C]. cbn. intros; lia.
      + intros j. cbn [In]. rewrite D. lia.
  Qed.

  Lemma process_all v2 s : process_tags (logged c) 0 (iota (List.length v2) 0) v2 s = Ok (swept (fun _ => true) (with_index v2) s).
  Proof.
    destruct (iota_sorted (List.length v2) 0) as (A & C & D). apply process_tags_eq; auto.
    - destruct v2 as [|t r]; [left; reflexivity|]. right. exists (len (t :: r) - 1). rewrite D. rewrite len_cons. unfold len. cbn [List.length]. lia.
    - intros j Hj. rewrite D. unfold len in Hj. intuition lia.
  Qed.
  Lemma process_none v2 s : swept (fun _ => false) (with_index v2) s = (v2, false, s).
  Proof.
    unfold swept. assert (F : forall l : list (N * anytag), filter (fun _ => false) l = []) by (induction l; auto).
    rewrite F. cbn. rewrite app_nil_r. f_equal. f_equal. unfold with_index.
    generalize 0. induction v2 as [|t r IH]; intros i; [reflexivity|]. cbn. now rewrite IH.
  Qed.
  Lemma process_some idx v2 s : v2 <> [] -> StronglySorted N.lt idx -> (exists x, In x idx /\ len v2 <= x + 1) ->
    process_tags (logged c) 0 idx v2 s = Ok (swept (fun i => existsb (N.eqb i) idx) (with_index v2) s).
  Proof.
    intros HN HS HL. apply process_tags_eq; auto.
    - apply Forall_forall. intros; lia.
    - intros j _. rewrite existsb_exists. split; [intros (x & Hx & E); apply N.eqb_eq in E; now subst|].
      intros H. exists j. split; [exact H|apply N.eqb_refl].
  Qed.

  (** ** The tagset *)
  Lemma existsb_calls (l : list (N * anytag)) :
    existsb (fun x => match x with ProcessV2 t => fst (does_v2 c t) | ProcessV1 t => fst (does_v1 c t) | _ => true end)
      (map (fun it => ProcessV2 (snd it)) l) = existsb (fun it => fst (does_v2 c (snd it))) l.
  Proof. induction l as [|x l IH]; [reflexivity|]. cbn. now rewrite IH. Qed.

  Lemma numbered_nil (l : list anytag) : l <> [] -> with_index l <> [].
  Proof. destruct l; [congruence|]. discriminate. Qed.

  Lemma process_tagset_eq p v2 v1 :
    match p_v2_scope p with
    | TagsSome idx => v2 <> [] -> StronglySorted N.lt idx /\ exists x, In x idx /\ len v2 <= x + 1
    | _ => True
    end ->
    process_tagset (logged c) p v2 v1 [] =
      Ok (is_dirty c p v2 v1, new_v2 c p v2 v1, new_v1 c p v2 v1, wanted_calls c p v2 v1).
  Proof.
    intros H. unfold process_tagset. destruct v2 as [|t0 r0].
    - unfold is_dirty, new_v2, new_v1, wanted_calls, wants_v2, wants_v1, old_v2.
      destruct v1 as [t1|]; destruct (p_v2_creation p), (p_v1_creation p), (p_v1_scope p);
        cbn [bind logged create_v2_from create_v2 create_v1 process_v1 app existsb orb];
        try destruct (does_v1 c t1) as [d t'] eqn:ED; cbn [bind fst snd app existsb orb]; rewrite ?ED; cbn [fst snd]; rewrite ?orb_false_r;
        reflexivity.
    - set (v2 := t0 :: r0) in *. assert (NE : v2 <> []) by discriminate.
      assert (E : exists w, w = swept (in_scope p) (with_index v2) [] /\
        match p_v2_scope p with
        | TagsNone => Ok (v2, @None anytag, false, [])
        | TagsAll => let* (v2', d, s1) := process_tags (logged c) 0 (iota (List.length v2) 0) v2 [] in Ok (v2', None, d, s1)
        | TagsSome idx => let* (v2', d, s1) := process_tags (logged c) 0 idx v2 [] in Ok (v2', None, d, s1)
        end = Ok (fst (fst w), None, snd (fst w), snd w)).
      { eexists. split; [reflexivity|]. unfold in_scope. destruct (p_v2_scope p) as [| |idx].
        - rewrite process_all. reflexivity.
        - rewrite process_none. reflexivity.
        - destruct (H NE) as [H1 H2]. rewrite (process_some idx v2 [] NE H1 H2). reflexivity. }
      destruct E as (w & Ew & E). rewrite E. cbn [bind]. clear E.
      assert (E1 : fst (fst w) = new_v2 c p v2 v1) by (rewrite Ew; reflexivity).
      assert (E2 : snd w = map (fun it => ProcessV2 (snd it)) (filter (fun it => in_scope p (fst it)) (with_index v2))) by (rewrite Ew; reflexivity).
      assert (E3 : snd (fst w) = existsb (fun it => fst (does_v2 c (snd it))) (filter (fun it => in_scope p (fst it)) (with_index v2)))
        by (rewrite Ew; reflexivity).
      assert (NN : exists a l, new_v2 c p v2 v1 = a :: l) by (eexists; eexists; unfold new_v2, with_index, v2; cbn; reflexivity).
      destruct NN as (a & l & NN).
      assert (OV : old_v2 c p v2 v1 = new_v2 c p v2 v1) by reflexivity.
      destruct w as [[w1 w2] w3]. cbn [fst snd] in *. subst w1 w2 w3. rewrite NN in *.
      unfold is_dirty, wanted_calls, new_v1. rewrite OV. subst v2.
      destruct v1 as [t1|].
      + destruct (p_v1_scope p).
        * cbn [logged process_v1 bind]. destruct (does_v1 c t1) as [d t'] eqn:ED. cbn [bind snd].
          rewrite existsb_app, existsb_calls. cbn [existsb]. rewrite ED. cbn [fst]. now rewrite orb_false_r, app_nil_r.
        * cbn [bind]. now rewrite !app_nil_r, existsb_calls, orb_false_r.
      + destruct (p_v1_creation p) eqn:EC; unfold wants_v1; rewrite EC; cbn [logged create_v1_from bind];
          rewrite ?existsb_app, ?existsb_calls, ?app_nil_r; cbn [existsb orb]; rewrite ?existsb_calls, ?orb_false_r; reflexivity.
  Qed.

  (** An index list that is used up before the last tag. *)
  Lemma process_tags_ub v2 : forall i tags s, StronglySorted N.lt tags -> Forall (fun x => i <= x) tags ->
    v2 <> [] -> (forall x, In x tags -> x + 1 < i + len v2) -> process_tags (logged c) i tags v2 s = UB OutOfBounds.
  Proof.
    induction v2 as [|t r IH]; intros i tags s HS HF HN HL; [congruence|]. cbn [process_tags].
    destruct tags as [|x rest]; [reflexivity|]. inversion HS as [|? ? HS' HF']; subst. inversion HF as [|? ? Hix HFi]; subst.
    assert (HR : r <> []) by (intros ->; specialize (HL x (or_introl eq_refl)); rewrite len_cons in HL; change (len (@nil anytag)) with 0 in HL; lia).
    destruct (N.eqb_spec x i) as [->|NE].
    - cbn [logged process_v2 bind]. destruct (does_v2 c t). rewrite IH; auto.
      + eapply Forall_impl; [|exact HF']. cbn. intros; lia.
      + intros y Hy. specialize (HL y (or_intror Hy)). rewrite len_cons in HL. lia.
    - rewrite IH; auto.
      + constructor; [lia|]. eapply Forall_impl; [|exact HF']. cbn. intros; lia.
      + intros y Hy. specialize (HL y Hy). rewrite len_cons in HL. lia.
  Qed.

  (** An index that was passed blocks the rest of the list. *)
  Lemma process_tags_stuck b idx v2 : forall i s ts d s', b < i ->
    process_tags (logged c) i (b :: idx) v2 s = Ok (ts, d, s') -> s' = s.
  Proof.
    induction v2 as [|t r IH]; intros i s ts d s' Hi E; cbn [process_tags] in E.
    - now inversion E.
    - destruct (N.eqb_spec b i); [lia|].
      destruct (process_tags (logged c) (i + 1) (b :: idx) r s) as [[[r' d'] s1]|e|u|] eqn:E1; try discriminate. cbn [bind] in E.
      apply IH in E1; [|lia]. inversion E. congruence.
  Qed.
  Lemma process_tags_unsorted a b idx v2 : b < a ->
    forall i s ts d s', i <= a -> process_tags (logged c) i (a :: b :: idx) v2 s = Ok (ts, d, s') ->
    s' = s ++ match nth_error v2 (N.to_nat (a - i)) with Some t => [ProcessV2 t] | None => [] end.
  Proof.
    intros HB. induction v2 as [|t r IH]; intros i s ts d s' Hi E; cbn [process_tags] in E.
    - inversion E. destruct (N.to_nat (a - i)); cbn; now rewrite app_nil_r.
    - destruct (N.eqb_spec a i) as [->|NE].
      + cbn [logged process_v2 bind] in E. destruct (does_v2 c t).
        destruct (process_tags (logged c) (i + 1) (b :: idx) r (s ++ [ProcessV2 t])) as [[[r' d'] s1]|e|u|] eqn:E1; try discriminate.
        cbn [bind] in E. apply process_tags_stuck in E1; [|lia]. rewrite N.sub_diag. cbn. inversion E. congruence.
      + destruct (process_tags (logged c) (i + 1) (a :: b :: idx) r s) as [[[r' d'] s1]|e|u|] eqn:E1; try discriminate.
        cbn [bind] in E. apply IH in E1; [|lia]. inversion E. subst.
        replace (N.to_nat (a - i)) with (S (N.to_nat (a - (i + 1)))) by lia. reflexivity.
  Qed.
End Process.

(** ** Files *)

Lemma replace_v1_cases k t fs data : find_node k fs = Some (File data) ->
  let '(st, (o, fs')) := replace_v1_file k t fs in
  match o with
  | Ok _ => exists f, replace_id3v1 data t = Ok f /\ find_node k fs' = Some (File f)
  | _ => True
  end /\
  Forall (fun s => (find_node k s = Some (File data) \/
                    exists base x, maybe_remove_id3v1 data = Ok base /\ find_node k s = Some (File (base ++ x))) /\
                   forall j, j <> k -> find_node j s = find_node j fs) (fs' :: st).
Proof.
  intros Hk. unfold replace_v1_file. rewrite Hk. unfold replace_id3v1.
  set (ok := fun s : fsys => (find_node k s = Some (File data) \/
                    exists base x, maybe_remove_id3v1 data = Ok base /\ find_node k s = Some (File (base ++ x))) /\
                   forall j, j <> k -> find_node j s = find_node j fs).
  assert (OK0 : ok fs) by (split; [left; exact Hk|reflexivity]).
  unfold fbind at 1. unfold flift at 1. destruct (maybe_remove_id3v1 data) as [f|x|u|] eqn:ER;
    try (split; [exact I|constructor; [exact OK0|constructor]]).
  unfold fbind at 1.
  set (q := (if len f =? len data then fret tt else change (set_node k (File f))) fs).
  assert (Q : exists st fs1, q = (st, (Ok tt, fs1)) /\ Forall ok (fs1 :: st) /\ find_node k fs1 = Some (File f)).
  { subst q. destruct (N.eqb_spec (len f) (len data)) as [E|E].
    - exists [], fs. split; [reflexivity|]. split; [constructor; [exact OK0|constructor]|]. rewrite Hk. do 2 f_equal.
      apply remove_spec in ER. destruct ER as [[-> _]|(blk & -> & _)]; [reflexivity|].
      rewrite len_app in E. assert (Z0 : len blk = 0) by lia. destruct blk; [now rewrite app_nil_r|rewrite len_cons in Z0; lia].
    - exists [set_node k (File f) fs], (set_node k (File f) fs). split; [reflexivity|].
      assert (O1 : ok (set_node k (File f) fs)).
      { split; [right; exists f, []; split; [reflexivity|rewrite app_nil_r; apply find_set_same]|]. intros j Hj. now apply find_set_other. }
      split; [constructor; [exact O1|constructor; [exact O1|constructor]]|apply find_set_same]. }
  destruct Q as (st & fs1 & -> & HF & Hk1). inversion HF as [|? ? HF1 HF2]; subst. cbn [bind].
  unfold fbind, flift. destruct (v1_write t) as [b|x|u|]; cbn [app]; rewrite ?app_nil_r; try (split; [exact I|exact HF]).
  unfold append. rewrite Hk1. cbn [app].
  assert (G : forall x, ok (set_node k (File (f ++ x)) fs1)).
  { intros x. split; [right; exists f, x; split; [reflexivity|apply find_set_same]|]. intros j Hj. rewrite find_set_other by exact Hj. now apply HF1. }
  split; [exists (f ++ b); split; [reflexivity|apply find_set_same]|].
  constructor; [apply G|]. apply Forall_app. split; [exact HF2|]. unfold append_states. apply Forall_map. apply Forall_forall. intros i _. apply G.
Qed.

Lemma replace_v1_ok k t fs data fs' st : find_node k fs = Some (File data) -> replace_v1_file k t fs = (st, (Ok tt, fs')) ->
  exists f, replace_id3v1 data t = Ok f /\ find_node k fs' = Some (File f) /\ forall j, j <> k -> find_node j fs' = find_node j fs.
Proof.
  intros Hk H. pose proof (replace_v1_cases k t fs data Hk) as C. rewrite H in C.
  destruct C as [(f & A & C) D]. inversion D as [|? ? [_ D1] _]; subst. eauto.
Qed.

Lemma fbind_ok {A C} (x : FS A) (f : A -> FS C) fs st c fs' : fbind x f fs = (st, (Ok c, fs')) ->
  exists a st1 fs1 st2, x fs = (st1, (Ok a, fs1)) /\ f a fs1 = (st2, (Ok c, fs')).
Proof.
  unfold fbind. destruct (x fs) as [st1 [[a|e|u|] fs1]]; try discriminate. destruct (f a fs1) as [st2 [r fs2]] eqn:E.
  intros H. inversion H; subst. eauto 8.
Qed.

Lemma process_file_eq z passes e c p path fs data v2 v1 :
  find_node (resolve (e_cwd e) path) fs = Some (File data) -> read_tagset z passes data = Ok (v2, v1) -> scope_fits p v2 ->
  process_file z passes e (logged c) p path [] fs =
  (run _ <- write_tagset z e p (is_dirty c p v2 v1) (new_v2 c p v2 v1) (new_v1 c p v2 v1) path;; fret (wanted_calls c p v2 v1)) fs.
Proof.
  intros Hk HR HS. unfold process_file. rewrite Hk. unfold fbind at 1. unfold flift at 1. rewrite HR.
  unfold fbind at 1. unfold flift at 1. rewrite (process_tagset_eq c p v2 v1 HS). cbn [app].
  destruct ((run _ <- _;; fret _) fs) as [l r] eqn:E. reflexivity.
Qed.

Lemma process_unwritten z passes e c p path fs data v2 v1 :
  find_node (resolve (e_cwd e) path) fs = Some (File data) -> read_tagset z passes data = Ok (v2, v1) -> scope_fits p v2 ->
  is_dirty c p v2 v1 = false \/ p_dry p = true ->
  process_file z passes e (logged c) p path [] fs = ([], (Ok (wanted_calls c p v2 v1), fs)).
Proof.
  intros Hk HR HS HD. rewrite (process_file_eq z passes e c p path fs data v2 v1 Hk HR HS). unfold write_tagset.
  assert (E : is_dirty c p v2 v1 && negb (p_dry p) = false) by (destruct HD as [-> | ->]; [reflexivity|apply andb_false_r]).
  rewrite E. reflexivity.
Qed.

Lemma process_dry {S} z passes e (P : processor S) p path s fs : p_dry p = true ->
  fst (process_file z passes e P p path s fs) = [] /\ snd (snd (process_file z passes e P p path s fs)) = fs.
Proof.
  intros HD. unfold process_file. destruct (find_node _ fs) as [[data|]|]; [|split; reflexivity..].
  unfold fbind, flift. destruct (read_tagset z passes data) as [[v2 v1]|x|u|]; [|split; reflexivity..].
  destruct (process_tagset P p v2 v1 s) as [[[[d v2'] v1'] s']|x|u|]; [|split; reflexivity..].
  unfold write_tagset. rewrite HD, andb_false_r. split; reflexivity.
Qed.

Section Saved.
  Context (z : zlib) (passes : nat) (e : env) (c : command) (p : policies) (path d n : bytes) (fs : fsys) (data : bytes) (l : list S_Read.head).
  Let k := resolve (e_cwd e) path.
  Context (Hp : path <> []) (Hc : hd 0 (e_cwd e) = 47) (Hd : dir_path d) (Hn : plain_name n)
          (HA : absolute (e_cwd e) path = spelled d n) (Hk : find_node k fs = Some (File data)) (Hl : S_Read.tags_from data 0 l)
          (Ht : ~ In 46 (last (e_tmp e) [])) (Htk : e_tmp e <> k)
          (v2 : list anytag) (v1 : option id3v1_tag) (HR : read_tagset z passes data = Ok (v2, v1)) (HS : scope_fits p v2)
          (HDi : is_dirty c p v2 v1 = true) (HDr : p_dry p = false).
  Let m := if p_adjust p then AsNeeded else Never.

  Lemma write_v1_part (w rest : bytes) fs1 st2 fs' u : find_node k fs1 = Some (File (w ++ rest)) ->
    match new_v1 c p v2 v1 with Some t => replace_v1_file k t | None => fret tt end fs1 = (st2, (Ok u, fs')) ->
    (forall j, j <> k -> j <> e_tmp e -> ~ is_backup d n j -> find_node j fs1 = find_node j fs) ->
    (exists f, saved w rest (new_v1 c p v2 v1) f /\ find_node k fs' = Some (File f)) /\
    forall j, j <> k -> j <> e_tmp e -> ~ is_backup d n j -> find_node j fs' = find_node j fs.
  Proof.
    intros H1 H2 H3. unfold saved. destruct (new_v1 c p v2 v1) as [t|].
    - destruct u. destruct (replace_v1_ok k t fs1 _ fs' st2 H1 H2) as (f & A & F & G). split; [eauto|].
      intros j J1 J2 J3. rewrite G by exact J1. auto.
    - unfold fret in H2. inversion H2; subst. split; [eauto|exact H3].
  Qed.

  Lemma process_saved_backup st log fs' : p_backups p = true ->
    process_file z passes e (logged c) p path [] fs = (st, (Ok log, fs')) ->
    log = wanted_calls c p v2 v1 /\
    (exists w r f, emit_all z m (new_v2 c p v2 v1) = (w, Ok r) /\ saved w (dropN (S_Read.tags_end 0 l) data) (new_v1 c p v2 v1) f /\
       find_node k fs' = Some (File f)) /\
    forall j, j <> k -> j <> e_tmp e -> ~ is_backup d n j -> find_node j fs' = find_node j fs.
  Proof.
    intros HB H. rewrite (process_file_eq z passes e c p path fs data v2 v1 Hk HR HS) in H.
    apply fbind_ok in H. destruct H as (u & st1 & fs1 & st2 & H & H0). unfold fret in H0. inversion H0; subst. split; [reflexivity|].
    unfold write_tagset in H. rewrite HDi, HDr, HB in H. cbn [andb negb] in H. fold m in H.
    apply fbind_ok in H. destruct H as (r & st3 & fs3 & st4 & H1 & H2).
    destruct (emit_all z m (new_v2 c p v2 v1)) as [w o] eqn:EE.
    pose proof (copy_any z e path d n (new_v2 c p v2 v1) m true w o fs data l Hp Hc Hd Hn HA Hk Hl EE Ht Htk) as C. cbv zeta in C.
    rewrite H1 in C. destruct C as (_ & [_ C1] & C2 & C3).
    destruct (write_v1_part w (dropN (S_Read.tags_end 0 l) data) fs3 st4 fs' u C3 H2 C1) as [(f & F1 & F2) G].
    split; [|exact G]. exists w, r, f. subst o. auto.
  Qed.

  Lemma process_saved st log fs' nn pd ts1 : p_backups p = false ->
    S_Read.tags_end 0 l < 2 ^ 28 -> S_Read.tags_end 0 l <= len data ->
    Forall sound_tag (new_v2 c p v2 v1) -> Forall (fun t => any_padding t < 2 ^ 62) (new_v2 c p v2 v1) ->
    sizes z m (new_v2 c p v2 v1) = Ok (nn, pd, ts1) -> nn < 2 ^ 28 ->
    ~ wraps (new_v2 c p v2 v1) (S_Read.tags_end 0 l) nn ->
    process_file z passes e (logged c) p path [] fs = (st, (Ok log, fs')) ->
    log = wanted_calls c p v2 v1 /\
    (exists w gap r f, map contents r = map contents (new_v2 c p v2 v1) /\ emit_all z m r = (w, Ok r) /\
       saved w (gap ++ dropN (S_Read.tags_end 0 l) data) (new_v1 c p v2 v1) f /\
       (gap = [] \/ gap = dropN (len w) (takeN (S_Read.tags_end 0 l) data) /\ len gap = v24_padding r) /\
       find_node k fs' = Some (File f)) /\
    forall j, j <> k -> j <> e_tmp e -> ~ is_backup d n j -> find_node j fs' = find_node j fs.
  Proof.
    intros HB HT HL HSi HPa HZ HNN HW H. rewrite (process_file_eq z passes e c p path fs data v2 v1 Hk HR HS) in H.
    apply fbind_ok in H. destruct H as (u & st1 & fs1 & st2 & H & H0). unfold fret in H0. inversion H0; subst. split; [reflexivity|].
    unfold write_tagset in H. rewrite HDi, HDr, HB in H. cbn [andb negb] in H. fold m in H.
    apply fbind_ok in H. destruct H as (r & st3 & fs3 & st4 & H1 & H2).
    destruct (save_audio z e path d n (new_v2 c p v2 v1) m ReducePaddingEvenly false fs data l st3 r fs3 nn pd ts1
      Hp Hc Hd Hn HA Hk Hl HT HL HSi HPa HZ HNN HW Htk Ht H1) as (C1 & (w & gap & C2 & C3 & C5) & C4).
    destruct (write_v1_part w (gap ++ dropN (S_Read.tags_end 0 l) data) fs3 st4 fs' u C3 H2 C4) as [(f & F1 & F2) G].
    split; [|exact G]. exists w, gap, r, f. auto.
  Qed.
End Saved.

Lemma process_exhausted c p idx v2 v1 : p_v2_scope p = TagsSome idx -> StronglySorted N.lt idx -> v2 <> [] ->
  (forall x, In x idx -> x + 1 < len v2) -> process_tagset (logged c) p v2 v1 [] = UB OutOfBounds.
Proof.
  intros HP HS HN HL. unfold process_tagset. rewrite HP. destruct v2 as [|t r]; [congruence|].
  rewrite process_tags_ub; auto. apply Forall_forall. intros; lia.
Qed.

Lemma process_passed c p a b idx v2 v1 d v2' v1' log : p_v2_scope p = TagsSome (a :: b :: idx) -> b < a ->
  process_tagset (logged c) p v2 v1 [] = Ok (d, v2', v1', log) ->
  forall t, In (ProcessV2 t) log -> nth_error v2 (N.to_nat a) = Some t.
Proof.
  intros HP HB E t Ht. unfold process_tagset in E. rewrite HP in E. destruct v2 as [|t0 r].
  - exfalso. revert Ht. destruct v1 as [t1|]; destruct (p_v2_creation p), (p_v1_creation p), (p_v1_scope p);
      cbn [logged bind create_v2_from create_v2 create_v1 process_v1] in E; try destruct (does_v1 c t1); inversion E; subst; cbn [app In];
      intuition discriminate.
  - set (v2 := t0 :: r) in *.
    destruct (process_tags (logged c) 0 (a :: b :: idx) v2 []) as [[[ts d1] s1]|x|u|] eqn:E1; try discriminate.
    apply process_tags_unsorted in E1; [|exact HB|lia]. rewrite N.sub_0_r in E1. cbn [bind] in E. cbn [app] in E1.
    assert (L : In (ProcessV2 t) s1).
    { revert Ht. destruct v1 as [t1|]; [destruct (p_v1_scope p); [cbn [logged process_v1 bind] in E; destruct (does_v1 c t1)|];
        cbn [bind] in E; inversion E; subst log; rewrite ?in_app_iff; cbn; intuition discriminate|].
      destruct ts; destruct (p_v1_creation p); cbn [logged bind create_v1 create_v1_from] in E; inversion E; subst log;
        rewrite ?in_app_iff; cbn; intuition discriminate. }
    rewrite E1 in L. destruct (nth_error v2 (N.to_nat a)) as [t'|]; [|elim L]. destruct L as [L|[]]. congruence.
Qed.

(** The audio and the old content at every point of a run with backups. *)
Lemma process_crash z passes e c p path d n fs data l v2 v1 : let k := resolve (e_cwd e) path in
  path <> [] -> hd 0 (e_cwd e) = 47 -> dir_path d -> plain_name n ->
  absolute (e_cwd e) path = spelled d n -> find_node k fs = Some (File data) -> tags_from data 0 l ->
  ~ In 46 (last (e_tmp e) []) -> e_tmp e <> k ->
  read_tagset z passes data = Ok (v2, v1) -> scope_fits p v2 -> p_backups p = true ->
  let '(st, (_, fs')) := process_file z passes e (logged c) p path [] fs in
  Forall (fun s => (find_node k s = Some (File data) \/
                    (exists w x base, find_node k s = Some (File (base ++ x)) /\ 
                       (base = w ++ dropN (tags_end 0 l) data \/ maybe_remove_id3v1 (w ++ dropN (tags_end 0 l) data) = Ok base)) \/
                    exists b, is_backup d n b /\ find_node b s = Some (File data)) /\
                   forall j, j <> k -> j <> e_tmp e -> ~ is_backup d n j -> find_node j s = find_node j fs) (fs' :: st).
Proof.
  intros k Hp Hc Hd Hn HA Hk Hl Ht Htk HR HS HB.
  set (ok := fun s : fsys => _).
  assert (OK0 : ok fs) by (split; [left; exact Hk|reflexivity]).
  rewrite (process_file_eq z passes e c p path fs data v2 v1 Hk HR HS). unfold write_tagset. rewrite HB.
  destruct (is_dirty c p v2 v1 && negb (p_dry p)); [|constructor; [exact OK0|constructor]].
  set (m := if p_adjust p then AsNeeded else Never).
  destruct (emit_all z m (new_v2 c p v2 v1)) as [w o] eqn:EE.
  pose proof (copy_any z e path d n (new_v2 c p v2 v1) m true w o fs data l Hp Hc Hd Hn HA Hk Hl EE Ht Htk) as C. cbv zeta in C.
  unfold fbind. destruct (replace_tagset_copy z e path (new_v2 c p v2 v1) m true fs) as [st1 [r1 fs1]].
  destruct C as (C0 & C1 & C2). fold k in C0, C1, C2.
  assert (U : forall s, (find_node k s = Some (File data) \/
                   find_node k s = Some (File (w ++ dropN (tags_end 0 l) data)) \/
                   (exists c : key, is_backup d n c /\ find_node c s = Some (File data))) /\
                  (forall j : key, j <> k -> j <> e_tmp e -> ~ is_backup d n j -> find_node j s = find_node j fs) -> ok s).
  { intros s [[A|[A|A]] F]; (split; [|exact F]); [left; exact A| |right; right; exact A].
    right; left. exists w, [], (w ++ dropN (tags_end 0 l) data). rewrite app_nil_r. auto. }
  assert (D0 : Forall ok st1) by (eapply Forall_impl; [exact U|exact C0]).
  pose proof (U fs1 C1) as D1.
  destruct r1 as [ts|x|u|]; try (constructor; assumption).
  destruct C2 as [_ C2]. destruct (new_v1 c p v2 v1) as [t|].
  - pose proof (replace_v1_cases k t fs1 _ C2) as V. fold k. destruct (replace_v1_file k t fs1) as [st2 [r2 fs2]].
    destruct V as [_ V].
    assert (V' : Forall ok (fs2 :: st2)).
    { eapply Forall_impl; [|exact V]. intros s [[A|(base & x & A1 & A2)] F]; (split; [|intros j J1 J2 J3; rewrite F by exact J1; now apply C1]).
      - right; left. exists w, [], (w ++ dropN (tags_end 0 l) data). rewrite app_nil_r. auto.
      - right; left. exists w, x, base. auto. }
    inversion V' as [|? ? V1 V2]; subst. destruct r2; cbn [fret]; (constructor; [exact V1|]); rewrite ?app_nil_r; apply Forall_app; auto.
  - cbn [fret]. rewrite !app_nil_r. constructor; assumption.
Qed.
