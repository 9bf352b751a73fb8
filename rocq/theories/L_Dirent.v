(** * Lemmas: going through files and directories. *)
From Verif Require Import Base M_Fs S_Tagset L_Fs M_Split M_Rename M_Dirent S_Dirent.
From Coq Require Import Sorting.Permutation.

Lemma resolve_join cwd p n : p <> [] -> cwd <> [] -> plain_name n -> resolve cwd (join p n) = resolve cwd p ++ [n].
Proof.
  assert (J : forall a, a <> [] -> plain_name n -> resolve_abs (join a n) = resolve_abs a ++ [n]).
  { intros a Ha Hn. unfold join. destruct (rev a) as [|c r] eqn:E.
    - apply (f_equal (@rev N)) in E. rewrite rev_involutive in E. cbn in E. congruence.
    - destruct (N.eqb_spec c 47) as [->|NE]; [|now apply resolve_spelled].
      assert (a = rev r ++ [47]) as -> by (rewrite <- (rev_involutive a), E; reflexivity).
      rewrite <- app_assoc. change (rev r ++ [47] ++ n) with (spelled (rev r) n). rewrite resolve_spelled by exact Hn.
      f_equal. unfold resolve_abs. rewrite components_app, fold_left_app. reflexivity. }
  assert (NJ : forall a b, a <> [] -> join a b <> []).
  { intros a b Ha. unfold join. destruct (rev a) as [|c r] eqn:E.
    - apply (f_equal (@rev N)) in E. rewrite rev_involutive in E. cbn in E. congruence.
    - destruct (c =? 47); destruct a; try congruence; discriminate. }
  intros Hp Hc Hn. unfold resolve. rewrite <- J; [|destruct p as [|c p]; [congruence|unfold absolute; destruct (c =? 47); auto; discriminate]|exact Hn].
  f_equal. destruct p as [|c p]; [congruence|]. unfold absolute at 2. 
  assert (H1 : exists q, join (c :: p) n = c :: q).
  { unfold join. destruct (rev (c :: p)) as [|c' r'] eqn:E; [apply (f_equal (@rev N)) in E; rewrite rev_involutive in E; discriminate|].
    destruct (c' =? 47); cbn; eauto. }
  destruct H1 as (q & H1). unfold absolute. rewrite H1. destruct (c =? 47); [now symmetry|]. rewrite <- H1.
  unfold join. destruct (rev cwd) as [|c0 r0] eqn:EC; [apply (f_equal (@rev N)) in EC; rewrite rev_involutive in EC; cbn in EC; congruence|].
  assert (T : forall x, exists y, rev (x ++ c :: p) = hd 0 (rev (c :: p)) :: y).
  { intros x. rewrite rev_app_distr. destruct (rev (c :: p)) as [|a b] eqn:E; [apply (f_equal (@rev N)) in E; rewrite rev_involutive in E; discriminate|].
    cbn. eauto. }
  destruct (rev (c :: p)) as [|c1 r1] eqn:E1; [apply (f_equal (@rev N)) in E1; rewrite rev_involutive in E1; discriminate|].
  destruct (c0 =? 47).
  - destruct (T cwd) as (y & ->). cbn [hd]. destruct (c1 =? 47); now rewrite <- app_assoc.
  - destruct (T (cwd ++ [47])) as (y & T1). rewrite <- app_assoc in T1. cbn [app] in T1. cbn [app]. rewrite T1. cbn [hd].
    destruct (c1 =? 47); rewrite <- app_assoc; reflexivity.
Qed.

Lemma join_nonempty p n : p <> [] -> join p n <> [].
Proof.
  intros Ha. unfold join. destruct (rev p) as [|c r] eqn:E.
  - apply (f_equal (@rev N)) in E. rewrite rev_involutive in E. cbn in E. congruence.
  - destruct (c =? 47); destruct p; try congruence; discriminate.
Qed.

Lemma names_in_spec fs d n : In n (names_in fs d) <-> In (d ++ [n]) (map fst fs).
Proof.
  unfold names_in. induction fs as [|[k x] r IH]; [reflexivity|]. cbn [fold_right map fst In].
  destruct (entry_of d k) as [m|] eqn:E.
  - apply entry_of_spec in E. subst k. cbn [In]. rewrite IH. split; intros [H|H]; auto; left; [congruence|].
    now apply app_inj_tail in H.
  - rewrite IH. split; [auto|]. intros [H|H]; [|exact H]. subst k.
    assert (entry_of d (d ++ [n]) = Some n) by now apply entry_of_spec. congruence.
Qed.
Lemma names_in_nodup fs d : NoDup (map fst fs) -> NoDup (names_in fs d).
Proof.
  unfold names_in. induction fs as [|[k x] r IH]; intros H; [constructor|]. cbn [fold_right map fst] in *.
  inversion H as [|? ? H1 H2]; subst. destruct (entry_of d k) as [m|] eqn:E; [|auto].
  apply entry_of_spec in E. subst k. constructor; [|auto]. intros Hi. apply H1. now apply names_in_spec.
Qed.
Lemma in_find fs k : In k (map fst fs) -> exists n, find_node k fs = Some n.
Proof.
  induction fs as [|[k' n'] r IH]; [intros []|]. cbn [map fst In find_node]. intros H.
  destruct (key_eqb_spec k k') as [->|NE]; [eauto|]. destruct H; [congruence|auto].
Qed.
Lemma depth_le fs k : In k (map fst fs) -> (List.length k <= depth fs)%nat.
Proof.
  induction fs as [|[k' n'] r IH]; [intros []|]. cbn [map fst In depth fold_right]. intros [<-|H]; [lia|]. specialize (IH H). unfold depth in IH. lia.
Qed.

Lemma shape_refl fs : same_shape fs fs.
Proof. intros k. destruct (find_node k fs) as [[|]|]; exact I. Qed.
Lemma shape_find fs s k : same_shape fs s ->
  match find_node k fs with
  | Some (File _) => exists b, find_node k s = Some (File b)
  | Some Dir => find_node k s = Some Dir
  | None => find_node k s = None
  end.
Proof. intros H. specialize (H k). destruct (find_node k fs) as [[|]|], (find_node k s) as [[|]|]; try contradiction; eauto. Qed.

Lemma each_app f l m fs : each f (l ++ m) fs = (run _ <- each f l;; each f m) fs.
Proof.
  revert fs. induction l as [|p r IH]; intros fs.
  - cbn [app each]. unfold fbind, fret. destruct (each f m fs) as [a b]. reflexivity.
  - cbn [app each]. unfold fbind in *. destruct (f p fs) as [l1 [[u|x|x|] fs1]]; try reflexivity.
    rewrite IH. destruct (each f r fs1) as [l2 [[u2|x|x|] fs2]]; try reflexivity.
    destruct (each f m fs2) as [l3 r3]. now rewrite app_assoc.
Qed.

Lemma NoDup_both {A} (l m : list A) : NoDup l -> NoDup m -> (forall x, In x l -> In x m -> False) -> NoDup (l ++ m).
Proof.
  induction 1 as [|x l Hx H IH]; intros Hm Hd; [exact Hm|]. cbn [app]. constructor.
  - rewrite in_app_iff. intros [Hi|Hi]; [auto|]. apply (Hd x); [now left|exact Hi].
  - apply IH; [exact Hm|]. intros y Hy. apply Hd. now right.
Qed.
Lemma is_dir_find fs d : is_dir fs d = true -> d = [] \/ find_node d fs = Some Dir.
Proof. unfold is_dir. destruct d as [|a d]; [auto|]. destruct (find_node (a :: d) fs) as [[|]|]; try discriminate. auto. Qed.
Lemma shape_dir fs s k : same_shape fs s -> is_dir s k = is_dir fs k.
Proof.
  intros H. unfold is_dir. destruct k; [reflexivity|]. specialize (H (b :: k)).
  destruct (find_node (b :: k) fs) as [[|]|], (find_node (b :: k) s) as [[|]|]; try contradiction; reflexivity.
Qed.
Lemma shape_regular cwd fs s p : same_shape fs s -> is_regular cwd s p = is_regular cwd fs p.
Proof.
  intros H. unfold is_regular. specialize (H (resolve cwd p)).
  destruct (find_node (resolve cwd p) fs) as [[|]|], (find_node (resolve cwd p) s) as [[|]|]; try contradiction; reflexivity.
Qed.

Section Walk.
  Context (cwd : bytes) (entries : bytes -> list bytes) (fs : fsys) (Hc : cwd <> []) (HT : tree fs)
          (HE : forall p, is_dir fs (resolve cwd p) = true -> lists_entries cwd fs p (entries p)).

  (** Below what is not a directory there is nothing. *)
  Lemma below_dir d rest : rest <> [] -> In (d ++ rest) (map fst fs) -> is_dir fs d = true.
  Proof.
    destruct HT as (_ & _ & _ & H3). intros Hr. induction rest as [|n rest IH] using rev_ind; [congruence|]. intros Hi.
    rewrite app_assoc in Hi. destruct rest as [|m rest].
    - rewrite app_nil_r in Hi. apply (H3 d n Hi).
    - apply IH; [discriminate|]. specialize (H3 _ _ Hi). apply is_dir_find in H3. destruct H3 as [H3|H3].
      + destruct d; discriminate.
      + now apply find_in in H3.
  Qed.
  Lemma below_in d n rest : In (d ++ n :: rest) (map fst fs) -> In (d ++ [n]) (map fst fs).
  Proof.
    destruct rest as [|m rest]; [auto|]. intros H.
    assert (H' : In ((d ++ [n]) ++ m :: rest) (map fst fs)) by (now rewrite <- app_assoc).
    apply below_dir in H'; [|discriminate]. apply is_dir_find in H'. destruct H' as [H'|H']; [destruct d; discriminate|].
    now apply find_in in H'.
  Qed.

  Lemma files_of_dir p es : p <> [] -> is_dir fs (resolve cwd p) = true -> lists_entries cwd fs p es ->
    forall ls, Forall2 (files_below cwd fs) es ls -> files_below cwd fs p (concat ls).
  Proof.
    intros Hp HD HL ls HF. destruct HT as (T1 & T0 & T2 & T3).
    assert (EN : exists ns, es = map (join p) ns /\ Permutation ns (names_in fs (resolve cwd p))).
    { unfold lists_entries in HL. apply Permutation_map_inv in HL. destruct HL as (ns & -> & HP). exists ns.
      split; [reflexivity|now apply Permutation_sym]. }
    destruct EN as (ns & -> & HP).
    assert (ND : NoDup ns) by (eapply Permutation_NoDup; [apply Permutation_sym; exact HP|now apply names_in_nodup]).
    assert (IN : forall n, In n ns <-> In (resolve cwd p ++ [n]) (map fst fs)).
    { intros n. rewrite <- names_in_spec. split; apply Permutation_in; [exact HP|now apply Permutation_sym]. }
    assert (PL : forall n, In n ns -> plain_name n).
    { intros n Hn. apply IN in Hn. rewrite Forall_forall in T2. specialize (T2 _ Hn). apply Forall_app in T2. destruct T2 as [_ T2]. now inversion T2. }
    clear HP. set (d := resolve cwd p) in *.
    assert (G : NoDup (map (resolve cwd) (concat ls)) /\
      forall k, In k (map (resolve cwd) (concat ls)) <->
        (exists b, find_node k fs = Some (File b)) /\ exists n rest, In n ns /\ k = d ++ n :: rest).
    { clear IN HL. revert ls HF ND PL. induction ns as [|n ns IH]; intros ls HF ND PL.
      - inversion HF; subst. cbn. split; [constructor|]. intros k. split; [intros []|]. intros (_ & n & rest & [] & _).
      - inversion HF as [|? l0 ? ls0 [N1 B1] HF0]; subst. inversion ND as [|? ? ND1 ND2]; subst.
        destruct (IH ls0 HF0 ND2 (fun x Hx => PL x (or_intror Hx))) as [N2 B2].
        rewrite (resolve_join cwd p n Hp Hc (PL n (or_introl eq_refl))) in B1. fold d in B1.
        cbn [concat]. rewrite map_app. split.
        + apply NoDup_both; [exact N1|exact N2|]. intros k K1 K2. apply B1 in K1. apply B2 in K2.
          destruct K1 as (_ & r1 & ->). destruct K2 as (_ & n' & r2 & Hn & E).
          rewrite <- app_assoc in E. apply app_inv_head in E. cbn [app] in E. injection E as -> _. auto.
        + intros k. rewrite in_app_iff, B1, B2. split.
          * intros [[H (r & ->)]|(H & n' & r & Hn & ->)]; (split; [exact H|]).
            -- exists n, r. rewrite <- app_assoc. split; [now left|reflexivity].
            -- exists n', r. split; [now right|reflexivity].
          * intros (H & n' & r & [<-|Hn] & ->); [left|right]; (split; [exact H|]).
            -- exists r. now rewrite <- app_assoc.
            -- eauto. }
    destruct G as [G1 G2]. split; [exact G1|]. intros k. rewrite G2. split.
    - intros (H & n & r & _ & ->). split; [exact H|]. eauto.
    - intros (H & r & ->). split; [exact H|]. destruct H as (b & H). destruct r as [|n r].
      + rewrite app_nil_r in H. apply is_dir_find in HD. fold d in H, HD. destruct HD as [HD|HD]; [|rewrite HD in H; discriminate H].
        rewrite HD in H. apply find_in in H. contradiction.
      + exists n, r. split; [|reflexivity]. apply IN. apply find_in in H. now apply below_in in H.
  Qed.

  Lemma files_of_file p b : is_dir fs (resolve cwd p) = false -> find_node (resolve cwd p) fs = Some (File b) -> files_below cwd fs p [p].
  Proof.
    intros ND H. split; [cbn; constructor; [intros []|constructor]|]. intros k. cbn [map In]. split.
    - intros [<-|[]]. split; [eauto|]. exists []. now rewrite app_nil_r.
    - intros ((b' & Hk) & r & ->). left. destruct r as [|n r]; [now rewrite app_nil_r|].
      apply find_in in Hk. apply below_dir in Hk; [congruence|discriminate].
  Qed.
  Lemma files_of_none p : is_dir fs (resolve cwd p) = false -> is_regular cwd fs p = false -> files_below cwd fs p [].
  Proof.
    intros ND H. split; [constructor|]. intros k. cbn [map In]. split; [intros []|].
    intros ((b' & Hk) & r & ->). destruct r as [|n r].
    - rewrite app_nil_r in Hk. unfold is_regular in H. rewrite Hk in H. discriminate.
    - apply find_in in Hk. apply below_dir in Hk; [congruence|discriminate].
  Qed.

  Lemma entry_nonempty p es q : p <> [] -> lists_entries cwd fs p es -> In q es ->
    q <> [] /\ List.length (resolve cwd q) = S (List.length (resolve cwd p)).
  Proof.
    intros Hp HL Hq. unfold lists_entries in HL. eapply Permutation_in in Hq; [|exact HL]. apply in_map_iff in Hq.
    destruct Hq as (n & <- & Hn). split; [now apply join_nonempty|]. apply names_in_spec in Hn.
    destruct HT as (_ & _ & T2 & _). rewrite Forall_forall in T2. specialize (T2 _ Hn). apply Forall_app in T2. destruct T2 as [_ T2].
    inversion T2; subst. rewrite resolve_join by assumption. rewrite app_length. cbn. lia.
  Qed.

  Section Visit.
    Context (visit : bytes -> FS unit)
            (HV : forall p s, same_shape fs s -> same_shape fs (snd (snd (visit p s)))).
    Lemma each_shape (f : bytes -> FS unit) l : (forall p s, In p l -> same_shape fs s -> same_shape fs (snd (snd (f p s)))) ->
      forall s, same_shape fs s -> same_shape fs (snd (snd (each f l s))).
    Proof.
      induction l as [|p r IH]; intros HF s Hs; [exact Hs|]. cbn [each]. unfold fbind.
      pose proof (HF p s (or_introl eq_refl) Hs) as H1. destruct (f p s) as [l1 [[u|x|x|] s1]]; try exact H1.
      cbn [snd] in H1. pose proof (IH (fun q t Hq => HF q t (or_intror Hq)) s1 H1) as H2.
      destruct (each f r s1) as [l2 r2]. exact H2.
    Qed.
    Lemma each_concat (f : bytes -> FS unit) ps ls :
      Forall2 (fun p l => forall s, same_shape fs s -> f p s = each visit l s) ps ls ->
      forall s, same_shape fs s -> each f ps s = each visit (concat ls) s.
    Proof.
      induction 1 as [|p l ps ls H HF IH]; intros s Hs; [reflexivity|]. cbn [each concat]. rewrite each_app. unfold fbind.
      rewrite (H s Hs). pose proof (each_shape visit l (fun q t _ => HV q t) s Hs) as H1.
      destruct (each visit l s) as [l1 [[u|x|x|] s1]]; try reflexivity. cbn [snd] in H1. now rewrite (IH s1 H1).
    Qed.
  End Visit.

  Lemma dirent_walk fuel : forall p, p <> [] -> (depth fs < List.length (resolve cwd p) + fuel)%nat ->
    exists l, files_below cwd fs p l /\
      forall visit, (forall p s, same_shape fs s -> same_shape fs (snd (snd (visit p s)))) ->
      forall s, same_shape fs s -> dirent cwd visit entries fuel p s = each visit l s.
  Proof.
    induction fuel as [|fuel IH]; intros p Hp Hd.
    - destruct (is_dir fs (resolve cwd p)) eqn:ED.
      + exfalso. pose proof (is_dir_find _ _ ED) as [E|E]; [rewrite E in Hd; cbn in Hd; lia|]. apply find_in, depth_le in E. lia.
      + destruct (is_regular cwd fs p) eqn:ER.
        * exists [p]. split.
          -- unfold is_regular in ER. destruct (find_node (resolve cwd p) fs) as [[b|]|] eqn:EF; try discriminate. now apply (files_of_file p b).
          -- intros visit _ s Hs. cbn [dirent each]. rewrite (shape_dir fs s), (shape_regular cwd fs s), ED, ER by assumption.
             unfold fbind, fret. destruct (visit p s) as [l1 [[[]|x|x|] s1]]; rewrite ?app_nil_r; reflexivity.
        * exists []. split; [now apply files_of_none|]. intros visit _ s Hs. cbn [dirent each].
          rewrite (shape_dir fs s), (shape_regular cwd fs s), ED, ER by assumption. reflexivity.
    - destruct (is_dir fs (resolve cwd p)) eqn:ED.
      + pose proof (HE p ED) as HL.
        assert (LS : exists ls, Forall2 (fun q l => files_below cwd fs q l /\
           forall visit, (forall p s, same_shape fs s -> same_shape fs (snd (snd (visit p s)))) ->
           forall s, same_shape fs s -> dirent cwd visit entries fuel q s = each visit l s) (entries p) ls).
        { assert (Q : forall q, In q (entries p) -> q <> [] /\ List.length (resolve cwd q) = S (List.length (resolve cwd p)))
            by (intros q Hq; now apply (entry_nonempty p (entries p))).
          clear HL. induction (entries p) as [|q es IHe]; [exists []; constructor|].
          destruct (IHe (fun x Hx => Q x (or_intror Hx))) as (ls & HF). destruct (Q q (or_introl eq_refl)) as [Q1 Q2].
          destruct (IH q Q1) as (l & Hl); [lia|]. exists (l :: ls). constructor; assumption. }
        destruct LS as (ls & HF). exists (concat ls). split.
        * apply (files_of_dir p (entries p) Hp ED HL). clear -HF. induction HF as [|q l qs ls [H _] HF IH]; constructor; auto.
        * intros visit HV s Hs. cbn [dirent]. rewrite (shape_dir fs s), ED by assumption. apply each_concat; [exact HV| |exact Hs].
          clear -HF HV. induction HF as [|q l qs ls [_ H] HF IH]; constructor; auto.
      + destruct (is_regular cwd fs p) eqn:ER.
        * exists [p]. split.
          -- unfold is_regular in ER. destruct (find_node (resolve cwd p) fs) as [[b|]|] eqn:EF; try discriminate. now apply (files_of_file p b).
          -- intros visit _ s Hs. cbn [dirent each]. rewrite (shape_dir fs s), (shape_regular cwd fs s), ED, ER by assumption.
             unfold fbind, fret. destruct (visit p s) as [l1 [[[]|x|x|] s1]]; rewrite ?app_nil_r; reflexivity.
        * exists []. split; [now apply files_of_none|]. intros visit _ s Hs. cbn [dirent each].
          rewrite (shape_dir fs s), (shape_regular cwd fs s), ED, ER by assumption. reflexivity.
  Qed.

  Lemma args_walk args : Forall (fun p => p <> []) args ->
    exists ls, Forall2 (files_below cwd fs) args ls /\
      forall visit, (forall p s, same_shape fs s -> same_shape fs (snd (snd (visit p s)))) ->
        process_dirent_args cwd visit entries args fs = each visit (concat ls) fs.
  Proof.
    intros HA.
    assert (LS : exists ls, Forall2 (fun q l => files_below cwd fs q l /\
       forall visit, (forall p s, same_shape fs s -> same_shape fs (snd (snd (visit p s)))) ->
       forall s, same_shape fs s -> dirent cwd visit entries (S (depth fs)) q s = each visit l s) args ls).
    { induction HA as [|p r Hp HA IH]; [exists []; constructor|]. destruct IH as (ls & HF).
      destruct (dirent_walk (S (depth fs)) p Hp) as (l & Hl); [lia|]. exists (l :: ls). constructor; assumption. }
    destruct LS as (ls & HF). exists ls. split.
    - clear -HF. induction HF as [|q l qs ls [H _] HF IH]; constructor; auto.
    - intros visit HV. unfold process_dirent_args. apply each_concat; [exact HV| |apply shape_refl].
      clear -HF HV. induction HF as [|q l qs ls [_ H] HF IH]; constructor; auto.
  Qed.
End Walk.
