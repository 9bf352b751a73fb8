(** * Lemmas: the states a rewrite by copy passes through. *)
From Verif Require Import Base M_Ints M_Unsync M_Stream M_Payload M_Frame M_Tag22 M_Tag23 M_Tag24 M_Read M_Fs M_Tagset
  S_Ints S_Stream S_Tag S_Tag23 S_Tag24 S_Read S_Tagset L_Stream L_Read L_Fs L_Backup L_Tagset L_Tagset2 L_Tagset3 L_Tagset4.

(** ** Every state satisfies [Q], and the exit [post] *)
Definition traced {A} (Q : fsys -> Prop) (x : FS A) (post : outcome A -> fsys -> Prop) (fs : fsys) : Prop :=
  Forall Q (fst (x fs)) /\ post (fst (snd (x fs))) (snd (snd (x fs))).

Lemma traced_bind {A X} (Q : fsys -> Prop) (x : FS A) (f : A -> FS X) post fs :
  traced Q x (fun o s => match o with Ok a => traced Q (f a) post s | Throw e => post (Throw e) s
                         | UB u => post (UB u) s | NonTerm => post NonTerm s end) fs ->
  traced Q (fbind x f) post fs.
Proof.
  unfold traced, fbind. destruct (x fs) as [l [[a|e|u|] s]]; cbn; auto. destruct (f a s) as [l' r]. cbn.
  rewrite Forall_app. tauto.
Qed.
Lemma traced_catch {A} (Q : fsys -> Prop) (x : FS A) (h : exn -> FS A) post fs :
  traced Q x (fun o s => match o with Throw e => traced Q (h e) post s | _ => post o s end) fs ->
  traced Q (fcatch x h) post fs.
Proof.
  unfold traced, fcatch. destruct (x fs) as [l [[a|e|u|] s]]; cbn; auto. destruct (h e s) as [l' r]. cbn.
  rewrite Forall_app. tauto.
Qed.
Lemma traced_ret {A} (Q : fsys -> Prop) (a : A) (post : outcome A -> fsys -> Prop) fs : post (Ok a) fs -> traced Q (fret a) post fs.
Proof. intros H. split; [constructor|exact H]. Qed.
Lemma traced_throw {A} (Q : fsys -> Prop) e (post : outcome A -> fsys -> Prop) fs : post (Throw e) fs -> traced Q (fthrow e) post fs.
Proof. intros H. split; [constructor|exact H]. Qed.
Lemma traced_lift {A} (Q : fsys -> Prop) o (post : outcome A -> fsys -> Prop) fs : post o fs -> traced Q (flift o) post fs.
Proof. intros H. split; [constructor|exact H]. Qed.
Lemma traced_lookup (Q : fsys -> Prop) k (post : outcome (option node) -> fsys -> Prop) fs : post (Ok (find_node k fs)) fs -> traced Q (lookup k) post fs.
Proof. intros H. split; [constructor|exact H]. Qed.
Lemma traced_change (Q : fsys -> Prop) f (post : outcome unit -> fsys -> Prop) fs : Q (f fs) -> post (Ok tt) (f fs) -> traced Q (change f) post fs.
Proof. intros H H'. split; [repeat constructor; exact H|exact H']. Qed.
Lemma traced_append (Q : fsys -> Prop) k data (post : outcome unit -> fsys -> Prop) fs :
  (forall b, Q (set_node k (File b) fs)) ->
  post (Ok tt) (set_node k (File (match find_node k fs with Some (File b) => b | _ => [] end ++ data)) fs) ->
  traced Q (append k data) post fs.
Proof.
  intros H H'. split; [|exact H']. unfold append, append_states. cbn [fst]. apply Forall_forall. intros s Hs.
  apply in_map_iff in Hs as (i & <- & _). apply H.
Qed.
Lemma traced_remove (Q : fsys -> Prop) k (post : outcome unit -> fsys -> Prop) fs : Q (del_node k fs) -> post (Ok tt) (del_node k fs) ->
  (find_node k fs = Some Dir -> post (Throw FsError) fs) -> traced Q (fremove k) post fs.
Proof.
  intros H H' HD. unfold traced, fremove. destruct (find_node k fs) as [[b|]|]; try (split; [repeat constructor; exact H|exact H']).
  destruct (has_entries fs k); [split; [constructor|now apply HD]|split; [repeat constructor; exact H|exact H']].
Qed.
Lemma traced_copy (Q : fsys -> Prop) from to fail (post : outcome unit -> fsys -> Prop) fs :
  (forall b, find_node to fs = None -> Q (set_node to (File b) fs)) ->
  post (Throw FsError) fs ->
  (forall b, find_node from fs = Some (File b) -> find_node to fs = None -> fail = None -> post (Ok tt) (set_node to (File b) fs)) ->
  (forall b n, fail = Some n -> find_node to fs = None -> post (Throw FsError) (set_node to (File b) fs)) ->
  traced Q (fcopy from to fail) post fs.
Proof.
  intros H HE HO HP. unfold traced, fcopy. destruct (find_node from fs) as [[b|]|] eqn:E; try (split; [constructor|exact HE]).
  destruct (find_node to fs) eqn:E2; [split; [constructor|exact HE]|]. destruct fail as [n|]; cbn [fst snd]; split; eauto.
  all: unfold append_states; apply Forall_forall; intros s Hs; apply in_map_iff in Hs as (i & <- & _); now apply H.
Qed.

(** ** The rewrite, whatever happens *)
Section Copy.
  Context (e : env) (p : bytes) (fs : fsys) (data new : bytes).
  Let k := resolve (e_cwd e) p.
  Let tmp := e_tmp e.
  Context (isb : key -> Prop) (Fr : key -> Prop).
  Let same (s : fsys) : Prop := forall j, Fr j -> find_node j s = find_node j fs.
  Context (Hk : find_node k fs = Some (File data))
    (HB : forall s name, same s -> get_backup_name s (e_cwd e) p = Ok name ->
      isb (resolve (e_cwd e) name) /\ ~ Fr (resolve (e_cwd e) name))
    (Hbk : ~ isb k) (Hbt : ~ isb tmp) (Htk : tmp <> k)
    (HFk : ~ Fr k) (HFt : ~ Fr tmp).

  Definition kept (s : fsys) : Prop :=
    (find_node k s = Some (File data) \/ find_node k s = Some (File new) \/ exists c, isb c /\ find_node c s = Some (File data)) /\
    same s.

  Lemma same_set j n s : ~ Fr j -> same s -> same (set_node j n s).
  Proof. intros HF H i Hi. rewrite find_set_other; [now apply H|]. intros ->. contradiction. Qed.
  Lemma same_del j s : ~ Fr j -> same s -> same (del_node j s).
  Proof. intros HF H i Hi. rewrite find_del_other; [now apply H|]. intros ->. contradiction. Qed.

  (** While the file is still there. *)
  Let before (s : fsys) : Prop := find_node k s = Some (File data) /\ same s.
  Lemma before_kept s : before s -> kept s.
  Proof. intros [H1 H2]. split; [left; exact H1|exact H2]. Qed.
  Lemma before_set j n s : j <> k -> ~ Fr j -> before s -> before (set_node j n s).
  Proof. intros N1 N2 [H1 H2]. split; [now rewrite find_set_other by congruence|now apply same_set]. Qed.
  Lemma before_del j s : j <> k -> ~ Fr j -> before s -> before (del_node j s).
  Proof. intros N1 N2 [H1 H2]. split; [now rewrite find_del_other by congruence|now apply same_del]. Qed.

  Lemma backup_traced s : before s ->
    traced kept (make_backup e p) (fun o s' => kept s' /\
      match o with
      | Ok c => before s' /\ isb c /\ ~ Fr c /\ find_node c s' = Some (File data) /\ find_node tmp s' = find_node tmp s
      | _ => True end) s.
  Proof.
    intros HS. pose proof (before_kept s HS) as HK. unfold make_backup.
    change (traced kept
      (fun fs0 => fbind (flift (get_backup_name fs0 (e_cwd e) p)) (fun name =>
         let cp := resolve (e_cwd e) name in
         run old <- lookup cp;;
         run _ <- (match old with Some _ => fremove cp | None => fret tt end);;
         run _ <- fcopy (resolve (e_cwd e) p) cp (e_copy1 e);; fret cp) fs0)
      (fun o s' => kept s' /\ match o with Ok c => before s' /\ isb c /\ ~ Fr c /\ find_node c s' = Some (File data) /\
         find_node tmp s' = find_node tmp s | _ => True end) s).
    enough (G : forall o, get_backup_name s (e_cwd e) p = o -> traced kept
      (fbind (flift o) (fun name =>
         let cp := resolve (e_cwd e) name in
         run old <- lookup cp;;
         run _ <- (match old with Some _ => fremove cp | None => fret tt end);;
         run _ <- fcopy (resolve (e_cwd e) p) cp (e_copy1 e);; fret cp))
      (fun o s' => kept s' /\ match o with Ok c => before s' /\ isb c /\ ~ Fr c /\ find_node c s' = Some (File data) /\
         find_node tmp s' = find_node tmp s | _ => True end) s) by exact (G _ eq_refl).
    intros o Ho. apply traced_bind, traced_lift. destruct o as [name| | |]; try (split; [exact HK|exact I]).
    destruct (HB s name (proj2 HS) Ho) as [Hb HF]. set (cp := resolve (e_cwd e) name) in *. cbv zeta. clearbody cp.
    assert (Nk : cp <> k) by (intros ->; contradiction). assert (Nt : cp <> tmp) by (intros ->; contradiction).
    assert (G : forall s1, before s1 -> find_node tmp s1 = find_node tmp s ->
      traced kept (run _ <- fcopy (resolve (e_cwd e) p) cp (e_copy1 e);; fret cp)
        (fun o s' => kept s' /\ match o with Ok c => before s' /\ isb c /\ ~ Fr c /\ find_node c s' = Some (File data) /\
         find_node tmp s' = find_node tmp s | _ => True end) s1).
    { intros s1 H1 E1. apply traced_bind. apply traced_copy.
      - intros b _. apply before_kept. now apply before_set.
      - split; [now apply before_kept|exact I].
      - intros b Hb' _ _. apply traced_ret. assert (H2 : before (set_node cp (File b) s1)) by now apply before_set.
        split; [now apply before_kept|]. split; [exact H2|]. split; [exact Hb|]. split; [exact HF|].
        destruct H1 as [H1 _]. fold k in Hb'. rewrite Hb' in H1. injection H1 as ->.
        split; [apply find_set_same|]. now rewrite find_set_other by congruence.
      - intros b n _ _. split; [|exact I]. apply before_kept. now apply before_set. }
    apply traced_bind, traced_lookup. apply traced_bind. destruct (find_node cp s) as [nd|].
    - apply traced_remove.
      + apply before_kept. now apply before_del.
      + apply G; [now apply before_del|]. now rewrite find_del_other by congruence.
      + intros _. split; [exact HK|exact I].
    - apply traced_ret. apply G; [exact HS|reflexivity].
  Qed.

  Definition done (o : outcome unit) (s : fsys) : Prop :=
    kept s /\ match o with Ok _ => find_node k s = Some (File new) | _ => True end.

  Lemma swap_traced keep cp s : before s -> find_node tmp s = Some (File new) ->
    match cp with Some c => isb c /\ ~ Fr c /\ find_node c s = Some (File data) | None => True end ->
    traced kept (swap_in e p keep cp) done s.
  Proof.
    intros HS HT HC. pose proof (before_kept s HS) as HK. unfold swap_in. fold k. cbv zeta.
    destruct (e_rename e).
    - unfold frename. fold tmp. unfold traced. rewrite HT.
      assert (HR : kept (set_node k (File new) (del_node tmp s))).
      { split; [right; left; apply find_set_same|]. apply same_set; [exact HFk|]. apply same_del; [exact HFt|apply HS]. }
      split; [exact (Forall_cons _ HR (Forall_nil _))|]. split; [exact HR|]. apply find_set_same.
    - apply traced_bind.
      assert (G : forall c s1, same s1 -> find_node tmp s1 = Some (File new) -> isb c -> ~ Fr c -> find_node c s1 = Some (File data) ->
        traced kept (run _ <- fremove k;;
          fcatch (run _ <- fcopy (e_tmp e) k (e_copy2 e);; if negb keep then fremove (e_tmp e) else fret tt)
            (fun x => run _ <- fcatch (fcopy c k (e_copy3 e)) (fun _ => fret tt);; fthrow x)) done s1).
      { clear s HS HT HC HK. intros c s HS HT Hb HF HC.
        assert (Nk : c <> k) by (intros ->; contradiction). assert (Nt : c <> tmp) by (intros ->; contradiction).
        assert (Q : forall s1, same s1 -> find_node c s1 = Some (File data) -> kept s1).
        { intros s1 H1 H2. split; [right; right; eauto|exact H1]. }
        apply traced_bind. apply traced_remove.
        - apply Q; [now apply same_del|now rewrite find_del_other by congruence].
        - assert (H1 : same (del_node k s)) by now apply same_del.
          assert (H2 : find_node c (del_node k s) = Some (File data)) by now rewrite find_del_other by congruence.
          assert (H3 : find_node tmp (del_node k s) = Some (File new)) by now rewrite find_del_other by congruence.
          assert (H4 : find_node k (del_node k s) = None) by apply find_del_same.
          set (s1 := del_node k s) in *. clearbody s1. clear s HS HT HC.
          assert (Hset : forall b, same (set_node k (File b) s1) /\ find_node c (set_node k (File b) s1) = Some (File data)).
          { intros b. split; [now apply same_set|]. now rewrite find_set_other by congruence. }
          assert (RB : forall x s2, same s2 -> find_node c s2 = Some (File data) ->
            traced kept (run _ <- fcatch (fcopy c k (e_copy3 e)) (fun _ => fret tt);; fthrow x) done s2).
          { intros x s2 R1 R2.
            assert (Rset : forall b, kept (set_node k (File b) s2)).
            { intros b. apply Q; [now apply same_set|]. now rewrite find_set_other by congruence. }
            apply traced_bind, traced_catch, traced_copy.
            - intros b _. apply Rset.
            - apply traced_ret, traced_throw. split; [now apply Q|exact I].
            - intros b _ _ _. apply traced_throw. split; [apply Rset|exact I].
            - intros b n _ _. apply traced_ret, traced_throw. split; [apply Rset|exact I]. }
          apply traced_catch, traced_bind, traced_copy.
          + intros b _. apply Q; apply Hset.
          + apply RB; assumption.
          + intros b Hb' _ _. fold tmp in Hb'. rewrite H3 in Hb'. injection Hb' as <-.
            assert (EK : find_node k (set_node k (File new) s1) = Some (File new)) by apply find_set_same.
            assert (EKd : kept (set_node k (File new) s1)) by (apply Q; apply Hset).
            destruct keep; cbn [negb].
            * apply traced_ret. split; assumption.
            * apply traced_remove; fold tmp.
              -- apply Q; [apply same_del; [exact HFt|apply Hset]|]. rewrite find_del_other by congruence. apply Hset.
              -- split; [|now rewrite find_del_other by congruence].
                 apply Q; [apply same_del; [exact HFt|apply Hset]|]. rewrite find_del_other by congruence. apply Hset.
              -- intros HD. apply RB; apply Hset.
          + intros b n _ _. apply RB; apply Hset.
        - intros _. split; [now apply Q|exact I]. }
      destruct cp as [c|].
      + apply traced_ret. destruct HC as (H1 & H2 & H3). apply G; try assumption. apply HS.
      + pose proof (backup_traced s HS) as [B1 B2]. split; [exact B1|].
        destruct (make_backup e p s) as [l [[c|x|u|] s1]]; cbn [fst snd] in *; try (split; [apply B2|exact I]).
        destruct B2 as (_ & [_ B2] & B3 & B4 & B5 & B6). apply G; try assumption. congruence.
    - apply traced_throw. split; [exact HK|exact I].
  Qed.

  Lemma copy_traced z m ts w o l keep : emit_all z m ts = (w, o) -> tags_from data 0 l ->
    new = w ++ dropN (tags_end 0 l) data ->
    traced kept (replace_tagset_copy z e p ts m keep)
      (fun r s => kept s /\ match r with Ok ts' => o = Ok ts' /\ find_node k s = Some (File new) | _ => True end) fs.
  Proof.
    intros He Hl Hnew. assert (HS : before fs) by (split; [exact Hk|intros j _; reflexivity]).
    unfold replace_tagset_copy. fold k tmp. cbv zeta.
    assert (T : forall n s, before s -> before (set_node tmp n s)) by (intros n s H; now apply before_set).
    apply traced_bind, traced_change; [apply before_kept, T, HS|]. rewrite He.
    apply traced_bind, traced_append; [intros b; apply before_kept, T, T, HS|].
    rewrite find_set_same. cbn [app]. set (s1 := set_node tmp (File w) (set_node tmp (File []) fs)).
    assert (H1 : before s1) by (apply T, T, HS). assert (E1 : find_node tmp s1 = Some (File w)) by apply find_set_same. clearbody s1.
    apply traced_bind, traced_lift. destruct o as [ts1|x|u|]; try (split; [now apply before_kept|exact I]).
    apply traced_bind, traced_lookup. destruct H1 as [H1 H1']. rewrite H1. pose proof (conj H1 H1' : before s1) as H1''.
    apply traced_bind, traced_lift. rewrite (rest_of_ok data l Hl). destruct (tags_end 0 l <=? len data).
    2:{ split; [now apply before_kept|exact I]. }
    apply traced_bind, traced_append; [intros b; apply before_kept, T, H1''|]. rewrite E1, <- Hnew.
    set (s2 := set_node tmp (File new) s1). assert (H2 : before s2) by (apply T, H1'').
    assert (E2 : find_node tmp s2 = Some (File new)) by apply find_set_same. clearbody s2. clear H1 H1' H1'' E1 s1.
    assert (K : forall cp s, before s -> find_node tmp s = Some (File new) ->
      match cp with Some c => isb c /\ ~ Fr c /\ find_node c s = Some (File data) | None => True end ->
      traced kept (run _ <- swap_in e p keep cp;; fret ts1)
        (fun r s => kept s /\ match r with Ok ts' => Ok ts1 = Ok ts' /\ find_node k s = Some (File new) | _ => True end) s).
    { intros cp s HB1 HT1 HC1. apply traced_bind. pose proof (swap_traced keep cp s HB1 HT1 HC1) as [C1 C2].
      split; [exact C1|]. destruct (swap_in e p keep cp s) as [ll [[[]|x|u|] s3]]; cbn [fst snd] in *.
      - apply traced_ret. split; [apply C2|]. split; [reflexivity|apply C2].
      - split; [apply C2|exact I].
      - split; [apply C2|exact I].
      - split; [apply C2|exact I]. }
    apply traced_bind. destruct keep.
    - apply traced_bind. pose proof (backup_traced s2 H2) as [B1 B2]. split; [exact B1|].
      destruct (make_backup e p s2) as [ll [[c|x|u|] s3]]; cbn [fst snd] in *; try (split; [apply B2|exact I]).
      destruct B2 as (_ & B2 & B3 & B4 & B5 & B6). apply traced_ret. apply K; [exact B2|congruence|auto].
    - apply traced_ret. now apply K.
  Qed.
End Copy.

(** ** The backup's name *)
Lemma until_slash_pre r x : until_slash (r ++ 47 :: x) = until_slash r.
Proof. induction r as [|c r IH]; cbn [app until_slash]; [now rewrite N.eqb_refl|]. destruct (c =? 47); [reflexivity|]. now rewrite IH. Qed.
Lemma filename_pre x p : filename (x ++ 47 :: p) = filename p.
Proof. unfold filename. rewrite rev_app_distr. cbn [rev]. rewrite <- app_assoc. cbn [app]. now rewrite until_slash_pre. Qed.
Lemma join_filename cwd p : cwd <> [] -> filename (join cwd p) = filename p.
Proof.
  intros H. unfold join. destruct (rev cwd) as [|c r] eqn:E.
  - apply (f_equal (@rev N)) in E. rewrite rev_involutive in E. now subst cwd.
  - destruct (N.eqb_spec c 47) as [->|_]; [|apply filename_pre].
    apply (f_equal (@rev N)) in E. rewrite rev_involutive in E. cbn [rev] in E. subst cwd. rewrite <- app_assoc. apply filename_pre.
Qed.

Lemma resolve_hd cwd p : hd 0 p = 47 -> resolve cwd p = resolve_abs p.
Proof. intros H. unfold resolve, absolute. destruct p as [|c p]; [discriminate|]. cbn in H. now subst c. Qed.
Lemma spelled_hd d n : dir_path d -> hd 0 (spelled d n) = 47.
Proof. intros [->|[H _]]; [reflexivity|]. destruct d; [discriminate|exact H]. Qed.

Lemma backup_name fs cwd p d n name : p <> [] -> hd 0 cwd = 47 -> dir_path d -> plain_name n -> absolute cwd p = spelled d n ->
  get_backup_name fs cwd p = Ok name ->
  exists ds, ds <> [] /\ forallb is_digit ds = true /\ resolve cwd name = resolve_abs (spelled d (n ++ B "." ++ ds)).
Proof.
  intros Hp Hc Hd Hn HA HG. destruct (N.eq_dec (hd 0 p) 47) as [E|E].
  - assert (EP : absolute cwd p = p) by (unfold absolute; destruct p as [|c p]; [discriminate|]; cbn in E; now subst c).
    rewrite EP in HA. subst p. destruct (backup_fresh fs cwd d n name Hd Hn HG) as (ds & -> & H1 & H2 & _).
    exists ds. split; [exact H1|]. split; [exact H2|]. rewrite spelled_app. apply resolve_hd, spelled_hd, Hd.
  - rewrite backup_relative in HG by assumption. apply Ok_inj in HG. subst name.
    exists (B "1"). split; [discriminate|]. split; [reflexivity|].
    assert (EF : filename p = n).
    { assert (EJ : absolute cwd p = join cwd p) by (unfold absolute; destruct p as [|c p]; [reflexivity|]; cbn in E; destruct (N.eqb_spec c 47); [contradiction|reflexivity]).
      rewrite <- (filename_spelled d n) by apply Hn. rewrite <- HA, EJ. symmetry. apply join_filename. intros ->. discriminate. }
    rewrite HA, EF, parent_spelled, join_dir by (apply Hn || exact Hd). change (B "." ++ B "1") with (B ".1"). apply resolve_hd, spelled_hd, Hd.
Qed.

Lemma is_backup_key d n c : plain_name n -> is_backup d n c -> exists ds, ds <> [] /\ c = resolve_abs d ++ [n ++ [46] ++ ds].
Proof.
  intros Hn (ds & H1 & H2 & ->). exists ds. split; [exact H1|]. change (B ".") with [46]. rewrite spelled_app. apply resolve_spelled.
  now apply plain_numbered.
Qed.
Lemma backup_not_file d n : plain_name n -> ~ is_backup d n (resolve_abs (spelled d n)).
Proof.
  intros Hn H. apply is_backup_key in H as (ds & H1 & H); [|exact Hn]. rewrite resolve_spelled in H by exact Hn.
  apply app_inj_tail in H as [_ H]. apply (f_equal (@List.length N)) in H. rewrite app_length in H. cbn in H. lia.
Qed.
Lemma backup_has_dot d n c : plain_name n -> is_backup d n c -> In 46 (last c []).
Proof.
  intros Hn H. apply is_backup_key in H as (ds & H1 & ->); [|exact Hn]. rewrite last_last. rewrite !in_app_iff. right. left. now left.
Qed.

(** Everything [replace_tagset_copy] may do. *)
Lemma copy_any z e p d n ts m keep w o fs data l : let k := resolve (e_cwd e) p in
  p <> [] -> hd 0 (e_cwd e) = 47 -> dir_path d -> plain_name n -> absolute (e_cwd e) p = spelled d n ->
  find_node k fs = Some (File data) -> tags_from data 0 l -> emit_all z m ts = (w, o) ->
  ~ In 46 (last (e_tmp e) []) -> e_tmp e <> k ->
  let ok s := (find_node k s = Some (File data) \/ find_node k s = Some (File (w ++ dropN (tags_end 0 l) data)) \/
               exists c, is_backup d n c /\ find_node c s = Some (File data)) /\
              forall j, j <> k -> j <> e_tmp e -> ~ is_backup d n j -> find_node j s = find_node j fs in
  let '(st, (r, fs')) := replace_tagset_copy z e p ts m keep fs in
  Forall ok st /\ ok fs' /\ match r with Ok ts' => o = Ok ts' /\ find_node k fs' = Some (File (w ++ dropN (tags_end 0 l) data)) | _ => True end.
Proof.
  intros k Hp Hc Hd Hn HA Hk Hl He Ht Htk ok.
  assert (Ek : k = resolve_abs (spelled d n)) by (unfold k, resolve; now rewrite HA).
  pose proof (copy_traced e p fs data (w ++ dropN (tags_end 0 l) data) (is_backup d n)
    (fun j => j <> k /\ j <> e_tmp e /\ ~ is_backup d n j) Hk) as C.
  specialize (fun a b c d0 f g => C a b c d0 f g z m ts w o l keep He Hl eq_refl).
  destruct C as [C1 C2].
  - intros s name _ HG. destruct (backup_name _ _ _ _ _ _ Hp Hc Hd Hn HA HG) as (ds & H1 & H2 & H3).
    assert (HB : is_backup d n (resolve (e_cwd e) name)) by (exists ds; rewrite spelled_app; auto). split; [exact HB|]. tauto.
  - fold k. rewrite Ek. now apply backup_not_file.
  - intros H. apply Ht. now apply (backup_has_dot d n).
  - exact Htk.
  - fold k. tauto.
  - tauto.
  - destruct (replace_tagset_copy z e p ts m keep fs) as [st [r fs']]. cbn [fst snd] in *.
    assert (HI : forall s, kept e p fs data (w ++ dropN (tags_end 0 l) data) (is_backup d n)
      (fun j => j <> k /\ j <> e_tmp e /\ ~ is_backup d n j) s -> ok s).
    { intros s [H1 H2]. split; [exact H1|]. intros j J1 J2 J3. apply H2. auto. }
    split; [eapply Forall_impl; [exact HI|exact C1]|]. destruct C2 as [C2 C3]. split; [now apply HI|exact C3].
Qed.

(** For an absolute path, existing files stay as well. *)
Lemma copy_absolute z e d n ts m keep w o fs data l : let p := spelled d n in let k := resolve_abs p in
  dir_path d -> plain_name n ->
  find_node k fs = Some (File data) -> tags_from data 0 l -> emit_all z m ts = (w, o) ->
  ~ In 46 (last (e_tmp e) []) -> e_tmp e <> k ->
  let '(st, (_, fs')) := replace_tagset_copy z e p ts m keep fs in
  Forall (fun s => forall j, j <> k -> j <> e_tmp e -> find_node j fs <> None -> find_node j s = find_node j fs) (fs' :: st).
Proof.
  intros p k Hd Hn Hk Hl He Ht Htk.
  assert (Ek : resolve (e_cwd e) p = k) by (apply resolve_hd, spelled_hd, Hd).
  set (Fr := fun j : key => j <> k /\ j <> e_tmp e /\ find_node j fs <> None).
  pose proof (copy_traced e p fs data (w ++ dropN (tags_end 0 l) data) (is_backup d n) Fr) as C.
  rewrite Ek in C. specialize (C Hk). specialize (fun a b c d0 f g => C a b c d0 f g z m ts w o l keep He Hl eq_refl).
  destruct C as [C1 C2].
  - intros s name HS HG. destruct (backup_fresh _ _ _ _ _ Hd Hn HG) as (ds & -> & H1 & H2 & H3 & _).
    rewrite spelled_app in *. rewrite (resolve_hd (e_cwd e)) in * by (apply spelled_hd, Hd).
    split; [exists ds; rewrite spelled_app; auto|]. intros HF. rewrite (HS _ HF) in H3. apply HF. exact H3.
  - now apply backup_not_file.
  - intros H. apply Ht. now apply (backup_has_dot d n).
  - exact Htk.
  - unfold Fr. tauto.
  - unfold Fr. tauto.
  - destruct (replace_tagset_copy z e p ts m keep fs) as [st [r fs']]. cbn [fst snd] in *.
    assert (HI : forall s, kept e p fs data (w ++ dropN (tags_end 0 l) data) (is_backup d n) Fr s ->
      forall j, j <> k -> j <> e_tmp e -> find_node j fs <> None -> find_node j s = find_node j fs).
    { intros s [_ H] j J1 J2 J3. apply H. unfold Fr. auto. }
    constructor; [apply HI, C2|]. eapply Forall_impl; [exact HI|exact C1].
Qed.
