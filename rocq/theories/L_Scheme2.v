(** * Lemmas: errors raised by the procedures on files; going through files. *)
From Verif Require Import Base M_Ints M_Stream M_Id3v1 M_Charset M_Payload M_Frame M_Tag22 M_Tag23 M_Tag24 M_Read M_Fs M_Tagset M_Process M_Lang
  M_Scheme M_Scheme2 S_Tag S_Tagset S_Stream S_Read S_Scheme L_Fs L_Tagset L_Tagset2 L_Tagset3 L_Tagset4 L_Tagset5 L_Tagset6 L_Tagset8.
#[local] Open Scope N_scope.

Lemma gbind_ok {A X} (x : gres A) (k : A -> gres X) b : gbind x k = GOk b -> exists a, x = GOk a /\ k a = GOk b.
Proof. destruct x; cbn [gbind]; intros H; try discriminate. now exists a. Qed.

(** ** C++ exceptions do not get out *)
Definition quiet {A} (x : gres A) : Prop := forall e, x <> GThrow e.
Lemma quiet_bind {A X} (x : gres A) (k : A -> gres X) : quiet x -> (forall a, quiet (k a)) -> quiet (gbind x k).
Proof. intros Hx Hk e. destruct x; cbn [gbind]; try discriminate; [apply Hk|]. intros E. apply (Hx e0). now f_equal. Qed.
Lemma quiet_utf8 x : quiet (to_utf8 x).
Proof. intros e. destruct x; cbn [to_utf8]; try discriminate. now destruct (has_nul s). Qed.
Lemma quiet_locale G x : quiet (to_locale G x).
Proof. apply quiet_bind; [apply quiet_utf8|]. intros s e. now destruct (g_to_locale G s). Qed.
Lemma quiet_scribbu {A} (x : gres A) : quiet (as_scribbu x).
Proof. intros e. now destruct x. Qed.
Lemma quiet_read G z passes cwd fs p : quiet (read_tagset_scm G z passes cwd fs p).
Proof.
  apply quiet_bind; [apply quiet_locale|]. intros q. destruct (file_data cwd fs q); [|discriminate].
  destruct (fst _); try discriminate. apply quiet_scribbu.
Qed.
Lemma quiet_read_v1 G cwd fs p : quiet (read_v1_scm G cwd fs p).
Proof. apply quiet_bind; [apply quiet_locale|]. intros q. destruct (file_data cwd fs q); [apply quiet_scribbu|discriminate]. Qed.
Lemma quiet_run {A X} (x : gres A) (k : A -> FS X) fs : quiet (fst (snd (gfs_run x k fs))).
Proof.
  intros e. unfold gfs_run. destruct x; cbn [fst snd]; try discriminate.
  destruct (k a fs) as [l [[] fs']]; cbn [fst snd]; discriminate.
Qed.
Lemma quiet_args G z passes cwd fs p : quiet (track_args G z passes cwd fs p).
Proof.
  intros e. unfold track_args. pose proof (quiet_read G z passes cwd fs p) as H1. pose proof (quiet_read_v1 G cwd fs p) as H2.
  destruct (read_tagset_scm G z passes cwd fs p); try discriminate.
  - destruct (read_v1_scm G cwd fs p); try discriminate. intros K. apply (H2 e0). reflexivity.
  - intros K. apply (H1 e0). reflexivity.
Qed.
Lemma quiet_walk G z passes cwd fcn : (forall a b c fs, quiet (fst (fcn a b c fs))) ->
  forall es fs, quiet (fst (with_track_in G z passes cwd fcn es fs)).
Proof.
  intros HF. induction es as [|p es IH]; intros fs e; [discriminate|]. cbn [with_track_in].
  assert (K : quiet (fst match from_utf8 G p with
          | GOk pth => match track_args G z passes cwd fs pth with
              | GOk (ts, v1) => match fcn ts pth v1 fs with
                  | (GOk _, fs') => with_track_in G z passes cwd fcn es fs'
                  | (x, fs') => (x, fs') end
              | GRaise e => (GRaise e, fs) | GThrow _ => (GRaise ScribbuErr, fs) | GUB u => (GUB u, fs) | GNonTerm => (GNonTerm, fs) end
          | GRaise e => (GRaise e, fs) | GThrow _ => (GRaise ScribbuErr, fs) | GUB u => (GUB u, fs) | GNonTerm => (GNonTerm, fs) end)).
  { intros e'. destruct (from_utf8 G p); try discriminate. destruct (track_args G z passes cwd fs a) as [[ts v1]| | | |]; try discriminate.
    specialize (HF ts a v1 fs). destruct (fcn ts a v1 fs) as [[u| | | |] fs']; cbn [fst] in *; try discriminate; [apply IH|]. apply HF. }
  destruct (find_node (resolve cwd p) fs) as [[d|]|]; [apply K|apply IH|apply K].
Qed.

(** ** Refused before anything is written *)
Lemma run_raise {A X} (x : gres A) (k : A -> FS X) fs st er fs' : gfs_run x k fs = (st, (GRaise er, fs')) -> er <> ScribbuErr ->
  st = [] /\ fs' = fs /\ x = GRaise er.
Proof.
  unfold gfs_run. destruct x as [a|e0|e0|u|]; intros H Hne; try discriminate.
  - destruct (k a fs) as [l [[] f']]; try discriminate. injection H as _ <- _. congruence.
  - injection H as <- <- <-. auto.
  - injection H as <- <- <-. congruence.
Qed.

Lemma write_bad_unsync G z e tags p u copy fs : u <> SBool true -> u <> SBool false -> u <> SSym (B "as-needed") ->
  write_tagset_scm G z e tags p u copy fs = ([], (GRaise UnexpectedUnsync, fs)).
Proof.
  intros H1 H2 H3. unfold write_tagset_scm. assert (E : to_unsync u = GRaise UnexpectedUnsync).
  { destruct u; try reflexivity; [destruct b; congruence|]. cbn [to_unsync]. destruct (bytes_eqb s (B "as-needed")) eqn:K; [|reflexivity].
    apply bytes_eqb_eq in K. congruence. }
  rewrite E. reflexivity.
Qed.

Lemma gmap_first {A X} (f : A -> gres X) pre x post bs er : gmap f pre = GOk bs -> f x = GRaise er -> gmap f (pre ++ x :: post) = GRaise er.
Proof.
  revert bs. induction pre as [|a pre IH]; intros bs H E; cbn [gmap List.app] in *; [now rewrite E|].
  apply gbind_ok in H as (b & -> & H). apply gbind_ok in H as (bs' & H & _). cbn [gbind]. now rewrite (IH bs').
Qed.
Lemma to_list_slist l : to_list (slist l) = GOk l.
Proof. induction l as [|x l IH]; [reflexivity|]. cbn [slist to_list]. now rewrite IH. Qed.

Lemma write_bad_tag G z e pre x post p u m copy fs ms er : to_unsync u = GOk m ->
  gmap (to_tag G) pre = GOk ms -> to_tag G x = GRaise er ->
  write_tagset_scm G z e (slist (pre ++ x :: post)) p u copy fs = ([], (GRaise er, fs)).
Proof.
  intros Hu Hm Hx. unfold write_tagset_scm. rewrite Hu. cbn [gbind]. rewrite to_list_slist. cbn [gbind].
  now rewrite (gmap_first _ _ _ _ _ _ Hm Hx).
Qed.

Lemma write_untouched G z e tags p u copy fs st er fs' :
  write_tagset_scm G z e tags p u copy fs = (st, (GRaise er, fs')) -> er <> ScribbuErr -> st = [] /\ fs' = fs.
Proof. intros H Hne. destruct (run_raise _ _ _ _ _ _ H Hne) as (-> & -> & _). auto. Qed.
Lemma write_v1_untouched G cwd tag p fs st er fs' :
  write_v1_scm G cwd tag p fs = (st, (GRaise er, fs')) -> er <> ScribbuErr -> st = [] /\ fs' = fs.
Proof. intros H Hne. destruct (run_raise _ _ _ _ _ _ H Hne) as (-> & -> & _). auto. Qed.

(** ** Failing later *)
Lemma wraps_lt ts target cur : wraps ts target cur -> target < cur.
Proof. intros (t & r & -> & L & _). exact L. Qed.

Lemma emplace_fails z e p ts m fs data l st x fs' : let k := resolve (e_cwd e) p in
  find_node k fs = Some (File data) -> tags_from data 0 l -> tags_end 0 l < 2 ^ 28 -> tags_end 0 l <= len data ->
  Forall (Settled z m) ts -> Forall sound_tag ts -> total_size z m ts < 2 ^ 64 ->
  replace_tagset_emplace z e p ts m fs = (st, (Throw x, fs')) -> fs' = fs.
Proof.
  intros k Hk Hl HT HL S1 HS Hn H. pose proof (sizes_stable z m ts S1) as Hz.
  pose proof (emplace_cases z e p ts m fs data l _ _ ts Hk Hl HS Hz Hn HT HL) as C.
  destruct (_ && _) in C.
  - destruct C as (w & _ & _ & _ & _ & C). rewrite C in H. discriminate.
  - destruct C as (y & C). rewrite C in H. now injection H.
Qed.

Lemma save_fails z e p d nm ts m strat keep fs data l st x fs' n pd ts1 : let k := resolve (e_cwd e) p in
  p <> [] -> hd 0 (e_cwd e) = 47 -> dir_path d -> plain_name nm -> absolute (e_cwd e) p = spelled d nm ->
  find_node k fs = Some (File data) -> tags_from data 0 l -> tags_end 0 l < 2 ^ 28 -> tags_end 0 l <= len data ->
  Forall sound_tag ts -> Forall (fun t => any_padding t < 2 ^ 62) ts -> sizes z m ts = Ok (n, pd, ts1) -> n < 2 ^ 28 ->
  ~ wraps ts (tags_end 0 l) n -> e_tmp e <> k -> ~ In 46 (last (e_tmp e) []) ->
  maybe_emplace_tagset z e p ts m strat keep fs = (st, (Throw x, fs')) ->
  (find_node k fs' = Some (File data) \/
   (exists w, find_node k fs' = Some (File (w ++ dropN (tags_end 0 l) data))) \/
   exists c, is_backup d nm c /\ find_node c fs' = Some (File data)) /\
  forall j, j <> k -> j <> e_tmp e -> ~ is_backup d nm j -> find_node j fs' = find_node j fs.
Proof.
  intros k Hp Hc Hd Hnm HA Hk Hl HT HL HS HP Hz Hn Hw Htk Hdot H. set (T := tags_end 0 l) in *.
  destruct (sv_facts z m ts ts1 n pd HS HP Hz) as (S1 & En & Ep & Hsame & HS1 & _ & _).
  assert (Hw1 : ~ wraps ts1 T n) by (intros HW; apply Hw; now apply (wraps_same ts ts1)).
  assert (D : fs' = fs -> (find_node k fs' = Some (File data) \/
   (exists w, find_node k fs' = Some (File (w ++ dropN T data))) \/
   exists c, is_backup d nm c /\ find_node c fs' = Some (File data)) /\
  forall j, j <> k -> j <> e_tmp e -> ~ is_backup d nm j -> find_node j fs' = find_node j fs) by (intros ->; auto).
  assert (HAdj : forall ts2 o, adjust_padding_to ts1 T n = (ts2, o) ->
     (run _ <- flift o;; replace_tagset_emplace z e p ts2 m) fs = (st, (Throw x, fs')) -> fs' = fs).
  { intros ts2 o HA2 HR. rewrite fbind_lift in HR. destruct o as [[]|x0|u|]; try discriminate; [|now injection HR].
    destruct (sv_adjusted z m l ts ts1 n pd HT HS HP Hz Hn ts2 HA2 Hw1) as (_ & S2 & P2 & B & _).
    exact (emplace_fails z e p ts2 m fs data l st x fs' Hk Hl HT HL S2 P2 B HR). }
  unfold maybe_emplace_tagset in H. cbv zeta in H. fold k in H. unfold tagset_size in H. rewrite Hk, (extant_ok data l Hl) in H. fold T in H.
  rewrite fbind_lift in H. unfold tagset_sizes in H. rewrite Hz in H. cbn [bind] in H.
  assert (N64 : n < 2 ^ 64) by (apply N.lt_trans with (2 ^ 28); [exact Hn|reflexivity]).
  assert (Ew : wrap64 n = n) by (unfold wrap64; apply N.mod_small; exact N64). rewrite Ew in H. rewrite fbind_lift in H.
  destruct (n <=? T) eqn:L1.
  - apply D. destruct (n <? T) eqn:L2.
    + destruct (adjust_padding_to ts1 T n) as [ts2 o] eqn:EA. now apply (HAdj ts2 o).
    + apply (emplace_fails z e p ts1 m fs data l st x fs'); auto. now rewrite <- En.
  - destruct (_ && _).
    + apply D. destruct (adjust_padding_to ts1 T n) as [ts2 o] eqn:EA. now apply (HAdj ts2 o).
    + destruct (emit_all_settled z m ts1 S1) as (w & W1 & W2 & _); [lia|].
      pose proof (copy_any z e p d nm ts1 m keep w (Ok ts1) fs data l Hp Hc Hd Hnm HA Hk Hl W1 Hdot Htk) as C. cbv zeta in C.
      rewrite H in C. destruct C as (_ & [C0 C1] & _). fold T in C0. split; [|exact C1].
      destruct C0 as [C0|[C0|C0]]; [left; exact C0|right; left; exists w; exact C0|right; right; exact C0].
Qed.

(** ** Going through files *)
Lemma c_str_no_nul s : ~ In 0 s -> c_str s = s.
Proof.
  induction s as [|a s IH]; [reflexivity|]. intros H. unfold c_str in *. cbn [split0]. destruct (a =? 0) eqn:E.
  - apply N.eqb_eq in E. subst. exfalso. apply H. now left.
  - destruct (split0 s) as [o r] eqn:F. cbn [fst] in *. f_equal. apply IH. intros K. apply H. now right.
Qed.

Lemma from_utf8_plain G p x : ~ In 0 p -> from_utf8 G p = GOk x -> x = SStr p.
Proof. intros H. unfold from_utf8. rewrite (c_str_no_nul p H). destruct (g_utf8 G p); intros E; [congruence|discriminate]. Qed.

Lemma args_are G z passes cwd fs pth ts v1 : track_args G z passes cwd fs pth = GOk (ts, v1) -> forall fs',
  args_read (read_tagset_scm G z passes cwd) (read_v1_scm G cwd) (mkCall ts pth v1 fs fs').
Proof.
  intros H fs'. unfold args_read. cbn [ca_tags ca_path ca_v1 ca_before]. unfold track_args in H.
  destruct (read_tagset_scm G z passes cwd fs pth); try discriminate.
  - destruct (read_v1_scm G cwd fs pth); try discriminate; injection H as <- <-; auto.
  - injection H as <- <-. auto.
Qed.

Lemma walk_l G z passes cwd fcn : forall es fs u fs', Forall (fun p => ~ In 0 p) es ->
  with_track_in G z passes cwd fcn es fs = (GOk u, fs') ->
  exists cs, linked fs cs fs' /\ visits cwd fs es cs /\
    Forall (returned fcn) cs /\ Forall (args_read (read_tagset_scm G z passes cwd) (read_v1_scm G cwd)) cs.
Proof.
  induction es as [|p es IH]; intros fs u fs' HN H.
  - injection H as _ <-. exists []. repeat split; constructor.
  - apply Forall_cons_iff in HN as [Hp HN]. cbn [with_track_in] in H.
    destruct (find_node (resolve cwd p) fs) as [[d|]|] eqn:F.
    2: { destruct (IH fs u fs' HN H) as (cs & C1 & C2 & C3). exists cs. split; [exact C1|]. split; [now apply visits_dir|exact C3]. }
    all: destruct (from_utf8 G p) as [pth| | | |] eqn:U; try discriminate; apply (from_utf8_plain G p pth Hp) in U; subst pth;
      destruct (track_args G z passes cwd fs (SStr p)) as [[ts v1]| | | |] eqn:T; try discriminate;
      destruct (fcn ts (SStr p) v1 fs) as [[[]| | | |] fs1] eqn:R; try discriminate;
      destruct (IH fs1 u fs' HN H) as (cs & C1 & C2 & C3 & C4); exists (mkCall ts (SStr p) v1 fs fs1 :: cs);
      (split; [split; [reflexivity|exact C1]|]); (split; [apply visits_file; [rewrite F; discriminate|reflexivity|exact C2]|]);
      (split; constructor; [exact R|exact C3|now apply args_are|exact C4]).
Qed.

Lemma walk_stops G z passes cwd fcn : forall es fs er fs', Forall (fun p => ~ In 0 p) es ->
  with_track_in G z passes cwd fcn es fs = (GRaise er, fs') ->
  exists es1 p es2 cs fs1, es = es1 ++ p :: es2 /\ linked fs cs fs1 /\ visits cwd fs es1 cs /\ Forall (returned fcn) cs /\
    find_node (resolve cwd p) fs1 <> Some Dir /\
    (g_utf8 G p = false /\ er = Decoding /\ fs' = fs1 \/
     exists c, ca_before c = fs1 /\ ca_path c = SStr p /\ args_read (read_tagset_scm G z passes cwd) (read_v1_scm G cwd) c /\
       fcn (ca_tags c) (ca_path c) (ca_v1 c) fs1 = (GRaise er, fs')).
Proof.
  induction es as [|p es IH]; intros fs er fs' HN H; [discriminate|].
  apply Forall_cons_iff in HN as [Hp HN]. cbn [with_track_in] in H.
  assert (K : find_node (resolve cwd p) fs <> Some Dir -> match from_utf8 G p with
          | GOk pth => match track_args G z passes cwd fs pth with
              | GOk (ts, v1) => match fcn ts pth v1 fs with
                  | (GOk _, fs') => with_track_in G z passes cwd fcn es fs'
                  | (x, fs') => (x, fs') end
              | GRaise e => (GRaise e, fs) | GThrow _ => (GRaise ScribbuErr, fs) | GUB u => (GUB u, fs) | GNonTerm => (GNonTerm, fs) end
          | GRaise e => (GRaise e, fs) | GThrow _ => (GRaise ScribbuErr, fs) | GUB u => (GUB u, fs) | GNonTerm => (GNonTerm, fs) end = (GRaise er, fs') ->
    exists es1 q es2 cs fs1, p :: es = es1 ++ q :: es2 /\ linked fs cs fs1 /\ visits cwd fs es1 cs /\ Forall (returned fcn) cs /\
    find_node (resolve cwd q) fs1 <> Some Dir /\
    (g_utf8 G q = false /\ er = Decoding /\ fs' = fs1 \/
     exists c, ca_before c = fs1 /\ ca_path c = SStr q /\ args_read (read_tagset_scm G z passes cwd) (read_v1_scm G cwd) c /\
       fcn (ca_tags c) (ca_path c) (ca_v1 c) fs1 = (GRaise er, fs'))).
  { intros F K. unfold from_utf8 in K. rewrite (c_str_no_nul p Hp) in K. destruct (g_utf8 G p) eqn:U.
    2: { injection K as <- <-. exists [], p, es, [], fs. repeat split; try constructor; auto. }
    pose proof (quiet_args G z passes cwd fs (SStr p)) as Q.
    destruct (track_args G z passes cwd fs (SStr p)) as [[ts v1]| | | |] eqn:T; try discriminate.
    - destruct (fcn ts (SStr p) v1 fs) as [[[]| | | |] fs1] eqn:R; try discriminate.
      + destruct (IH fs1 er fs' HN K) as (es1 & q & es2 & cs & fs2 & -> & C1 & C2 & C3 & C4).
        exists (p :: es1), q, es2, (mkCall ts (SStr p) v1 fs fs1 :: cs), fs2. split; [reflexivity|]. split; [split; [reflexivity|exact C1]|].
        split; [now apply visits_file|]. split; [now constructor|exact C4].
      + injection K as -> ->. exists [], p, es, [], fs. split; [reflexivity|]. split; [reflexivity|]. split; [constructor|]. split; [constructor|].
        split; [exact F|]. right. exists (mkCall ts (SStr p) v1 fs fs'). repeat split; auto. now apply args_are.
    - exfalso. unfold track_args in T. destruct (read_tagset_scm G z passes cwd fs (SStr p)); try discriminate.
      destruct (read_v1_scm G cwd fs (SStr p)); discriminate.
    - exfalso. eapply Q. reflexivity. }
  destruct (find_node (resolve cwd p) fs) as [[d|]|] eqn:F; [apply K; [discriminate|exact H]| |apply K; [discriminate|exact H]].
  destruct (IH fs er fs' HN H) as (es1 & q & es2 & cs & fs1 & -> & C1 & C2 & C3).
  exists (p :: es1), q, es2, cs, fs1. split; [reflexivity|]. split; [exact C1|]. split; [now apply visits_dir|exact C3].
Qed.

(** What cannot be read as ID3v2 hides the ID3v1 tag. *)
Lemma hidden_v1 G z passes cwd fs pth er : read_tagset_scm G z passes cwd fs pth = GRaise er ->
  track_args G z passes cwd fs pth = GOk (SNil, SNil).
Proof. intros H. unfold track_args. now rewrite H. Qed.
