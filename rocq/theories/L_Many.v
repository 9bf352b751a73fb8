(** * Proofs: commands applied to several files at once. *)
From Verif Require Import Base M_Ints M_Id3v1 M_Payload M_Cloud M_Frame M_Charset M_TextId M_Lookup M_Genres M_Read M_Fs M_Tagset M_Process M_Popm M_Cmds M_Xtag M_Options M_Split M_Rename M_Dirent
  S_Ints S_Read S_Id3v1 S_Cloud S_Tag S_Tagset S_Saved S_Process S_Lookup S_Popm S_Cmds S_Xtag S_Program S_Effect S_EffectX S_History S_Many
  L_Fs L_Backup L_Process L_Tagset L_Tagset5 L_Effect2 L_History L_Program.
#[local] Open Scope N_scope.

(** ** What operations on files leave alone *)
Lemma keeps_lookup P k : keeps P (lookup k).
Proof. intros fs s [<-|[]] j _. reflexivity. Qed.
Lemma keeps_del (P : key -> Prop) k : ~ P k -> keeps P (change (del_node k)).
Proof.
  intros NP fs s I j Pj. cbn in I. assert (X : s = del_node k fs) by (destruct I as [I|[I|[]]]; now symmetry). subst s. apply find_del_other. intros ->. now apply NP.
Qed.
Lemma keeps_remove (P : key -> Prop) k : ~ P k -> keeps P (fremove k).
Proof.
  intros NP. apply (keeps_here P _ (fun fs => match find_node k fs with Some Dir => if has_entries fs k then fthrow FsError else change (del_node k) | _ => change (del_node k) end)).
  - intros fs. unfold fremove. destruct (find_node k fs) as [[b|]|]; try reflexivity. destruct (has_entries fs k); reflexivity.
  - intros fs. destruct (find_node k fs) as [[b|]|]; try now apply keeps_del. destruct (has_entries fs k); [apply keeps_throw|now apply keeps_del].
Qed.
Lemma keeps_copy (P : key -> Prop) from to fail : ~ P to -> keeps P (fcopy from to fail).
Proof.
  intros NP fs s I j Pj. unfold fcopy in I.
  assert (NE : forall m, find_node j (set_node to m fs) = find_node j fs) by (intros m; apply find_set_other; intros ->; now apply NP).
  assert (AS : forall base data, In s (append_states to base data fs) -> find_node j s = find_node j fs).
  { intros base data H. unfold append_states in H. apply in_map_iff in H as (i & <- & _). apply NE. }
  destruct (find_node from fs) as [[b|]|]; try (destruct I as [<-|[]]; reflexivity).
  destruct (find_node to fs); [destruct I as [<-|[]]; reflexivity|].
  destruct fail; cbn [fst snd] in I; (destruct I as [<-|I]; [apply NE|now apply AS in I]).
Qed.
Lemma keeps_rename (P : key -> Prop) from to : ~ P from -> ~ P to -> keeps P (frename from to).
Proof.
  intros NF NT fs s I j Pj. unfold frename in I. destruct (find_node from fs) as [m|]; [|destruct I as [<-|[]]; reflexivity].
  cbn in I. assert (X : s = set_node to m (del_node from fs)) by (destruct I as [I|[I|[]]]; now symmetry). subst s.
  rewrite find_set_other by (intros ->; now apply NT). apply find_del_other. intros ->. now apply NF.
Qed.
Lemma keeps_catch {A} P (m : FS A) (h : exn -> FS A) : keeps P m -> (forall x, keeps P (h x)) -> keeps P (fcatch m h).
Proof.
  intros H G fs s I k Pk. unfold fcatch in I. specialize (H fs). destruct (m fs) as (l & [a|x|u|] & fs1); cbn [fst snd] in H, I; try exact (H s I k Pk).
  pose proof (H fs1 (or_introl eq_refl) k Pk) as E1. specialize (G x fs1). destruct (h x fs1) as (l2 & r2 & fs2). cbn [fst snd] in G, I. destruct I as [<-|I].
  - now rewrite (G fs2 (or_introl eq_refl) k Pk).
  - apply in_app_or in I. destruct I as [I|I]; [exact (H s (or_intror I) k Pk)|]. now rewrite (G s (or_intror I) k Pk).
Qed.

Lemma keeps_bind_to {A C} P (m : FS A) (f : A -> FS C) : keeps P m -> (forall fs a l fs1, m fs = (l, (Ok a, fs1)) -> keeps P (f a)) -> keeps P (fbind m f).
Proof.
  intros H G fs s I k Pk. unfold fbind in I. specialize (H fs). specialize (G fs). destruct (m fs) as (l & [a|x|u|] & fs1); cbn [fst snd] in H, I; try exact (H s I k Pk).
  pose proof (H fs1 (or_introl eq_refl) k Pk) as E1. specialize (G a l fs1 eq_refl fs1). destruct (f a fs1) as (l2 & r2 & fs2). cbn [fst snd] in G, I. destruct I as [<-|I].
  - now rewrite (G fs2 (or_introl eq_refl) k Pk).
  - apply in_app_or in I. destruct I as [I|I]; [exact (H s (or_intror I) k Pk)|]. now rewrite (G s (or_intror I) k Pk).
Qed.

(** ** One file *)
Section One.
  Context (e : env) (p : bytes) (Q : key -> Prop) (WN : well_named e p) (NT : forall j, Q j -> ~ may_touch e p j).
  Lemma not_itself : ~ Q (resolve (e_cwd e) p).
  Proof. intros H. apply (NT _ H). now left. Qed.
  Lemma not_temporary : ~ Q (e_tmp e).
  Proof. intros H. apply (NT _ H). right. now left. Qed.
  Lemma not_backup fs name : get_backup_name fs (e_cwd e) p = Ok name -> ~ Q (resolve (e_cwd e) name).
  Proof.
    intros HG H. destruct WN as (Hp & Hc & d & n & Hd & Hn & HA). destruct (backup_name fs (e_cwd e) p d n name Hp Hc Hd Hn HA HG) as (ds & H1 & H2 & H3).
    apply (NT _ H). right. right. exists ds. split; [exact H1|]. split; [exact H2|]. rewrite H3, HA. now rewrite spelled_app.
  Qed.
  Lemma keeps_make : keeps Q (make_backup e p).
  Proof.
    apply (keeps_here Q _ (fun fs => run name <- flift (get_backup_name fs (e_cwd e) p);; run old <- lookup (resolve (e_cwd e) name);;
      run _ <- (match old with Some _ => fremove (resolve (e_cwd e) name) | None => fret tt end);; run _ <- fcopy (resolve (e_cwd e) p) (resolve (e_cwd e) name) (e_copy1 e);; fret (resolve (e_cwd e) name))).
    { reflexivity. }
    intros fs. destruct (get_backup_name fs (e_cwd e) p) as [name|x|u|] eqn:G; [|intros s s' [<-|[]] j _; reflexivity..].
    pose proof (not_backup fs name G) as NB. apply (keeps_bind_to Q); [apply keeps_lift|]. intros s c l s1 Hc. unfold flift in Hc. injection Hc as _ <- _.
    apply keeps_bind; [apply keeps_lookup|]. intros old. apply keeps_bind; [destruct old; [now apply keeps_remove|apply keeps_ret]|]. intros _.
    apply keeps_bind; [now apply keeps_copy|intros _; apply keeps_ret].
  Qed.
  Lemma made_elsewhere fs l c fs1 : make_backup e p fs = (l, (Ok c, fs1)) -> ~ Q c.
  Proof.
    unfold make_backup. intros H. apply fbind_ok in H as (name & l1 & s1 & l2 & G & H). unfold flift in G. injection G as _ G _.
    apply fbind_ok in H as (old & l3 & s3 & l4 & _ & H). apply fbind_ok in H as (u & l5 & s5 & l6 & _ & H). apply fbind_ok in H as (u' & l7 & s7 & l8 & _ & H).
    unfold fret in H. injection H as _ <- _. exact (not_backup fs name G).
  Qed.
  Lemma keeps_swap keep cp : match cp with Some c => ~ Q c | None => True end -> keeps Q (swap_in e p keep cp).
  Proof.
    intros NC. unfold swap_in. destruct (e_rename e); [apply keeps_rename; [exact not_temporary|exact not_itself]| |apply keeps_throw].
    apply keeps_bind_to; [destruct cp; [apply keeps_ret|exact keeps_make]|]. intros fs c l fs1 _.
    apply keeps_bind; [apply keeps_remove, not_itself|]. intros _. apply keeps_catch.
    - apply keeps_bind; [apply keeps_copy, not_itself|]. intros _. destruct (negb keep); [apply keeps_remove, not_temporary|apply keeps_ret].
    - intros x. apply keeps_bind; [|intros _; apply keeps_throw]. apply keeps_catch; [apply keeps_copy, not_itself|intros y; apply keeps_ret].
  Qed.
  Lemma keeps_replace z ts m keep : keeps Q (replace_tagset_copy z e p ts m keep).
  Proof.
    unfold replace_tagset_copy. apply keeps_bind; [apply keeps_change, not_temporary|]. intros _. destruct (emit_all z m ts) as [w o].
    apply keeps_bind; [apply keeps_append, not_temporary|]. intros _. apply keeps_bind; [apply keeps_lift|]. intros ts1.
    apply keeps_bind; [apply keeps_lookup|]. intros [[data|]|]; try apply keeps_throw.
    apply keeps_bind; [apply keeps_lift|]. intros rest. apply keeps_bind; [apply keeps_append, not_temporary|]. intros _.
    apply keeps_bind_to.
    - destruct keep; [|apply keeps_ret]. apply keeps_bind; [exact keeps_make|intros c; apply keeps_ret].
    - intros fs cp l fs1 H. apply keeps_bind; [|intros _; apply keeps_ret]. apply keeps_swap. destruct cp as [c|]; [|exact Logic.I].
      destruct keep; [|discriminate H]. apply fbind_ok in H as (c' & l1 & s1 & l2 & G & H). unfold fret in H. injection H as _ -> _. exact (made_elsewhere _ _ _ _ G).
  Qed.
  Lemma keeps_emplace z ts m : keeps Q (replace_tagset_emplace z e p ts m).
  Proof.
    apply (keeps_here Q _ (fun fs => run cb_extant <- flift (tagset_size fs (resolve (e_cwd e) p));; run (cb_new, _, ts1) <- flift (tagset_sizes z m ts);;
      if negb (cb_extant =? cb_new) then fthrow MismatchSize
      else match find_node (resolve (e_cwd e) p) fs with
           | Some (File ((_ :: _) as data)) => let '(w, o) := emit_all z m ts1 in run _ <- change (set_node (resolve (e_cwd e) p) (File (overlay data w)));; flift o
           | _ => fthrow IosFailure end)).
    { reflexivity. }
    intros fs. apply keeps_bind; [apply keeps_lift|]. intros cb. apply keeps_bind; [apply keeps_lift|]. intros [[cn x] ts1].
    destruct (negb _); [apply keeps_throw|]. destruct (find_node _ fs) as [[[|c data]|]|]; try apply keeps_throw. destruct (emit_all z m ts1) as [w o].
    apply keeps_bind; [apply keeps_change, not_itself|intros _; apply keeps_lift].
  Qed.
  Lemma keeps_maybe z ts m strat keep : keeps Q (maybe_emplace_tagset z e p ts m strat keep).
  Proof.
    apply (keeps_here Q _ (fun fs => run curr <- flift (tagset_size fs (resolve (e_cwd e) p));;
   run (subs, subs_pad, ts1) <- flift (tagset_sizes z m ts);;
   if subs <=? curr then
     if subs <? curr then
       let '(ts2, o) := adjust_padding_to ts1 curr subs in
       run _ <- flift o;; replace_tagset_emplace z e p ts2 m
     else replace_tagset_emplace z e p ts1 m
   else if (wrap64 (subs + 2 ^ 64 - subs_pad) <=? curr)
           && match strat with OnlyWithFullPadding => false | _ => true end then
     let '(ts2, o) := adjust_padding_to ts1 curr subs in
     run _ <- flift o;; replace_tagset_emplace z e p ts2 m
   else
     match find_node (resolve (e_cwd e) p) fs with
     | None =>
         let '(w, o) := emit_all z m ts1 in
         run _ <- change (set_node (resolve (e_cwd e) p) (File []));;
         run _ <- append (resolve (e_cwd e) p) w;;
         flift o
     | Some _ => replace_tagset_copy z e p ts1 m keep
     end)).
    { reflexivity. }
    intros fs. apply keeps_bind; [apply keeps_lift|]. intros curr. apply keeps_bind; [apply keeps_lift|]. intros [[subs sp] ts1].
    destruct (subs <=? curr).
    - destruct (subs <? curr); [|apply keeps_emplace]. destruct (adjust_padding_to ts1 curr subs) as [ts2 o]. apply keeps_bind; [apply keeps_lift|intros _; apply keeps_emplace].
    - destruct (_ && _).
      + destruct (adjust_padding_to ts1 curr subs) as [ts2 o]. apply keeps_bind; [apply keeps_lift|intros _; apply keeps_emplace].
      + destruct (find_node _ fs); [apply keeps_replace|]. destruct (emit_all z m ts1) as [w o].
        apply keeps_bind; [apply keeps_change, not_itself|]. intros _. apply keeps_bind; [apply keeps_append, not_itself|intros _; apply keeps_lift].
  Qed.
  Lemma keeps_v1 t : keeps Q (replace_v1_file (resolve (e_cwd e) p) t).
  Proof.
    apply (keeps_here Q _ (fun fs => match find_node (resolve (e_cwd e) p) fs with
      | Some (File data) => run f <- flift (maybe_remove_id3v1 data);; run _ <- (if len f =? len data then fret tt else change (set_node (resolve (e_cwd e) p) (File f)));;
          run b <- flift (v1_write t);; append (resolve (e_cwd e) p) b
      | Some Dir => fthrow IosFailure
      | None => run _ <- change (set_node (resolve (e_cwd e) p) (File []));; run b <- flift (v1_write t);; append (resolve (e_cwd e) p) b end)).
    { intros fs. unfold replace_v1_file. destruct (find_node _ fs) as [[data|]|]; reflexivity. }
    intros fs. destruct (find_node _ fs) as [[data|]|].
    - apply keeps_bind; [apply keeps_lift|]. intros f. apply keeps_bind; [destruct (_ =? _); [apply keeps_ret|apply keeps_change, not_itself]|]. intros _.
      apply keeps_bind; [apply keeps_lift|intros b; apply keeps_append, not_itself].
    - apply keeps_throw.
    - apply keeps_bind; [apply keeps_change, not_itself|]. intros _. apply keeps_bind; [apply keeps_lift|intros b; apply keeps_append, not_itself].
  Qed.
  Lemma keeps_process {S0} z passes (P : processor S0) pol s : keeps Q (process_file z passes e P pol p s).
  Proof.
    apply (keeps_here Q _ (fun fs => match find_node (resolve (e_cwd e) p) fs with
      | Some (File data) => run (v2, v1) <- flift (read_tagset z passes data);; run (dirty, v2', v1', s') <- flift (process_tagset P pol v2 v1 s);;
          run _ <- write_tagset z e pol dirty v2' v1' p;; fret s'
      | _ => fthrow IosFailure end)).
    { intros fs. unfold process_file. destruct (find_node _ fs) as [[data|]|]; reflexivity. }
    intros fs. destruct (find_node _ fs) as [[data|]|]; try apply keeps_throw. apply keeps_bind; [apply keeps_lift|]. intros [v2 v1].
    apply keeps_bind; [apply keeps_lift|]. intros [[[dirty v2'] v1'] s']. apply keeps_bind; [|intros _; apply keeps_ret].
    unfold write_tagset. destruct (_ && _); [|apply keeps_ret]. apply keeps_bind.
    - destruct (p_backups pol); [apply keeps_replace|apply keeps_maybe].
    - intros _. destruct v1'; [apply keeps_v1|apply keeps_ret].
  Qed.
  Lemma keeps_visit {S0} z passes (P : processor S0) pol s : keeps Q (run _ <- process_file z passes e P pol p s;; fret tt).
  Proof. apply keeps_bind; [apply keeps_process|intros _; apply keeps_ret]. Qed.
End One.

(** ** Several files *)
Definition agree (Q : key -> Prop) (fs s : fsys) : Prop := forall j, Q j -> find_node j s = find_node j fs.
Lemma agree_dir Q fs s k : agree Q fs s -> Q k -> is_dir s k = is_dir fs k.
Proof. intros H Qk. unfold is_dir. destruct k; [reflexivity|]. now rewrite (H _ Qk). Qed.

Definition guarded (e : env) (entries : bytes -> list bytes) (args : list bytes) (fs : fsys) (j k : key) : Prop :=
  k = j \/ exists q, dirs e entries args fs q /\ k = resolve (e_cwd e) q.

Section Walk.
  Context (e : env) (entries : bytes -> list bytes) (args : list bytes) (visit : bytes -> FS unit) (fs : fsys) (j : key).
  Context (HV : forall p (Q : key -> Prop), well_named e p -> (forall i, Q i -> ~ may_touch e p i) -> keeps Q (visit p)).
  Context (HF : forall p, files e entries args fs p -> well_named e p /\ ~ may_touch e p j).
  Context (HD : forall p q, files e entries args fs p -> dirs e entries args fs q -> ~ may_touch e p (resolve (e_cwd e) q)).
  Notation G := (guarded e entries args fs j).
  Notation ok m := (forall s, agree G fs s -> forall s', In s' (snd (snd (m s)) :: fst (m s)) -> agree G fs s').

  Lemma walk_each f l : (forall p, visited entries args p -> ok (f p : FS unit)) -> (forall p, In p l -> visited entries args p) -> ok (each f l).
  Proof.
    intros H. induction l as [|p r IH]; intros V s A s' I.
    - destruct I as [<-|[]]. exact A.
    - cbn [each] in I. unfold fbind in I. pose proof (H p (V p (or_introl eq_refl)) s A) as HP. destruct (f p s) as (l & [a|x|u|] & s1); cbn [fst snd] in HP, I; try exact (HP s' I).
      pose proof (IH (fun q Hq => V q (or_intror Hq)) s1 (HP s1 (or_introl eq_refl))) as HR. destruct (each f r s1) as (l2 & r2 & s2). cbn [fst snd] in HR, I.
      destruct I as [<-|I]; [apply HR; now left|]. apply in_app_or in I as [I|I]; [apply HP; now right|apply HR; now right].
  Qed.
  Lemma walk_dirent fuel : forall p, visited entries args p -> ok (dirent (e_cwd e) visit entries fuel p).
  Proof.
    induction fuel as [|fuel IH]; intros p V s A s' I; cbn [dirent] in I.
    all: destruct (is_dir s (resolve (e_cwd e) p)) eqn:D.
    1: destruct I as [<-|[]]; exact A.
    2: exact (walk_each _ _ (fun q => IH q) (fun q Hq => Inside _ _ _ _ V Hq) s A s' I).
    all: destruct (is_regular (e_cwd e) s p); [|destruct I as [<-|[]]; exact A].
    all: assert (F : files e entries args fs p); [split; [exact V|]; destruct (is_dir fs (resolve (e_cwd e) p)) eqn:D'; [|reflexivity];
      rewrite (agree_dir G fs s _ A) in D; [congruence|right; exists p; split; [split; [exact V|exact D']|reflexivity]]|].
    all: destruct (HF p F) as [WN NT]; intros k Gk; rewrite <- (A k Gk); refine (HV p G WN _ s s' I k Gk);
      intros i [->|(q & Dq & ->)]; [exact NT|exact (HD p q F Dq)].
  Qed.
  Lemma walk_args s' : In s' (snd (snd (process_dirent_args (e_cwd e) visit entries args fs)) :: fst (process_dirent_args (e_cwd e) visit entries args fs)) ->
    find_node j s' = find_node j fs.
  Proof.
    intros I. unfold process_dirent_args in I.
    refine (walk_each (dirent (e_cwd e) visit entries (S (depth fs))) args (walk_dirent (S (depth fs))) (fun q Hq => Given _ _ _ Hq) fs (fun k _ => eq_refl) s' I j _). now left.
  Qed.
End Walk.

Lemma over_elsewhere {S0} z passes e entries (P : processor S0) s0 p args fs j s' :
  (forall q, files e entries args fs q -> well_named e q /\ ~ may_touch e q j) ->
  (forall q d, files e entries args fs q -> dirs e entries args fs d -> ~ may_touch e q (resolve (e_cwd e) d)) ->
  In s' (snd (snd (over_files z passes e entries P s0 p args fs)) :: fst (over_files z passes e entries P s0 p args fs)) -> find_node j s' = find_node j fs.
Proof.
  intros HF HD. unfold over_files. apply (walk_args e entries args _ fs j); [|exact HF|exact HD].
  intros q Q WN NT. exact (keeps_visit e q Q WN NT z passes P p s0).
Qed.
Lemma conclude_states m fs s' : In s' (snd (snd (conclude_run (Handled (Ok m)) fs)) :: fst (conclude_run (Handled (Ok m)) fs)) -> In s' (snd (snd (m fs)) :: fst (m fs)).
Proof. unfold conclude_run. destruct (m fs) as (l & [a|x|u|] & fs1); auto. Qed.

Lemma request_elsewhere z passes e entries w loc r fs j s' :
  (forall q, files e entries (arguments r) fs q -> well_named e q /\ ~ may_touch e q j) ->
  (forall q d, files e entries (arguments r) fs q -> dirs e entries (arguments r) fs d -> ~ may_touch e q (resolve (e_cwd e) d)) ->
  In s' (snd (snd (run_request z passes e entries w loc r fs)) :: fst (run_request z passes e entries w loc r fs)) -> find_node j s' = find_node j fs.
Proof.
  intros HF HD. destruct r as [vm o|vm o|vm g p|vm p l]; cbn [run_request arguments] in *.
  - unfold run_popm. destruct (popm_options vm) as [|[[[o' c] p]|x|u|]]; cbn [hbind]; [intros [<-|[]]; reflexivity| |intros [<-|[]]; reflexivity..].
    intros I. apply conclude_states in I. exact (over_elsewhere _ _ _ _ _ _ _ _ _ _ _ HF HD I).
  - unfold run_text. destruct (text_options loc vm) as [|[[o' p]|x|u|]]; cbn [hbind]; [intros [<-|[]]; reflexivity| |intros [<-|[]]; reflexivity..].
    intros I. apply conclude_states in I. exact (over_elsewhere _ _ _ _ _ _ _ _ _ _ _ HF HD I).
  - unfold run_genre. destruct (genre_options w vm) as [|[[[g' p']|]|x|u|]]; cbn [hbind]; [intros [<-|[]]; reflexivity| |intros [<-|[]]; reflexivity..].
    intros I. apply conclude_states in I. exact (over_elsewhere _ _ _ _ _ _ _ _ _ _ _ HF HD I).
  - unfold run_xtag. destruct (xtag_options vm) as [|[[o' p']|x|u|]]; cbn [hbind]; [intros [<-|[]]; reflexivity| |intros [<-|[]]; reflexivity..].
    intros I. apply conclude_states in I. exact (over_elsewhere _ _ _ _ _ _ _ _ _ _ _ HF HD I).
Qed.

(** ** What becomes of one among several files *)
Lemma file_not_dir e p data fs : well_named e p -> find_node (resolve (e_cwd e) p) fs = Some (File data) -> is_dir fs (resolve (e_cwd e) p) = false.
Proof.
  intros (_ & _ & d & n & _ & PN & AB) F. unfold is_dir. destruct (resolve (e_cwd e) p) eqn:E; [|now rewrite F].
  unfold resolve in E. rewrite AB, (resolve_spelled d n PN) in E. destruct (resolve_abs d); discriminate E.
Qed.
Lemma one_visit {S0} z passes e entries (P : processor S0) s0 pol fuel p fs data l u fs' : well_named e p -> find_node (resolve (e_cwd e) p) fs = Some (File data) ->
  dirent (e_cwd e) (fun path => run _ <- process_file z passes e P pol path s0;; fret tt) entries fuel p fs = (l, (Ok u, fs')) ->
  exists st s', process_file z passes e P pol p s0 fs = (st, (Ok s', fs')).
Proof.
  intros WN F H.
  assert (X : (run _ <- process_file z passes e P pol p s0;; fret tt) fs = (l, (Ok u, fs'))).
  { rewrite <- H. destruct fuel; cbn [dirent]; rewrite (file_not_dir e p data fs WN F); unfold is_regular; rewrite F; reflexivity. }
  apply fbind_ok in X as (s' & st & s1 & st2 & X & Y). unfold fret in Y. injection Y as _ _ <-. eauto.
Qed.
(** Files in a row. *)
Lemma row_one {S0} z passes e entries (P : processor S0) s0 pol fuel paths : forall fs l u fs', apart e fs paths ->
  each (dirent (e_cwd e) (fun path => run _ <- process_file z passes e P pol path s0;; fret tt) entries fuel) paths fs = (l, (Ok u, fs')) ->
  (forall j, (forall p, In p paths -> ~ may_touch e p j) -> find_node j fs' = find_node j fs) /\
  forall path, In path paths -> let k := resolve (e_cwd e) path in
    exists f st s' f', find_node k f = find_node k fs /\ process_file z passes e P pol path s0 f = (st, (Ok s', f')) /\ find_node k fs' = find_node k f'.
Proof.
  induction paths as [|p r IH]; intros fs l u fs' [AP AO] H.
  - cbn [each] in H. unfold fret in H. injection H as _ _ <-. split; [reflexivity|]. intros path [].
  - apply Forall_cons_iff in AP as [[WN (data & F)] AP]. inversion AO as [|? ? Hp AR]; subst. cbn [each] in H.
    apply fbind_ok in H as (u1 & l1 & fs1 & l2 & H1 & H2). destruct (one_visit z passes e entries P s0 pol fuel p fs data l1 u1 fs1 WN F H1) as (st & s' & PF).
    assert (K : forall j, ~ may_touch e p j -> find_node j fs1 = find_node j fs).
    { intros j NT. refine (keeps_process e p (fun i => i = j) WN _ z passes P pol s0 fs fs1 _ j eq_refl); [now intros i ->|]. rewrite PF. now left. }
    assert (A1 : apart e fs1 r).
    { split; [|exact AR]. rewrite Forall_forall in AP, Hp |- *. intros q Iq. destruct (AP q Iq) as [Wq (dq & Fq)]. split; [exact Wq|]. exists dq. now rewrite (K _ (proj1 (Hp q Iq))). }
    destruct (IH fs1 l2 u fs' A1 H2) as [R1 R2]. split.
    + intros j NT. rewrite (R1 j (fun q Iq => NT q (or_intror Iq))). apply K, NT. now left.
    + intros path [<-|I].
      * exists fs, st, s', fs1. split; [reflexivity|]. split; [exact PF|]. apply R1. intros q Iq. rewrite Forall_forall in Hp. exact (proj2 (Hp q Iq)).
      * destruct (R2 path I) as (f & st' & t & f' & E1 & E2 & E3). exists f, st', t, f'. split; [|auto]. rewrite E1. apply K. rewrite Forall_forall in Hp. exact (proj1 (Hp path I)).
Qed.
Lemma alone {S0} z passes e entries (P : processor S0) s0 pol path f data st s' f' : well_named e path -> find_node (resolve (e_cwd e) path) f = Some (File data) ->
  process_file z passes e P pol path s0 f = (st, (Ok s', f')) -> exists st' , over_files z passes e entries P s0 pol [path] f = (st', (Ok tt, f')).
Proof.
  intros WN F H. unfold over_files, process_dirent_args. cbn [each dirent]. unfold fbind at 1. rewrite (file_not_dir e path data f WN F). unfold is_regular. rewrite F.
  unfold fbind. rewrite H. eexists. reflexivity.
Qed.
Lemma row_over {S0} z passes e entries (P : processor S0) s0 pol paths fs l u fs' path : apart e fs paths -> In path paths ->
  over_files z passes e entries P s0 pol paths fs = (l, (Ok u, fs')) -> let k := resolve (e_cwd e) path in
  exists f st f', find_node k f = find_node k fs /\ over_files z passes e entries P s0 pol [path] f = (st, (Ok tt, f')) /\ find_node k fs' = find_node k f'.
Proof.
  intros AP I H k. unfold over_files, process_dirent_args in H. destruct (row_one z passes e entries P s0 pol _ paths fs l u fs' AP H) as [_ R].
  destruct (R path I) as (f & st & s' & f' & E1 & E2 & E3). fold k in E1, E3. destruct AP as [AP _]. rewrite Forall_forall in AP. destruct (AP path I) as [WN (data & F)].
  destruct (alone z passes e entries P s0 pol path f data st s' f' WN) as (st' & E); [fold k; now rewrite E1|exact E2|]. exists f, st', f'. auto.
Qed.
Lemma conclude_back m fs st u fs' : m fs = (st, (Ok u, fs')) -> conclude_run (Handled (Ok m)) fs = (st, (Ok 0, fs')).
Proof. intros H. cbn [conclude_run]. now rewrite H. Qed.

(** The request is, to a file, the request for that file alone. *)
Lemma among z passes e entries w loc r fs st fs' path : apart e fs (arguments r) -> In path (arguments r) ->
  run_request z passes e entries w loc r fs = (st, (Ok 0, fs')) -> asks w loc path (only path r) -> let k := resolve (e_cwd e) path in
  exists f st' f', find_node k f = find_node k fs /\ run_request z passes e entries w loc (only path r) f = (st', (Ok 0, f')) /\ find_node k fs' = find_node k f'.
Proof.
  intros AP I H AS k. destruct r as [vm o|vm o|vm g p|vm p l]; cbn [only run_request arguments asks] in *.
  - destruct AS as ((p & EO) & _). set (vm1 := mkPopmVm _ _ _ _ _ _ _ _ _ _ _ _ _ _) in *.
    assert (E : popm_options vm = popm_options vm1) by (unfold popm_options; destruct (pv_args vm); [destruct I|reflexivity]).
    unfold run_popm in H |- *. rewrite E in H. rewrite EO in *. cbn [hbind] in *. unfold proceed in *. apply conclude_zero in H as (u & H).
    destruct (row_over _ _ _ _ _ _ _ _ _ _ _ _ _ AP I H) as (f & st' & f' & E1 & E2 & E3). exists f, st', f'. split; [exact E1|]. split; [exact (conclude_back _ _ _ _ _ E2)|exact E3].
  - destruct AS as ((p & EO) & _). set (vm1 := mkTextVm _ _ _ _ _ _ _ _ _ _ _ _ _ _ _) in *.
    assert (E : text_options loc vm = text_options loc vm1) by (unfold text_options; destruct (tv_args vm); [destruct I|reflexivity]).
    unfold run_text in H |- *. rewrite E in H. rewrite EO in *. cbn [hbind] in *. unfold proceed in *. apply conclude_zero in H as (u & H).
    destruct (row_over _ _ _ _ _ _ _ _ _ _ _ _ _ AP I H) as (f & st' & f' & E1 & E2 & E3). exists f, st', f'. split; [exact E1|]. split; [exact (conclude_back _ _ _ _ _ E2)|exact E3].
  - destruct AS as (EO & _). set (vm1 := mkGenreVm _ _ _ _ _ _ _ _ _ _ _ _ _ _ _ _) in *.
    assert (E : genre_options w vm = genre_options w vm1) by (unfold genre_options; destruct (gv_args vm); [destruct I|reflexivity]).
    unfold run_genre in H |- *. rewrite E in H. rewrite EO in *. cbn [hbind] in *. unfold proceed in *. apply conclude_zero in H as (u & H).
    destruct (row_over _ _ _ _ _ _ _ _ _ _ _ _ _ AP I H) as (f & st' & f' & E1 & E2 & E3). exists f, st', f'. split; [exact E1|]. split; [exact (conclude_back _ _ _ _ _ E2)|exact E3].
  - destruct AS as ((o & EO) & _). set (vm1 := mkXtagVm _ _ _ _ _ _ _ _ _ _ _ _) in *.
    assert (E : xtag_options vm = xtag_options vm1) by (unfold xtag_options; destruct (xv_args vm); [destruct I|reflexivity]).
    unfold run_xtag in H |- *. rewrite E in H. rewrite EO in *. cbn [hbind] in *. unfold proceed in *. apply conclude_zero in H as (u & H).
    destruct (row_over _ _ _ _ _ _ _ _ _ _ _ _ _ AP I H) as (f & st' & f' & E1 & E2 & E3). exists f, st', f'. split; [exact E1|]. split; [exact (conclude_back _ _ _ _ _ E2)|exact E3].
Qed.
Lemma fits_only ic path r v2 v1 : fits ic (only path r) v2 v1 <-> fits ic r v2 v1.
Proof. destruct r; cbn [only fits]; tauto. Qed.
Lemma effect_only ic path r v2 v1 v2' v1' : effect ic (only path r) v2 v1 v2' v1' <-> effect ic r v2 v1 v2' v1'.
Proof. destruct r; reflexivity. Qed.
Lemma saved_node z w loc k fs f r v2 v1 : find_node k f = find_node k fs -> can_be_saved z w loc k fs r v2 v1 -> can_be_saved z w loc k f r v2 v1.
Proof. unfold can_be_saved. intros ->. auto. Qed.
Lemma moderate_node k fs f : find_node k f = find_node k fs -> moderate k fs -> moderate k f.
Proof. unfold moderate. intros ->. auto. Qed.

Lemma request_among z passes e entries w loc r fs st fs' path d n a v2 v1 : let k := resolve (e_cwd e) path in
  crc_range z -> (0 < passes)%nat -> file_at e path d n -> 355 <= len a ->
  In path (arguments r) -> apart e fs (arguments r) -> asks w loc path (only path r) ->
  in_order z passes k a fs v2 v1 -> fits (w_ic w) r v2 v1 -> can_be_saved z w loc k fs (only path r) v2 v1 ->
  run_request z passes e entries w loc r fs = (st, (Ok 0, fs')) -> moderate k fs' ->
  exists v2' v1', in_order z passes k a fs' v2' v1' /\ effect (w_ic w) r v2 v1 v2' v1'.
Proof.
  intros k Hz Hp FA LA I AP AS IO FT CS HR HM. destruct (among z passes e entries w loc r fs st fs' path AP I HR AS) as (f & st' & f' & E1 & E2 & E3). fold k in E1, E3.
  destruct (request_once z passes e entries w loc path d n a (only path r) f st' f' v2 v1 Hz Hp FA LA AS) as (v2' & v1' & A & EF).
  - exact (order_same _ _ _ _ _ _ _ _ E1 IO).
  - split; [now apply fits_only|exact (saved_node _ _ _ _ _ _ _ _ _ E1 CS)].
  - exact E2.
  - exact (moderate_node _ _ _ (eq_sym E3) HM).
  - exists v2', v1'. split; [exact (order_same _ _ _ _ _ _ _ _ E3 A)|now apply effect_only in EF].
Qed.

(** ** Rounds *)
Lemma rounds_history z passes e entries w loc path a rs fs fs' : let k := resolve (e_cwd e) path in rounds z passes e entries w loc path a rs fs fs' ->
  exists f f', find_node k f = find_node k fs /\ find_node k f' = find_node k fs' /\ history z passes e entries w loc path a (map (only path) rs) f f'.
Proof.
  intros k H. induction H as [fs fs' E|r rs fs st fs1 fs' I AP AS FT HR HM _ IH|r rs fs st o fs1 fs' HF HD HR _ IH].
  - exists fs, fs. split; [reflexivity|]. split; [now symmetry|]. apply Begun.
  - destruct IH as (f1 & f' & X1 & X2 & X3). destruct (among z passes e entries w loc r fs st fs1 path AP I HR AS) as (f & st' & f0 & E1 & E2 & E3). fold k in E1, E3.
    exists f, f'. split; [exact E1|]. split; [exact X2|]. cbn [map]. refine (Then z passes e entries w loc path a (only path r) (map (only path) rs) f st' f0 f1 f' AS _ E2 _ _ X3).
    + intros v2 v1 IO. fold k in IO |- *. destruct (FT v2 v1) as [A C]; [exact (order_same _ _ _ _ _ _ _ _ (eq_sym E1) IO)|].
      split; [now apply fits_only|exact (saved_node _ _ _ _ _ _ _ _ _ E1 C)].
    + exact (moderate_node _ _ _ (eq_sym E3) HM).
    + fold k. now rewrite X1, E3.
  - destruct IH as (f1 & f' & X1 & X2 & X3). exists f1, f'. split; [|auto]. rewrite X1.
    apply (request_elsewhere z passes e entries w loc r fs k fs1 HF HD). rewrite HR. now left.
Qed.
Lemma effects_only ic path rs : forall v2 v1 v2' v1', effects ic (map (only path) rs) v2 v1 v2' v1' -> effects ic rs v2 v1 v2' v1'.
Proof.
  induction rs as [|r rs IH]; intros v2 v1 v2' v1' H; [exact H|]. cbn [map effects] in H |- *. destruct H as (u2 & u1 & E & H). exists u2, u1. split; [now apply effect_only in E|now apply IH].
Qed.
Lemma rounds_effects z passes e entries w loc path d n a : let k := resolve (e_cwd e) path in
  crc_range z -> (0 < passes)%nat -> file_at e path d n -> 355 <= len a ->
  forall rs fs fs', rounds z passes e entries w loc path a rs fs fs' -> forall v2 v1, in_order z passes k a fs v2 v1 ->
  exists v2' v1', in_order z passes k a fs' v2' v1' /\ effects (w_ic w) rs v2 v1 v2' v1'.
Proof.
  intros k Hz Hp FA LA rs fs fs' R v2 v1 IO. destruct (rounds_history z passes e entries w loc path a rs fs fs' R) as (f & f' & E1 & E2 & H). fold k in E1, E2.
  destruct (history_effects z passes e entries w loc path d n a Hz Hp FA LA _ f f' H v2 v1) as (v2' & v1' & A & EF); [exact (order_same _ _ _ _ _ _ _ _ E1 IO)|].
  exists v2', v1'. split; [exact (order_same _ _ _ _ _ _ _ _ (eq_sym E2) A)|exact (effects_only _ path _ _ _ _ _ EF)].
Qed.
