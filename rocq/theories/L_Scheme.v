(** * Lemmas: frames of a tag, trees of files, going through files. *)
From Coq Require Import Permutation.
From Verif Require Import Base M_Fs M_Scheme M_Scheme2 S_Scheme.
#[local] Open Scope N_scope.

(** ** Frames of a tag *)
Lemma is_frame_in c : is_frame c = true <-> In c frame_classes.
Proof. destruct c; cbn; split; intros H; try discriminate; try reflexivity; repeat (destruct H as [H|H]; [discriminate H|]); try easy; tauto. Qed.

Lemma slot_id_ok x : frame_object x -> exists i, slot_id x = GOk i /\ forall f, eq_symbol f i = true <-> named f x.
Proof.
  intros (c & i & rest & -> & Hc). exists i. cbn [slot_id]. rewrite (proj2 (is_frame_in c) Hc). split; [reflexivity|].
  intros f. split.
  - destruct i; cbn [eq_symbol]; try discriminate. intros H. apply bytes_eqb_eq in H. subst. now exists c, rest.
  - intros (c' & r' & E). injection E as _ -> _. cbn [eq_symbol]. now apply bytes_eqb_eq.
Qed.

Lemma slot_id_not x : ~ frame_object x -> exists e, slot_id x = GRaise e.
Proof.
  intros H. destruct x; cbn [slot_id]; eauto. destruct slots as [|i r]; [eauto|]. destruct (is_frame c) eqn:E; [|eauto].
  exfalso. apply H. exists c, i, r. split; [reflexivity|]. now apply is_frame_in.
Qed.

Lemma has_frame_l e p fs f : Forall frame_object fs ->
  exists b, has_frame_scm (SObj CTag [e; slist fs; p]) f = GOk b /\ (b = true <-> Exists (named f) fs).
Proof.
  intros H. unfold has_frame_scm. cbn [tag_frames gbind]. induction H as [|x fs Hx _ IH]; cbn [slist has_frame_in].
  - exists false. split; [reflexivity|]. split; [discriminate|]. intros E. inversion E.
  - destruct (slot_id_ok x Hx) as (i & -> & Hi). cbn [gbind]. destruct (eq_symbol f i) eqn:E.
    + exists true. split; [reflexivity|]. split; [|reflexivity]. intros _. constructor. now apply Hi.
    + destruct IH as (b & -> & Hb). exists b. split; [reflexivity|]. rewrite Hb. split.
      * intros K. now apply Exists_cons_tl.
      * intros K. inversion K as [? ? Hn|? ? Hn]; subst; [|exact Hn]. apply Hi in Hn. congruence.
Qed.

Lemma get_loop fs f : Forall frame_object fs -> exists l, picked f fs l /\ forall ret, get_frames_loop (slist fs) f ret = GOk (ret ++ l).
Proof.
  induction 1 as [|x fs Hx _ (l & Hl & IH)]; cbn [slist get_frames_loop].
  - exists []. split; [constructor|]. intros ret. now rewrite app_nil_r.
  - destruct (slot_id_ok x Hx) as (i & -> & Hi). cbn [gbind]. destruct (eq_symbol f i) eqn:E.
    + exists (x :: l). split; [constructor; [now apply Hi|exact Hl]|]. intros ret. rewrite IH, <- app_assoc. reflexivity.
    + exists l. split; [|intros ret; apply IH]. constructor; [|exact Hl]. intros K. apply Hi in K. congruence.
Qed.

Lemma picked_fun f fs l1 l2 : picked f fs l1 -> picked f fs l2 -> l1 = l2.
Proof.
  intros H. revert l2. induction H; intros l2 K; inversion K; subst; try contradiction; auto. f_equal. auto.
Qed.
Lemma picked_exists f fs l : picked f fs l -> (Exists (named f) fs <-> l <> []).
Proof.
  induction 1 as [|x fs l Hx _ IH|x fs l Hx _ IH].
  - split; [intros K; inversion K|congruence].
  - split; [discriminate|]. intros _. now constructor.
  - rewrite <- IH. split; [intros K; inversion K; subst; [contradiction|auto]|apply Exists_cons_tl].
Qed.

Lemma get_frames_l e p fs f l : Forall frame_object fs ->
  (get_frames_scm (SObj CTag [e; slist fs; p]) f = GOk (slist l) <-> picked f fs l).
Proof.
  intros H. unfold get_frames_scm. cbn [tag_frames gbind]. destruct (get_loop fs f H) as (l0 & Hl & E). rewrite E.
  cbn [gbind app]. split.
  - intros K. assert (slist l0 = slist l) as K' by congruence. enough (l0 = l) by now subst.
    clear -K'. revert l K'. induction l0 as [|a l0 IH]; intros [|b l] K; try discriminate; [reflexivity|].
    injection K as -> K. f_equal. now apply IH.
  - intros K. now rewrite (picked_fun _ _ _ _ Hl K).
Qed.

Lemma get_agree e p fs f : Forall frame_object fs ->
  (has_frame_scm (SObj CTag [e; slist fs; p]) f = GOk true <->
   exists x l, get_frames_scm (SObj CTag [e; slist fs; p]) f = GOk (slist (x :: l))).
Proof.
  intros H. destruct (has_frame_l e p fs f H) as (b & -> & Hb).
  destruct (get_loop fs f H) as (l & Hl & _). split.
  - intros K. assert (b = true) by congruence. apply Hb, (picked_exists _ _ _ Hl) in H0. destruct l as [|x l]; [congruence|].
    exists x, l. now apply get_frames_l.
  - intros (x & l' & K). apply get_frames_l in K; [|exact H]. rewrite (picked_fun _ _ _ _ Hl K) in Hl. f_equal. apply Hb.
    rewrite (picked_exists _ _ _ Hl). discriminate.
Qed.

(** Something else among the frames: [get-frames] raises an error. *)
Lemma get_bad e p fs f : ~ Forall frame_object fs -> exists er, get_frames_scm (SObj CTag [e; slist fs; p]) f = GRaise er.
Proof.
  intros H. unfold get_frames_scm. cbn [tag_frames gbind].
  enough (forall ret, exists er, get_frames_loop (slist fs) f ret = GRaise er) as K by (destruct (K []) as (er & ->); now exists er).
  induction fs as [|x fs IH]; [exfalso; apply H; constructor|]. intros ret. cbn [slist get_frames_loop].
  destruct (slot_id x) as [i|er|ex|u|] eqn:E; cbn [gbind]; try (now exists er).
  - apply IH. intros K. apply H. constructor; [|exact K]. destruct x; cbn [slot_id] in E; try discriminate.
    destruct slots as [|j r]; [discriminate|]. destruct (is_frame c) eqn:F; [|discriminate]. exists c, j, r. split; [reflexivity|].
    now apply is_frame_in.
  - exfalso. destruct x; cbn [slot_id] in E; try discriminate. destruct slots; try discriminate. destruct (is_frame c); discriminate.
  - exfalso. destruct x; cbn [slot_id] in E; try discriminate. destruct slots; try discriminate. destruct (is_frame c); discriminate.
  - exfalso. destruct x; cbn [slot_id] in E; try discriminate. destruct slots; try discriminate. destruct (is_frame c); discriminate.
Qed.

(** ** The generator *)
Fixpoint regs (pth : bytes) (x : dnode) : list bytes :=
  match x with
  | NReg => [pth]
  | NOther => []
  | NDir l => (fix go l := match l with
               | [] => []
               | (n, x) :: r => (if dot_name n then [] else regs (pth ++ [47] ++ n) x) ++ go r
               end) l
  end.
Definition files (pth : bytes) (l : list (bytes * dnode)) : list bytes := regs pth (NDir l).
Lemma files_cons pth n x r : files pth ((n, x) :: r) = (if dot_name n then [] else regs (pth ++ [47] ++ n) x) ++ files pth r.
Proof. reflexivity. Qed.
Definition ldirs (l : list (bytes * dnode)) : nat := pred (dirs (NDir l)).
Lemma ldirs_cons n x r : ldirs ((n, x) :: r) = ((if dot_name n then O else dirs x) + ldirs r)%nat.
Proof. reflexivity. Qed.
Lemma dirs_dir l : dirs (NDir l) = S (ldirs l).
Proof. reflexivity. Qed.
Definition sfiles (st : dstack) : list bytes := concat (map (fun d => files (fst d) (snd d)) st).
Fixpoint sdirs (st : dstack) : nat := match st with [] => O | d :: r => (S (ldirs (snd d)) + sdirs r)%nat end.
Lemma sfiles_app a b : sfiles (a ++ b) = sfiles a ++ sfiles b.
Proof. unfold sfiles. now rewrite map_app, concat_app. Qed.
Lemma sdirs_app a b : sdirs (a ++ b) = (sdirs a + sdirs b)%nat.
Proof. induction a as [|d a IH]; cbn [sdirs List.app]; [reflexivity|]. rewrite IH. lia. Qed.

Lemma read_on_l pth : forall l opened, exists r l' new, read_on pth l opened = (r, l', opened ++ new) /\
  match r with
  | Some f => Permutation (files pth l) (f :: files pth l' ++ sfiles new) /\ ldirs l = (ldirs l' + sdirs new)%nat
  | None => Permutation (files pth l) (sfiles new) /\ ldirs l = sdirs new
  end.
Proof.
  induction l as [|[n x] l IH]; intros opened; cbn [read_on].
  - exists None, [], []. rewrite app_nil_r. repeat split. constructor.
  - rewrite files_cons, ldirs_cons. destruct (dot_name n).
    { destruct (IH opened) as (r & l' & new & -> & H). exists r, l', new. split; [reflexivity|]. exact H. }
    destruct x as [|l1|].
    + exists (Some (pth ++ [47] ++ n)), l, []. rewrite app_nil_r. split; [reflexivity|]. cbn [regs sfiles map concat sdirs List.app dirs]. rewrite app_nil_r.
      split; [reflexivity|]. lia.
    + destruct (IH (opened ++ [(pth ++ [47] ++ n, l1)])) as (r & l' & new & -> & H). exists r, l', ((pth ++ [47] ++ n, l1) :: new).
      split; [now rewrite <- app_assoc|]. change (sfiles ((pth ++ [47] ++ n, l1) :: new)) with (files (pth ++ [47] ++ n) l1 ++ sfiles new).
      cbn [sdirs snd]. rewrite dirs_dir. change (regs (pth ++ [47] ++ n) (NDir l1)) with (files (pth ++ [47] ++ n) l1).
      destruct r as [f|]; destruct H as [H1 H2]; (split; [|lia]).
      * rewrite H1. change ((files (pth ++ [47] ++ n) l1) ++ f :: (files pth l' ++ sfiles new)) with ((files (pth ++ [47] ++ n) l1) ++ [f] ++ (files pth l' ++ sfiles new)).
        rewrite Permutation_app_comm. cbn [List.app]. constructor. rewrite <- app_assoc. apply Permutation_app_head. apply Permutation_app_comm.
      * rewrite H1. reflexivity.
    + destruct (IH opened) as (r & l' & new & -> & H). exists r, l', new. split; [reflexivity|]. exact H.
Qed.

Lemma gen_next_l : forall fuel st, (sdirs st <= fuel)%nat -> exists r st', gen_next fuel st = GOk (r, st') /\ (sdirs st' <= sdirs st)%nat /\
  match r with Some f => Permutation (sfiles st) (f :: sfiles st') | None => sfiles st = [] /\ st' = [] end.
Proof.
  induction fuel as [|fuel IH]; intros [|[pth l] rest] H.
  - exists None, []. repeat split; auto.
  - cbn [sdirs snd] in H. lia.
  - exists None, []. repeat split; auto.
  - cbn [sdirs snd] in H. cbn [gen_next]. destruct (read_on_l pth l []) as (r & l' & new & -> & K). cbn [List.app].
    change (sfiles ((pth, l) :: rest)) with (files pth l ++ sfiles rest). destruct r as [f|]; destruct K as [K1 K2].
    + exists (Some f), (((pth, l') :: rest) ++ new). split; [reflexivity|]. rewrite sdirs_app. cbn [sdirs snd].
      split; [lia|]. rewrite sfiles_app. change (sfiles ((pth, l') :: rest)) with (files pth l' ++ sfiles rest). rewrite K1. cbn [List.app].
      constructor. rewrite <- !app_assoc. apply Permutation_app_head, Permutation_app_comm.
    + destruct (IH (rest ++ new)) as (r & st' & -> & K3 & K4); [rewrite sdirs_app; lia|]. exists r, st'. split; [reflexivity|].
      rewrite sdirs_app in K3. cbn [sdirs snd]. split; [lia|]. rewrite sfiles_app in K4.
      destruct r as [f|].
      * rewrite <- K4. rewrite K1. apply Permutation_app_comm.
      * destruct K4 as [K4 ->]. split; [|reflexivity]. apply app_eq_nil in K4 as [Ka Kb]. rewrite Kb in K1.
        apply Permutation_sym, Permutation_nil in K1. now rewrite K1, Ka.
Qed.

Lemma gen_calls_end fuel n : gen_calls fuel n [] = GOk (repeat None n).
Proof. induction n as [|n IH]; cbn [gen_calls repeat]; [reflexivity|]. destruct fuel; cbn [gen_next gbind]; now rewrite IH. Qed.

Lemma gen_calls_l fuel : forall k st, length (sfiles st) = k -> (sdirs st <= fuel)%nat ->
  exists order, Permutation order (sfiles st) /\
    forall n, gen_calls fuel n st = GOk (map Some (firstn n order) ++ repeat None (n - length order)).
Proof.
  induction k as [|k IH]; intros st Hk Hf; destruct (gen_next_l fuel st Hf) as (r & st' & E & Hd & K).
  - destruct r as [f|]; [apply Permutation_length in K; cbn [length] in K; lia|]. destruct K as [K ->].
    exists []. rewrite K. split; [constructor|]. intros [|n]; [reflexivity|]. cbn [gen_calls]. rewrite E. cbn [gbind].
    rewrite gen_calls_end. reflexivity.
  - destruct r as [f|]; [|destruct K as [K _]; rewrite K in Hk; discriminate].
    pose proof (Permutation_length K) as L. cbn [length] in L.
    destruct (IH st') as (order & Hp & Ho); [lia|lia|]. exists (f :: order). split; [now rewrite K, Hp|].
    intros [|n]; [reflexivity|]. cbn [gen_calls]. rewrite E. cbn [gbind]. rewrite Ho. reflexivity.
Qed.

Section DnodeInd.
  Context (P : dnode -> Prop) (Hr : P NReg) (Ho : P NOther) (Hd : forall l, Forall (fun e => P (snd e)) l -> P (NDir l)).
  Fixpoint dnode_ind2 (x : dnode) : P x :=
    match x with
    | NReg => Hr
    | NOther => Ho
    | NDir l => Hd l ((fix go l : Forall (fun e => P (snd e)) l :=
                         match l with
                         | [] => Forall_nil _
                         | e :: r => Forall_cons _ (dnode_ind2 (snd e)) (go r)
                         end) l)
    end.
End DnodeInd.

Lemma dot_name_no n : dot_name n = false <-> n <> B "." /\ n <> B "..".
Proof.
  unfold dot_name. rewrite orb_false_iff. split; intros [H1 H2]; split.
  - intros ->. now rewrite bytes_eqb_refl in H1.
  - intros ->. now rewrite bytes_eqb_refl in H2.
  - destruct (bytes_eqb n (B ".")) eqn:E; [|reflexivity]. apply bytes_eqb_eq in E. contradiction.
  - destruct (bytes_eqb n (B "..")) eqn:E; [|reflexivity]. apply bytes_eqb_eq in E. contradiction.
Qed.

Lemma in_files pth l f : In f (files pth l) <-> exists n x, In (n, x) l /\ dot_name n = false /\ In f (regs (pth ++ [47] ++ n) x).
Proof.
  induction l as [|[n x] l IH].
  - split; [intros []|intros (? & ? & [] & _)].
  - rewrite files_cons, in_app_iff, IH. split.
    + intros [H|(n' & x' & H1 & H2)]; [|exists n', x'; split; [now right|exact H2]].
      destruct (dot_name n) eqn:E; [destruct H|]. exists n, x. split; [now left|]. auto.
    + intros (n' & x' & [E|H1] & H2 & H3); [injection E as -> ->; left; now rewrite H2|]. right. eauto.
Qed.

Lemma files_below : forall x pth f, match x with NDir l => In f (files pth l) <-> below pth l f | _ => True end.
Proof.
  induction x as [| |l IH] using dnode_ind2; auto. intros pth f. rewrite in_files. split.
  - intros (n & x & Hin & Hn & Hf). apply dot_name_no in Hn as [N1 N2]. rewrite Forall_forall in IH. specialize (IH _ Hin). cbn [snd] in IH.
    destruct x as [|l'|]; cbn [regs] in Hf.
    + destruct Hf as [<-|[]]. now apply below_here.
    + apply (below_there pth l n l' f Hin N1 N2). now apply (IH (pth ++ [47] ++ n) f).
    + destruct Hf.
  - intros H. inversion H as [p' l1 n Hin N1 N2|p' l1 n l' f' Hin N1 N2 Hb]; subst.
    + exists n, NReg. repeat split; auto; [now apply dot_name_no|now left].
    + exists n, (NDir l'). repeat split; auto; [now apply dot_name_no|]. rewrite Forall_forall in IH.
      exact (proj2 (IH _ Hin (pth ++ [47] ++ n) f) Hb).
Qed.

Lemma regs_prefix : forall x pth f, In f (regs pth x) -> exists s, f = pth ++ s /\ (s = [] \/ exists s', s = 47 :: s').
Proof.
  induction x as [| |l IH] using dnode_ind2; intros pth f.
  - intros [<-|[]]. exists []. rewrite app_nil_r. auto.
  - intros [].
  - intros H. apply (in_files pth l f) in H as (n & x & Hin & _ & Hf). rewrite Forall_forall in IH.
    destruct (IH _ Hin _ _ Hf) as (s & -> & _). exists ([47] ++ n ++ s). rewrite <- !app_assoc. split; [reflexivity|]. right. now exists (n ++ s).
Qed.

Lemma split_slash n1 n2 s1 s2 : ~ In 47 n1 -> ~ In 47 n2 -> (s1 = [] \/ exists s', s1 = 47 :: s') -> (s2 = [] \/ exists s', s2 = 47 :: s') ->
  n1 ++ s1 = n2 ++ s2 -> n1 = n2.
Proof.
  revert n2. induction n1 as [|a n1 IH]; intros [|b n2] H1 H2 S1 S2 E; [reflexivity| | |].
  - cbn [List.app] in E. destruct S1 as [->|[s' ->]]; [discriminate|]. injection E as E _. exfalso. apply H2. now left.
  - cbn [List.app] in E. destruct S2 as [->|[s' ->]]; [discriminate|]. injection E as E _. exfalso. apply H1. now left.
  - cbn [List.app] in E. injection E as -> E. f_equal. apply IH; auto; intros K; [apply H1|apply H2]; now right.
Qed.

Lemma NoDup_append {A} (a b : list A) : NoDup a -> NoDup b -> (forall x, In x a -> ~ In x b) -> NoDup (a ++ b).
Proof.
  intros Ha Hb H. induction Ha as [|x a Hx Ha IH]; [exact Hb|]. cbn [List.app]. constructor.
  - rewrite in_app_iff. intros [K|K]; [contradiction|]. apply (H x); [now left|exact K].
  - apply IH. intros y Hy. apply H. now right.
Qed.

Lemma files_nodup : forall x pth, match x with NDir l => well_named l -> NoDup (files pth l) | _ => True end.
Proof.
  induction x as [| |l IH] using dnode_ind2; auto. intros pth W. inversion W as [l0 W1 W2 W3]; subst l0. clear W.
  induction l as [|[n x] l IHl]; [constructor|]. rewrite files_cons.
  apply Forall_cons_iff in IH as [IHx IH]. apply Forall_cons_iff in W2 as [Wn W2]. cbn [fst snd map] in *. inversion W1 as [|? ? W1a W1b]; subst.
  assert (NoDup (files pth l)) as IHl' by (apply IHl; auto; intros m l' Hin; apply (W3 m l'); now right). clear IHl.
  destruct (dot_name n) eqn:En; [exact IHl'|]. apply NoDup_append; [| exact IHl'|].
  - destruct x as [|l'|]; cbn [regs]; [repeat constructor; auto| |constructor]. apply dot_name_no in En as [N1 N2].
    exact (IHx (pth ++ [47] ++ n) (W3 n l' (or_introl eq_refl) N1 N2)).
  - intros f Hf Hg. apply in_files in Hg as (n2 & x2 & Hin & _ & Hf2). apply regs_prefix in Hf as (s1 & E1 & S1). apply regs_prefix in Hf2 as (s2 & E2 & S2).
    rewrite E1 in E2. rewrite <- !app_assoc in E2. apply app_inv_head in E2. injection E2 as E2.
    rewrite Forall_forall in W2. pose proof (W2 _ Hin) as Wn2. cbn [fst] in Wn2. apply (split_slash n n2) in E2; auto. subst n2.
    apply W1a. apply (in_map fst) in Hin. exact Hin.
Qed.

Lemma generator_l root l fuel : (dirs (NDir l) <= fuel)%nat -> exists order,
  (forall f, In f order <-> below root l f) /\ (well_named l -> NoDup order) /\
  forall n, gen_calls fuel n [(root, l)] = GOk (map Some (firstn n order) ++ repeat None (n - length order)).
Proof.
  intros H. rewrite dirs_dir in H. destruct (gen_calls_l fuel _ [(root, l)] eq_refl) as (order & Hp & Ho); [cbn [sdirs snd]; lia|].
  assert (sfiles [(root, l)] = files root l) as E by (unfold sfiles; cbn [map concat fst snd]; apply app_nil_r). rewrite E in Hp.
  exists order. split; [|split; [|exact Ho]].
  - intros f. rewrite <- (files_below (NDir l) root f). split; apply Permutation_in; [exact Hp|now apply Permutation_sym].
  - intros W. apply (Permutation_NoDup (Permutation_sym Hp)). now apply (files_nodup (NDir l)).
Qed.

(** ** The flat list *)
Section FtreeInd.
  Context (P : ftree -> Prop) (H : forall n d kids, Forall P kids -> P (FNode n d kids)).
  Fixpoint ftree_ind2 (x : ftree) : P x :=
    match x with
    | FNode n d kids => H n d kids ((fix go l : Forall P l :=
                         match l with [] => Forall_nil _ | e :: r => Forall_cons _ (ftree_ind2 e) (go r) end) kids)
    end.
End FtreeInd.
Lemma flatten_list l : flatten (NList l) = concat (map flatten l).
Proof. induction l as [|a l IH]; [reflexivity|]. cbn [map concat]. rewrite <- IH. reflexivity. Qed.
Lemma flat_tree_l : forall t parent f, In f (flat_tree parent t) <-> exists b, leaf parent t f b.
Proof.
  induction t as [n d kids IH] using ftree_ind2. intros parent f. destruct kids as [|k0 kids].
  - unfold flat_tree. cbn [strip_stat flatten]. split.
    + intros [<-|[]]. exists d. constructor.
    + intros (b & K). inversion K; subst; [now left|]. match goal with K : In _ [] |- _ => destruct K end.
  - assert (flat_tree parent (FNode n d (k0 :: kids)) = concat (map (flat_tree (parent ++ [47] ++ n)) (k0 :: kids))) as E
      by (unfold flat_tree; cbn [strip_stat]; rewrite flatten_list, map_map; reflexivity).
    rewrite E. rewrite Forall_forall in IH. split.
    + intros K. apply in_concat in K as (l & Hl & Hf). apply in_map_iff in Hl as (k & <- & Hk). apply (IH k Hk) in Hf as (b & Hb).
      exists b. now apply leaf_below with k.
    + intros (b & K). inversion K as [|? ? ? ? k ? ? Hk Hb]; subst. apply in_concat. exists (flat_tree (parent ++ [47] ++ n) k).
      split; [apply in_map; exact Hk|]. apply (IH k Hk). now exists b.
Qed.
