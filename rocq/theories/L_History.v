(** * Proofs: histories of commands on a file. *)
From Verif Require Import Base M_Ints M_Id3v1 M_Payload M_Cloud M_Frame M_Charset M_TextId M_Lookup M_Genres M_Read M_Fs M_Tagset M_Process M_Popm M_Cmds M_Xtag M_Options
  S_Ints S_Read S_Id3v1 S_Cloud S_Tag S_Tagset S_Saved S_Process S_Lookup S_Popm S_Cmds S_Xtag S_Effect S_EffectX S_History
  L_Process L_Cmds L_Cmds2 L_Options L_Xtag L_Effect L_Effect2 L_Effect3 L_Effect5 L_EffectX.
#[local] Open Scope N_scope.

(** ** One request *)
Lemma order_same z passes k a fs fs1 v2 v1 : find_node k fs1 = find_node k fs -> in_order z passes k a fs v2 v1 -> in_order z passes k a fs1 v2 v1.
Proof. unfold in_order. intros ->. auto. Qed.

Lemma request_once z passes e entries w loc path d n a r fs st fs' v2 v1 : let k := resolve (e_cwd e) path in
  crc_range z -> (0 < passes)%nat -> file_at e path d n -> 355 <= len a ->
  asks w loc path r -> in_order z passes k a fs v2 v1 -> fits (w_ic w) r v2 v1 /\ can_be_saved z w loc k fs r v2 v1 ->
  run_request z passes e entries w loc r fs = (st, (Ok 0, fs')) -> moderate k fs' ->
  exists v2' v1', in_order z passes k a fs' v2' v1' /\ effect (w_ic w) r v2 v1 v2' v1'.
Proof.
  intros k Hz Hp FA LA AS IO [FT CS] HR HM. destruct r as [vm o|vm o|vm g p|vm p l]; cbn [asks fits run_request effect] in *.
  - destruct AS as ((p & EO) & OI & VD & VA & VG). rewrite <- (N.add_0_r (o_count o)) in FT.
    destruct (popm_once z passes e entries w vm o p path d n fs st fs' 0 a v2 v1 Hz Hp FA LA EO OI VD VA VG IO FT) as (v2' & v1' & A & _ & C & D); [|exact HR|exact HM|eauto].
    intros data l d1 ts u1 s1 FN TF PT. apply (CS data l p ts FN TF). split; [exact EO|eauto].
  - destruct AS as ((p & EO) & VT & VA & VG & ND & NS).
    destruct (text_once z passes e entries w loc vm o p path d n fs st fs' a v2 v1 Hz Hp FA EO VT VA VG ND NS IO LA FT) as (v2' & v1' & A & C & D); [|exact HR|exact HM|eauto].
    intros data l d1 ts u1 s1 FN TF PT. apply (CS data l p ts FN TF). split; [exact EO|eauto].
  - destruct AS as (EO & VD & VA & VG & name & TG & TB). destruct FT as (SF & NC & HG).
    destruct (genre_once z passes e entries w vm g p path d n fs st fs' a v2 v1 name Hz Hp FA LA EO VD VA VG IO SF NC HG TG TB) as (v2' & v1' & v1m & A & C & D & E); [|exact HR|exact HM|].
    + intros data l d1 ts u1 s1 FN TF PT. apply (CS data l p ts FN TF). split; [reflexivity|eauto].
    + exists v2', v1'. split; [exact A|]. split; [exact C|]. eauto.
  - destruct AS as ((o & EO) & VG & VD & VA & VR & VX & NL & IK & FB & PI & OW). destruct FT as (SF & RM).
    destruct (xtag_command_once z passes e entries w vm o p path d n fs st fs' a v2 v1 l Hz Hp FA LA EO VG VD VA VR VX NL IK FB PI OW IO SF RM) as (v2' & v1' & A & C & D); [|exact HR|exact HM|eauto].
    intros data hl d1 ts u1 s1 FN TF PT. apply (CS data hl p ts FN TF). split; [reflexivity|exists o; eauto].
Qed.
(** With backups there is nothing to ask for. *)
Lemma saved_backed z w loc path k fs r v2 v1 : asks w loc path r -> with_backups r = true -> can_be_saved z w loc k fs r v2 v1.
Proof.
  intros AS WB data hl p ts _ _ M. left. destruct r as [vm o|vm o|vm g q|vm q l]; cbn [asks with_backups made] in *.
  - destruct M as [EO _]. destruct (popm_options_parts vm o p EO) as (_ & _ & _ & PB & _). now rewrite PB.
  - destruct AS as (_ & VT & _). destruct M as [EO _]. destruct (text_options_parts loc vm o p EO VT) as (_ & _ & PB & _). now rewrite PB.
  - destruct AS as (EO & _). destruct M as [-> _]. destruct (genre_options_parts w vm g q EO) as (_ & _ & PB). now rewrite PB.
  - destruct AS as (_ & VG & VD & _ & VR & VX & _). destruct M as (-> & o & _ & _ & _ & EO & _).
    assert (EA : xtag_args (Some (items_text l)) (own vm) false (xv_frame vm) (xv_merge vm) false (xv_create vm) (xv_always vm) (xv_adjust vm) (xv_backups vm) (given (xv_tag vm)) = Ok (o, q)).
    { clear - EO VR VG VD VX. unfold xtag_options in EO. rewrite VR in EO. cbn [required hbind] in EO. rewrite VG, VD, VX in EO. fold (own vm) in EO.
      destruct (xtag_args _ _ _ _ _ _ _ _ _ _ _) as [x|[]|x|]; cbn in EO; try discriminate EO; now injection EO as ->. }
    destruct (args_set _ _ _ _ _ _ _ _ _ _ _ _ _ EA) as (_ & _ & _ & _ & _ & AS & _). destruct (AS eq_refl) as (s0 & _ & _ & _ & _ & _ & _ & _ & PB & _). now rewrite PB.
Qed.

(** ** All requests *)
(** What holds of each step holds, added up, of the history. *)
Lemma history_ind2 z passes e entries w loc path d n a (Q : list request -> list anytag -> option id3v1_tag -> list anytag -> option id3v1_tag -> Prop) :
  let k := resolve (e_cwd e) path in
  crc_range z -> (0 < passes)%nat -> file_at e path d n -> 355 <= len a ->
  (forall v2 v1, Forall (S_Saved.storable z Never) v2 -> Forall (fun t => any_version t <> V22) v2 -> Q [] v2 v1 v2 v1) ->
  (forall r rs v2 v1 u2 u1 v2' v1', Forall (S_Saved.storable z Never) v2 -> Forall (fun t => any_version t <> V22) v2 ->
     asks w loc path r -> fits (w_ic w) r v2 v1 -> effect (w_ic w) r v2 v1 u2 u1 -> Q rs u2 u1 v2' v1' -> Q (r :: rs) v2 v1 v2' v1') ->
  forall rs fs fs', history z passes e entries w loc path a rs fs fs' -> forall v2 v1, in_order z passes k a fs v2 v1 ->
  exists v2' v1', in_order z passes k a fs' v2' v1' /\ Q rs v2 v1 v2' v1'.
Proof.
  intros k Hz Hp FA LA Q0 Q1 rs fs fs' H. induction H as [fs|r rs fs st fs1 fs2 fs' AS FT HR HM HN _ IH]; intros v2 v1 IO.
  - exists v2, v1. split; [exact IO|]. destruct IO as (data & l & _ & _ & _ & _ & _ & HS & HV). now apply Q0.
  - destruct (request_once z passes e entries w loc path d n a r fs st fs1 v2 v1 Hz Hp FA LA AS IO (FT v2 v1 IO) HR HM) as (u2 & u1 & IO1 & EF).
    destruct (IH u2 u1) as (v2' & v1' & IO' & QQ); [exact (order_same _ _ _ _ _ _ _ _ HN IO1)|].
    exists v2', v1'. split; [exact IO'|]. pose proof (FT v2 v1 IO) as F. destruct IO as (data & l & _ & _ & _ & _ & _ & HS & HV). now apply (Q1 r rs v2 v1 u2 u1).
Qed.

Lemma history_effects z passes e entries w loc path d n a : let k := resolve (e_cwd e) path in
  crc_range z -> (0 < passes)%nat -> file_at e path d n -> 355 <= len a ->
  forall rs fs fs', history z passes e entries w loc path a rs fs fs' -> forall v2 v1, in_order z passes k a fs v2 v1 ->
  exists v2' v1', in_order z passes k a fs' v2' v1' /\ effects (w_ic w) rs v2 v1 v2' v1'.
Proof.
  intros k Hz Hp FA LA. apply (history_ind2 z passes e entries w loc path d n a (effects (w_ic w)) Hz Hp FA LA).
  - intros v2 v1 _ _. split; reflexivity.
  - intros r rs v2 v1 u2 u1 v2' v1' _ _ _ _ E H. exists u2, u1. auto.
Qed.

(** ** Frames a request is not about *)
Lemma with_index_F2 {B0} (R : N * anytag -> B0 -> Prop) (Q : anytag -> B0 -> Prop) v2 ys : (forall it y, R it y -> Q (snd it) y) -> Forall2 R (with_index v2) ys -> Forall2 Q v2 ys.
Proof.
  intros H F. rewrite <- (with_index_all v2). induction F as [|it y r r' C _ IH]; [constructor|]. cbn [map]. constructor; auto.
Qed.
Lemma with_id_app id l m : with_id id (l ++ m) = with_id id l ++ with_id id m.
Proof. apply filter_app. Qed.
Lemma with_id_pairs id (R : frame -> frame -> Prop) fs fs' : (forall f f', R f f' -> f_id f' = f_id f /\ (f_id f = id -> f' = f)) -> Forall2 R fs fs' -> with_id id fs' = with_id id fs.
Proof.
  intros H F. induction F as [|f f' r r' C _ IH]; [reflexivity|]. destruct (H f f' C) as [E1 E2]. unfold with_id in *. cbn [filter]. rewrite E1, IH.
  destruct (bytes_eqb (f_id f) id) eqn:E; [|reflexivity]. apply bytes_eqb_eq in E. now rewrite (E2 E).
Qed.
Lemma with_id_none id fs : (forall f, In f fs -> f_id f <> id) -> with_id id fs = [].
Proof.
  induction fs as [|f fs IH]; intros H; [reflexivity|]. unfold with_id in *. cbn [filter]. destruct (bytes_eqb (f_id f) id) eqn:E.
  - apply bytes_eqb_eq in E. now elim (H f (or_introl eq_refl)).
  - apply IH. intros g I. apply H. now right.
Qed.
Lemma with_id_gone id ids fs : ~ In id ids -> with_id id (all_gone ids fs) = with_id id fs.
Proof.
  intros N. induction fs as [|f fs IH]; [reflexivity|]. unfold with_id, all_gone in *. cbn [filter]. destruct (existsb (bytes_eqb (f_id f)) ids) eqn:E; cbn [negb filter].
  - rewrite IH. destruct (bytes_eqb (f_id f) id) eqn:E2; [|reflexivity]. apply bytes_eqb_eq in E2. apply existsb_exists in E as (x & I & E). apply bytes_eqb_eq in E. subst. contradiction.
  - now rewrite IH.
Qed.

Lemma texts_rest ic v src xs id fs fs' : ~ In id (map fst xs) -> texts_put ic v src xs fs fs' -> with_id id fs' = with_id id fs.
Proof.
  intros N (fs1 & fs2 & -> & F1 & _ & F2 & _). rewrite with_id_app, (with_id_none id fs2), app_nil_r.
  - refine (with_id_pairs id _ fs fs1 _ F1). intros f f' (E1 & _ & E3). split; [exact E1|]. intros <-. destruct E3 as [E3|(s & I & _)]; [exact E3|]. elim N. now apply (in_map fst) in I.
  - intros f I E. rewrite Forall_forall in F2. destruct (F2 f I) as (_ & s & J & _). apply N. apply (in_map fst) in J. cbn [fst] in J. now rewrite E in J.
Qed.
Lemma put_rest ic v src id' s id fs fs' : id <> id' -> text_put ic v src id' s fs fs' -> with_id id fs' = with_id id fs.
Proof.
  intros N [(l1 & f & f' & l2 & -> & -> & E1 & E2 & _)|(_ & f' & -> & E2 & _)].
  - rewrite !with_id_app. f_equal. change (f' :: l2) with ([f'] ++ l2). change (f :: l2) with ([f] ++ l2). rewrite !with_id_app. f_equal.
    rewrite !with_id_none; [reflexivity| |]; intros g [<-|[]]; congruence.
  - rewrite with_id_app, (with_id_none id [f']), app_nil_r; [reflexivity|]. intros g [<-|[]]. congruence.
Qed.
Lemma in_combine_fst {A B0} (l : list A) (m : list B0) x : In x (map fst (combine l m)) -> In x l.
Proof. rewrite in_map_iff. intros ([a b0] & <- & I). now apply in_combine_l in I. Qed.

Lemma plays_rest ic o n v id fs fs' : id <> count_id v -> id <> popm_id v -> Forall2 (plays_added ic v o n) fs fs' -> with_id id fs' = with_id id fs.
Proof.
  intros N1 N2 F. refine (with_id_pairs id _ fs fs' _ F). intros f f' [(Nm & R)|(_ & ->)]; [|auto]. split; [apply R|].
  intros E. destruct Nm as [[X _]|[[X _] _]]; congruence.
Qed.
Lemma clouds_rest owner merge create l id t t' : id <> (match any_version t with V22 => B "XTG" | _ => B "XTAG" end) -> clouds_put owner merge create l t t' -> with_id id (shown t') = with_id id (shown t).
Proof.
  intros N (V & fs & F & H). assert (E : with_id id fs = with_id id (shown t)).
  { refine (with_id_pairs id _ (shown t) fs _ F). intros f f' (E1 & _ & _ & E4). split; [exact E1|]. intros E. apply E4. intros c (X & _). congruence. }
  destruct H as [(_ & ->)|(_ & H)]; [exact E|]. destruct create; [|now rewrite H]. destruct H as (f & -> & _ & c & (X & _) & _).
  rewrite with_id_app, (with_id_none id [f]), app_nil_r; [exact E|]. intros g [<-|[]]. congruence.
Qed.

Definition rest_step (r : request) (t t' : anytag) : Prop :=
  any_version t' = any_version t /\ forall id, ~ about (any_version t) r id -> with_id id (shown t') = with_id id (shown t).
Lemma effect_rest ic r v2 v1 v2' v1' : effect ic r v2 v1 v2' v1' -> Forall2 (rest_step r) v2 v2'.
Proof.
  destruct r as [vm o|vm o|vm g p|vm p l]; cbn [effect]; intros (F & _).
  - revert F. apply F2_impl. intros t t' (V & F). split; [exact V|]. intros id N. cbn [about] in N. apply (plays_rest ic o (o_count o) (any_version t)); [tauto|tauto|exact F].
  - revert F. apply F2_impl. intros t t' (V & F). split; [exact V|]. intros id N. cbn [about] in N. unfold ids_in in N. rewrite map_app, in_app_iff in N.
    rewrite (texts_rest _ _ _ _ id _ _) with (2 := F).
    + apply with_id_gone. intros I. apply N. left. exact I.
    + intros I. apply in_combine_fst in I. apply N. right. exact I.
  - revert F. apply with_index_F2. intros [i t] t' (V & F). cbn [fst snd] in *. split; [exact V|]. intros id N. cbn [about] in N. destruct F as [(-> & _)|(_ & F)]; [reflexivity|].
    exact (put_rest _ _ _ _ _ _ _ _ N F).
  - revert F. apply with_index_F2. intros [i t] t' F. unfold clouds_read in F. cbn [fst snd] in *. destruct (in_scope p i).
    + split; [apply F|]. intros id N. exact (clouds_rest _ _ _ _ _ _ _ N F).
    + destruct F as [V E]. split; [exact V|]. intros. now rewrite E.
Qed.

Lemma F2_trans {A} (R Q P : A -> A -> Prop) : (forall a b c, R a b -> Q b c -> P a c) -> forall l m k, Forall2 R l m -> Forall2 Q m k -> Forall2 P l k.
Proof. intros H l m k F. revert k. induction F as [|a b0 r r' C _ IH]; intros k G; inversion G; subst; constructor; eauto. Qed.
Lemma F2_refl {A} (R : A -> A -> Prop) : (forall a, R a a) -> forall l, Forall2 R l l.
Proof. intros H l. induction l; constructor; auto. Qed.

Lemma history_rest z passes e entries w loc path d n a : let k := resolve (e_cwd e) path in
  crc_range z -> (0 < passes)%nat -> file_at e path d n -> 355 <= len a ->
  forall rs fs fs', history z passes e entries w loc path a rs fs fs' -> forall v2 v1, in_order z passes k a fs v2 v1 ->
  exists v2' v1', in_order z passes k a fs' v2' v1' /\ Forall2 (rest_same rs) v2 v2'.
Proof.
  intros k Hz Hp FA LA. apply (history_ind2 z passes e entries w loc path d n a (fun rs v2 _ v2' _ => Forall2 (rest_same rs) v2 v2') Hz Hp FA LA).
  - intros v2 _ _ _. apply F2_refl. intros t. split; auto.
  - intros r rs v2 v1 u2 u1 v2' _ _ _ _ _ E H. apply effect_rest in E. refine (F2_trans _ _ _ _ _ _ _ E H). intros t u t' (V1 & S1) (V2 & S2).
    split; [congruence|]. intros id N. rewrite V1 in S2. rewrite S2, S1; [reflexivity| |].
    + apply N. now left.
    + intros q I. apply N. now right.
Qed.

(** ** Counters *)
Lemma raised_named ic v o r n f f' : raised r n f f' -> named ic v o f <-> named ic v o f'.
Proof.
  intros (E & _ & H). unfold named, names_pcnt, names_popm, owned. rewrite E.
  destruct (f_body f) eqn:B1; try contradiction; destruct (f_body f') eqn:B2; try contradiction.
  - split; (intros [X|((X & _) & Y)]; [left; exact X|right; split; [|exact Y]; split; [exact X|intros; discriminate]]).
  - destruct H as (H & _). split; (intros [X|((X & Z) & Y)]; [left; exact X|right; split; [|exact Y]; split; [exact X|]]); intros q x Eq Eo; injection Eq as <-.
    + rewrite H. eapply Z; eauto.
    + rewrite <- H. eapply Z; eauto.
Qed.
Lemma raised_trans r1 n1 r2 n2 f g h : raised r1 n1 f g -> raised r2 n2 g h -> raised (match r2 with Some _ => r2 | None => r1 end) (n1 + n2) f h.
Proof.
  intros (A1 & A2 & A3) (C1 & C2 & C3). split; [congruence|]. split; [congruence|].
  destruct (f_body f), (f_body g), (f_body h); try contradiction.
  - rewrite C3, A3. now rewrite N.add_assoc.
  - destruct A3 as (A3 & A4 & A5), C3 as (C3 & C4 & C5). split; [congruence|]. split; [|rewrite C5, A5; now rewrite N.add_assoc].
    destruct r2; [exact C4|]. now rewrite C4.
Qed.
Lemma raised_refl f : counting f = true -> raised None 0 f f.
Proof.
  unfold counting, counter_of, raised. intros H. split; [reflexivity|]. split; [reflexivity|]. destruct (f_body f); try discriminate H; rewrite N.add_0_r; auto.
Qed.
Lemma raised_counting r n f f' : raised r n f f' -> counting f = true /\ counting f' = true.
Proof. intros (_ & _ & H). unfold counting, counter_of. destruct (f_body f), (f_body f'); try contradiction; auto. Qed.
Lemma played_back ic v r0 n0 f f' rs n r : raised r0 n0 f f' -> played ic v f' rs n r -> played ic v f rs n r.
Proof.
  intros R H. induction H as [|vm o rs n r Nm _ IH|vm o rs n r Nm _ IH|q rs n r NP _ IH].
  - constructor.
  - apply PlayedMore; [|exact IH]. now apply (raised_named ic v o r0 n0 f f' R).
  - apply PlayedOthers; [|exact IH]. intros X. apply Nm. now apply (raised_named ic v o r0 n0 f f' R).
  - now apply NotPlays.
Qed.

Lemma filter_pairs (R : frame -> frame -> Prop) fs fs' : (forall f f', R f f' -> counting f' = counting f /\ (counting f = true -> f' = f)) -> Forall2 R fs fs' -> filter counting fs' = filter counting fs.
Proof.
  intros H F. induction F as [|f f' r r' C _ IH]; [reflexivity|]. destruct (H f f' C) as [E1 E2]. cbn [filter]. rewrite E1, IH.
  destruct (counting f) eqn:E; [|reflexivity]. now rewrite (E2 eq_refl).
Qed.
Lemma filter_none fs : (forall f, In f fs -> counting f = false) -> filter counting fs = [].
Proof. induction fs as [|f fs IH]; intros H; [reflexivity|]. cbn [filter]. rewrite (H f (or_introl eq_refl)). apply IH. intros g I. apply H. now right. Qed.
Lemma reads_uncounted ic v src f s : reads ic v src f s -> counting f = false.
Proof. intros (t & E & _). unfold counting, counter_of. now rewrite E. Qed.
Lemma text_uncounted v f : wf_frame v f -> kind_of v (f_id f) = KText -> counting f = false.
Proof. intros (_ & _ & K & _) E. rewrite E in K. unfold counting, counter_of. destruct (f_body f); try discriminate K; reflexivity. Qed.

Lemma texts_counters ic v src xs fs fs' : (forall id, In id (map fst xs) -> kind_of v id = KText) -> Forall (good_frame v) fs -> texts_put ic v src xs fs fs' -> filter counting fs' = filter counting fs.
Proof.
  intros K G (fs1 & fs2 & -> & F1 & _ & F2 & _). rewrite filter_app, (filter_none fs2), app_nil_r.
  - clear - K G F1. induction F1 as [|f f' r r' (E1 & E2 & E3) _ IH]; [reflexivity|]. apply Forall_cons_iff in G as [[G1 _] G2]. cbn [filter]. rewrite (IH G2).
    destruct E3 as [->|(s & I & R)]; [reflexivity|]. rewrite (reads_uncounted _ _ _ _ _ R), (text_uncounted v f G1); [reflexivity|]. apply K. now apply (in_map fst) in I.
  - intros f I. rewrite Forall_forall in F2. destruct (F2 f I) as (_ & s & _ & R). exact (reads_uncounted _ _ _ _ _ R).
Qed.
Lemma gone_counters v ids fs : (forall id, In id ids -> kind_of v id = KText) -> Forall (good_frame v) fs -> filter counting (all_gone ids fs) = filter counting fs.
Proof.
  intros K G. induction fs as [|f fs IH]; [reflexivity|]. apply Forall_cons_iff in G as [[G1 _] G2]. unfold all_gone in *. cbn [filter].
  destruct (existsb (bytes_eqb (f_id f)) ids) eqn:E; cbn [negb filter]; [|now rewrite (IH G2)]. rewrite (IH G2).
  apply existsb_exists in E as (x & I & E). apply bytes_eqb_eq in E. rewrite (text_uncounted v f G1); [reflexivity|]. rewrite E. now apply K.
Qed.
Lemma put_counters ic v src id s fs fs' : kind_of v id = KText -> Forall (good_frame v) fs -> text_put ic v src id s fs fs' -> filter counting fs' = filter counting fs.
Proof.
  intros K G [(l1 & f & f' & l2 & -> & -> & E1 & E2 & _ & R)|(_ & f' & -> & E2 & _ & R)].
  - apply Forall_app in G as [_ G]. apply Forall_cons_iff in G as [[G _] _]. rewrite !filter_app. f_equal. cbn [filter].
    rewrite (reads_uncounted _ _ _ _ _ R), (text_uncounted v f G); [reflexivity|]. now rewrite E1.
  - rewrite filter_app, (filter_none [f']), app_nil_r; [reflexivity|]. intros g [<-|[]]. exact (reads_uncounted _ _ _ _ _ R).
Qed.
Lemma clouds_counters owner merge create l t t' : clouds_put owner merge create l t t' -> counters t' = counters t.
Proof.
  intros (V & fs & F & H). unfold counters. assert (E : filter counting fs = filter counting (shown t)).
  { clear - F. induction F as [|f f' r r' (E1 & E2 & E3 & E4) _ IH]; [reflexivity|]. cbn [filter]. rewrite IH.
    destruct (counting f) eqn:Cf.
    - assert (X : f' = f) by (apply E4; intros c (_ & X & _); unfold counting, counter_of in Cf; rewrite X in Cf; discriminate Cf). subst f'. now rewrite Cf.
    - destruct (f_body f) eqn:Eb; try (rewrite E4, Cf; [reflexivity|intros c0 (_ & X & _); congruence]).
      destruct (bytes_eqb (f_id f) match any_version t with V22 => B "XTG" | _ => B "XTAG" end) eqn:Ei.
      + destruct (bytes_eqb owner []) eqn:Eo; [|destruct (bytes_eqb (tc_owner c) owner) eqn:Ec].
        * apply bytes_eqb_eq in Ei, Eo. destruct (E3 c) as (c' & X & _); [now split; [|split; [|left]]|]. unfold counting, counter_of. now rewrite X.
        * apply bytes_eqb_eq in Ei, Ec. destruct (E3 c) as (c' & X & _); [now split; [|split; [|right]]|]. unfold counting, counter_of. now rewrite X.
        * rewrite E4, Cf; [reflexivity|]. intros c0 (_ & X & [Y|Y]); [subst owner; discriminate Eo|]. rewrite Eb in X. injection X as <-. rewrite Y, (proj2 (bytes_eqb_eq _ _) eq_refl) in Ec. discriminate Ec.
      + rewrite E4, Cf; [reflexivity|]. intros c0 (X & _). rewrite X, (proj2 (bytes_eqb_eq _ _) eq_refl) in Ei. discriminate Ei. }
  destruct H as [(_ & ->)|(_ & H)]; [exact E|]. destruct create; [|now rewrite H]. destruct H as (f & -> & _ & c & (_ & X & _) & _).
  rewrite filter_app, (filter_none [f]), app_nil_r; [exact E|]. intros g [<-|[]]. unfold counting, counter_of. now rewrite X.
Qed.

Lemma names_ids v ks : (forall k, In k ks -> exists id, names v k id) -> forall id, In id (ids_in v ks) -> kind_of v id = KText.
Proof.
  intros H id I. unfold ids_in in I. apply in_map_iff in I as (k & <- & I). destruct (H k I) as (id & E & K). now rewrite E.
Qed.
Definition counters_step (ic : iconv_t) (r : request) (t t' : anytag) : Prop :=
  any_version t' = any_version t /\
  match r with
  | Plays _ o => Forall2 (fun f f' => named ic (any_version t) o f /\ raised (o_rating o) (o_count o) f f' \/ ~ named ic (any_version t) o f /\ f' = f) (counters t) (counters t')
  | _ => counters t' = counters t
  end.
Lemma effect_counters z ic r v2 v1 v2' v1' : Forall (S_Saved.storable z Never) v2 -> Forall (fun t => any_version t <> V22) v2 -> fits ic r v2 v1 -> effect ic r v2 v1 v2' v1' -> Forall2 (counters_step ic r) v2 v2'.
Proof.
  intros HS HV. assert (G : forall t, In t v2 -> (any_version t = V23 \/ any_version t = V24) /\ Forall (good_frame (any_version t)) (shown t)).
  { intros t I. rewrite Forall_forall in HS, HV. split; [|apply (storable_frames z); auto]. specialize (HV t I). destruct (any_version t); tauto. }
  clear HS HV. destruct r as [vm o|vm o|vm g p|vm p l]; cbn [effect fits counters_step]; intros FT (F & _).
  - clear FT G. revert F. apply F2_impl. intros t t' (V & F). split; [exact V|]. unfold counters. induction F as [|f f' r r' C _ IH]; [constructor|]. cbn [filter].
    destruct C as [(Nm & R)|(Nm & ->)].
    + destruct (raised_counting _ _ _ _ R) as [-> ->]. constructor; [left; auto|exact IH].
    + destruct (counting f); [constructor; [right; auto|exact IH]|exact IH].
  - induction F as [|t t' r r' (V & F) _ IH]; [constructor|]. apply Forall_cons_iff in FT as [(T1 & _) FT]. constructor; [|apply IH; [intros u I; apply G; now right|exact FT]].
    split; [exact V|]. destruct (G t (or_introl eq_refl)) as [V' G1]. unfold counters. rewrite (texts_counters _ (any_version t) _ _ _ _) with (3 := F).
    + apply (gone_counters (any_version t)); [|exact G1]. apply names_ids. intros k I. apply T1. apply in_or_app. now left.
    + intros id I. apply in_combine_fst in I. revert id I. apply names_ids. intros k I. apply T1. apply in_or_app. now right.
    + now apply gone_good.
  - assert (G' : Forall (fun it => (any_version (snd it) = V23 \/ any_version (snd it) = V24) /\ Forall (good_frame (any_version (snd it))) (shown (snd it))) (with_index v2)).
    { apply Forall_forall. intros [i t] M. cbn [snd]. unfold with_index in M. apply in_combine_r in M. auto. }
    rewrite <- (with_index_all v2). clear FT G. induction F as [|[i t] t' r r' (V & F) _ IH]; [constructor|]. cbn [map fst snd] in *. apply Forall_cons_iff in G' as [[V1 G1] G']. cbn [snd] in *.
    constructor; [|now apply IH]. split; [exact V|]. unfold counters. destruct F as [(-> & _)|(_ & F)]; [reflexivity|].
    destruct (tcon_good (any_version t) V1) as (_ & _ & K). exact (put_counters _ _ _ _ _ _ _ K G1 F).
  - clear FT G. revert F. apply with_index_F2. intros [i t] t' F. unfold clouds_read in F. cbn [fst snd] in *. destruct (in_scope p i).
    + split; [apply F|]. exact (clouds_counters _ _ _ _ _ _ F).
    + destruct F as [V E]. split; [exact V|]. unfold counters. now rewrite E.
Qed.

Lemma F2_in_l {A B0} (R : A -> B0 -> Prop) l m : Forall2 R l m -> Forall2 (fun a b0 => In a l /\ R a b0) l m.
Proof. intros F. induction F as [|a b0 r r' C _ IH]; [constructor|]. constructor; [split; [now left|exact C]|]. eapply F2_impl; [|exact IH]. intros x y (I & H). split; [now right|exact H]. Qed.
Lemma history_played z passes e entries w loc path d n a : let k := resolve (e_cwd e) path in
  crc_range z -> (0 < passes)%nat -> file_at e path d n -> 355 <= len a ->
  forall rs fs fs', history z passes e entries w loc path a rs fs fs' -> forall v2 v1, in_order z passes k a fs v2 v1 ->
  exists v2' v1', in_order z passes k a fs' v2' v1' /\ Forall2 (all_played (w_ic w) rs) v2 v2'.
Proof.
  intros k Hz Hp FA LA. apply (history_ind2 z passes e entries w loc path d n a (fun rs v2 _ v2' _ => Forall2 (all_played (w_ic w) rs) v2 v2') Hz Hp FA LA).
  - intros v2 _ _ _. apply F2_refl. intros t. split; [reflexivity|]. assert (X : Forall (fun f => counting f = true) (counters t)).
    { apply Forall_forall. intros f I. now apply filter_In in I. }
    induction X as [|f r Cf _ IH]; constructor; [|exact IH]. exists 0, None. split; [constructor|now apply raised_refl].
  - intros r rs v2 v1 u2 u1 v2' _ HS HV _ FT E H. apply (effect_counters z) in E; [|assumption..]. refine (F2_trans _ _ _ _ _ _ _ E H). intros t u t' (V1 & S1) (V2 & S2).
    split; [congruence|]. rewrite V1 in S2. destruct r as [vm o| | |].
    + refine (F2_trans _ _ _ _ _ _ _ S1 S2). intros f g h [(Nm & R)|(Nm & ->)] (n0 & r0 & P & R').
      * exists (o_count o + n0), (match r0 with Some _ => r0 | None => o_rating o end). split; [|exact (raised_trans _ _ _ _ _ _ _ R R')].
        apply PlayedMore; [exact Nm|]. exact (played_back _ _ _ _ _ _ _ _ _ R P).
      * exists n0, r0. split; [|exact R']. now apply PlayedOthers.
    + rewrite S1 in S2. revert S2. apply F2_impl. intros f f' (n0 & r0 & P & R). exists n0, r0. split; [|exact R]. apply NotPlays; [discriminate|exact P].
    + rewrite S1 in S2. revert S2. apply F2_impl. intros f f' (n0 & r0 & P & R). exists n0, r0. split; [|exact R]. apply NotPlays; [discriminate|exact P].
    + rewrite S1 in S2. revert S2. apply F2_impl. intros f f' (n0 & r0 & P & R). exists n0, r0. split; [|exact R]. apply NotPlays; [discriminate|exact P].
Qed.

(** ** The last word *)
Lemma history_split z passes e entries w loc path a rs1 rs2 fs fs' : history z passes e entries w loc path a (rs1 ++ rs2) fs fs' ->
  exists fsm, history z passes e entries w loc path a rs1 fs fsm /\ history z passes e entries w loc path a rs2 fsm fs'.
Proof.
  revert fs. induction rs1 as [|r rs1 IH]; intros fs H; cbn [app] in H.
  - exists fs. split; [constructor|exact H].
  - inversion H as [|r0 rs fs0 st fs1 fs2 fs3 AS FT HR HM HN HH]; subst. apply IH in HH as (fsm & H1 & H2). exists fsm. split; [|exact H2]. econstructor; eassumption.
Qed.
Lemma history_tags z passes e entries w loc path d n a rs fs fs' v2 v1 : let k := resolve (e_cwd e) path in
  crc_range z -> (0 < passes)%nat -> file_at e path d n -> 355 <= len a ->
  history z passes e entries w loc path a rs fs fs' -> in_order z passes k a fs v2 v1 ->
  exists v2' v1', in_order z passes k a fs' v2' v1' /\ Forall2 (fun t t' => any_version t' = any_version t) v2 v2'.
Proof.
  intros k Hz Hp FA LA H IO. destruct (history_rest z passes e entries w loc path d n a Hz Hp FA LA rs fs fs' H v2 v1 IO) as (v2' & v1' & A & C).
  exists v2', v1'. split; [exact A|]. revert C. apply F2_impl. intros t t' C. apply C.
Qed.
Lemma with_id_in id fs f : In f (with_id id fs) <-> In f fs /\ f_id f = id.
Proof. unfold with_id. rewrite filter_In. split; intros [A C]; (split; [exact A|]); [now apply bytes_eqb_eq|now apply bytes_eqb_eq]. Qed.

Lemma last_text z passes e entries w loc path d n a before vm o after fs fs' v2 v1 k0 s : let k := resolve (e_cwd e) path in
  crc_range z -> (0 < passes)%nat -> file_at e path d n -> 355 <= len a ->
  history z passes e entries w loc path a (before ++ Texts vm o :: after) fs fs' -> in_order z passes k a fs v2 v1 -> In (k0, s) (to_sets o) ->
  (forall v r id, In r after -> frame_id_of v k0 = Ok id -> ~ about v r id) ->
  exists v2' v1', in_order z passes k a fs' v2' v1' /\ Forall2 (fun t t' => any_version t' = any_version t) v2 v2' /\
    Forall (fun t => exists id f, frame_id_of (any_version t) k0 = Ok id /\ In f (shown t) /\ f_id f = id /\ reads (w_ic w) (any_version t) (to_enc o) f s) v2'.
Proof.
  intros k Hz Hp FA LA H IO I0 NA. apply history_split in H as (fsm & H1 & H2).
  destruct (history_tags z passes e entries w loc path d n a before fs fsm v2 v1 Hz Hp FA LA H1 IO) as (m2 & m1 & IOm & Vm).
  inversion H2 as [|r0 rs0 fs0 st fs1 fs2 fs3 AS FT HR HM HN HH]; subst.
  destruct (request_once z passes e entries w loc path d n a _ fsm st fs1 m2 m1 Hz Hp FA LA AS IOm (FT m2 m1 IOm) HR HM) as (u2 & u1 & IOu & (EF & _)).
  destruct (history_rest z passes e entries w loc path d n a Hz Hp FA LA after fs2 fs' HH u2 u1) as (v2' & v1' & IO' & RS); [exact (order_same _ _ _ _ _ _ _ _ HN IOu)|].
  exists v2', v1'. split; [exact IO'|].
  pose proof (proj1 (FT m2 m1 IOm)) as FT'. cbn [fits] in FT'.
  assert (P : Forall2 (fun t t' => any_version t' = any_version t /\ exists id f, frame_id_of (any_version t') k0 = Ok id /\ In f (shown t') /\ f_id f = id /\ reads (w_ic w) (any_version t') (to_enc o) f s) m2 u2).
  { clear - EF FT' I0. induction EF as [|t t' r r' (V & E) _ IH]; [constructor|]. apply Forall_cons_iff in FT' as [(T1 & _) FT']. constructor; [|auto]. split; [exact V|].
    destruct E as (_ & _ & _ & _ & _ & _ & E). rewrite V. destruct (T1 k0) as (id & Ei & _).
    { apply in_or_app. right. now apply (in_map fst) in I0. }
    destruct (E id s) as (f & F1 & F2 & F3).
    - clear - I0 Ei. induction (to_sets o) as [|[k1 s1] l IH]; [destruct I0|]. unfold ids_in in *. cbn [map combine fst snd]. destruct I0 as [X|X]; [injection X as -> ->; rewrite Ei; now left|right; auto].
    - exists id, f. auto. }
  split.
  - refine (F2_trans _ _ _ _ _ _ _ Vm (F2_trans _ _ _ _ _ _ _ P RS)); [|intros x y w0 (A & _) (C & _); exact (eq_trans C A)]. cbv beta. intros x y w0 A C. congruence.
  - clear - P RS NA. revert v2' RS. induction P as [|t t' r r' (_ & id & f & F1 & F2 & F3 & F4) _ IH]; intros v2' RS; inversion RS as [|? y ? ? (V & R) RS']; subst; constructor; [|auto].
    rewrite V. exists (f_id f), f. split; [exact F1|].
    assert (X : In f (with_id (f_id f) (shown y))).
    { rewrite R; [now apply with_id_in|]. intros q Iq. now apply NA. }
    apply with_id_in in X as [X _]. auto.
Qed.

Lemma last_genre z passes e entries w loc path d n a before vm g p after fs fs' v2 v1 : let k := resolve (e_cwd e) path in
  crc_range z -> (0 < passes)%nat -> file_at e path d n -> 355 <= len a ->
  history z passes e entries w loc path a (before ++ Genre vm g p :: after) fs fs' -> in_order z passes k a fs v2 v1 ->
  (forall v r, In r after -> ~ about v r (tcon_id v)) ->
  exists v2' v1', in_order z passes k a fs' v2' v1' /\ Forall2 (fun t t' => any_version t' = any_version t) v2 v2' /\
    forall i t, In (i, t) (with_index v2') -> in_scope p i = true -> exists f, In f (shown t) /\ f_id f = tcon_id (any_version t) /\ reads (w_ic w) (any_version t) E_UTF_8 f (gc_text g).
Proof.
  intros k Hz Hp FA LA H IO NA. apply history_split in H as (fsm & H1 & H2).
  destruct (history_tags z passes e entries w loc path d n a before fs fsm v2 v1 Hz Hp FA LA H1 IO) as (m2 & m1 & IOm & Vm).
  inversion H2 as [|r0 rs0 fs0 st fs1 fs2 fs3 AS FT HR HM HN HH]; subst.
  destruct (request_once z passes e entries w loc path d n a _ fsm st fs1 m2 m1 Hz Hp FA LA AS IOm (FT m2 m1 IOm) HR HM) as (u2 & u1 & IOu & (EF & _)).
  destruct (history_rest z passes e entries w loc path d n a Hz Hp FA LA after fs2 fs' HH u2 u1) as (v2' & v1' & IO' & RS); [exact (order_same _ _ _ _ _ _ _ _ HN IOu)|].
  exists v2', v1'. split; [exact IO'|].
  assert (P : forall i0, Forall2 (fun it t' => any_version t' = any_version (snd it) /\ (in_scope p (fst it) = true -> exists f, In f (shown t') /\ f_id f = tcon_id (any_version t') /\ reads (w_ic w) (any_version t') E_UTF_8 f (gc_text g))) (combine (iota (length m2) i0) m2) u2 ->
    Forall2 (fun t t' => any_version t' = any_version t) m2 v2' /\
    forall i t, In (i, t) (combine (iota (length v2') i0) v2') -> in_scope p i = true -> exists f, In f (shown t) /\ f_id f = tcon_id (any_version t) /\ reads (w_ic w) (any_version t) E_UTF_8 f (gc_text g)).
  { clear - RS NA. revert u2 v2' RS. induction m2 as [|t m2 IH]; intros u2 v2' RS i0 P; cbn [length iota combine] in P; inversion P as [|? t1 ? ? (V1 & P1) P2]; subst; inversion RS as [|? y ? ? (V & R) RS']; subst.
    - split; [constructor|]. intros i t [].
    - destruct (IH _ _ RS' _ P2) as [A C]. cbn [fst snd] in *. split; [constructor; [congruence|exact A]|]. intros i t0 I SC. cbn [length iota combine] in I. destruct I as [I|I]; [|exact (C i t0 I SC)].
      injection I as <- <-. destruct (P1 SC) as (f & F1 & F2 & F3). exists f. rewrite V.
      assert (X : In f (with_id (f_id f) (shown y))).
      { rewrite R; [now apply with_id_in|]. intros q Iq. rewrite F2. now apply NA. }
      apply with_id_in in X as [X _]. auto. }
  destruct (P 0) as [A C].
  - change (combine (iota (length m2) 0) m2) with (with_index m2). revert EF. apply F2_impl. intros [i t] t' (V & E). cbn [fst snd] in *. split; [exact V|]. intros SC. rewrite V.
    destruct E as [(-> & E)|(_ & E)].
    + destruct (E SC) as (f & I & R). apply with_id_in in I as [I1 I2]. exists f. auto.
    + destruct E as [(l1 & f & f' & l2 & _ & -> & _ & E2 & _ & R)|(_ & f' & -> & E2 & _ & R)]; exists f'; (split; [apply in_or_app; right; now left|auto]).
  - split; [|exact C]. refine (F2_trans _ _ _ _ _ _ _ Vm A). cbv beta. intros x y w0 X Y. congruence.
Qed.
