(** * Lemmas: frames, their caches, and unsynchronised sequences. *)
From Verif Require Import Base M_Ints M_Unsync M_Payload M_Cloud M_Frame
  S_Payload S_Cloud S_Tag L_Ints L_Unsync L_Payload L_Cloud L_Cloud2.

(** ** [strip] on concatenations *)
Lemma strip_app a r : (last a 0 <> 255 \/ hd_error r <> Some 0) ->
  strip (a ++ r) = strip a ++ strip r.
Proof.
  remember (length a) as n eqn:Hn. assert (Hle : (length a <= n)%nat) by lia. clear Hn.
  revert a Hle. induction n as [|n IH]; intros a Hle Hc.
  - destruct a; [reflexivity|simpl in Hle; lia].
  - destruct a as [|b a]; [reflexivity|]. cbn [app]. cbn [strip].
    destruct (N.eqb_spec b 255) as [->|Hb].
    + destruct a as [|q a]; cbn [app].
      * destruct r as [|q r]; [reflexivity|].
        destruct Hc as [Hc|Hc]; [now elim Hc|].
        destruct (N.eqb_spec q 0) as [->|Hq]; [now elim Hc|]. reflexivity.
      * simpl in Hle.
        assert (Hc' : last (q :: a) 0 <> 255 \/ hd_error r <> Some 0) by exact Hc.
        destruct (N.eqb_spec q 0) as [->|Hq].
        -- rewrite IH; [reflexivity|lia|].
           destruct a; [left; cbn; lia|exact Hc'].
        -- change (q :: a ++ r) with ((q :: a) ++ r). rewrite IH; [reflexivity|simpl; lia|exact Hc'].
    + simpl in Hle. rewrite IH; [reflexivity|lia|].
      destruct a as [|q a]; [left; cbn; lia|exact Hc].
Qed.

Lemma strip_zeros n : strip (repeatN 0 n) = repeatN 0 n.
Proof. unfold repeatN. induction (N.to_nat n); [reflexivity|]. cbn. now f_equal. Qed.

Lemma strip_app_ff0 a r : last a 0 = 255 -> strip (a ++ 0 :: r) = strip a ++ strip r.
Proof.
  remember (length a) as n eqn:Hn. assert (Hle : (length a <= n)%nat) by lia. clear Hn.
  revert a Hle. induction n as [|n IH]; intros a Hle Hc.
  - destruct a; [discriminate|simpl in Hle; lia].
  - destruct a as [|b a]; [discriminate|]. cbn [app strip]. simpl in Hle.
    destruct (N.eqb_spec b 255) as [->|Hb].
    + destruct a as [|q a]; cbn [app].
      * reflexivity.
      * simpl in Hle. destruct (N.eqb_spec q 0) as [->|Hq].
        -- destruct a as [|x a]; [discriminate|]. refine (f_equal (cons _) (IH (x :: a) _ _)); [simpl in *; lia|exact Hc].
        -- refine (f_equal (cons _) (IH (q :: a) _ _)); [simpl; lia|exact Hc].
    + destruct a as [|q a]; [cbn in Hc; lia|]. refine (f_equal (cons _) (IH (q :: a) _ _)); [lia|exact Hc].
Qed.

(** Stripping a string followed by padding eats at most one byte of padding. *)
Lemma strip_app_zeros a n : exists n',
  strip (a ++ repeatN 0 n) = strip a ++ repeatN 0 n' /\ (n' = n \/ n' + 1 = n).
Proof.
  destruct (N.eq_dec (last a 0) 255) as [E|E].
  - destruct (N.eq_dec n 0) as [->|Hn].
    + exists 0. split; [|auto]. cbn. now rewrite !app_nil_r.
    + exists (n - 1). split; [|lia]. replace n with (N.succ (n - 1)) at 1 by lia.
      rewrite repeatN_succ, strip_app_ff0 by exact E. now rewrite strip_zeros.
  - exists n. split; [|auto]. rewrite strip_app by auto. now rewrite strip_zeros.
Qed.

(** ** Sequences of unsynchronised pieces *)

Lemma hd_error_app {A} (a r : list A) : a <> [] -> hd_error (a ++ r) = hd_error a.
Proof. destruct a; [congruence|reflexivity]. Qed.

(** Pieces that do not begin with 00 do not interfere with each other. *)
Lemma strip_concat (ps : list (bytes * bytes)) :
  Forall (fun p => strip (snd p) = fst p /\ snd p <> [] /\ hd_error (snd p) <> Some 0) ps ->
  strip (concat (map snd ps)) = concat (map fst ps).
Proof.
  intros H. induction H as [|[p q] ps [H1 [H2 H3]] Hr IH]; [reflexivity|].
  cbn [map concat fst snd] in *. rewrite strip_app, H1, IH; [reflexivity|].
  right. inversion Hr as [|[p' q'] ps' [_ [H2' H3']] _]; subst; [discriminate|].
  cbn [map concat fst snd] in *. rewrite hd_error_app by exact H2'. exact H3'.
Qed.

(** ** Contents *)
Lemma body_roundtrip v b : wf_body v b -> exists p, write_body b = Ok p /\ len p = size_body b /\
  forall after, p <> [] -> parse_body v (kind_of_body b) p after = Ok b.
Proof.
  destruct b as [l|u|e|t|t|c|c|p|c|p]; cbn [wf_body write_body size_body kind_of_body parse_body].
  - intros _. exists l. repeat split; reflexivity.
  - intros H. exists (write_ufid u). destruct (ufid_roundtrip u H) as [E1 E2].
    repeat split; auto. intros. now rewrite E1.
  - intros [].
  - intros _. exists (write_text t). destruct (text_roundtrip t []) as [_ E2].
    repeat split; auto. intros after _. now rewrite (proj1 (text_roundtrip t after)).
  - intros H. exists (write_txxx t). destruct (txxx_roundtrip v t [] H) as [_ E2].
    repeat split; auto. intros after _. now rewrite (proj1 (txxx_roundtrip v t after H)).
  - intros H. destruct (comm_roundtrip v c [] H) as (b & E1 & E2 & _). exists b.
    repeat split; auto. intros after _.
    destruct (comm_roundtrip v c after H) as (b' & E1' & _ & E3).
    rewrite E1 in E1'. apply Ok_inj in E1'. subst b'. now rewrite E3.
  - intros _. exists c. repeat split; reflexivity.
  - intros H. exists (write_popm p). destruct (popm_roundtrip p [] H) as [_ E2].
    repeat split; auto. intros after _. now rewrite (proj1 (popm_roundtrip p after H)).
  - intros (H1 & H2 & H3 & H4). exists (write_cloud c).
    repeat split; [apply write_cloud_len|]. intros after _. now rewrite cloud_roundtrip.
  - intros H. exists (write_priv p). destruct (priv_roundtrip p H) as [E1 E2].
    repeat split; auto. intros. now rewrite E1.
Qed.

(** ** Caches *)
Section Caches.
Variable wire : frame -> outcome bytes.

Lemma refresh_spec b c c' : refresh wire b c = Ok c' ->
  c_frame c' = c_frame c /\ c_dirty c' = false /\
  (coherent wire c -> coherent wire c').
Proof.
  unfold refresh, coherent. destruct (c_dirty c) eqn:Ed.
  - intros H. apply bind_ok in H as (ce & Hw & H). apply Ok_inj in H. subst c'. cbn.
    repeat split; auto. destruct b; auto.
  - intros H. apply Ok_inj in H. subst c'. repeat split; auto; now apply H.
Qed.

Lemma refresh_clean b c : c_dirty c = false -> refresh wire b c = Ok c.
Proof. unfold refresh. now intros ->. Qed.
End Caches.
