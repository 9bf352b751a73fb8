(** * Proofs about the listing of encodings. *)
From Verif Require Import Base M_Charset S_Charset L_Charset M_Encodings.
#[local] Open Scope N_scope.

Lemma enc_values_all e : In e enc_values.
Proof.
  assert (H : existsb (fun x => match enc_of_name (enc_name x) with Ok y => bytes_eqb (enc_name y) (enc_name e) | _ => false end) enc_values = true)
    by (destruct e; vm_compute; reflexivity).
  apply existsb_exists in H. destruct H as (x & I & H). rewrite enc_names_l in H.
  destruct (bytes_eqb_spec (enc_name x) (enc_name e)) as [E|E]; [|discriminate H].
  assert (Q : Ok x = Ok e) by (rewrite <- (enc_names_l x), E; apply enc_names_l). apply Ok_inj in Q. subst x. exact I.
Qed.

Fixpoint all_differ (l : list bytes) : bool :=
  match l with [] => true | x :: r => negb (existsb (bytes_eqb x) r) && all_differ r end.
Lemma all_differ_spec l : all_differ l = true -> NoDup l.
Proof.
  induction l as [|x r IH]; intros H; [constructor|]. cbn [all_differ] in H. apply andb_true_iff in H. destruct H as (H1 & H2).
  constructor; [|apply IH; exact H2]. intros I. apply negb_true_iff in H1.
  assert (existsb (bytes_eqb x) r = true) by (apply existsb_exists; exists x; split; [exact I|destruct (bytes_eqb_spec x x); congruence]).
  congruence.
Qed.

Lemma listed_l : list_encodings = flat_map (fun n => n ++ [10]) (map enc_name enc_values) /\
  NoDup (map enc_name enc_values) /\
  (forall n, In n (map enc_name enc_values) -> ~ In 10 n) /\
  (forall w, In w (map enc_name enc_values) <-> exists e, enc_of_name w = Ok e).
Proof.
  split; [|split; [|split]].
  - unfold list_encodings. rewrite flat_map_concat_map, flat_map_concat_map, map_map. reflexivity.
  - apply all_differ_spec. vm_compute. reflexivity.
  - assert (H : forallb (fun n => negb (existsb (N.eqb 10) n)) (map enc_name enc_values) = true) by (vm_compute; reflexivity).
    intros n I. rewrite forallb_forall in H. specialize (H n I). apply negb_true_iff in H. intros J.
    assert (existsb (N.eqb 10) n = true) by (apply existsb_exists; exists 10; split; [exact J|reflexivity]). congruence.
  - intros w. split.
    + intros I. apply in_map_iff in I. destruct I as (e & <- & _). exists e. apply enc_names_l.
    + intros (e & H). rewrite (enc_names_only_l w e H). apply in_map, enc_values_all.
Qed.

Lemma noenc_l : (forall x, noenc_of_name (noenc_name x) = Ok x) /\ (forall w x, noenc_of_name w = Ok x -> w = noenc_name x).
Proof.
  split; [intros []; reflexivity|]. intros w x. unfold noenc_of_name.
  destruct (bytes_eqb_spec w (B "fail")); [intros H; apply Ok_inj in H; subst; reflexivity|].
  destruct (bytes_eqb_spec w (B "ignore")); [intros H; apply Ok_inj in H; subst; reflexivity|].
  destruct (bytes_eqb_spec w (B "transliterate")); [intros H; apply Ok_inj in H; subst; reflexivity|]. discriminate.
Qed.
