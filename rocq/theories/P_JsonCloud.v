(** * C59: the entries of a tag cloud, taken by themselves. *)
From Verif Require Import Base M_Payload M_Cloud M_Csv S_Json M_Json S_JsonTag L_Json.
#[local] Open Scope N_scope.

(** ** Though the frame around them is misprinted (C59_kinds_refuted), each key of a tag
    cloud that has no value or one is JSON for that key and value, quotes, backslashes
    and control characters included. *)
Theorem C59_cloud_entry_partial : forall (key : bytes) (values : list bytes),
  (length values <= 1)%nat -> printable key -> Forall printable values ->
  json_of (cloud_entry (key, values)) = Some (cloud_object (key, values)).
Proof.
  intros key [|v [|w values]] L K V; [| |cbn in L; lia].
  - exact (json_of_show (JStr key) K).
  - apply Forall_inv in V.
    etransitivity; [|apply (json_of_show (JObj [(key, JStr v)])); cbn; tauto]. f_equal.
    unfold cloud_entry. cbn [fst snd show map join].
    change (B "{""") with [123; 34]. change (B """:""") with [34; 58; 34]. change (B """}") with [34; 125].
    cbn [List.app]. rewrite <- !app_assoc. cbn [List.app]. rewrite <- ?app_assoc. reflexivity.
Qed.
Print Assumptions C59_cloud_entry_partial.
Example C59_cloud_entry_nontrivial :
  cloud_entry (B "mood", [B "say ""hi"""]) = B "{""mood"":""say \""hi\""""}" /\ printable (B "say ""hi""").
Proof. split; [vm_compute; reflexivity|]. apply Forall_forall. intros c H. cbn in H. left. intuition (subst; vm_compute; discriminate). Qed.
