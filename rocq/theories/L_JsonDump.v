(** * Lemmas: the dump command in JSON. *)
From Verif Require Import Base M_Ints M_Stream M_Id3v1 M_Payload M_Cloud M_Frame M_Tag22 M_Tag23 M_Tag24 M_Charset M_Lookup M_Mp3 M_Track M_Read
  M_Tagset M_Process M_Cmds M_Csv M_Report M_Dump M_Row M_Json M_JsonDump S_Ints S_Lookup S_Cmds S_Csv S_Json S_JsonTag S_Lang S_Read S_Dump S_JsonDump
  L_Payload L_Csv L_Json L_Json2 L_Json3 L_Json4 L_Dump.
#[local] Open Scope N_scope.

(** ** Frames *)
Lemma latin_can w b s : told_latin (w_ic w) b s -> converted (w_ic w) b E_ISO_8859_1 E_UTF_8 NoFail = Ok s.
Proof. intros [(-> & ->)|(H & E)]; [reflexivity|]. unfold converted. destruct b; [congruence|exact E]. Qed.
Lemma comment_can w c b s : told_comment (w_ic w) (co_unicode c) b s -> comm_text w V23 c b = Ok s.
Proof.
  intros [(-> & ->)|(H & n & U & E)]; [reflexivity|]. unfold comm_text. destruct b; [congruence|]. rewrite U. cbn [M_Id3v1.init bind]. exact E.
Qed.

Lemma view_said w f j : frame_says (w_ic w) f j ->
  exists x, view_of w V23 f = Ok x /\ usual_frame x /\ well_printed x /\ frame_object x = j.
Proof.
  intros (l & H & Pid & Hsz & ->). unfold view_of. cbv zeta.
  destruct H as [b H|s (t & H & R) P|u d t H D T P1 P2|c d t H D T P1 P2|p e H E P BY L1 L2|e a H A P|p a H A P].
  - rewrite H. rewrite H in Hsz. eexists. split; [reflexivity|]. split; [split; [split; [exact Pid|exact Hsz]|exact Logic.I]|]. split; [split; [intros []|constructor]|reflexivity].
  - rewrite H. rewrite H in Hsz. rewrite R. cbn [bind]. eexists. split; [reflexivity|]. split; [split; [split; [exact Pid|exact Hsz]|exact Logic.I]|].
    split; [split; [intros []|repeat (constructor; [assumption|]); constructor]|reflexivity].
  - rewrite H. rewrite H in Hsz. unfold part_text. unfold told_in in D, T. rewrite D, T. cbn [bind]. eexists. split; [reflexivity|]. split; [split; [split; [exact Pid|exact Hsz]|exact Logic.I]|].
    split; [split; [intros []|constructor; [assumption|constructor; [assumption|constructor]]]|reflexivity].
  - rewrite H. rewrite H in Hsz. rewrite (comment_can _ _ _ _ D), (comment_can _ _ _ _ T). cbn [bind]. eexists. split; [reflexivity|]. split; [split; [split; [exact Pid|exact Hsz]|exact Logic.I]|].
    split; [split; [intros []|constructor; [assumption|constructor; [assumption|constructor]]]|reflexivity].
  - rewrite H. rewrite H in Hsz. rewrite (latin_can _ _ _ E). unfold len in L1, L2. rewrite counter_value_positional; [|exact BY|lia]. cbn [bind]. eexists. split; [reflexivity|].
    split; [split; [split; [exact Pid|exact Hsz]|exact Logic.I]|]. split; [split; [intros []|constructor; [assumption|constructor]]|reflexivity].
  - rewrite H. rewrite H in Hsz. rewrite (latin_can _ _ _ A). cbn [bind]. eexists. split; [reflexivity|]. split; [split; [split; [exact Pid|exact Hsz]|exact Logic.I]|].
    split; [split; [intros []|constructor; [assumption|constructor]]|reflexivity].
  - rewrite H. rewrite H in Hsz. rewrite (latin_can _ _ _ A). cbn [bind]. eexists. split; [reflexivity|]. split; [split; [split; [exact Pid|exact Hsz]|exact Logic.I]|].
    split; [split; [intros []|constructor; [assumption|constructor]]|reflexivity].
Qed.
Lemma frame_out_23 w f : frame_out w V23 f = let* x := view_of w V23 f in Ok (json_frame V23 x).
Proof. reflexivity. Qed.
Lemma frame_said w f j : frame_says (w_ic w) f j ->
  exists s, frame_out w V23 f = Ok s /\ c_str s = show j /\ wf j.
Proof.
  intros H. destruct (view_said _ _ _ H) as (x & V & U & W & <-). rewrite frame_out_23, V. cbn [bind]. eexists. split; [reflexivity|].
  rewrite c_str_id by (now apply frame_nul). rewrite frame_shown by assumption. split; [reflexivity|now apply frame_wf].
Qed.
Lemma frames_said w l js : Forall2 (frame_says (w_ic w)) l js -> frames_out w V23 l = Ok (map show js) /\ Forall wf js.
Proof.
  induction 1 as [|f j l js H _ (IH1 & IH2)]; [split; [reflexivity|constructor]|].
  destruct (frame_said _ _ _ H) as (s & E & C & W). cbn [frames_out]. rewrite E. cbn [bind]. rewrite IH1. cbn [bind map]. rewrite C. split; [reflexivity|now constructor].
Qed.

(** ** Tags *)
Definition tag_obj (t : anytag) (k : N) (u : bool) (js : list json) : json :=
  JObj [(B "version", JStr (B "2.3")); (B "unsynchronised", JBool u); (B "flags", jnum (said_flags t));
        (B "size", jnum (k mod 2 ^ 64)); (B "padding", jnum (padding_of t)); (B "frames", JArr js)].
(** Everything up to the frames. *)
Definition opened (t : anytag) (k : N) : bytes :=
  B "{""version"":""2.3"",""unsynchronised"":true,""flags"":" ++ number 10 (said_flags t) ++ B ",""size"":" ++ number 10 (k mod 2 ^ 64) ++
  B ",""padding"":" ++ number 10 (padding_of t) ++ B ",""frames"":[".
Lemma pthen_puts a q : pthen (put a) q = (a ++ fst q, snd q).
Proof. reflexivity. Qed.
Lemma pthen_pair a q : pthen (a, Ok tt) q = (a ++ fst q, snd q).
Proof. reflexivity. Qed.
Lemma dump_json_23 z w rev t k t' u : any_version t = V23 -> any_unsync t = Some u -> any_size z t false = Ok (k, t') ->
  dump_json_tag z w (rev, t) =
  match frames_out w V23 (shown t) with
  | Ok l => (opened t k ++ join 44 l ++ B "]}", Ok tt)
  | Throw e => (opened t k, Throw e)
  | UB b => (opened t k, UB b)
  | NonTerm => (opened t k, NonTerm)
  end.
Proof.
  intros V U S. unfold dump_json_tag, shown. cbn [snd]. rewrite V, U, S. cbn [bind unsync_text].
  change (any_flags t) with (said_flags t). change (any_padding t) with (padding_of t). change (wrap64 k) with (k mod 2 ^ 64).
  assert (Q : forall (x : pr) a b c, pthen (put a) (pthen (put b) (pthen (put c) x)) = (a ++ b ++ c ++ fst x, snd x)).
  { intros. rewrite !pthen_puts. reflexivity. }
  change (pput (Ok (number 10 (k mod 2 ^ 64)))) with (put (number 10 (k mod 2 ^ 64))). rewrite Q. unfold opened, json_start.
  destruct (frames_out w V23 (map c_frame (any_frames t))) as [l|e|b|]; cbn [bind pput]; unfold pthen; cbn [fst snd put]; f_equal;
    rewrite <- ?app_assoc; repeat (progress (cbn [app]; rewrite <- ?app_assoc, ?app_nil_r)); reflexivity.
Qed.

Lemma wf_obj l : Forall (fun kv => printable (fst kv) /\ wf (snd kv)) l -> wf (JObj l).
Proof. cbn [wf]. induction 1 as [|kv l H _ IH]; [exact Logic.I|]. split; [exact H|exact IH]. Qed.
Lemma tag_obj_wf t k u js : Forall wf js -> wf (tag_obj t k u js).
Proof.
  intros H. apply wf_obj. repeat (constructor; [cbn [fst snd]; split; [apply text_printable; reflexivity|]|]).
  - apply text_printable; reflexivity.
  - exact Logic.I.
  - apply jnum_wf.
  - apply jnum_wf.
  - apply jnum_wf.
  - now apply wf_arr.
  - constructor.
Qed.
Lemma tag_obj_show t k js : show (tag_obj t k true js) = opened t k ++ join 44 (map show js) ++ B "]}".
Proof.
  unfold tag_obj. rewrite show_obj. cbn [map member_text]. unfold opened. rewrite !join_map_cons. cbn [join]. unfold member_text. cbn [fst snd].
  cbn [show]. unfold jnum. cbn [show]. repeat (progress (rewrite <- ?app_assoc; cbn [app])).
  repeat (match goal with |- context [jescape ?k] => let y := eval vm_compute in (jescape k) in change (jescape k) with y end).
  repeat (progress (rewrite <- ?app_assoc; cbn [app])). reflexivity.
Qed.
Lemma tag_said z w rev t u j : any_unsync t = Some u -> tag_says (fun _ => true) z (w_ic w) t j ->
  dump_json_tag z w (rev, t) = (show j, Ok tt) /\ wf j /\ exists m, j = JObj m.
Proof.
  intros U (V & k & t' & js & S & F & ->). rewrite (dump_json_23 _ _ _ _ _ _ _ V U S).
  destruct (frames_said _ _ _ F) as (-> & W). split; [now rewrite <- tag_obj_show|]. split; [now apply tag_obj_wf|eauto].
Qed.

(** ** ID3v1 tags *)
Lemma pall_puts (l : list bytes) : pall (map put l) = put (concat l).
Proof. induction l as [|x l IH]; [reflexivity|]. cbn [map]. change (pall (put x :: map put l)) with (pthen (put x) (pall (map put l))). rewrite IH. reflexivity. Qed.
Lemma pall3 (a b c : bytes) : pall [put a; pput (Ok b); put c] = put (a ++ b ++ c).
Proof. unfold pall. cbn [fold_right pput]. unfold pthen. cbn [fst snd put]. rewrite app_nil_r. reflexivity. Qed.
Lemma chain14 (a a1 a2 a3 b c d f g h i j k l m n o p : bytes) :
  pall [put (a ++ a1 ++ a2 ++ a3); pput (Ok b); put c; pput (Ok d); put f; pput (Ok g); put (h ++ i ++ j); pput (Ok k); put l; pput (Ok m); put n; put o; put p; put [125]] =
  (a ++ a1 ++ a2 ++ a3 ++ b ++ c ++ d ++ f ++ g ++ h ++ i ++ j ++ k ++ l ++ m ++ n ++ o ++ p ++ [125], Ok tt).
Proof.
  change (pall (map put [a ++ a1 ++ a2 ++ a3; b; c; d; f; g; h ++ i ++ j; k; l; m; n; o; p; [125]]) =
    (a ++ a1 ++ a2 ++ a3 ++ b ++ c ++ d ++ f ++ g ++ h ++ i ++ j ++ k ++ l ++ m ++ n ++ o ++ p ++ [125], Ok tt)).
  rewrite pall_puts. unfold put. f_equal. cbn [concat]. rewrite app_nil_r, <- !app_assoc. reflexivity.
Qed.
Lemma v1_said e w t j : v1_says (w_ic w) e t j -> dump_json_v1 e w t = (show j, Ok tt) /\ wf j /\ exists m, j = JObj m.
Proof.
  intros (album & artist & comment & title & year & track & genre & A1 & P1 & A2 & P2 & A3 & P3 & A4 & P4 & A5 & P5 & TR & G & ->). unfold told_v1 in *.
  set (T := mkJ1 (v_v1_1 t) (match genre with (_, JStr g) :: _ => Some g | _ => None end) album artist comment (v_genre t) title year
                 (if v_v1_1 t then v_track t else None)).
  assert (O : JObj ([(B "version", JStr (B "1" ++ (if v_v1_1 t then B ".1" else []) ++ (if v_extended t then B "-enh" else [])));
               (B "album", JStr album); (B "artist", JStr artist); (B "comment", JStr comment); (B "genre", jnum (v_genre t));
               (B "title", JStr title); (B "year", JStr year)] ++ track ++ genre) = v1_object T).
  { unfold v1_object, v1_version, T. cbn [j1_1 j1_enh j1_album j1_artist j1_comment j1_genre j1_title j1_year j1_track].
    destruct (v_v1_1 t); [destruct TR as (n & -> & ->)|subst track]; (destruct (v_extended t); [destruct G as (g & E & P & ->)|subst genre]); reflexivity. }
  rewrite O. assert (PT : Forall printable (v1_texts T)).
  { unfold v1_texts, T. cbn [j1_enh j1_artist j1_comment j1_title j1_year]. apply Forall_app. split; [repeat (constructor; [assumption|]); constructor|].
    destruct (v_extended t); [destruct G as (g & E & P & ->); constructor; [exact P|constructor]|subst genre; constructor]. }
  split; [|split; [now apply v1_wf|eexists; reflexivity]]. rewrite <- v1_shown by exact P1.
  unfold dump_json_v1, json_v1, T. cbn [j1_1 j1_enh j1_album j1_artist j1_comment j1_genre j1_title j1_year j1_track]. cbv zeta.
  rewrite A1, A2, A3, A4, A5. cbn [bind].
  assert (Q1 : (if v_v1_1 t then pput (let* n := M_Id3v1.init (v_track t) in Ok (B ",""track"":" ++ number 10 n)) else put []) =
    put (match (if v_v1_1 t then v_track t else None) with Some n => B ",""track"":" ++ number 10 n | None => [] end)).
  { clear - TR. destruct (v_v1_1 t); [destruct TR as (n & -> & _)|]; reflexivity. }
  rewrite Q1. clear Q1 TR.
  destruct (v_extended t).
  - destruct G as (g & E & _ & ->). rewrite E. cbn [bind]. rewrite pall3. clear. generalize (if v_v1_1 t then v_track t else None) as n. intros n. apply chain14.
  - subst genre. clear. generalize (if v_v1_1 t then v_track t else None) as n. intros n. apply chain14.
Qed.

(** ** Texts of objects, with line ends in between *)
Definition piece (x : option json) : bytes := match x with Some v => show v | None => [10] end.
Definition saying (l : list (option json)) : bytes := flat_map piece l.
Fixpoint objects (l : list (option json)) : list json :=
  match l with [] => [] | Some v :: r => v :: objects r | None :: r => objects r end.
Definition proper (l : list (option json)) : Prop :=
  Forall (fun x => match x with Some v => wf v /\ exists m, v = JObj m | None => True end) l.
Lemma proper_app a b : proper (a ++ b) <-> proper a /\ proper b.
Proof. apply Forall_app. Qed.
Lemma saying_app a b : saying (a ++ b) = saying a ++ saying b.
Proof. apply flat_map_app. Qed.
Lemma objects_app a b : objects (a ++ b) = objects a ++ objects b.
Proof. induction a as [|[v|] a IH]; [reflexivity| |exact IH]. cbn [app objects]. now rewrite IH. Qed.
Lemma proper_somes vs : Forall (fun v => wf v /\ exists m, v = JObj m) vs -> proper (map Some vs).
Proof. induction 1; constructor; assumption. Qed.
Lemma objects_somes vs : objects (map Some vs) = vs.
Proof. induction vs as [|v vs IH]; [reflexivity|]. cbn [map objects]. now rewrite IH. Qed.
Lemma saying_somes vs : saying (map Some vs) = flat_map show vs.
Proof. induction vs as [|v vs IH]; [reflexivity|]. cbn [map]. unfold saying in *. cbn [flat_map piece]. now rewrite IH. Qed.

Lemma stops_saying l X : proper l -> stops X -> stops (saying l ++ X).
Proof. intros P S. destruct P as [|[v|] l H _]; [exact S| |reflexivity]. destruct H as (_ & m & ->). reflexivity. Qed.
Lemma skip_saying l : proper l -> skip_ws (saying l) = [] \/ exists r, skip_ws (saying l) = 123 :: r.
Proof.
  induction 1 as [|[v|] l H _ IH]; [now left| |].
  - right. destruct H as (_ & m & ->). eexists. reflexivity.
  - exact IH.
Qed.
Lemma skip_saying_app l X : proper l -> skip_ws X <> [] -> skip_ws (saying l ++ X) <> [].
Proof.
  intros P S. induction P as [|[v|] l H _ IH]; [exact S| |exact IH].
  destruct H as (_ & m & ->). discriminate.
Qed.
Lemma next_value_line r : next_value (10 :: r) = next_value r.
Proof.
  assert (V : forall f, value f (10 :: r) = value f r) by (intros [|f]; reflexivity).
  destruct (next_value r) as [x|] eqn:E.
  - apply next_value_iff in E as (f & E). apply next_value_iff. exists f. now rewrite V.
  - destruct (next_value (10 :: r)) as [x|] eqn:E'; [|reflexivity]. apply next_value_iff in E' as (f & E'). rewrite V in E'.
    assert (C : next_value r = Some x) by (apply next_value_iff; eauto). congruence.
Qed.
Lemma stream_line f r : stream f (10 :: r) = stream f r.
Proof. destruct f; cbn [stream skip_ws]; change (is_ws 10) with true; cbn iota; [reflexivity|]. now rewrite next_value_line. Qed.

Lemma stream_saying l : proper l -> forall f, (List.length (objects l) <= f)%nat -> stream f (saying l) = Some (objects l).
Proof.
  induction 1 as [|[v|] l H P IH]; intros f L.
  - destruct f; reflexivity.
  - cbn [objects List.length] in L. destruct f as [|f]; [lia|]. destruct H as (W & m & ->).
    change (saying (Some (JObj m) :: l)) with (show (JObj m) ++ saying l).
    cbn [stream objects]. rewrite skip_first by exact W.
    rewrite next_value_show; [|exact W|rewrite <- (app_nil_r (saying l)); apply stops_saying; [exact P|exact Logic.I]].
    rewrite IH by lia. reflexivity.
  - change (saying (None :: l)) with (10 :: saying l). rewrite stream_line. now apply IH.
Qed.
Lemma saying_length l : proper l -> (List.length (objects l) <= List.length (saying l))%nat.
Proof.
  induction 1 as [|[v|] l H P IH]; [apply Nat.le_refl| |].
  - destruct H as (W & _). apply show_length in W. unfold saying in *. cbn [flat_map piece objects List.length]. rewrite app_length. lia.
  - unfold saying in *. cbn [flat_map piece objects List.length app]. lia.
Qed.
Lemma json_stream_saying l : proper l -> json_stream (saying l) = Some (objects l).
Proof. intros P. unfold json_stream. apply stream_saying; [exact P|now apply saying_length]. Qed.

(** ** A tag that is broken off *)
Lemma stream_broken l X : proper l -> skip_ws X <> [] -> next_value X = None -> stops X -> forall f, stream f (saying l ++ X) = None.
Proof.
  intros P S NV St. induction P as [|[v|] l H P IH]; intros f.
  - cbn [saying flat_map app]. destruct f; cbn [stream]; destruct (skip_ws X); try congruence. now rewrite NV.
  - destruct H as (W & m & ->). change (saying (Some (JObj m) :: l) ++ X) with ((show (JObj m) ++ saying l) ++ X). rewrite <- app_assoc.
    destruct f as [|f]; cbn [stream]; rewrite skip_first by exact W; [reflexivity|].
    rewrite next_value_show; [|exact W|now apply stops_saying]. now rewrite IH.
  - change (saying (None :: l) ++ X) with (10 :: (saying l ++ X)). now rewrite stream_line.
Qed.
Lemma opened_none t k l : proper l -> next_value (opened t k ++ saying l) = None.
Proof.
  intros P. destruct (next_value (opened t k ++ saying l)) as [(v, r)|] eqn:E; [|reflexivity]. exfalso.
  apply next_value_iff in E as (f & E). destruct f as [|f]; [discriminate|].
  assert (Q : opened t k ++ saying l = 123 :: 34 :: jescape (B "version") ++ 34 :: 58 :: show (JStr (B "2.3")) ++ 44 ::
     (34 :: jescape (B "unsynchronised") ++ 34 :: 58 :: show (JBool true) ++ 44 ::
     (34 :: jescape (B "flags") ++ 34 :: 58 :: show (jnum (said_flags t)) ++ 44 ::
     (34 :: jescape (B "size") ++ 34 :: 58 :: show (jnum (k mod 2 ^ 64)) ++ 44 ::
     (34 :: jescape (B "padding") ++ 34 :: 58 :: show (jnum (padding_of t)) ++ 44 ::
     (34 :: jescape (B "frames") ++ 34 :: 58 :: 91 :: saying l)))))).
  { unfold opened, jnum. cbn [show]. repeat (match goal with |- context [jescape ?k] => let y := eval vm_compute in (jescape k) in change (jescape k) with y end).
    repeat (progress (rewrite <- ?app_assoc; cbn [app])). reflexivity. }
  rewrite Q in E. clear Q. apply value_inv in E as (c & r0 & E0 & E). cbn [skip_ws] in E0. change (is_ws 123) with false in E0. cbn iota in E0.
  apply cons_eq in E0 as (<- & <-).
  destruct E as [(_ & d & r1 & E1 & E)|[(X & _)|[(X & _)|(X & _)]]]; try discriminate X; try congruence.
  cbn [skip_ws] in E1. change (is_ws 34) with false in E1. cbn iota in E1. apply cons_eq in E1 as (<- & <-).
  destruct E as [(X & _)|(_ & ms & E & _)]; [discriminate X|].
  repeat (apply member_step in E; [|apply text_printable; reflexivity|first [exact Logic.I|apply jnum_wf|apply text_printable; reflexivity]];
          destruct E as (? & ? & E & _)).
  match type of E with members ?g _ = _ => destruct g as [|g1]; [discriminate E|] end.
  apply members_inv in E as (r0 & k' & r1 & r2 & x' & r3 & e & r4 & E0 & E1 & E2 & E3 & _).
  cbn [skip_ws] in E0. change (is_ws 34) with false in E0. cbn iota in E0. apply cons_eq in E0 as (_ & <-). rewrite chars_escape in E1 by (apply text_printable; reflexivity).
  injection E1 as <- <-. cbn [skip_ws] in E2. change (is_ws 58) with false in E2. cbn iota in E2. injection E2 as <-.
  destruct g1 as [|g]; [discriminate E3|]. apply value_inv in E3 as (c & r5 & E0 & E). cbn [skip_ws] in E0. change (is_ws 91) with false in E0. cbn iota in E0. injection E0 as <- <-.
  destruct E as [(X & _)|[(_ & d & r6 & E1 & E)|[(X & _)|(_ & X & _)]]]; try discriminate X; try congruence.
  destruct E as [(-> & _)|(_ & vs & E & _)].
  { destruct (skip_saying l P) as [Z|(z & Z)]; rewrite Z in E1; discriminate E1. }
  destruct g as [|g]; [discriminate E|]. apply elements_inv in E as (y & r7 & e' & r8 & E2 & E3 & E4).
  assert (ED : e' = 93 \/ e' = 44) by (destruct E4 as [(-> & _)|(-> & _)]; auto). clear - P E2 E3 ED. revert y r7 E2 E3. induction P as [|[o|] l H P IH]; intros y r7 E2 E3.
  - destruct g; discriminate E2.
  - destruct H as (W & m & ->). change (saying (Some (JObj m) :: l)) with (show (JObj m) ++ saying l) in E2.
    destruct (value_show _ W (saying l)) as (g' & E5); [rewrite <- (app_nil_r (saying l)); apply stops_saying; [exact P|exact Logic.I]|].
    pose proof (value_det _ _ _ _ _ E2 E5) as Z. injection Z as -> ->.
    destruct (skip_saying l P) as [Z|(z' & Z)]; rewrite Z in E3; [discriminate E3|]. injection E3 as <- _.
    destruct ED as [X|X]; discriminate X.
  - change (saying (None :: l)) with (10 :: saying l) in E2. assert (Vl : value g (10 :: saying l) = value g (saying l)) by (destruct g; reflexivity).
    rewrite Vl in E2. exact (IH _ _ E2 E3).
Qed.

(** ** Files *)
Lemma parse_unsync z passes v fl b t : parse_any z passes v fl b = Ok t -> any_version t = V23 -> exists u, any_unsync t = Some u.
Proof.
  unfold parse_any. intros E V. destruct (2 =? v).
  { apply bind_ok in E as (x & _ & E). apply Ok_inj in E. subst t. discriminate V. }
  destruct (3 =? v).
  { apply bind_ok in E as (x & E1 & E). apply Ok_inj in E. subst t. unfold parse_body23 in E1. cbv zeta in E1.
    apply bind_ok in E1 as ((ex, l) & _ & E1). apply bind_ok in E1 as ((pd, q) & _ & E1). apply bind_ok in E1 as (fs & _ & E1). apply Ok_inj in E1. subst x. eexists. reflexivity. }
  destruct (4 =? v); [|discriminate E].
  apply bind_ok in E as (x & _ & E). apply Ok_inj in E. subst t. discriminate V.
Qed.
Lemma tags_said z w (ps : list (N * anytag)) js :
  Forall (fun p => any_version (snd p) = V23 -> exists u, any_unsync (snd p) = Some u) ps ->
  Forall2 (fun p => tag_says (fun _ => true) z (w_ic w) (snd p)) ps js ->
  pall (map (dump_json_tag z w) ps) = (flat_map show js, Ok tt) /\ Forall (fun v => wf v /\ exists m, v = JObj m) js.
Proof.
  intros U H. induction H as [|(rev, t) j ps js H _ IH]; [split; [reflexivity|constructor]|]. inversion U as [|? ? U1 U2]; subst. cbn [snd] in *.
  destruct (U1 (proj1 H)) as (u & Uu). destruct (tag_said z w rev t u j Uu H) as (E & W). destruct (IH U2) as (E2 & W2).
  cbn [map]. change (pall (dump_json_tag z w (rev, t) :: map (dump_json_tag z w) ps)) with (pthen (dump_json_tag z w (rev, t)) (pall (map (dump_json_tag z w) ps))).
  rewrite E, E2. split; [reflexivity|constructor; assumption].
Qed.
Lemma track_said (sum : bytes) : json_track sum = show (track_object (hex_digits sum)) /\ track_says sum (track_object (hex_digits sum)) /\ wf (track_object (hex_digits sum)).
Proof.
  split; [apply track_shown|]. split; [|apply track_wf]. exists (hex_digits sum). split; [reflexivity|]. apply hex_told.
Qed.

Lemma combine_tags {A B} (Q : B -> Prop) (g : A -> N) : forall (l : list A) (ts : list B), List.length l = List.length ts -> Forall Q ts ->
  Forall (fun p => Q (snd p)) (map (fun ht => (g (fst ht), snd ht)) (combine l ts)).
Proof.
  induction l as [|a l IH]; intros [|b ts] L F; try discriminate L; [constructor|]. cbn [combine map]. inversion F; subst. constructor; [assumption|]. apply IH; [now injection L|assumption].
Qed.
Lemma combine_says {A B C} (Q : B -> C -> Prop) (g : A -> N) : forall (l : list A) (ts : list B) cs, List.length l = List.length ts -> Forall2 Q ts cs ->
  Forall2 (fun p => Q (snd p)) (map (fun ht => (g (fst ht), snd ht)) (combine l ts)) cs.
Proof.
  induction l as [|a l IH]; intros [|b ts] cs L F; try discriminate L; inversion F; subst; [constructor|]. cbn [combine map]. constructor; [assumption|]. apply IH; [now injection L|assumption].
Qed.
Lemma tags_of_unsync z passes data l ts : tags_of z passes data l ts -> List.length l = List.length ts /\ Forall (fun t => any_version t = V23 -> exists u, any_unsync t = Some u) ts.
Proof.
  intros (_ & _ & F). induction F as [|h t l ts E _ (IH1 & IH2)]; [split; [reflexivity|constructor]|]. split; [cbn [List.length]; now rewrite IH1|].
  constructor; [|exact IH2]. intros V. eapply parse_unsync; eassumption.
Qed.

Section Files.
  Context (e : enc) (z : zlib) (passes : nat) (md5 : bytes -> bytes) (w : world) (p : parts).
  Notation says := (says e z passes md5 w p).
  Notation one := (dump_json_file e z passes md5 w p).

  Lemma file_said f r js0 : dump_read z passes md5 (df_data f) = Ok r -> says f js0 ->
    exists l, one f = (saying l, Ok true) /\ proper l /\ says f (objects l).
  Proof.
    intros R (l & ts & o & size & sum & tj & trj & vj & T & TR & V & TJ & TRJ & VJ & ->). destruct r as ((rts, tr), v1).
    unfold dump_json_file. rewrite R. apply dump_read_inv in R as (l' & ts' & T' & _ & -> & TR' & V').
    destruct (tags_of_fun _ _ _ _ _ _ _ T T') as (<- & <-). clear T'.
    assert (o = v1) by (specialize (V 0 0); specialize (V' 0 0); rewrite V in V'; now apply Ok_inj in V'). subst o. clear V'.
    destruct (tags_of_unsync _ _ _ _ _ T) as (L & UN).
    set (tro := if p_track (all_parts p) then [track_object (hex_digits (tr_md5 tr))] else []).
    exists (map Some (tj ++ tro ++ vj) ++ [None]).
    assert (Q2 : (if p_v2 (all_parts p) then pall (map (dump_json_tag z w) (map (fun ht => (hd_rev (fst ht), snd ht)) (combine l ts))) else put []) = (flat_map show tj, Ok tt) /\
                 Forall (fun v => wf v /\ exists m, v = JObj m) tj).
    { destruct (p_v2 (all_parts p)); [|subst tj; split; [reflexivity|constructor]].
      apply tags_said; [apply combine_tags with (Q := fun t => any_version t = V23 -> exists u, any_unsync t = Some u); assumption|].
      apply combine_says with (Q := tag_says (fun _ => true) z (w_ic w)); assumption. }
    assert (Q3 : (if p_track (all_parts p) then put (json_track (tr_md5 tr)) else put []) = (flat_map show tro, Ok tt) /\
                 Forall (fun v => wf v /\ exists m, v = JObj m) tro).
    { unfold tro. destruct (p_track (all_parts p)); [|split; [reflexivity|constructor]]. cbn [flat_map]. rewrite app_nil_r, track_shown. split; [reflexivity|].
      constructor; [split; [apply track_wf|eexists; reflexivity]|constructor]. }
    assert (Q4 : match v1 with Some t => if p_v1 (all_parts p) then dump_json_v1 e w t else put [] | None => put [] end = (flat_map show vj, Ok tt) /\
                 Forall (fun v => wf v /\ exists m, v = JObj m) vj).
    { destruct v1 as [t|]; [|subst vj; split; [reflexivity|constructor]]. destruct (p_v1 (all_parts p)); [|subst vj; split; [reflexivity|constructor]].
      destruct VJ as (j & H & ->). destruct (v1_said _ _ _ _ H) as (-> & W). cbn [flat_map]. rewrite app_nil_r. split; [reflexivity|constructor; [exact W|constructor]]. }
    destruct Q2 as (Q2 & W2), Q3 as (Q3 & W3), Q4 as (Q4 & W4).
    unfold dump_json_parts. rewrite Q2, Q3, Q4. unfold pthen. cbn [fst snd put].
    split; [|split].
    - f_equal. rewrite saying_app, saying_somes, !flat_map_app, <- !app_assoc. reflexivity.
    - apply proper_app. split; [|constructor; [exact Logic.I|constructor]]. apply proper_somes. rewrite !Forall_app. auto.
    - rewrite objects_app, objects_somes. cbn [objects]. rewrite app_nil_r. exists l, ts, v1, (tr_size tr), (tr_md5 tr), tj, tro, vj.
      split; [exact T|]. split; [exact TR'|]. split; [exact V|]. split; [exact TJ|]. split; [|split; [exact VJ|reflexivity]].
      unfold tro. destruct (p_track (all_parts p)); [|reflexivity]. eexists. split; [|reflexivity]. exact (proj1 (proj2 (track_said (tr_md5 tr)))).
  Qed.

  Notation fine := (fine e z passes md5 w p).
  Lemma files_said fs : Forall fine fs -> exists l jss, flat_map (fun f => fst (one f)) fs = saying l /\ proper l /\ Forall2 says fs jss /\ objects l = concat jss /\
    Forall (fun f => snd (one f) = Ok true) fs.
  Proof.
    induction 1 as [|f fs ((r & R) & js & S) _ (l & jss & E & P & F & O & A)].
    - exists [], []. split; [reflexivity|]. split; [constructor|]. split; [constructor|]. split; [reflexivity|constructor].
    - destruct (file_said _ _ _ R S) as (l1 & E1 & P1 & S1). exists (l1 ++ l), (objects l1 :: jss). cbn [flat_map]. rewrite E, E1. cbn [fst]. rewrite saying_app, objects_app, O.
      split; [reflexivity|]. split; [now apply proper_app|]. split; [constructor; assumption|]. split; [reflexivity|]. constructor; [now rewrite E1|exact A].
  Qed.

  (** ** A file that is broken off *)
  Lemma untold_throws fr : untold (w_ic w) fr -> exists x, frame_out w V23 fr = Throw x.
  Proof.
    intros H. rewrite frame_out_23. unfold view_of. cbv zeta. destruct H as [t x H E|u x H E|c u x H U NE E|c H L|q s H E L]; rewrite H.
    - rewrite E. eexists. reflexivity.
    - unfold part_text. rewrite E. eexists. reflexivity.
    - unfold comm_text. destruct (co_desc c); [congruence|]. rewrite U. cbn [M_Id3v1.init bind]. unfold part_text. rewrite E. eexists. reflexivity.
    - rewrite counter_too_long by (unfold len in L; lia). eexists. reflexivity.
    - rewrite (latin_can _ _ _ E). cbn [bind]. rewrite counter_too_long by (unfold len in L; lia). eexists. reflexivity.
  Qed.
  Lemma frames_broken f0 fr f1 : (forall x, In x f0 -> exists j, frame_says (w_ic w) x j) -> untold (w_ic w) fr ->
    exists x, frames_out w V23 (f0 ++ fr :: f1) = Throw x.
  Proof.
    intros H U. induction f0 as [|g f0 IH].
    - destruct (untold_throws _ U) as (x & E). exists x. cbn [app frames_out]. rewrite E. reflexivity.
    - destruct IH as (x & E); [intros y I1; apply H; now right|]. destruct (H g (or_introl eq_refl)) as (j & S). destruct (frame_said _ _ _ S) as (s & E1 & _).
      exists x. cbn [app frames_out]. rewrite E1. cbn [bind]. rewrite E. reflexivity.
  Qed.

  Notation broken_off := (broken_off z passes md5 w p).
  Lemma exists_forall2 {A B} (Q : A -> B -> Prop) l : (forall x, In x l -> exists y, Q x y) -> exists ys, Forall2 Q l ys.
  Proof.
    induction l as [|a l IH]; intros H; [exists []; constructor|]. destruct (H a (or_introl eq_refl)) as (y & Hy). destruct IH as (ys & F); [intros x I1; apply H; now right|].
    exists (y :: ys). now constructor.
  Qed.
  Lemma combine_split {A B} (l : list A) (pre : list B) t post : List.length l = List.length (pre ++ t :: post) ->
    exists l1 h l2, l = l1 ++ h :: l2 /\ List.length l1 = List.length pre /\ combine l (pre ++ t :: post) = combine l1 pre ++ (h, t) :: combine l2 post.
  Proof.
    revert l. induction pre as [|x pre IH]; intros [|a l] L; try discriminate L.
    - exists [], a, l. repeat split.
    - cbn [app List.length] in L. injection L as L. destruct (IH _ L) as (l1 & h & l2 & -> & L1 & E). exists (a :: l1), h, l2. cbn [app combine]. rewrite E.
      split; [reflexivity|]. split; [cbn [List.length]; now rewrite L1|reflexivity].
  Qed.
  Lemma broken_out f : broken_off f -> exists l t k, proper l /\ one f = (saying l ++ opened t k, Ok false).
  Proof.
    intros (r & l & ts & pre & t & post & f0 & fr & f1 & k & t' & R & T & PV & -> & PR & V & S & SH & F0 & U). destruct r as ((rts, tr), v1).
    unfold dump_json_file. rewrite R. apply dump_read_inv in R as (l' & ts' & T' & _ & -> & _ & _).
    destruct (tags_of_fun _ _ _ _ _ _ _ T T') as (<- & <-). clear T'.
    destruct (tags_of_unsync _ _ _ _ _ T) as (L & UN). apply Forall_app in UN as (UN1 & UN2). inversion UN2 as [|? ? UNt _]; subst.
    destruct (combine_split l pre t post L) as (l1 & h & l2 & -> & L1 & ->).
    destruct (exists_forall2 _ _ PR) as (tj & FJ). destruct (UNt V) as (u & Uu).
    exists (map Some tj), t, k.
    destruct (tags_said z w (map (fun ht => (hd_rev (fst ht), snd ht)) (combine l1 pre)) tj) as (E & W).
    { apply combine_tags with (Q := fun t => any_version t = V23 -> exists u, any_unsync t = Some u); assumption. }
    { apply combine_says with (Q := tag_says (fun _ => true) z (w_ic w)); assumption. }
    split; [now apply proper_somes|]. unfold dump_json_parts. rewrite PV, map_app. cbn [map fst snd].
    assert (PA : forall a x b, pall (map (dump_json_tag z w) (a ++ x :: b)) = pthen (pall (map (dump_json_tag z w) a)) (pthen (dump_json_tag z w x) (pall (map (dump_json_tag z w) b)))).
    { clear. intros a x b. rewrite map_app. cbn [map]. induction (map (dump_json_tag z w) a) as [|q m IH].
      - cbn [app]. unfold pall. cbn [fold_right]. unfold pthen at 2. cbn [put fst snd]. destruct (pthen (dump_json_tag z w x) _). reflexivity.
      - cbn [app]. unfold pall in *. cbn [fold_right]. rewrite IH. unfold pthen. destruct q as (s, [[]|y|y|]); cbn [fst snd]; try reflexivity.
        destruct (fold_right _ (put []) m) as (s2, [[]|y|y|]); cbn [fst snd]; try reflexivity. destruct (dump_json_tag z w x) as (s3, [[]|y|y|]); cbn [fst snd]; now rewrite <- app_assoc. }
    rewrite PA, E, (dump_json_23 _ _ _ _ _ _ _ V Uu S), SH. destruct (frames_broken f0 fr f1 F0 U) as (x & ->).
    unfold pthen. cbn [fst snd]. now rewrite saying_somes.
  Qed.

  Lemma listed_flat (g : dfile -> bytes) (matches : bytes -> bool) (args : list darg) :
    flat_map (fun o => match o with Some f => if matches (df_path f) then g f else [] | None => [] end) (flat_map arg_files args) = flat_map g (listed matches args).
  Proof.
    unfold listed. induction (flat_map arg_files args) as [|[f|] l IH]; [reflexivity| |exact IH]. cbn [flat_map]. rewrite IH, flat_map_app.
    destruct (matches (df_path f)); [cbn [flat_map]; now rewrite app_nil_r|reflexivity].
  Qed.
  Lemma listed_in matches args a f : In a args -> In (Some f) (arg_files a) -> matches (df_path f) = true -> In f (listed matches args).
  Proof.
    intros I1 I2 M. unfold listed. apply in_flat_map. exists (Some f). split; [apply in_flat_map; eauto|]. rewrite M. now left.
  Qed.
  Lemma run_said matches args : (forall a, In a args -> a <> DMissing) -> Forall fine (listed matches args) ->
    exists s jss, dump_args one matches args = (s, Ok tt) /\ json_stream s = Some (concat jss) /\ Forall2 says (listed matches args) jss.
  Proof.
    intros NM F. destruct (files_said _ F) as (l & jss & E & P & S & O & A). rewrite Forall_forall in A. rewrite args_run.
    - rewrite listed_flat with (g := fun f => fst (one f)), E. exists (saying l), jss. split; [reflexivity|]. rewrite <- O. split; [now apply json_stream_saying|exact S].
    - exact NM.
    - intros a f I1 I2 M. exists true. apply A. eapply listed_in; eassumption.
  Qed.
  Lemma run_spoiled matches args pre f post : (forall a, In a args -> a <> DMissing) -> listed matches args = pre ++ f :: post ->
    Forall fine pre -> broken_off f -> Forall fine post ->
    exists s, dump_args one matches args = (s, Ok tt) /\ json_stream s = None.
  Proof.
    intros NM L F1 BO F2. destruct (files_said _ F1) as (l1 & jss1 & E1 & P1 & _ & _ & A1). destruct (files_said _ F2) as (l2 & jss2 & E2 & P2 & _ & _ & A2).
    rewrite Forall_forall in A1, A2. destruct (broken_out f BO) as (l & t & k & P & E). rewrite args_run.
    - rewrite listed_flat with (g := fun f => fst (one f)), L, flat_map_app. cbn [flat_map]. rewrite E1, E2, E. cbn [fst]. eexists. split; [reflexivity|].
      rewrite <- app_assoc, app_assoc, <- saying_app. unfold json_stream. apply stream_broken.
      + apply proper_app. auto.
      + discriminate.
      + now apply opened_none.
      + reflexivity.
    - exact NM.
    - intros a g I1 I2 M. apply (listed_in matches args a g I1 I2) in M. rewrite L in M. apply in_app_or in M as [M|[<-|M]].
      + exists true. now apply A1.
      + exists false. now rewrite E.
      + exists true. now apply A2.
  Qed.
End Files.

(** ** Tags of the other versions *)
Lemma other_frames w v l : v <> V23 -> l <> [] -> forall x, frames_out w v l <> Ok x.
Proof.
  intros V NE x. destruct l as [|f l]; [congruence|]. cbn [frames_out]. destruct (frame_out w v f); try discriminate. destruct v; cbn [bind]; try discriminate. congruence.
Qed.
Lemma pall_never {A} (g : A -> pr) l x : In x l -> snd (g x) <> Ok tt -> snd (pall (map g l)) <> Ok tt.
Proof.
  intros I1 H C. destruct (pall (map g l)) as (s, o) eqn:E. cbn [snd] in C. subst o. apply pall_ok_inv in E as (ss & F & _).
  apply H. clear - F I1. induction F as [|a b l ss E _ IH]; [destruct I1|]. destruct I1 as [->|I1]; [now rewrite E|auto].
Qed.
Lemma other_never e z passes md5 w p f r l ts t s : dump_read z passes md5 (df_data f) = Ok r -> tags_of z passes (df_data f) l ts -> p_v2 (all_parts p) = true ->
  In t ts -> any_version t <> V23 -> shown t <> [] -> dump_json_file e z passes md5 w p f <> (s, Ok true).
Proof.
  intros R T PV I1 V NE C. destruct r as ((rts, tr), v1). unfold dump_json_file in C. rewrite R in C. apply dump_read_inv in R as (l' & ts' & T' & _ & -> & _ & _).
  destruct (tags_of_fun _ _ _ _ _ _ _ T T') as (<- & <-). destruct (dump_json_parts _ _ _ _ _ _ _) as (s0, o) eqn:D.
  assert (Q : o = Ok tt) by (destruct o as [[]|x|u|]; congruence). subst o. unfold dump_json_parts in D. apply pthen_ok_inv in D as (s1 & s2 & D & _). rewrite PV in D.
  assert (I2 : exists h, In (h, t) (map (fun ht => (hd_rev (fst ht), snd ht)) (combine l ts))).
  { destruct T as (_ & _ & G). clear - G I1. induction G as [|h x l ts _ G IH]; [destruct I1|]. destruct I1 as [->|I1]; [eexists; now left|]. destruct (IH I1) as (h' & J). exists h'. now right. }
  destruct I2 as (h & I2). apply (pall_never (dump_json_tag z w) _ _ I2); [|now rewrite D].
  intros G. destruct (dump_json_tag z w (h, t)) as (s3, o) eqn:DT. cbn [snd] in G. subst o. unfold dump_json_tag in DT. cbn [snd] in DT.
  apply pthen_ok_inv in DT as (? & ? & _ & DT & _). apply pthen_ok_inv in DT as (? & ? & _ & DT & _). apply pthen_ok_inv in DT as (? & ? & _ & DT & _).
  apply pthen_ok_inv in DT as (? & ? & DT & _). apply pput_inv in DT. apply bind_ok in DT as (fs & DT & _). exact (other_frames _ _ _ V NE _ DT).
Qed.
Lemma always_unsynchronised z passes v fl b t w rev : parse_any z passes v fl b = Ok t -> any_version t = V23 ->
  exists rest, fst (dump_json_tag z w (rev, t)) = B "{""version"":""2.3"",""unsynchronised"":true," ++ rest.
Proof.
  intros E V. destruct (parse_unsync _ _ _ _ _ _ E V) as (u & U). unfold dump_json_tag. cbn [snd]. rewrite V, U, pthen_puts. cbn [fst]. eexists. unfold json_start, unsync_text.
  rewrite <- !app_assoc. cbn [app]. reflexivity.
Qed.
