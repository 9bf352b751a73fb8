(** * Lemmas: the main program. *)
From Coq Require Import Sorting.Permutation Sorting.Sorted.
From Verif Require Import Base M_Fs M_Main S_Main.
#[local] Open Scope N_scope.

(** ** Words *)
Lemma beq_iff a b : bytes_eqb a b = true <-> a = b.
Proof.
  revert b. induction a as [|x a IH]; intros [|y b]; cbn; try (split; congruence).
  rewrite andb_true_iff, N.eqb_eq, IH. split; [intros [-> ->]; reflexivity|intros E; injection E; auto].
Qed.
Lemma is_iff a s : is a s = true <-> s = B a.
Proof. unfold is. rewrite beq_iff. split; congruence. Qed.
Lemma takeN_app_all {A} (p r : list A) : takeN (len p) (p ++ r) = p.
Proof.
  unfold len. induction p as [|x p IH]; cbn [app]; [now destruct r|].
  cbn [List.length takeN]. destruct (N.of_nat (S (List.length p)) =? 0) eqn:E; [apply N.eqb_eq in E; lia|].
  f_equal. replace (N.pred (N.of_nat (S (List.length p)))) with (N.of_nat (List.length p)) by lia. exact IH.
Qed.
Lemma takeN_prefix {A} n (l : list A) : exists r, l = takeN n l ++ r.
Proof.
  revert n. induction l as [|x l IH]; intros n; [now exists []|].
  cbn [takeN]. destruct (n =? 0); [now exists (x :: l)|]. destruct (IH (N.pred n)) as (r & E). exists r. cbn. now rewrite <- E.
Qed.
Lemma begins_iff p s : begins p s = true <-> exists r, s = B p ++ r.
Proof.
  unfold begins. rewrite beq_iff. split.
  - intros E. destruct (takeN_prefix (len (B p)) s) as (r & R). exists r. now rewrite R, <- E.
  - intros (r & ->). now rewrite takeN_app_all.
Qed.

Lemma takes_iff s : takes_value s = true <-> In s with_value.
Proof.
  unfold takes_value. rewrite !orb_true_iff, !is_iff. cbn [with_value In]. split.
  - intros [[[[->| ->]| ->]| ->]| ->]; auto 9.
  - intros [<-|[<-|[<-|[<-|[<-|[]]]]]]; auto 9.
Qed.
Lemma stands_iff s : stands_alone s = true <-> is_alone s.
Proof.
  unfold stands_alone, is_alone. rewrite !orb_true_iff, !is_iff, !begins_iff. cbn [alone open_ended In]. split.
  - intros [[[[[[[[[[(r & ->)|(r & ->)]|(r & ->)]| ->]| ->]| ->]| ->]| ->]| ->]| ->]| ->]; try (left; tauto).
    + right. exists (B "--language"), r. auto.
    + right. exists (B "--listen"), r. auto.
    + right. exists (B "--use-srfi"), r. auto.
  - intros [[<-|[<-|[<-|[<-|[<-|[<-|[<-|[<-|[]]]]]]]]]|(p & r & [<-|[<-|[<-|[]]]] & ->)]; eauto 20.
Qed.
Lemma asks_iff w q : In (w, q) asks <->
  match q with
  | AskUsage => w = B "-h"
  | AskMan => w = B "--help" \/ w = B "--man"
  | AskInfo => w = B "--info"
  | AskVersion => w = B "-v" \/ w = B "--version"
  end.
Proof.
  cbn [asks In]. split.
  - intros [E|[E|[E|[E|[E|[E|[]]]]]]]; injection E as <- <-; auto.
  - destruct q; [intros ->|intros [->| ->]|intros ->|intros [->| ->]]; auto 9.
Qed.

(** Which kind a word is: exactly one. *)
Inductive kind := KAsk (q : request) | KValue | KAlone | KScript | KDashes | KOther.
Definition kind_of (w : bytes) : kind :=
  if is "-h" w then KAsk AskUsage
  else if is "--help" w || is "--man" w then KAsk AskMan
  else if is "--info" w then KAsk AskInfo
  else if is "-v" w || is "--version" w then KAsk AskVersion
  else if takes_value w then KValue
  else if stands_alone w then KAlone
  else if is "-c" w || is "-s" w then KScript
  else if is "--" w then KDashes
  else KOther.

Lemma kind_ask w q : In (w, q) asks -> kind_of w = KAsk q.
Proof. intros H. apply asks_iff in H. destruct q; [|destruct H as [H|H]| |destruct H as [H|H]]; rewrite H; reflexivity. Qed.
Lemma kind_value w : In w with_value -> kind_of w = KValue.
Proof. cbn [with_value In]. intros [<-|[<-|[<-|[<-|[<-|[]]]]]]; reflexivity. Qed.
Lemma kind_alone w : is_alone w -> kind_of w = KAlone.
Proof.
  intros [H|(p & r & H & ->)].
  - cbn [alone In] in H. repeat (destruct H as [<-|H]; [reflexivity|]). destruct H.
  - assert (S1 : stands_alone (p ++ r) = true) by (apply stands_iff; right; eauto).
    unfold kind_of. rewrite S1. cbn [open_ended In] in H. destruct H as [<-|[<-|[<-|[]]]]; reflexivity.
Qed.
Lemma kind_script w : In w scripts -> kind_of w = KScript.
Proof. cbn [scripts In]. intros [<-|[<-|[]]]; reflexivity. Qed.
Lemma kind_dashes : kind_of (B "--") = KDashes.
Proof. reflexivity. Qed.
Lemma kind_spec w : match kind_of w with
  | KAsk q => In (w, q) asks
  | KValue => In w with_value
  | KAlone => is_alone w
  | KScript => In w scripts
  | KDashes => w = B "--"
  | KOther => ~ is_known w
  end.
Proof.
  unfold kind_of.
  destruct (is "-h" w) eqn:E1; [apply asks_iff; now apply is_iff|].
  destruct (is "--help" w || is "--man" w) eqn:E2; [apply asks_iff; apply orb_true_iff in E2; rewrite !is_iff in E2; exact E2|].
  destruct (is "--info" w) eqn:E3; [apply asks_iff; now apply is_iff|].
  destruct (is "-v" w || is "--version" w) eqn:E4; [apply asks_iff; apply orb_true_iff in E4; rewrite !is_iff in E4; exact E4|].
  destruct (takes_value w) eqn:E5; [now apply takes_iff|].
  destruct (stands_alone w) eqn:E6; [now apply stands_iff|].
  destruct (is "-c" w || is "-s" w) eqn:E7; [cbn [scripts In]; apply orb_true_iff in E7; rewrite !is_iff in E7; destruct E7; auto|].
  destruct (is "--" w) eqn:E8; [now apply is_iff|].
  intros K.
  assert (kind_of w = KOther) by (unfold kind_of; now rewrite E1, E2, E3, E4, E5, E6, E7, E8).
  destruct K as [(q & K)|[K|[K|[K|K]]]].
  - apply kind_ask in K. congruence.
  - apply kind_value in K. congruence.
  - apply kind_alone in K. congruence.
  - apply kind_script in K. congruence.
  - subst w. now cbv in E8.
Qed.
Lemma kind_other w : ~ is_known w -> kind_of w = KOther.
Proof.
  intros K. pose proof (kind_spec w) as S1. destruct (kind_of w); [..|reflexivity]; exfalso; apply K; unfold is_known; eauto 6.
Qed.

(** One step of [handle_options], by kind. *)
Definition ask_in (q : request) (o : options) : options :=
  match q with
  | AskUsage => mkOptions (op_version o) HelpRegular (op_flavor o) (op_gargv o) []
  | AskMan => mkOptions (op_version o) HelpVerbose (Some FlavorMan) (op_gargv o) []
  | AskInfo => mkOptions (op_version o) HelpVerbose (Some FlavorInfo) (op_gargv o) []
  | AskVersion => mkOptions true (op_help o) (op_flavor o) (op_gargv o) []
  end.
Definition with_gargv (g : list bytes) (o : options) : options := mkOptions (op_version o) (op_help o) (op_flavor o) g [].
Lemma options_step room w rest o : handle_options room (w :: rest) o =
  match kind_of w with
  | KAsk q => handle_options room rest (ask_in q o)
  | KValue => let* g := put_arg room (op_gargv o) w in
              match rest with
              | [] => Ok (inr w)
              | v :: rest' => let* g := put_arg room g v in handle_options room rest' (with_gargv g o)
              end
  | KAlone => let* g := put_arg room (op_gargv o) w in handle_options room rest (with_gargv g o)
  | KScript => let* g := put_arg room (op_gargv o) w in
               match rest with
               | [] => Ok (inr w)
               | _ => let* g := put_args room g rest in Ok (inl (with_gargv g o))
               end
  | KDashes => let* g := put_args room (op_gargv o) (w :: rest) in Ok (inl (with_gargv g o))
  | KOther => Ok (inl (mkOptions (op_version o) (op_help o) (op_flavor o) (op_gargv o) (w :: rest)))
  end.
Proof.
  unfold kind_of. cbn [handle_options].
  destruct (is "-h" w); [reflexivity|]. destruct (is "--help" w || is "--man" w); [reflexivity|].
  destruct (is "--info" w); [reflexivity|]. destruct (is "-v" w || is "--version" w); [reflexivity|].
  destruct (takes_value w); [reflexivity|]. destruct (stands_alone w); [reflexivity|].
  destruct (is "-c" w || is "-s" w); [reflexivity|]. destruct (is "--" w); reflexivity.
Qed.

(** Arguments that have room. *)
Lemma len_app {A} (a b : list A) : len (a ++ b) = len a + len b.
Proof. unfold len. rewrite app_length. lia. Qed.
Lemma len_cons {A} (x : A) l : len (x :: l) = len l + 1.
Proof. unfold len. cbn [List.length]. lia. Qed.
Lemma put_fits room g s : len g < room -> put_arg room g s = Ok (g ++ [s]).
Proof. intros H. unfold put_arg. now rewrite (proj2 (N.ltb_lt _ _) H). Qed.
Lemma puts_fit room l g : len g + len l <= room -> put_args room g l = Ok (g ++ l).
Proof.
  revert g. induction l as [|s l IH]; intros g H; cbn [put_args]; [now rewrite app_nil_r|].
  rewrite len_cons in H. rewrite put_fits by lia. cbn [bind]. rewrite IH; [now rewrite <- app_assoc|].
  rewrite len_app, len_cons. change (len (@nil bytes)) with 0. lia.
Qed.

(** ** The leading options *)

(** The Guile options among them. *)
Inductive passed : list bytes -> list request -> list bytes -> Prop :=
| pass_none : passed [] [] []
| pass_ask w q l rs g : In (w, q) asks -> passed l rs g -> passed (w :: l) (q :: rs) g
| pass_value w v l rs g : In w with_value -> passed l rs g -> passed (w :: v :: l) rs (w :: v :: g)
| pass_alone w l rs g : is_alone w -> passed l rs g -> passed (w :: l) rs (w :: g).
Lemma leading_passed l rs : leading l rs -> exists g, passed l rs g.
Proof.
  induction 1 as [|w q l rs K _ (g & G)|w v l rs K _ (g & G)|w l rs K _ (g & G)]; eexists; try (econstructor; eauto; fail).
Qed.
Lemma passed_all l g : passed l [] g -> g = l.
Proof.
  remember ([] : list request) as rs eqn:E. intros P1. revert E.
  induction P1; intros E; try discriminate; [reflexivity| |]; now rewrite IHP1.
Qed.
Lemma passed_len l rs g : passed l rs g -> len g <= len l.
Proof. induction 1; rewrite ?len_cons; lia. Qed.

Fixpoint ask_all (rs : list request) (o : options) : options := match rs with [] => o | q :: r => ask_all r (ask_in q o) end.
Lemma handle_leading room l rs g : passed l rs g -> forall o tail, op_rest o = [] -> len (op_gargv o) + len l <= room ->
  handle_options room (l ++ tail) o = handle_options room tail (ask_all rs (with_gargv (op_gargv o ++ g) o)).
Proof.
  induction 1 as [|w q l rs g K _ IH|w v l rs g K _ IH|w l rs g K _ IH]; intros o tail R H; cbn [app ask_all].
  - rewrite app_nil_r. unfold with_gargv. rewrite <- R. now destruct o.
  - rewrite options_step, (kind_ask _ _ K). rewrite len_cons in H. rewrite IH; [|now destruct q|destruct q; cbn [ask_in op_gargv]; lia].
    f_equal. f_equal. now destruct q.
  - rewrite options_step, (kind_value _ K). rewrite !len_cons in H. rewrite put_fits by lia. cbn [bind].
    rewrite put_fits by (rewrite len_app, len_cons; change (len (@nil bytes)) with 0; lia). cbn [bind].
    rewrite IH; [|reflexivity|cbn [with_gargv op_gargv]; rewrite !len_app, !len_cons; change (len (@nil bytes)) with 0; lia].
    f_equal. f_equal. unfold with_gargv. cbn [op_gargv op_version op_help op_flavor]. now rewrite <- !app_assoc.
  - rewrite options_step, (kind_alone _ K). rewrite !len_cons in H. rewrite put_fits by lia. cbn [bind].
    rewrite IH; [|reflexivity|cbn [with_gargv op_gargv]; rewrite !len_app, !len_cons; change (len (@nil bytes)) with 0; lia].
    f_equal. f_equal. unfold with_gargv. cbn [op_gargv op_version op_help op_flavor]. now rewrite <- !app_assoc.
Qed.

(** What the requests amount to. *)
Lemma ask_gargv rs o : op_gargv (ask_all rs o) = op_gargv o.
Proof. revert o. induction rs as [|q r IH]; intros o; cbn [ask_all]; [reflexivity|]. rewrite IH. now destruct q. Qed.
Lemma ask_version rs o : op_version (ask_all rs o) = true <-> op_version o = true \/ In AskVersion rs.
Proof.
  revert o. induction rs as [|q r IH]; intros o; cbn [ask_all In]; [tauto|]. rewrite IH.
  destruct q; cbn [ask_in op_version]; split; intros H; intuition congruence.
Qed.
Definition help_of (q : option request) : option (help_level * verbose_flavor) :=
  match q with
  | Some AskMan => Some (HelpVerbose, FlavorMan)
  | Some AskInfo => Some (HelpVerbose, FlavorInfo)
  | _ => None
  end.
Lemma ask_help rs o : match last_help rs with
  | Some AskMan => op_help (ask_all rs o) = HelpVerbose /\ op_flavor (ask_all rs o) = Some FlavorMan
  | Some AskInfo => op_help (ask_all rs o) = HelpVerbose /\ op_flavor (ask_all rs o) = Some FlavorInfo
  | Some AskUsage => op_help (ask_all rs o) = HelpRegular
  | Some AskVersion => False
  | None => op_help (ask_all rs o) = op_help o /\ op_flavor (ask_all rs o) = op_flavor o
  end.
Proof.
  revert o. induction rs as [|q r IH]; intros o; cbn [ask_all last_help]; [auto|].
  specialize (IH (ask_in q o)). destruct (last_help r) as [[]|]; auto.
  destruct q; cbn [ask_in op_help op_flavor] in IH; destruct IH; auto.
Qed.
Lemma last_help_none rs : last_help rs = None -> ~ In AskVersion rs -> rs = [].
Proof.
  destruct rs as [|q r]; [reflexivity|]. cbn [last_help]. destruct (last_help r); [discriminate|].
  destruct q; try discriminate. intros _ H. now destruct H; left.
Qed.

(** ** The decision *)
Lemma count_in {H} (M : registry H) s : count_command M s = true <-> In s (command_names M).
Proof.
  induction M as [|[k h] M IH]; cbn [count_command command_names map In fst]; [split; [discriminate|tauto]|].
  rewrite orb_true_iff, beq_iff, IH. reflexivity.
Qed.
Lemma dashed_iff w : (match w with c :: _ => c =? 45 | [] => false end) = true <-> dashed w.
Proof.
  unfold dashed. destruct w as [|c r]; [split; [discriminate|intros (r & E); discriminate]|].
  rewrite N.eqb_eq. split; [intros ->; eauto|intros (r' & E); congruence].
Qed.

(** The end of [decide], from the options. *)
Definition conclude {H} (M : registry H) (room : N) (o : options) : outcome action :=
  if op_version o then Ok ShowVersion
  else match op_help o with
       | HelpVerbose => Ok match op_flavor o with Some FlavorMan => ShowMan | _ => ShowInfo end
       | HelpRegular => Ok ShowUsage
       | HelpNone =>
           match op_rest o with
           | cmd :: rest =>
               if count_command M cmd then Ok (Command cmd rest)
               else if match cmd with c :: _ => c =? 45 | [] => false end then Ok (Misused cmd)
               else let* g := put_args room (op_gargv o) (cmd :: rest) in
                    if len g <? room then Ok (Guile g) else UB OutOfBounds
           | [] => if len (op_gargv o) <? room then Ok (Guile (op_gargv o)) else UB OutOfBounds
           end
       end.
Lemma decide_eq {H} (M : registry H) prog argv : decide M prog argv =
  let* r := handle_options (len (prog :: argv) + 1) argv (mkOptions false HelpNone None [prog] []) in
  match r with inr s => Ok (Misused s) | inl o => conclude M (len (prog :: argv) + 1) o end.
Proof. reflexivity. Qed.

(** With the requests of the leading options in, and [g] for Guile. *)
Lemma conclude_due {H} (M : registry H) prog args rs o rest room :
  let s := ask_all rs (mkOptions false HelpNone None [prog] []) in
  op_version o = op_version s -> op_help o = op_help s -> op_flavor o = op_flavor s -> op_rest o = rest ->
  len args + 2 <= room ->
  (rs = [] -> match rest with
              | [] => op_gargv o = prog :: args
              | w :: r => op_gargv o ++ w :: r = prog :: args
              end) ->
  exists a, conclude M room o = Ok a /\
  ((In AskVersion rs /\ a = ShowVersion) \/
   (~ In AskVersion rs /\
    match last_help rs with
    | Some AskMan => a = ShowMan
    | Some AskInfo => a = ShowInfo
    | Some AskUsage => a = ShowUsage
    | _ => match rest with
           | w :: r => (In w (command_names M) /\ a = Command w r) \/
                       (~ In w (command_names M) /\ dashed w /\ a = Misused w) \/
                       (~ In w (command_names M) /\ ~ dashed w /\ a = Guile (prog :: args))
           | [] => a = Guile (prog :: args)
           end
    end)).
Proof.
  intros s EV EH EF ER RM G. unfold conclude. rewrite EV, EH, EF, ER.
  pose proof (ask_version rs (mkOptions false HelpNone None [prog] [])) as V. fold s in V. cbn [op_version] in V.
  pose proof (ask_help rs (mkOptions false HelpNone None [prog] [])) as P1. fold s in P1. cbn [op_help op_flavor] in P1.
  destruct (op_version s).
  { exists ShowVersion. split; [reflexivity|]. left. split; [|reflexivity]. now destruct (proj1 V eq_refl). }
  assert (NV : ~ In AskVersion rs) by (intros I1; assert (false = true) by (apply V; auto); discriminate).
  destruct (last_help rs) as [q|] eqn:EL.
  - destruct q.
    + exists ShowUsage. rewrite P1. auto.
    + exists ShowMan. destruct P1 as [-> ->]. auto.
    + exists ShowInfo. destruct P1 as [-> ->]. auto.
    + destruct P1.
  - specialize (G (last_help_none rs EL NV)). destruct P1 as [-> _]. destruct rest as [|w r].
    + rewrite G, len_cons. rewrite (proj2 (N.ltb_lt _ _)) by lia. eauto 6.
    + destruct (count_command M w) eqn:C.
      * apply count_in in C. eexists; split; [reflexivity|]. auto 6.
      * assert (NC : ~ In w (command_names M)) by (rewrite <- count_in; congruence).
        destruct (match w with c :: _ => c =? 45 | [] => false end) eqn:D.
        -- apply dashed_iff in D. eexists; split; [reflexivity|]. auto 9.
        -- assert (ND : ~ dashed w) by (rewrite <- dashed_iff; congruence).
           assert (L1 : len (op_gargv o) + len (w :: r) = len args + 1) by (rewrite <- len_app, G, len_cons; reflexivity).
           rewrite puts_fit by lia. cbn [bind]. rewrite G, len_cons. rewrite (proj2 (N.ltb_lt _ _)) by lia.
           eexists; split; [reflexivity|]. auto 9.
Qed.

Lemma ask_rest rs o : op_rest o = [] -> op_rest (ask_all rs o) = [].
Proof. revert o. induction rs as [|q r IH]; intros o E; cbn [ask_all]; [exact E|]. apply IH. now destruct q. Qed.
Lemma ask_same rs o g : let s := ask_all rs (with_gargv g o) in
  op_version s = op_version (ask_all rs o) /\ op_help s = op_help (ask_all rs o) /\ op_flavor s = op_flavor (ask_all rs o).
Proof.
  revert o g. induction rs as [|q r IH]; intros o g; cbn [ask_all]; [auto|].
  specialize (IH (ask_in q o) g). cbn zeta in *.
  replace (ask_in q (with_gargv g o)) with (with_gargv g (ask_in q o)) by now destruct q. exact IH.
Qed.

Lemma decided {H} (M : registry H) prog l rs e : leading l rs -> ending_ok e ->
  exists a, decide M prog (l ++ words e) = Ok a /\ due (command_names M) prog (l ++ words e) rs e a.
Proof.
  intros L E. destruct (leading_passed l rs L) as (g & P1). pose proof (passed_len _ _ _ P1) as LG.
  rewrite decide_eq. set (args := l ++ words e). set (room := len (prog :: args) + 1). set (o0 := mkOptions false HelpNone None [prog] []).
  assert (RM : len args + 2 <= room) by (unfold room; rewrite len_cons; lia).
  assert (LA : len args = len l + len (words e)) by (unfold args; apply len_app).
  unfold args at 1. rewrite (handle_leading room l rs g P1 o0 (words e) eq_refl) by (cbn [op_gargv o0]; rewrite len_cons; change (len (@nil bytes)) with 0; lia).
  cbn [op_gargv o0]. set (s := ask_all rs (with_gargv ([prog] ++ g) o0)).
  assert (SG : op_gargv s = prog :: g) by (unfold s; now rewrite ask_gargv).
  assert (SR : op_rest s = []) by (unfold s; now apply ask_rest).
  destruct (ask_same rs o0 ([prog] ++ g)) as (SV & SH & SF). fold s in SV, SH, SF.
  destruct e as [|w rest|o v rest|rest|o]; cbn [words ending_ok] in *.
  - cbn [handle_options bind].
    destruct (conclude_due M prog args rs (mkOptions (op_version s) (op_help s) (op_flavor s) (op_gargv s) []) [] room) as (a & C & D);
      [exact SV|exact SH|exact SF|reflexivity|exact RM| |].
    { intros ->. cbn [op_gargv]. rewrite SG. rewrite (passed_all _ _ P1). unfold args. now rewrite app_nil_r. }
    exists a. split; [exact C|]. exact D.
  - rewrite options_step, (kind_other _ E). cbn [bind].
    destruct (conclude_due M prog args rs (mkOptions (op_version s) (op_help s) (op_flavor s) (op_gargv s) (w :: rest)) (w :: rest) room) as (a & C & D);
      [exact SV|exact SH|exact SF|reflexivity|exact RM| |].
    { intros ->. cbn [op_gargv]. rewrite SG, (passed_all _ _ P1). reflexivity. }
    exists a. split; [exact C|]. exact D.
  - rewrite options_step, (kind_script _ E). rewrite !len_cons in LA. rewrite put_fits by (rewrite SG, len_cons; lia). cbn [bind].
    rewrite puts_fit by (rewrite SG, len_app, !len_cons; change (len (@nil bytes)) with 0; lia). cbn [bind].
    destruct (conclude_due M prog args rs (with_gargv ((op_gargv s ++ [o]) ++ v :: rest) s) [] room) as (a & C & D);
      [exact SV|exact SH|exact SF|reflexivity|exact RM| |].
    { intros ->. cbn [op_gargv with_gargv]. rewrite SG, (passed_all _ _ P1). rewrite <- app_assoc. reflexivity. }
    exists a. split; [exact C|]. exact D.
  - rewrite options_step, kind_dashes. rewrite len_cons in LA.
    rewrite puts_fit by (rewrite SG, !len_cons; lia). cbn [bind].
    destruct (conclude_due M prog args rs (with_gargv (op_gargv s ++ B "--" :: rest) s) [] room) as (a & C & D);
      [exact SV|exact SH|exact SF|reflexivity|exact RM| |].
    { intros ->. cbn [op_gargv with_gargv]. rewrite SG, (passed_all _ _ P1). reflexivity. }
    exists a. split; [exact C|]. exact D.
  - rewrite len_cons in LA. exists (Misused o). split; [|reflexivity].
    destruct E as [E|E]; rewrite options_step; [rewrite (kind_value _ E)|rewrite (kind_script _ E)];
      rewrite put_fits by (rewrite SG, len_cons; lia); reflexivity.
Qed.

(** Every list of arguments is of that form. *)
Lemma covered args : exists l rs e, args = l ++ words e /\ leading l rs /\ ending_ok e.
Proof.
  assert (C : forall n args, (List.length args <= n)%nat -> exists l rs e, args = l ++ words e /\ leading l rs /\ ending_ok e).
  { clear args. induction n as [|n IH]; intros args L.
    { destruct args; [|cbn in L; lia]. exists [], [], Nothing. repeat split; constructor. }
    destruct args as [|w rest]; [exists [], [], Nothing; repeat split; constructor|]. cbn [List.length] in L.
    pose proof (kind_spec w) as K. destruct (kind_of w) as [q| | | | |].
    - destruct (IH rest ltac:(lia)) as (l & rs & e & -> & L1 & E1). exists (w :: l), (q :: rs), e. split; [reflexivity|]. split; [now constructor|exact E1].
    - destruct rest as [|v rest]; [exists [], [], (Valueless w); split; [reflexivity|]; split; [constructor|left; exact K]|].
      cbn [List.length] in L. destruct (IH rest ltac:(lia)) as (l & rs & e & -> & L1 & E1). exists (w :: v :: l), rs, e. split; [reflexivity|].
      split; [now constructor|exact E1].
    - destruct (IH rest ltac:(lia)) as (l & rs & e & -> & L1 & E1). exists (w :: l), rs, e. split; [reflexivity|]. split; [now apply lead_alone|exact E1].
    - destruct rest as [|v rest]; [exists [], [], (Valueless w); split; [reflexivity|]; split; [constructor|right; exact K]|].
      exists [], [], (Script w v rest). split; [reflexivity|]. split; [constructor|exact K].
    - subst w. exists [], [], (Dashes rest). split; [reflexivity|]. split; [constructor|exact Logic.I].
    - exists [], [], (Word w rest). split; [reflexivity|]. split; [constructor|exact K]. }
  exact (C _ args (le_n _)).
Qed.

Lemma decides {H} (M : registry H) prog args : exists a, decide M prog args = Ok a.
Proof.
  destruct (covered args) as (l & rs & e & -> & L & E). destruct (decided M prog l rs e L E) as (a & D & _). eauto.
Qed.
Lemma guile_all {H} (M : registry H) prog args g : decide M prog args = Ok (Guile g) -> g = prog :: args.
Proof.
  destruct (covered args) as (l & rs & e & -> & L & E). destruct (decided M prog l rs e L E) as (a & D & U). rewrite D. intros X.
  apply Ok_inj in X. subst a.
  assert (X : forall P : Prop, (In AskVersion rs /\ Guile g = ShowVersion) \/ (~ In AskVersion rs /\ P) -> P) by (intros P [[_ X]|[_ X]]; [discriminate|exact X]).
  destruct e as [|w r|o v r|r|o]; cbn [due] in U; [..|discriminate]; apply X in U; destruct (last_help rs) as [[]|]; try discriminate;
    try (injection U as ->; reflexivity); destruct U as [[_ U]|[(_ & _ & U)|(_ & _ & U)]]; try discriminate; injection U as ->; reflexivity.
Qed.

(** ** The sub-commands *)
Lemma before_iff a b : before a b = true <-> precedes a b.
Proof.
  unfold precedes. split.
  - revert b. induction a as [|x a IH]; intros [|y b] E; cbn [before] in E; try discriminate.
    + left. exists y, b. reflexivity.
    + destruct (x =? y) eqn:Q.
      * apply N.eqb_eq in Q. subst y. destruct (IH b E) as [(y & r & ->)|(p & x1 & y1 & a1 & b1 & -> & -> & L)].
        -- left. exists y, r. reflexivity.
        -- right. exists (x :: p), x1, y1, a1, b1. auto.
      * apply N.ltb_lt in E. right. exists [], x, y, a, b. auto.
  - intros [(y & r & ->)|(p & x & y & a1 & b1 & -> & -> & L)].
    + induction a as [|x a IH]; cbn [app before]; [reflexivity|]. now rewrite N.eqb_refl.
    + induction p as [|z p IH]; cbn [app before]; [|now rewrite N.eqb_refl].
      destruct (x =? y) eqn:Q; [apply N.eqb_eq in Q; lia|]. now apply N.ltb_lt.
Qed.
Lemma before_irr a : before a a = false.
Proof. induction a as [|x a IH]; cbn [before]; [reflexivity|]. now rewrite N.eqb_refl. Qed.
Lemma before_total a b : before a b = false -> a <> b -> before b a = true.
Proof.
  revert b. induction a as [|x a IH]; intros [|y b] E D; cbn [before] in *; try congruence.
  destruct (x =? y) eqn:Q.
  - apply N.eqb_eq in Q. subst y. rewrite N.eqb_refl. apply IH; congruence.
  - rewrite N.eqb_sym, Q. apply N.ltb_ge in E. apply N.ltb_lt. apply N.eqb_neq in Q. lia.
Qed.
Lemma before_trans a b c : before a b = true -> before b c = true -> before a c = true.
Proof.
  revert b c. induction a as [|x a IH]; intros [|y b] [|z c]; cbn [before]; try congruence.
  destruct (x =? y) eqn:Q.
  - apply N.eqb_eq in Q. subst y. destruct (x =? z); eauto.
  - destruct (y =? z) eqn:Q2.
    + apply N.eqb_eq in Q2. subst z. now rewrite Q.
    + intros L1 L2. apply N.ltb_lt in L1, L2. destruct (x =? z) eqn:Q3; [apply N.eqb_eq in Q3; lia|]. apply N.ltb_lt. lia.
Qed.

Definition ordered {H} (M : registry H) : Prop := StronglySorted (fun a b => before (fst a) (fst b) = true) M.
Lemma put_perm {H} (M : registry H) s f : count_command M s = false -> Permutation ((s, f) :: M) (put_command M s f).
Proof.
  induction M as [|[k h] M IH]; cbn [count_command put_command]; intros C; [apply Permutation_refl|].
  apply orb_false_iff in C as [C1 C2]. destruct (before s k); [apply Permutation_refl|]. rewrite C1.
  eapply Permutation_trans; [apply perm_swap|]. now apply perm_skip, IH.
Qed.
Lemma put_ordered {H} (M : registry H) s f : count_command M s = false -> ordered M -> ordered (put_command M s f).
Proof.
  unfold ordered. induction M as [|[k h] M IH]; cbn [count_command put_command]; intros C O; [repeat constructor|].
  apply orb_false_iff in C as [C1 C2]. apply StronglySorted_inv in O as [O1 O2]. destruct (before s k) eqn:Q.
  - constructor; [now constructor|]. constructor; [exact Q|]. eapply Forall_impl; [|exact O2]. intros [k' h'] X. cbn [fst] in *. now apply (before_trans s k k').
  - rewrite C1. constructor; [now apply IH|].
    assert (X : before k s = true) by (apply before_total; [exact Q|]; intros ->; assert (bytes_eqb k k = true) by (now apply beq_iff); congruence).
    apply Forall_forall. intros e I1. apply (Permutation_in _ (Permutation_sym (put_perm M s f C2))) in I1. destruct I1 as [<-|I1]; [exact X|].
    rewrite Forall_forall in O2. now apply O2.
Qed.
Lemma count_names {H} (M : registry H) s : count_command M s = false <-> ~ In s (map fst M).
Proof. rewrite <- (count_in M s). destruct (count_command M s); split; congruence. Qed.
Lemma register_ok {H} (l : list (bytes * H)) : forall M, NoDup (map fst (M ++ l)) -> ordered M ->
  exists M', register_all M l = Ok M' /\ Permutation M' (M ++ l) /\ ordered M'.
Proof.
  induction l as [|[s f] l IH]; intros M ND O; cbn [register_all].
  - exists M. rewrite app_nil_r. auto.
  - assert (C : count_command M s = false).
    { apply count_names. rewrite map_app in ND. cbn [map fst] in ND. apply NoDup_remove_2 in ND. intros I1. apply ND. apply in_or_app. now left. }
    unfold register. rewrite C. cbn [bind].
    assert (P1 : Permutation (M ++ (s, f) :: l) (put_command M s f ++ l)).
    { eapply Permutation_trans; [apply Permutation_sym, Permutation_middle|]. change ((s, f) :: M ++ l) with (((s, f) :: M) ++ l).
      apply Permutation_app_tail. now apply put_perm. }
    destruct (IH (put_command M s f)) as (M' & E & P2 & O2).
    { eapply Permutation_NoDup; [apply Permutation_map, P1|exact ND]. }
    { now apply put_ordered. }
    exists M'. split; [exact E|]. split; [|exact O2]. eapply Permutation_trans; [exact P2|]. now apply Permutation_sym.
Qed.
Lemma ordered_unique {H} (M N0 : registry H) : ordered M -> ordered N0 -> Permutation M N0 -> M = N0.
Proof.
  unfold ordered. revert N0. induction M as [|x M IH]; intros N0 O1 O2 P1.
  - apply Permutation_nil in P1. congruence.
  - destruct N0 as [|y N0]; [apply Permutation_sym, Permutation_nil in P1; discriminate|].
    apply StronglySorted_inv in O1 as [O1 F1]. apply StronglySorted_inv in O2 as [O2 F2]. rewrite Forall_forall in F1, F2.
    assert (x = y).
    { assert (I1 : In x (y :: N0)) by (eapply Permutation_in; [exact P1|now left]).
      assert (I2 : In y (x :: M)) by (eapply Permutation_in; [apply Permutation_sym, P1|now left]).
      destruct I1 as [->|I1]; [reflexivity|]. destruct I2 as [->|I2]; [reflexivity|].
      pose proof (before_trans _ _ _ (F1 _ I2) (F2 _ I1)) as X. rewrite before_irr in X. discriminate. }
    subst y. f_equal. apply IH; auto. eapply Permutation_cons_inv; exact P1.
Qed.
Lemma register_twice {H} (l : list (bytes * H)) : forall M, ~ NoDup (map fst (M ++ l)) -> NoDup (map fst M) ->
  register_all M l = Throw OutOfRange.
Proof.
  induction l as [|[s f] l IH]; intros M ND N1; cbn [register_all].
  - rewrite app_nil_r in ND. contradiction.
  - unfold register. destruct (count_command M s) eqn:C; [reflexivity|]. cbn [bind]. apply IH.
    + intros X. apply ND.
      eapply Permutation_NoDup; [|exact X]. apply Permutation_map, Permutation_sym.
      eapply Permutation_trans; [apply Permutation_sym, Permutation_middle|]. change ((s, f) :: M ++ l) with (((s, f) :: M) ++ l).
      apply Permutation_app_tail. now apply put_perm.
    + eapply Permutation_NoDup; [apply Permutation_map, put_perm, C|]. cbn [map fst]. constructor; [now apply count_names|exact N1].
Qed.
Lemma find_iff {H} (M : registry H) s f : NoDup (map fst M) -> (find_command M s = Some f <-> In (s, f) M).
Proof.
  induction M as [|[k h] M IH]; cbn [find_command map fst In]; intros ND; [split; [discriminate|tauto]|].
  apply NoDup_cons_iff in ND as [ND1 ND2]. specialize (IH ND2). destruct (bytes_eqb k s) eqn:Q.
  - apply beq_iff in Q. subst k. split.
    + intros E. left. congruence.
    + intros [E|I1]; [congruence|]. destruct ND1. apply in_map_iff. now exists (s, f).
  - rewrite IH. split; [auto|]. intros [E|I1]; [|exact I1]. injection E as -> ->. assert (bytes_eqb s s = true) by now apply beq_iff. congruence.
Qed.

Lemma registered {H} (l : list (bytes * H)) : NoDup (map fst l) ->
  exists M, (forall l', Permutation l l' -> register_all [] l' = Ok M) /\
            (forall s f, find_command M s = Some f <-> In (s, f) l) /\ (forall s, In s (command_names M) <-> In s (map fst l)) /\
            StronglySorted precedes (command_names M).
Proof.
  intros ND. destruct (register_ok l [] ND) as (M & E & P1 & O1); [constructor|]. cbn [app] in P1. exists M. split; [|split; [|split]].
  - intros l' P2. assert (ND2 : NoDup (map fst l')) by (eapply Permutation_NoDup; [apply Permutation_map, P2|exact ND]).
    destruct (register_ok l' [] ND2) as (M' & E2 & P3 & O2); [constructor|]. cbn [app] in P3. rewrite E2. f_equal.
    apply ordered_unique; auto. eapply Permutation_trans; [exact P3|]. eapply Permutation_trans; [apply Permutation_sym, P2|]. now apply Permutation_sym.
  - intros s f. rewrite find_iff.
    + split; apply Permutation_in; [exact P1|now apply Permutation_sym].
    + eapply Permutation_NoDup; [apply Permutation_map, Permutation_sym, P1|exact ND].
  - intros s. unfold command_names. split; apply Permutation_in, Permutation_map; [exact P1|now apply Permutation_sym].
  - unfold command_names. clear E P1 ND. induction O1 as [|a M O1 IH F1]; cbn [map]; constructor; [exact IH|].
    apply Forall_map. eapply Forall_impl; [|exact F1]. intros b. cbn beta. apply before_iff.
Qed.

Lemma runs x (M : registry (list bytes -> ran)) prog l cmd rest f :
  leading l [] -> ~ is_known cmd -> find_command M cmd = Some f -> main x M prog (l ++ cmd :: rest) = Ok (f rest).
Proof.
  intros L K F. destruct (decided M prog l [] (Word cmd rest) L K) as (a & D & U). unfold main. cbn [words] in D. rewrite D. cbn [bind].
  cbn [due In last_help] in U. destruct U as [[[] _]|[_ U]].
  assert (I1 : In cmd (command_names M)).
  { clear -F. induction M as [|[k h] M IH]; cbn [find_command] in F; [discriminate|]. cbn [command_names map fst In].
    destruct (bytes_eqb k cmd) eqn:Q; [left; now apply beq_iff|right; now apply IH]. }
  destruct U as [[_ ->]|[(X & _)|(X & _)]]; [|contradiction|contradiction]. cbn [perform]. now rewrite F.
Qed.
Lemma misused x (M : registry (list bytes -> ran)) prog args o : decide M prog args = Ok (Misused o) ->
  exists r, main x M prog args = Ok r /\ r_status r = 2 /\ r_out r = flat_map (fun s => s ++ [10] ++ B "    ") (command_names M).
Proof. intros D. unfold main. rewrite D. cbn [bind perform]. eexists. split; [reflexivity|]. split; reflexivity. Qed.

(** ** Help for the sub-commands *)
Lemma help_words_kind w : In w help_words <-> is "-h" w || (is "--help" w || is "--man" w) || is "--info" w = true.
Proof.
  rewrite !orb_true_iff, !is_iff. cbn [help_words In]. split.
  - intros [<-|[<-|[<-|[<-|[]]]]]; tauto.
  - intros [[->|[->| ->]]| ->]; tauto.
Qed.
Lemma help_token_none ts : (forall t, In t ts -> ~ In t help_words) -> help_token ts = None.
Proof.
  induction ts as [|t r IH]; intros H; cbn [help_token]; [reflexivity|].
  assert (K : is "-h" t || (is "--help" t || is "--man" t) || is "--info" t = false)
    by (apply not_true_iff_false; rewrite <- help_words_kind; apply H; now left).
  apply orb_false_iff in K as [K K3]. apply orb_false_iff in K as [K1 K2]. rewrite K1, K2, K3. apply IH. intros t' I1. apply H. now right.
Qed.
Lemma help_token_app a b : (forall t, In t a -> ~ In t help_words) -> help_token (a ++ b) = help_token b.
Proof.
  induction a as [|t r IH]; intros H; cbn [help_token app]; [reflexivity|].
  assert (K : is "-h" t || (is "--help" t || is "--man" t) || is "--info" t = false)
    by (apply not_true_iff_false; rewrite <- help_words_kind; apply H; now left).
  apply orb_false_iff in K as [K K3]. apply orb_false_iff in K as [K1 K2]. rewrite K1, K2, K3. apply IH. intros t' I1. apply H. now right.
Qed.
Lemma parsed_none l : (forall ts t, In ts l -> In t ts -> ~ In t help_words) -> forall h f, parsed_help l h f = (h, f).
Proof.
  induction l as [|ts r IH]; intros H h f; cbn [parsed_help]; [reflexivity|].
  rewrite help_token_none by (intros t; apply (H ts t); now left). apply IH. intros ts' t I1. apply (H ts' t). now right.
Qed.
Lemma parsed_app a b h f : parsed_help (a ++ b) h f = let (h', f') := parsed_help a h f in parsed_help b h' f'.
Proof.
  revert h f. induction a as [|ts r IH]; intros h f; cbn [parsed_help app]; [reflexivity|].
  destruct (help_token ts) as [[h1 [f1|]]|]; apply IH.
Qed.
Lemma parsed_last pre a w b post :
  In w help_words -> (forall t, In t a -> ~ In t help_words) -> (forall ts t, In ts post -> In t ts -> ~ In t help_words) ->
  let r := parsed_help (pre ++ (a ++ w :: b) :: post) HelpNone None in
  (w = B "-h" -> fst r = HelpRegular) /\
  (w = B "--help" \/ w = B "--man" -> r = (HelpVerbose, Some FlavorMan)) /\
  (w = B "--info" -> r = (HelpVerbose, Some FlavorInfo)).
Proof.
  intros W NA NP r. unfold r. rewrite parsed_app. destruct (parsed_help pre HelpNone None) as [h f]. cbn [parsed_help].
  rewrite help_token_app by exact NA. cbn [help_words In] in W.
  assert (E : forall h f, parsed_help post h f = (h, f)) by (apply parsed_none; exact NP).
  destruct W as [<-|[<-|[<-|[<-|[]]]]]; cbn [help_token];
    match goal with |- context [is "-h" ?x] => let v := eval vm_compute in (is "-h" x) in change (is "-h" x) with v end; cbv iota.
  - rewrite E. split; [reflexivity|]. split; [intros [X|X]; discriminate X|intros X; discriminate X].
  - change (is "--help" (B "--help") || is "--man" (B "--help")) with true. cbv iota. rewrite E. split; [intros X; discriminate X|]. split; [reflexivity|intros X; discriminate X].
  - change (is "--help" (B "--man") || is "--man" (B "--man")) with true. cbv iota. rewrite E. split; [intros X; discriminate X|]. split; [reflexivity|intros X; discriminate X].
  - change (is "--help" (B "--info") || is "--man" (B "--info")) with false. change (is "--info" (B "--info")) with true. cbv iota. rewrite E.
    split; [intros X; discriminate X|]. split; [intros [X|X]; discriminate X|reflexivity].
Qed.

(** ** What is shown *)
Lemma shows x (M : registry (list bytes -> ran)) prog l rs e : leading l rs -> ending_ok e -> (forall o, e <> Valueless o) ->
  (In AskVersion rs -> main x M prog (l ++ words e) = Ok (mkRan 0 (x_version x ++ [10]) [])) /\
  (~ In AskVersion rs -> last_help rs = Some AskUsage ->
   exists out, main x M prog (l ++ words e) = Ok (mkRan 0 out []) /\
     forall s, In s (command_names M) -> exists a b, out = a ++ B "    " ++ s ++ [10] ++ b) /\
  (forall q page, ~ In AskVersion rs -> last_help rs = Some q -> In (q, page) [(AskMan, B "man"); (AskInfo, B "info")] ->
   match x_exec x page (B "scribbu") with
   | inl r => main x M prog (l ++ words e) = Ok r
   | inr _ => exists err, main x M prog (l ++ words e) = Ok (mkRan 1 [] err)
   end).
Proof.
  intros L O V. destruct (decided M prog l rs e L O) as (a & E & D). unfold main. rewrite E. cbn [bind].
  assert (D' : (In AskVersion rs /\ a = ShowVersion) \/ (~ In AskVersion rs /\ match last_help rs with
       | Some AskMan => a = ShowMan | Some AskInfo => a = ShowInfo | Some AskUsage => a = ShowUsage | _ => True end)).
  { unfold due in D. destruct e; try (exfalso; now eapply V); destruct D as [D|[D1 D2]]; [now left|right|now left|right|now left|right|now left|right];
      (split; [exact D1|]); destruct (last_help rs) as [[]|]; auto. }
  clear D. split; [|split].
  - intros I1. destruct D' as [[_ ->]|[N1 _]]; [reflexivity|contradiction].
  - intros N1 U. destruct D' as [[I1 _]|[_ D']]; [contradiction|]. rewrite U in D'. subst a. eexists. split; [reflexivity|].
    intros s I1. apply in_split in I1. destruct I1 as (p & q & Q).
    unfold usage_head, usage_names. rewrite Q.
    assert (T : forall p' : list bytes, exists h, B "    " ++ flat_map (fun s => s ++ [10] ++ B "    ") p' = h ++ B "    ").
    { intros p'. induction p' as [|y p' IH]; [now exists []|]. cbn [flat_map]. destruct IH as (h & H).
      exists (B "    " ++ y ++ [10] ++ h). rewrite <- !app_assoc. rewrite H. now rewrite <- ?app_assoc. }
    destruct (T p) as (h & H).
    exists (prog ++ x_usage x ++ [10; 10] ++ B "scribbu sub-commands (run `scribbu <sub-command> -h' for a usage message):" ++ [10; 10] ++ h),
      (B "    " ++ flat_map (fun s => s ++ [10] ++ B "    ") q ++ [10]).
    rewrite flat_map_app. cbn [flat_map]. rewrite <- !app_assoc. do 5 f_equal.
    apply (f_equal (fun z => z ++ s ++ [10] ++ B "    " ++ flat_map (fun s => s ++ [10] ++ B "    ") q ++ [10])) in H.
    rewrite <- !app_assoc in H. exact H.
  - intros q page N1 U I1. destruct D' as [[I2 _]|[_ D']]; [contradiction|]. rewrite U in D'.
    cbn [In] in I1. destruct I1 as [I1|[I1|[]]]; injection I1 as <- <-; subst a; cbn [perform]; destruct (x_exec x _ _); eauto.
Qed.
