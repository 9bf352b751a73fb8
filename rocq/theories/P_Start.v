(** * C106: where the interpreter looks for modules. *)
From Coq Require Import Lia.
From Verif Require Import Base M_Charset M_Lang M_Scheme M_Scheme2 M_Start S_Scheme2 S_Start L_Scheme2 L_Scheme3.
From Verif Require P_Scheme.
#[local] Open Scope N_scope.

Lemma no_nul_c s : ~ In 0 s -> c_str s = s.
Proof. apply L_Scheme2.c_str_no_nul. Qed.

Lemma look_ok G site : forall ds, ~ In 0 site -> Forall (directory G) ds ->
  exists found, look_for G site (map SStr (map fst ds)) = GOk found /\ (found = true <-> In site (map snd ds)).
Proof.
  intros ds Hs F. induction F as [|[d p] ds (N1 & N2 & E) F IH].
  - exists false. split; [reflexivity|]. split; [discriminate|intros []].
  - cbn [map fst snd look_for]. unfold to_locale. cbn [fst snd] in *. rewrite (to_utf8_ok d N1). cbn [gbind]. rewrite E. cbn [gbind].
    rewrite (no_nul_c p N2), (no_nul_c site Hs). destruct (bytes_eqb p site) eqn:Q.
    + exists true. split; [reflexivity|]. split; [|reflexivity]. intros _. left. now apply bytes_eqb_true.
    + destruct IH as (f & Ef & If). exists f. split; [exact Ef|]. rewrite If. split; [now right|]. intros [->|H]; [|exact H].
      rewrite bytes_eqb_refl in Q. discriminate.
Qed.

(** The directories that were searched still are, in the same order; scribbu's is
    put before them, unless it is among them. *)
Theorem C106_path : forall G datadir ds d0, ds <> [] -> Forall (directory G) ds -> directory G (d0, site_of datadir) ->
  g_from_locale G (site_of datadir) = Some d0 -> forall v, exists v',
  customize_load_path G datadir (mkInterp v (Some (searched ds))) = (GOk tt, mkInterp v (Some (searched v'))) /\
  (In (site_of datadir) (map snd ds) /\ v' = ds \/ ~ In (site_of datadir) (map snd ds) /\ v' = (d0, site_of datadir) :: ds).
Proof.
  intros G datadir ds d0 NE F D0 EL v. pose proof D0 as (N1 & N2 & E0). cbn [fst snd] in *.
  destruct (look_ok G (site_of datadir) ds N2 F) as (found & Ef & If).
  assert (EP : new_path G datadir (searched ds) =
    if found then GOk (searched ds) else GOk (searched ((d0, site_of datadir) :: ds))).
  { unfold new_path. assert (EQ : exists a b, searched ds = SPair a b) by (destruct ds; [congruence|unfold searched; cbn; eauto]).
    destruct EQ as (a & b & EQ). rewrite EQ, <- EQ. unfold searched at 1. rewrite to_list_slist. cbn [gbind].
    change (site_dir datadir) with (site_of datadir). rewrite Ef. cbn [gbind]. destruct found; [reflexivity|].
    unfold from_locale. rewrite (no_nul_c _ N2), EL. reflexivity. }
  unfold customize_load_path. cbn [in_path in_version]. rewrite EP. destruct found.
  - exists ds. split; [reflexivity|]. left. split; [now apply If|reflexivity].
  - exists ((d0, site_of datadir) :: ds). split; [reflexivity|].
    right. split; [|reflexivity]. intros H. apply If in H. discriminate.
Qed.
Print Assumptions C106_path.
Definition ex_dirs : list (bytes * bytes) := [(B "/usr/share/guile", B "/usr/share/guile"); (B "/x", B "/x")].
Example C106_path_nontrivial : Forall (directory P_Scheme.ex_guile) ex_dirs /\ directory P_Scheme.ex_guile (B "/s/guile/site", site_of (B "/s")) /\
  g_from_locale P_Scheme.ex_guile (site_of (B "/s")) = Some (B "/s/guile/site") /\
  customize_load_path P_Scheme.ex_guile (B "/s") (mkInterp None (Some (searched ex_dirs))) =
    (GOk tt, mkInterp None (Some (searched ((B "/s/guile/site", B "/s/guile/site") :: ex_dirs)))).
Proof.
  assert (N : forall s, existsb (N.eqb 0) s = false -> ~ In 0 s).
  { intros s H M. assert (existsb (N.eqb 0) s = true); [|congruence]. apply existsb_exists. exists 0. auto. }
  split; [|split; [|split]]; [| |reflexivity|vm_compute; reflexivity].
  - repeat constructor; cbn [fst snd]; try reflexivity; apply N; reflexivity.
  - split; [|split]; cbn [fst snd]; [apply N; reflexivity|apply N; reflexivity|reflexivity].
Qed.

(** Doing so again changes nothing. *)
Theorem C106_again : forall G datadir ds d0, ds <> [] -> Forall (directory G) ds -> directory G (d0, site_of datadir) ->
  g_from_locale G (site_of datadir) = Some d0 -> forall v s1, customize_load_path G datadir (mkInterp v (Some (searched ds))) = (GOk tt, s1) ->
  customize_load_path G datadir s1 = (GOk tt, s1).
Proof.
  intros G datadir ds d0 NE F D0 EL v s1 E.
  destruct (C106_path G datadir ds d0 NE F D0 EL v) as (v' & E' & H). rewrite E in E'. injection E' as ->.
  assert (NE' : v' <> []) by (destruct H as [(_ & ->)|(_ & ->)]; [exact NE|discriminate]).
  assert (F' : Forall (directory G) v') by (destruct H as [(_ & ->)|(_ & ->)]; [exact F|constructor; auto]).
  assert (I' : In (site_of datadir) (map snd v')) by (destruct H as [(I & ->)|(_ & ->)]; [exact I|now left]).
  destruct (C106_path G datadir v' d0 NE' F' D0 EL v) as (w & Ew & [(_ & ->)|(No & _)]); [exact Ew|contradiction].
Qed.
Print Assumptions C106_again.
Example C106_again_nontrivial : let s1 := snd (customize_load_path P_Scheme.ex_guile (B "/s") (mkInterp None (Some (searched ex_dirs)))) in
  customize_load_path P_Scheme.ex_guile (B "/s") s1 = (GOk tt, s1) /\ s1 <> mkInterp None (Some (searched ex_dirs)).
Proof. split; [vm_compute; reflexivity|]. vm_compute. discriminate. Qed.

(** Whatever happens, nothing is taken away from the list, and if an error is raised,
    it is as it was. *)
Theorem C106_kept : forall G banner datadir v path r s', initialize_guile G banner datadir (mkInterp v (Some path)) = (r, s') ->
  in_path s' = Some path \/ (r = GOk tt /\ exists d, in_path s' = Some (SPair (SStr d) path)).
Proof.
  intros G banner datadir v path r s' E. unfold initialize_guile, gi_then in E.
  assert (W : in_path (snd (customize_welcome G banner (mkInterp v (Some path)))) = Some path).
  { unfold customize_welcome. cbn [in_version]. destruct v; [|reflexivity]. destruct (gbind _ _); reflexivity. }
  destruct (customize_welcome G banner (mkInterp v (Some path))) as [r0 s0] eqn:E0. cbn [snd] in W.
  destruct r0; try (injection E as <- <-; left; exact W).
  unfold customize_load_path in E. rewrite W in E.
  destruct (new_path G datadir path) as [w| | | |] eqn:Ew; try (injection E as <- <-; left; exact W).
  injection E as <- <-. cbn [in_path]. unfold new_path in Ew. destruct path; try (injection Ew as <-; left; reflexivity).
  apply gbind_ok in Ew. destruct Ew as (l & _ & Ew). apply gbind_ok in Ew. destruct Ew as (fd & _ & Ew).
  destruct fd; [injection Ew as <-; left; reflexivity|]. apply gbind_ok in Ew. destruct Ew as (x & Ex & Ew). injection Ew as <-.
  right. split; [reflexivity|]. unfold from_locale in Ex. destruct (g_from_locale G _) as [d|]; [|discriminate]. injection Ex as <-. eauto.
Qed.
Print Assumptions C106_kept.
Example C106_kept_nontrivial :
  initialize_guile P_Scheme.ex_guile (B "hi ") (B "/s") (mkInterp (Some (SStr (B "3.0"))) (Some (slist [SStr (B "/x"); SInt 1]))) =
  (GRaise WrongType, mkInterp (Some (SStr (B "hi 3.0"))) (Some (slist [SStr (B "/x"); SInt 1]))).
Proof. vm_compute. reflexivity. Qed.

(** But an empty list is left empty, and so scribbu's module is not found. *)
Theorem C106_empty_refuted : forall G datadir v,
  customize_load_path G datadir (mkInterp v (Some SNull)) = (GOk tt, mkInterp v (Some SNull)).
Proof. reflexivity. Qed.
Print Assumptions C106_empty_refuted.
(** And if what the welcome is made of is no text, the directory is not added. *)
Theorem C106_version_refuted : forall G banner datadir v path, (forall s, v <> SStr s) ->
  exists e, initialize_guile G banner datadir (mkInterp (Some v) path) = (GRaise e, mkInterp (Some v) path).
Proof.
  intros G banner datadir v path H. exists WrongType. unfold initialize_guile, gi_then, customize_welcome, to_locale, to_utf8.
  cbn [in_version]. destruct v; try reflexivity. exfalso. exact (H s eq_refl).
Qed.
Print Assumptions C106_version_refuted.
