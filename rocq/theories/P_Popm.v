(** * C43: the popm command updates the frames its options name. *)
From Verif Require Import Base M_Ints S_Ints M_Stream M_Id3v1 M_Payload M_Frame M_Tag22 M_Tag23 M_Tag24 M_Charset M_Lookup M_Read
  M_Popm S_Popm L_Popm.

(** An iconv that changes nothing, a tag with a title, a play counter and two
    popularimeters, and options that add one play to those of one owner. *)
Definition ex_ic : iconv_t := fun _ _ _ b => Some b.
Definition ex_pm (w : bytes) (r n : N) : cframe := new_frame (mkFrame (B "POPM") no_flags (BPopm (make_popm w r n))).
Definition ex_pc (n : N) : cframe := new_frame (mkFrame (B "PCNT") no_flags (BCount (reset_counter n))).
Definition ex_ti : cframe := new_frame (mkFrame (B "TIT2") no_flags (BText (mkText 0 (B "abc")))).
Definition ex_frames : list cframe := [ex_ti; ex_pc 41; ex_pm (B "me@x") 7 255; ex_pm (B "you@x") 9 3].
Definition ex_opts (pol : frame_policy) : popm_opts := mkPopmOpts (Some 200) pol (Some (B "me@x")) 1 true false.

(** The frames the options name are brought up to date, the others are kept, in
    their order; what is created is created only if asked for and if no frame
    named was there.  Missing: creating together with a restriction to play
    counters, for which the claim is false (next theorem). *)
Theorem C43_named_partial : forall ic v o create cs upd cs', o_dry o = false -> create = false \/ o_policy o <> PcntOnly ->
  popm_tag ic v o create cs = Ok (upd, cs') -> popm_result ic v o create (names_popm ic v o) cs upd cs'.
Proof. exact popm_names. Qed.
Print Assumptions C43_named_partial.
Example C43_named_nontrivial :
  popm_tag ex_ic V23 (ex_opts Both) false ex_frames
  = Ok (true, [ex_ti; ex_pc 42; ex_pm (B "me@x") 200 256; ex_pm (B "you@x") 9 3]) /\
  popm_tag ex_ic V23 (ex_opts Both) true [ex_ti; ex_pm (B "you@x") 9 3]
  = Ok (true, [ex_ti; ex_pm (B "you@x") 9 3; ex_pc 3; ex_pm (B "me@x") 200 3]).
Proof. vm_compute. split; reflexivity. Qed.

(** Where frames are to be created, the popularimeters of the owner are changed
    whatever the restriction. *)
Theorem C43_create_refuted : forall ic v o cs upd cs', o_dry o = false ->
  popm_tag ic v o true cs = Ok (upd, cs') -> popm_result ic v o true (owned ic v o) cs upd cs'.
Proof. exact popm_create_owned. Qed.
Print Assumptions C43_create_refuted.
Example C43_create_nontrivial :
  popm_tag ex_ic V23 (ex_opts PcntOnly) true ex_frames
  = Ok (true, [ex_ti; ex_pc 42; ex_pm (B "me@x") 200 256; ex_pm (B "you@x") 9 3]) /\
  popm_tag ex_ic V23 (ex_opts PcntOnly) false ex_frames
  = Ok (true, [ex_ti; ex_pc 42; ex_pm (B "me@x") 7 255; ex_pm (B "you@x") 9 3]).
Proof. vm_compute. split; reflexivity. Qed.

(** A dry run reports what a run would, and changes nothing. *)
Theorem C43_dry_run : forall ic v o create cs upd cs', popm_tag ic v o create cs = Ok (upd, cs') ->
  popm_tag ic v (dry o) create cs = Ok (upd, cs).
Proof. exact popm_tag_dry. Qed.
Print Assumptions C43_dry_run.
Example C43_dry_run_nontrivial : popm_tag ex_ic V23 (dry (ex_opts Both)) true ex_frames = Ok (true, ex_frames).
Proof. vm_compute. reflexivity. Qed.

(** The command works on every tag whose counters have one to four bytes and
    whose addresses can be read. *)
Theorem C43_works : forall ic v o create cs, Forall (fun c => legible ic v (c_frame c)) cs ->
  exists upd cs', popm_tag ic v o create cs = Ok (upd, cs').
Proof. exact popm_tag_total. Qed.
Print Assumptions C43_works.
Example C43_works_nontrivial : Forall (fun c => legible ex_ic V23 (c_frame c)) ex_frames.
Proof.
  repeat apply Forall_cons; try apply Forall_nil; (split; [split|split]); cbn; try discriminate; eauto;
    intros ? E; inversion E; subst; vm_compute; eauto; (split; [repeat constructor|split; repeat constructor]).
Qed.

(** Two runs that add [a] and [b] plays are one that adds [a + b]. *)
Theorem C43_adding : forall ic v o a b cs u1 cs1 u2 cs2, o_dry o = false ->
  popm_tag ic v (adding a o) false cs = Ok (u1, cs1) ->
  popm_tag ic v (adding b o) false cs1 = Ok (u2, cs2) ->
  popm_tag ic v (adding (a + b) o) false cs = Ok (u1, cs2) /\ u2 = u1.
Proof. exact popm_tag_twice. Qed.
Print Assumptions C43_adding.
Example C43_adding_nontrivial :
  popm_tag ex_ic V23 (adding 300 (ex_opts Both)) false ex_frames
    = Ok (true, [ex_ti; ex_pc 341; ex_pm (B "me@x") 200 555; ex_pm (B "you@x") 9 3]) /\
  popm_tag ex_ic V23 (adding 7 (ex_opts Both)) false [ex_ti; ex_pc 341; ex_pm (B "me@x") 200 555; ex_pm (B "you@x") 9 3]
    = Ok (true, [ex_ti; ex_pc 348; ex_pm (B "me@x") 200 562; ex_pm (B "you@x") 9 3]).
Proof. vm_compute. split; reflexivity. Qed.

(** A count of 2^32 or more can be set, and no run that adds plays works on the
    tag afterwards. *)
Theorem C43_large_refuted : forall ic v o o' create create' cs upd cs',
  o_dry o = false -> o_increment o = false -> 2 ^ 32 <= o_count o -> o_policy o <> PopmOnly ->
  Exists (fun c => f_id (c_frame c) = count_id v) cs -> Forall (fun c => well_typed v (c_frame c)) cs ->
  popm_tag ic v o create cs = Ok (upd, cs') ->
  o_increment o' = true -> o_policy o' <> PopmOnly -> forall r, popm_tag ic v o' create' cs' <> Ok r.
Proof. exact popm_overflow. Qed.
Print Assumptions C43_large_refuted.
Example C43_large_nontrivial :
  popm_tag ex_ic V23 (mkPopmOpts None Both None (2 ^ 32) false false) false [ex_pc 1] = Ok (true, [ex_pc (2 ^ 32)]) /\
  popm_tag ex_ic V23 (ex_opts Both) false [ex_pc (2 ^ 32)] = Throw DomainError.
Proof. vm_compute. split; reflexivity. Qed.

(** Ratings: a number up to 255 is taken as it is; one to five stars stand for
    1, 64, 128, 196 and 255; nothing else is accepted, apart from numbers with a
    sign. *)
Theorem C43_rating_number : forall l n, numeral l n -> rating_from_text l = if n <=? 255 then Some n else None.
Proof. exact rating_numeral. Qed.
Print Assumptions C43_rating_number.
Example C43_rating_number_nontrivial : numeral (B "0196") 196 /\ rating_from_text (B "256") = None.
Proof. split; [split; [discriminate|split; [repeat constructor; discriminate|reflexivity]]|reflexivity]. Qed.

Theorem C43_rating_stars : forall l, star_text l -> rating_from_text l = nth_error [1; 64; 128; 196; 255] (pred (length l)).
Proof. exact rating_stars. Qed.
Print Assumptions C43_rating_stars.
Example C43_rating_stars_nontrivial : star_text (B "***") /\ rating_from_text (B "***") = Some 128.
Proof.
  split; [split; [cbn; lia|]|reflexivity].
  repeat constructor; right; right; vm_compute; intuition.
Qed.

Theorem C43_rating_other : forall l, ~ star_text l -> ~ Forall digit l -> hd 0 l <> 43 -> hd 0 l <> 45 ->
  rating_from_text l = None.
Proof. exact rating_none. Qed.
Print Assumptions C43_rating_other.
Example C43_rating_other_nontrivial : ~ star_text (B "******") /\ ~ Forall digit (B "******").
Proof.
  split; [intros [H _]; cbn in H; lia|]. intros H. inversion H as [|? ? D _]. unfold digit in D. cbn in D. lia.
Qed.
