(** * Lemmas: playlists. *)
From Verif Require Import Base M_Ints M_Stream M_Id3v1 M_Payload M_Frame M_Charset M_TextId M_Lookup M_Mp3 M_Read M_Fs M_Tagset M_Process M_Cmds M_Split M_Rename M_Dirent M_M3u
  S_Lookup S_Cmds S_Tagset S_Read S_Dirent S_M3u L_Fs L_Lookup L_Read L_Id3v1c L_Cmds L_Cmds5 L_Dirent.
#[local] Open Scope N_scope.

(** ** Reading back *)
Lemma lines_line x r : ~ In 10 x -> lines (x ++ 10 :: r) = x :: lines r.
Proof.
  induction x as [|c x IH]; intros H; [reflexivity|]. cbn [app lines].
  destruct (N.eqb_spec c 10) as [->|E]; [elim H; left; reflexivity|].
  rewrite IH by (intros M; apply H; right; exact M). reflexivity.
Qed.
Lemma lines_ended x r : lines (x ++ 10 :: r) = lines (x ++ [10]) ++ lines r.
Proof.
  induction x as [|c x IH]; [reflexivity|]. cbn [app lines]. rewrite IH.
  destruct (N.eqb_spec c 10) as [->|E]; [reflexivity|].
  destruct (lines (x ++ [10])) as [|y t] eqn:L; [|reflexivity].
  exfalso. destruct x as [|d x]; [discriminate L|]. cbn [app lines] in L. destruct (d =? 10); [discriminate L|]. destruct (lines (x ++ [10])); discriminate L.
Qed.

Lemma digits_app ds r : forallb is_digit ds = true -> (forall c t, r = c :: t -> is_digit c = false) -> digits (ds ++ r) = (ds, r).
Proof.
  intros D H. induction ds as [|c ds IH].
  - cbn [app]. destruct r as [|c t]; [reflexivity|]. cbn [digits]. pose proof (H c t eq_refl) as E. unfold is_digit in E. rewrite E. reflexivity.
  - cbn [forallb] in D. apply andb_true_iff in D as (C & D). cbn [app digits]. unfold is_digit in C. rewrite C, IH by exact D. reflexivity.
Qed.
Lemma after_app p r : after p (p ++ r) = Some r.
Proof. induction p as [|a p IH]; [destruct r; reflexivity|]. cbn [app after]. rewrite N.eqb_refl. exact IH. Qed.
Lemma extinf_line n title : extinf (B "#EXTINF:" ++ decimal n ++ B "," ++ title) = Some (n, title).
Proof.
  unfold extinf. rewrite after_app. destruct (decimal_spec n) as (V & D & NE).
  change (B ",") with [44]. cbn [app]. rewrite digits_app; [|exact D|].
  - destruct (decimal n) as [|c r] eqn:E; [congruence|]. cbv iota beta. rewrite V. reflexivity.
  - intros c t E. injection E as <- _. reflexivity.
Qed.

Lemma decimal_no n c : is_digit c = false -> ~ In c (decimal n).
Proof. intros H M. destruct (decimal_spec n) as (_ & D & _). rewrite forallb_forall in D. rewrite (D c M) in H. discriminate H. Qed.

Lemma listed_entry info d title path r : listable title path ->
  listed info (lines (m3u_entry d title path ++ r)) = (Some (whole_seconds d, title), path) :: listed None (lines r).
Proof.
  intros (NT & NP & PE & PC). unfold m3u_entry.
  replace ((B "#EXTINF:" ++ decimal (whole_seconds d) ++ B "," ++ title ++ [10] ++ path ++ [10]) ++ r)
    with ((B "#EXTINF:" ++ decimal (whole_seconds d) ++ B "," ++ title) ++ 10 :: (path ++ 10 :: r)) by (rewrite <- !app_assoc; reflexivity).
  rewrite lines_line.
  2:{ rewrite !in_app_iff. intros [M|[M|[M|M]]]; [|eapply decimal_no; [|exact M]; reflexivity| |exact (NT M)]; vm_compute in M; intuition discriminate. }
  rewrite lines_line by exact NP. pose proof (extinf_line (whole_seconds d) title) as X.
  set (l := B "#EXTINF:" ++ decimal (whole_seconds d) ++ B "," ++ title) in *.
  assert (L : exists t, l = 35 :: t) by (eexists; reflexivity). destruct L as (t & ->). cbn [listed]. rewrite X.
  destruct path as [|c p]; [congruence|]. cbn [hd] in PC. cbn [listed].
  destruct (N.eq_dec c 35); [contradiction|].
  destruct c as [|q]; [reflexivity|]. do 6 (destruct q as [q|q|]; try reflexivity). congruence.
Qed.

(** A list of entries. *)
Definition entry_text (x : (N * N) * bytes * bytes) : bytes := m3u_entry (fst (fst x)) (snd (fst x)) (snd x).
Definition entry_info (x : (N * N) * bytes * bytes) : option (N * bytes) * bytes := (Some (whole_seconds (fst (fst x)), snd (fst x)), snd x).
Lemma listed_entries xs : Forall (fun x => listable (snd (fst x)) (snd x)) xs -> forall info, listed info (lines (concat (map entry_text xs))) = map entry_info xs.
Proof.
  induction 1 as [|((d, t), p) xs H F IH]; intros info; [reflexivity|]. cbn [map concat]. unfold entry_text at 1. cbn [fst snd] in *.
  rewrite listed_entry by exact H. rewrite IH. reflexivity.
Qed.

Definition header : bytes := B "#EXTM3U" ++ [10].
Lemma listed_header info r : listed info (lines (header ++ r)) = listed info (lines r).
Proof.
  unfold header. rewrite <- app_assoc. change ([10] ++ r) with (10 :: r). rewrite lines_line by (vm_compute; intuition discriminate). reflexivity.
Qed.

Lemma listed_path info c l r : c <> 35 -> listed info ((c :: l) :: r) = (info, c :: l) :: listed None r.
Proof.
  intros NE. cbn [listed]. destruct c as [|q]; [reflexivity|]. do 6 (destruct q as [q|q|]; try reflexivity). congruence.
Qed.
Lemma listed_app a : forall info b, exists info', listed info (a ++ b) = listed info a ++ listed info' b.
Proof.
  induction a as [|l a IH]; intros info b; [exists info; reflexivity|]. cbn [app].
  destruct l as [|c l]; [exact (IH info b)|].
  destruct (N.eq_dec c 35) as [->|NE]; [exact (IH _ b)|].
  rewrite !listed_path by exact NE. destruct (IH None b) as (i & E). exists i. rewrite E. reflexivity.
Qed.
Lemma playlist_appended old xs : ended old -> Forall (fun x => listable (snd (fst x)) (snd x)) xs ->
  playlist (old ++ header ++ concat (map entry_text xs)) = playlist old ++ map entry_info xs.
Proof.
  intros E F. unfold playlist. destruct E as [->|(x & ->)].
  - cbn [app lines listed]. rewrite listed_header. apply listed_entries. exact F.
  - rewrite <- app_assoc. change ([10] ++ header ++ concat (map entry_text xs)) with (10 :: header ++ concat (map entry_text xs)).
    rewrite lines_ended. destruct (listed_app (lines (x ++ [10])) None (lines (header ++ concat (map entry_text xs)))) as (i & ->).
    rewrite listed_header, listed_entries by exact F. reflexivity.
Qed.

(** A line that is not ended takes the header in. *)
Lemma lines_glued x h r : ~ In 10 x -> ~ In 10 h -> lines (x ++ h ++ 10 :: r) = (x ++ h) :: lines r.
Proof. intros A C. rewrite app_assoc. apply lines_line. rewrite in_app_iff. tauto. Qed.

Lemma nearest_whole d : 0 < snd d -> nearest (whole_seconds d) d.
Proof.
  intros P. unfold nearest, whole_seconds. set (a := 2 * fst d + snd d). set (q := snd d) in *.
  assert (Q : 2 * q <> 0) by lia. pose proof (N.div_mod a (2 * q) Q) as D. pose proof (N.mod_lt a (2 * q) Q) as M.
  set (k := a / (2 * q)) in *. split; nia.
Qed.

(** ** The display title *)
Lemma has_frame_iff t id : fresh t -> negb (has_frame (tables t) id =? 0) = true <-> with_id id (shown t) <> [].
Proof.
  intros F. destruct (ready_fresh t F) as (_ & R & _). destruct (ids_agree_l _ _ R id) as (E & _).
  rewrite E, tables_frames. destruct (with_id id (shown t)) as [|f l]; cbn [length].
  - split; [discriminate|congruence].
  - split; [discriminate|]. intros _. destruct (N.eqb_spec (N.of_nat (S (length l))) 0); [lia|reflexivity].
Qed.
Lemma has_both_iff t : fresh t -> has_both t = true <-> names_both t.
Proof.
  intros F. unfold has_both, names_both. rewrite andb_true_iff, !has_frame_iff by exact F. reflexivity.
Qed.
Lemma find_both v2 : Forall fresh v2 ->
  match find has_both v2 with
  | Some t => first_with_both v2 t /\ fresh t
  | None => forall t, ~ first_with_both v2 t
  end.
Proof.
  induction 1 as [|t v2 F FF IH].
  - intros t (a & b & E & _). destruct a; discriminate E.
  - cbn [find]. destruct (has_both t) eqn:H.
    + apply has_both_iff in H; [|exact F]. split; [|exact F]. exists [], v2. repeat split; [constructor|apply H|apply H].
    + assert (N1 : ~ names_both t) by (intros C; apply has_both_iff in C; [congruence|exact F]).
      destruct (find has_both v2) as [u|].
      * destruct IH as ((a & b & -> & A & U) & FU). split; [|exact FU]. exists (t :: a), b. repeat split; [constructor; assumption|apply U|apply U].
      * intros u (a & b & E & A & U). destruct a as [|x a]; cbn [app] in E.
        -- injection E as <- _. contradiction.
        -- injection E as _ E. subst v2. inversion A; subst. apply (IH u). exists a, b. auto.
Qed.

Lemma v2_text_told w o t id : fresh t -> kind_of (any_version t) id = KText -> with_id id (shown t) <> [] ->
  exists f, In f (with_id id (shown t)) /\ told w o (any_version t) f (v2_text w o t id).
Proof.
  intros F KT W. destruct (ready_fresh t F) as (R & _). rewrite <- tables_frames in W |- *.
  pose proof (with_id_found _ _ _ R KT W) as V. unfold v2_text.
  destruct (pick_some (w_texts w (l_texts (tables t)) id) _ V) as (a & P). assert (M := pick_In _ _ _ P). apply values_In in M.
  destruct (y_texts _ _ R id a M) as (i & c & u & X & ID & BT).
  exists (c_frame c). split; [apply with_id_In; eauto 6|]. exists u. split; [exact BT|].
  unfold find_text. rewrite P, (at_addr_spec _ _ _ _ (y_nodup _ _ R) X), BT. reflexivity.
Qed.
Lemma kind_artist v : kind_of v (artist_id v) = KText.
Proof. destruct v; reflexivity. Qed.
Lemma kind_title v : kind_of v (title_id v) = KText.
Proof. destruct v; reflexivity. Qed.

Lemma both_cases a b : (a <> [] /\ b <> [] /\ both a b = Some (a ++ B " - " ++ b)) \/ ((a = [] \/ b = []) /\ both a b = None).
Proof. destruct a, b; cbn; auto. left. repeat split; discriminate. Qed.

(** The source encoding of the ID3v1 tag. *)
Definition source (loc : outcome enc) (o : m3u_opts) (src : enc) : Prop := match m3_src o with Some e => e = src | None => loc = Ok src end.
Lemma v1_field_told w loc o src field : source loc o src -> char_unit (m3_dst o) = true -> field_told w src o field (v1_field_text w loc o field).
Proof.
  intros S1 C. unfold field_told, v1_field_text. rewrite C. cbn [negb]. unfold source in S1. destruct (m3_src o) as [e|].
  - subst e. reflexivity.
  - rewrite S1. reflexivity.
Qed.

Definition v2_none (w : world) (o : m3u_opts) (v2 : list anytag) : Prop :=
  (forall t, ~ first_with_both v2 t) \/ exists c d, v2_names w o v2 c d /\ (c = [] \/ d = []).

Lemma v1_display w loc o src v2 v1 name g : source loc o src -> char_unit (m3_dst o) = true -> v2_none w o v2 ->
  match (match v1 with
         | Some t => let* a := v1_field_text w loc o (v_artist t) in let* b := v1_field_text w loc o (v_title t) in Ok (both a b)
         | None => Ok None
         end) with Throw IconvError => Ok None | r => r end = Ok g ->
  display w src o v2 v1 name (match g with Some s => s | None => name end).
Proof.
  intros S1 C V E. destruct v1 as [t|].
  2:{ injection E as <-. apply by_name; [exact V|left; reflexivity]. }
  pose proof (v1_field_told w loc o src (v_artist t) S1 C) as A. pose proof (v1_field_told w loc o src (v_title t) S1 C) as T.
  destruct (v1_field_text w loc o (v_artist t)) as [a|e|u|]; cbn [bind] in E.
  - destruct (v1_field_text w loc o (v_title t)) as [b|e|u|]; cbn [bind] in E.
    + assert (VN : v1_names w src o (Some t) a b) by (exists t; auto).
      destruct (both_cases a b) as [(NA & NB & Q)|(Q0 & Q)]; rewrite Q in E; injection E as <-.
      * apply by_v1; assumption.
      * apply by_name; [exact V|]. right. exists a, b. auto.
    + destruct e; try discriminate E. injection E as <-. apply by_name_garbled. right. exists t. auto.
    + discriminate E.
    + discriminate E.
  - destruct e; try discriminate E. injection E as <-. apply by_name_garbled. right. exists t. auto.
  - discriminate E.
  - discriminate E.
Qed.

Lemma guess_display w loc o src v2 v1 name g : Forall fresh v2 -> source loc o src -> char_unit (m3_dst o) = true ->
  guess_display_title w loc o v2 v1 = Ok g -> display w src o v2 v1 name (match g with Some s => s | None => name end).
Proof.
  intros F S1 C. unfold guess_display_title, try_title. pose proof (find_both v2 F) as FB. destruct (find has_both v2) as [t|].
  - destruct FB as (FB & FT). assert (NB := FB). destruct NB as (x & y & _ & _ & N1 & N2).
    destruct (v2_text_told w o t _ FT (kind_artist _) N1) as (f & Mf & Tf). destruct (v2_text_told w o t _ FT (kind_title _) N2) as (h & Mh & Th).
    destruct (v2_text w o t (artist_id (any_version t))) as [a|e|u|]; cbn [bind]; intros E.
    + destruct (v2_text w o t (title_id (any_version t))) as [b|e|u|]; cbn [bind] in E.
      * assert (VN : v2_names w o v2 a b) by (exists t, f, h; auto).
        destruct (both_cases a b) as [(NA & NB & Q)|(Q0 & Q)]; rewrite Q in E.
        -- injection E as <-. apply by_v2; assumption.
        -- apply (v1_display w loc o src v2 v1 name g S1 C); [right; eauto|exact E].
      * destruct e; try discriminate E. injection E as <-. apply by_name_garbled. left. exists t, h. auto.
      * discriminate E.
      * discriminate E.
    + destruct e; try discriminate E. injection E as <-. apply by_name_garbled. left. exists t, f. auto.
    + discriminate E.
    + discriminate E.
  - cbn [bind]. intros E. apply (v1_display w loc o src v2 v1 name g S1 C); [left; exact FB|exact E].
Qed.

(** When there is a title: the encodings that the texts claim are known. *)
Lemma to_string_total ic buf src dst rsp : char_unit dst = true -> (exists s, to_string ic buf src dst rsp = Ok s) \/ to_string ic buf src dst rsp = Throw IconvError.
Proof. intros C. unfold to_string. rewrite C. cbn [negb]. destruct buf; [eauto|]. destruct (ic _ _ _ _); eauto. Qed.
Lemma guess_total w loc o src v2 v1 : Forall fresh v2 -> source loc o src -> char_unit (m3_dst o) = true -> readable w o v2 ->
  exists g, guess_display_title w loc o v2 v1 = Ok g.
Proof.
  intros F S1 C RD. unfold guess_display_title, try_title.
  assert (V1 : exists g, match (match v1 with
         | Some t => let* a := v1_field_text w loc o (v_artist t) in let* b := v1_field_text w loc o (v_title t) in Ok (both a b)
         | None => Ok None
         end) with Throw IconvError => Ok None | r => r end = Ok g).
  { destruct v1 as [t|]; [|eauto]. pose proof (v1_field_told w loc o src (v_artist t) S1 C) as A. pose proof (v1_field_told w loc o src (v_title t) S1 C) as T.
    unfold field_told in A, T. rewrite <- A, <- T.
    destruct (to_string_total (w_ic w) (v_artist t) src (m3_dst o) (m3_rsp o) C) as [(a & ->) | ->]; cbn [bind]; [|eauto].
    destruct (to_string_total (w_ic w) (v_title t) src (m3_dst o) (m3_rsp o) C) as [(b & ->) | ->]; cbn [bind]; eauto. }
  pose proof (find_both v2 F) as FB. destruct (find has_both v2) as [t|]; [|exact V1].
  destruct FB as (FB & FT). assert (NB := FB). destruct NB as (x & y & _ & _ & N1 & N2).
  destruct (v2_text_told w o t _ FT (kind_artist _) N1) as (f & Mf & Tf). destruct (v2_text_told w o t _ FT (kind_title _) N2) as (h & Mh & Th).
  destruct (RD t f _ FB (or_introl Mf) Tf) as [(a & ->) | ->]; cbn [bind]; [|eauto].
  destruct (RD t h _ FB (or_intror Mh) Th) as [(b & ->) | ->]; cbn [bind]; [|eauto].
  destruct (both a b); [eauto|exact V1].
Qed.
