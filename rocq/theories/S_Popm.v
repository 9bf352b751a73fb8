(** * Specification: what the popm command is asked to do. *)
From Verif Require Import Base M_Ints S_Ints M_Payload M_Frame M_Charset M_Lookup M_Popm.

(** The frames the options name: play counters unless only popularimeters are
    asked for; popularimeters unless only play counters are asked for, and, where
    an owner is given, those whose e-mail address reads as the owner. *)
Definition names_pcnt (v : version) (o : popm_opts) (f : frame) : Prop :=
  f_id f = count_id v /\ o_policy o <> PopmOnly.
Definition owned (ic : iconv_t) (v : version) (o : popm_opts) (f : frame) : Prop :=
  f_id f = popm_id v /\
  forall p w, f_body f = BPopm p -> o_owner o = Some w -> to_string ic (po_email p) E_ASCII E_UTF_8 NoFail = Ok w.
Definition names_popm (ic : iconv_t) (v : version) (o : popm_opts) (f : frame) : Prop :=
  owned ic v o f /\ o_policy o <> PcntOnly.
Definition named (ic : iconv_t) (v : version) (o : popm_opts) (f : frame) : Prop :=
  names_pcnt v o f \/ names_popm ic v o f.

(** The counter of a frame. *)
Definition counter_of (f : frame) : option bytes :=
  match f_body f with BCount b => Some b | BPopm p => Some (po_counter p) | _ => None end.

(** A frame brought up to date: the same frame with the count [n] and, in a
    popularimeter, the rating asked for, if any; the owner stays. *)
Definition with_count (n : N) (rating : option N) (f : frame) : frame :=
  mkFrame (f_id f) (f_flags f)
    match f_body f with
    | BCount _ => BCount (reset_counter n)
    | BPopm p => BPopm (mkPopm (po_email p) (match rating with Some r => r | None => po_rating p end) (reset_counter n))
    | b => b
    end.

(** [f] brought up to date as [o] asks: with the given count, or with that much
    added to the count there is. *)
Definition brought (o : popm_opts) (f f' : frame) : Prop :=
  exists n, f' = with_count n (o_rating o) f /\
    if o_increment o then exists b m, counter_of f = Some b /\ counter_value b = Ok m /\ n = (o_count o + m) mod 2 ^ 64
    else n = o_count o.

(** Frames as they should be afterwards: those for which [want] holds brought up
    to date, all others as they were, in the same order. *)
Definition popm_updated (want : frame -> Prop) (o : popm_opts) (cs cs' : list cframe) : Prop :=
  Forall2 (fun c c' => (want (c_frame c) /\ brought o (c_frame c) (c_frame c') \/ ~ want (c_frame c) /\ c' = c) /\
                       c_dirty c' = c_dirty c) cs cs'.

(** The counters of a tag are readable: one to four bytes. *)
Definition readable (c : bytes) : Prop := (1 <= length c <= 4)%nat.

(** The frames are of the classes their identifiers stand for, as after reading. *)
Definition well_typed (v : version) (f : frame) : Prop :=
  (f_id f = count_id v -> exists b, f_body f = BCount b) /\
  (f_id f = popm_id v -> exists p, f_body f = BPopm p).

(** The highest count among the play counters and popularimeters of a tag, zero
    if there are none. *)
Definition play_frame (v : version) (f : frame) : Prop := f_id f = count_id v \/ f_id f = popm_id v.
Definition count_is (f : frame) (n : N) : Prop := exists b, counter_of f = Some b /\ positional 256 b = n.
Definition highest (v : version) (cs : list cframe) (n : N) : Prop :=
  (forall c, In c cs -> play_frame v (c_frame c) -> exists m, count_is (c_frame c) m /\ m <= n) /\
  (n = 0 \/ exists c, In c cs /\ play_frame v (c_frame c) /\ count_is (c_frame c) n).

(** The same options on a dry run, and with another count. *)
Definition dry (o : popm_opts) : popm_opts :=
  mkPopmOpts (o_rating o) (o_policy o) (o_owner o) (o_count o) (o_increment o) true.
Definition adding (n : N) (o : popm_opts) : popm_opts :=
  mkPopmOpts (o_rating o) (o_policy o) (o_owner o) n true (o_dry o).

(** Everything the command reads from a tag can be read. *)
Definition legible (ic : iconv_t) (v : version) (f : frame) : Prop :=
  well_typed v f /\
  (forall b, counter_of f = Some b -> is_bytes b /\ readable b) /\
  (forall p, f_body f = BPopm p -> exists e, to_string ic (po_email p) E_ASCII E_UTF_8 NoFail = Ok e).

Definition count_bytes (f : frame) : Prop := forall b, counter_of f = Some b -> is_bytes b.

(** The frames made. *)
Definition pcnt_made (v : version) (pc : N) : cframe := new_frame (mkFrame (count_id v) no_flags (BCount (reset_counter pc))).
Definition popm_made (v : version) (w : bytes) (r pc : N) : cframe :=
  new_frame (mkFrame (popm_id v) no_flags (BPopm (mkPopm w r (reset_counter pc)))).

Definition popm_result (ic : iconv_t) (v : version) (o : popm_opts) (create : bool) (want_popm : frame -> Prop) (cs : list cframe)
    (upd : bool) (cs' : list cframe) : Prop :=
  exists changed made_pcnt made_popm,
    cs' = changed ++ made_pcnt ++ made_popm /\
    popm_updated (fun f => names_pcnt v o f \/ want_popm f) o cs changed /\
    (made_pcnt <> [] <-> create = true /\ o_policy o <> PopmOnly /\ ~ Exists (fun c => names_pcnt v o (c_frame c)) cs) /\
    (made_popm <> [] <-> create = true /\ o_policy o <> PcntOnly /\ o_owner o <> None /\ o_rating o <> None /\
                         ~ Exists (fun c => want_popm (c_frame c)) cs) /\
    (Forall (fun c => count_bytes (c_frame c)) cs -> exists pc,
       (create = true -> exists n, highest v changed n /\ pc = if n =? 0 then o_count o else n) /\
       (made_pcnt = [] \/ made_pcnt = [pcnt_made v pc]) /\
       (made_popm = [] \/ exists w r, o_owner o = Some w /\ o_rating o = Some r /\ made_popm = [popm_made v w r pc])) /\
    (upd = true <-> Exists (fun c => names_pcnt v o (c_frame c) \/ want_popm (c_frame c)) cs \/ made_pcnt <> [] \/ made_popm <> []).


(** A decimal number, and what it stands for. *)
Definition digit (c : N) : Prop := 48 <= c <= 57.
Definition numeral (l : bytes) (n : N) : Prop :=
  l <> [] /\ Forall digit l /\ n = positional 10 (map (fun c => c - 48) l).
(** The letters of the alphabet and five signs can stand for stars. *)
Definition star_char (c : N) : Prop := 65 <= c <= 90 \/ 97 <= c <= 122 \/ In c (B "@#%*+").
Definition star_text (l : bytes) : Prop := (1 <= length l <= 5)%nat /\ Forall star_char l.
