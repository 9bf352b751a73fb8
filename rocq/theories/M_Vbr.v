(** * Model: the tags with which an encoder describes a stream (scribbu/mp3.cc, mp3.hh). *)
From Verif Require Import Base M_Ints M_Stream M_Mp3.
#[local] Open Scope N_scope.

(** scribbu/mp3.hh:623-648 [xing_mp3_tag]. *)
Record xing := mkXing { xi_frames : option N; xi_bytes : option N; xi_toc : option bytes; xi_quality : option N }.

(** scribbu/mp3.cc:123-152, the constructor.  The table is zeroed before it is read. *)
Definition xing_mp3_tag : ST xing :=
  do f <- sread_all 4;;
  let flags := nth 3 f 0 in
  do frames <- (if negb (N.land flags 1 =? 0) then do n <- sread_all 4;; sret (Some (be32 n)) else sret None);;
  do nbytes <- (if negb (N.land flags 2 =? 0) then do n <- sread_all 4;; sret (Some (be32 n)) else sret None);;
  do toc <- (if negb (N.land flags 4 =? 0) then do t <- sread 100;; sret (Some (t ++ repeatN 0 (100 - len t))) else sret None);;
  do qual <- (if negb (N.land flags 8 =? 0) then do n <- sread_all 4;; sret (Some (be32 n)) else sret None);;
  sret (mkXing frames nbytes toc qual).

(** scribbu/mp3.hh:658-691 [lame_mp3_tag]. *)
Inductive vbr_method := MUnknown | MConstant | MAbr | MVbr1 | MVbr2 | MVbr3 | MVbr4 | MCbrTwoPass | MAbrTwoPass.
Record lame := mkLame { la_id : bytes; la_method : vbr_method; la_bitrate : N; la_size : N }.

(** scribbu/mp3.cc:184-217 [vbr_method_for_bits]. *)
Definition vbr_method_for_bits (x : N) : vbr_method :=
  match x with
  | 1 => MConstant | 2 => MAbr | 3 => MVbr1 | 4 => MVbr2 | 5 => MVbr3 | 6 => MVbr4 | 8 => MCbrTwoPass | 9 => MAbrTwoPass
  | _ => MUnknown
  end.

(** scribbu/mp3.cc:158-182, the constructor, given the four bytes already read. *)
Definition lame_mp3_tag (tag_id : bytes) : ST lame :=
  do rest <- sread_all 5;;
  do m <- sread_all 1;;
  do _ <- seekg_rel 10;;
  do r <- sread_all 1;;
  do _ <- seekg_rel 7;;
  do n <- sread_all 4;;
  sret (mkLame (tag_id ++ rest) (vbr_method_for_bits (N.land (nth 0 m 0) 15)) (nth 0 r 0) (be32 n)).
