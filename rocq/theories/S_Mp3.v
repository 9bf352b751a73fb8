(** * Specification: MPEG audio layer III frames.

    The header is the usual AAAAAAAA AAABBCCD EEEEFFGH IIJJKLMM of the MPEG
    standards (ISO 11172-3 and 13818-3, and the 2.5 extension). *)
From Verif Require Import Base S_Ints.

Record layout := mkLayout {
  f_B : N;   (* 2 bits: version; 3 = MPEG 1, 2 = MPEG 2, 0 = MPEG 2.5 *)
  f_C : N;   (* 2 bits: layer; 1 = layer III *)
  f_D : N;   (* 1 bit: 0 = a 16 bit checksum follows the header *)
  f_E : N;   (* 4 bits: bit rate index *)
  f_F : N;   (* 2 bits: sampling rate index *)
  f_G : N;   (* 1 bit: the frame has one byte of padding *)
  f_H : N;   (* 1 bit: private *)
  f_I : N;   (* 2 bits: channel mode; 3 = mono *)
  f_J : N;   (* 2 bits: mode extension *)
  f_K : N;   (* 1 bit: copyright *)
  f_L : N;   (* 1 bit: original *)
  f_M : N    (* 2 bits: emphasis *)
}.

Definition in_range (h : layout) : Prop :=
  f_B h < 4 /\ f_C h < 4 /\ f_D h < 2 /\ f_E h < 16 /\ f_F h < 4 /\ f_G h < 2 /\ f_H h < 2 /\
  f_I h < 4 /\ f_J h < 4 /\ f_K h < 2 /\ f_L h < 2 /\ f_M h < 4.

Definition header_bytes (h : layout) : bytes :=
  [255;
   224 + 8 * f_B h + 2 * f_C h + f_D h;
   16 * f_E h + 4 * f_F h + 2 * f_G h + f_H h;
   64 * f_I h + 16 * f_J h + 8 * f_K h + 4 * f_L h + f_M h].

(** A layer III header with a listed bit rate ("free" has none) and a defined
    sampling rate. *)
Definition proper (h : layout) : Prop :=
  in_range h /\ f_B h <> 1 /\ f_C h = 1 /\ f_E h <> 0 /\ f_E h <> 15 /\ f_F h <> 3.

(** Bit rates in kbit/s: layer III of MPEG 1, and of MPEG 2 and 2.5. *)
Definition kbps (h : layout) : N :=
  nth (N.to_nat (f_E h))
    (if f_B h =? 3
     then [0; 32; 40; 48; 56; 64; 80; 96; 112; 128; 160; 192; 224; 256; 320]
     else [0; 8; 16; 24; 32; 40; 48; 56; 64; 80; 96; 112; 128; 144; 160]) 0.

(** Sampling rates: MPEG 2 halves those of MPEG 1, MPEG 2.5 halves them again. *)
Definition hz (h : layout) : N :=
  nth (N.to_nat (f_F h)) [44100; 48000; 32000] 0
  / (if f_B h =? 3 then 1 else if f_B h =? 2 then 2 else 4).

Definition samples (h : layout) : N := if f_B h =? 3 then 1152 else 576.

(** Side information, in bytes. *)
Definition side_info (h : layout) : N :=
  if f_B h =? 3 then (if f_I h =? 3 then 17 else 32) else (if f_I h =? 3 then 9 else 17).

Definition checksum (h : layout) : N := if f_D h =? 0 then 2 else 0.

(** samples / 8 * bit rate / sampling rate, rounded down, and the padding. *)
Definition frame_length (h : layout) : N :=
  samples h / 8 * (1000 * kbps h) / hz h + f_G h.

(** A whole frame. *)
Definition is_frame (h : layout) (f : bytes) : Prop :=
  proper h /\ takeN 4 f = header_bytes h /\ len f = frame_length h.

(** A sync at an offset. *)
Definition sync_at (data : bytes) (p : N) : Prop :=
  exists b0 b1 r, dropN p data = b0 :: b1 :: r /\ b0 = 255 /\ 224 <= b1.

Definition first_sync (data : bytes) (from p : N) : Prop :=
  from <= p /\ sync_at data p /\ forall q, from <= q -> q < p -> ~ sync_at data q.

(** No variable bit rate header in the frame with layout [h] at [p]: neither
    after the side information nor (as encoders that count the checksum wrongly
    have it) two bytes before, nor "VBRI" 32 bytes after the header. *)
Definition no_vbr (data : bytes) (h : layout) (p : N) : Prop :=
  let q := p + 4 + checksum h + side_info h in
  (forall x, x = B "Xing" \/ x = B "Info" -> slice q 4 data <> x /\ slice (q - 2) 4 data <> x) /\
  slice (p + 4 + checksum h + 32) 4 data <> B "VBRI".

(** Nothing that looks like a frame follows. *)
Definition no_frame_follows (rest : bytes) : Prop := len rest < 4 \/ ~ sync_at rest 0.

(** An Xing tag at [q] that says how many frames and bytes there are: "Xing" or
    "Info", four bytes of flags, the low two bits of the last of which are set,
    and two big-endian numbers. *)
Definition xing_tag (data : bytes) (q frames nbytes : N) : Prop :=
  (slice q 4 data = B "Xing" \/ slice q 4 data = B "Info") /\
  (exists a b c d, slice (q + 4) 4 data = [a; b; c; d] /\ d mod 4 = 3) /\
  (exists n, slice (q + 8) 4 data = n /\ is_bytes n /\ frames = positional 256 n) /\
  (exists n, slice (q + 12) 4 data = n /\ is_bytes n /\ nbytes = positional 256 n).

(** No "L3." (the other mark of a LAME tag) from [q] on. *)
Definition no_l3 (data : bytes) (q : N) : Prop :=
  forall r, q <= r -> slice r 3 data <> B "L3.".
