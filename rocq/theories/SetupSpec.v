(** * What the file formats can hold: the specification for C49 and C62 *)
From Verif Require Import Prelude PreludeFacts ByteOrder Convert Float HeaderIO Setup SetupFacts.
From Verif Require Arrange.

(** ** Specification: what the file formats can hold *)
(** Linear audio: the sample formats, widths and byte orders of the formats' definitions (for NIST SPHERE: as far as the library goes). *)
Definition linearHolds (ff : ffmt) (sf : sampfmt) (w : Z) (o : order) : Prop :=
  let floats := sf = Float /\ w = 32 \/ sf = Double /\ w = 64 in
  let bytes := w = 8 \/ w = 16 \/ w = 24 \/ w = 32 in
  match ff with
  | F_RAW => floats \/ (sf = TwosComp \/ sf = Unsigned) /\ 1 <= w <= 32
  | F_AIFF => sf = TwosComp /\ 1 <= w <= 32 /\ o = BigEndian
  | F_AIFFC => (floats \/ sf = TwosComp /\ 1 <= w <= 32) /\ o = BigEndian
  | F_NEXT => (floats \/ sf = TwosComp /\ bytes) /\ o = BigEndian
  | F_WAVE => (floats \/ sf = TwosComp /\ 8 < w <= 32 \/ sf = Unsigned /\ 1 <= w <= 8) /\ o = LittleEndian
  | F_IRCAM => floats \/ sf = TwosComp /\ bytes
  | F_AVR => (sf = TwosComp \/ sf = Unsigned) /\ (w = 8 \/ w = 16) /\ o = BigEndian
  | F_IFF => sf = TwosComp /\ w = 8 /\ o = BigEndian
  | F_SMP => sf = TwosComp /\ w = 16 /\ o = LittleEndian
  | F_VOC => (sf = TwosComp /\ w = 16 \/ sf = Unsigned /\ w = 8) /\ o = LittleEndian
  | F_NIST => sf = TwosComp /\ 1 <= w <= 16
  | F_CAF => floats \/ sf = TwosComp /\ 1 <= w <= 32
  end.
(** Numbers of channels that fit the header. *)
Definition channelsFit (ff : ffmt) (n : Z) : Prop :=
  match ff with
  | F_AVR => n = 1 \/ n = 2
  | F_IFF | F_SMP => n = 1
  | F_IRCAM => n = 1 \/ n = 2 \/ n = 4
  | F_VOC => 1 <= n < 256
  | F_AIFF | F_AIFFC | F_WAVE => 1 <= n < 65536
  | F_RAW | F_NEXT | F_NIST | F_CAF => 1 <= n < 2147483648
  end.
(** Compressed audio: the codecs take 16-bit samples of the machine's byte order (ALAC also wider ones). *)
Definition canHold (host : order) (ff : ffmt) (sf : sampfmt) (w : Z) (o : order) (c : compression) (n : Z) : Prop :=
  channelsFit ff n /\
  match c with
  | CNone => linearHolds ff sf w o
  | CUlaw | CAlaw => In ff [F_RAW; F_AIFFC; F_NEXT; F_WAVE; F_IRCAM; F_VOC; F_NIST; F_CAF] /\ sf = TwosComp /\ w = 16 /\ o = host
  | CIMA => In ff [F_AIFFC; F_WAVE; F_CAF] /\ sf = TwosComp /\ w = 16 /\ o = host /\ n <= 2
  | CMSADPCM => ff = F_WAVE /\ sf = TwosComp /\ w = 16 /\ o = host /\ n <= 2
  | CALAC => ff = F_CAF /\ sf = TwosComp /\ In w [16; 20; 24; 32] /\ o = host /\ n <= 8
  | CFLAC => False
  end.
(** Sample rates the header can hold; for WAVE also the frame size and the byte rate must fit their fields. *)
Definition rateFits (ff : ffmt) (r : spec_float) (w n : Z) : Prop :=
  match ff with
  | F_RAW | F_AIFF | F_AIFFC | F_IRCAM | F_SMP | F_CAF => True
  | F_NEXT | F_AVR | F_VOC => exists z, truncZ r = Some z /\ 0 <= z < 2 ^ 32
  | F_IFF => exists z, truncZ r = Some z /\ 0 <= z < 2 ^ 16
  | F_NIST => exists z, truncZ r = Some z /\ 0 <= z < 2 ^ 31
  | F_WAVE => exists z, truncZ r = Some z /\ 0 <= z /\ (w + 7) / 8 * n < 2 ^ 16 /\ z * ((w + 7) / 8 * n) < 2 ^ 32
  end.

(** Calls with values of the argument types: a number of channels is an int, a rate a double; no NaN in a mapping; FLAC is not modelled. *)
Definition ordinary (c : scall) : Prop :=
  match c with
  | SChannels n => n < 2147483648
  | SRate r => validD r = true
  | SCompression c => c <> CFLAC
  | SPCMMapping m => isNaN (Arrange.slope m) = false /\ isNaN (Arrange.intercept m) = false /\ isNaN (Arrange.minClip m) = false /\ isNaN (Arrange.maxClip m) = false
  | _ => True
  end.
(** A setup the program made with afNewFileSetup and these calls. *)
Definition made (host : order) (calls : list scall) (s : setup) : Prop :=
  (forall c, In c calls -> ordinary c) /\ fold_left scallStep calls (newSetup host) = s.

