(** * File.cpp over an ordinary file: bytes and a position

    Models FilePOSIX (File.cpp:39-56, 118-177) over read(2), write(2) and lseek(2) on a regular file.
    Simplification: no I/O errors and no short transfers other than end of file; a write past the end fills
    the gap with zero bytes, as POSIX files do. *)
From Verif Require Import Prelude.

Record file := mkFile { fbytes : list Z; fpos : Z }.

(** File.cpp:131-134 *)
Definition fread (f : file) (n : Z) : list Z * file :=
  let d := zfirstn n (zskipn (fpos f) (fbytes f)) in (d, mkFile (fbytes f) (fpos f + zlen d)).

(** File.cpp:136-139 *)
Definition overwrite (bytes : list Z) (pos : Z) (data : list Z) : list Z :=
  match data with
  | [] => bytes
  | _ => zfirstn pos (bytes ++ zrepeat 0 (pos - zlen bytes)) ++ data ++ zskipn (pos + zlen data) bytes
  end.
Definition fwrite (f : file) (data : list Z) : file :=
  mkFile (overwrite (fbytes f) (fpos f) data) (fpos f + zlen data).

(** File.cpp:152-164, SeekFromBeginning *)
Definition fseek (f : file) (off : Z) : file := mkFile (fbytes f) off.
(** File.cpp:166-169 *)
Definition ftell (f : file) : Z := fpos f.
(** File.cpp:141-150 *)
Definition flength (f : file) : Z := zlen (fbytes f).

(** The first [n] pieces of [k] bytes. *)
Fixpoint chunksOf (n : nat) (k : Z) (l : list Z) : list (list Z) :=
  match n with O => [] | S n' => zfirstn k l :: chunksOf n' k (zskipn k l) end.
