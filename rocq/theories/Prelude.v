(** * Common vocabulary of the audiofile model

    Models no particular source file: fixed-width C integers as [Z] with explicit
    reduction, the outcome type that keeps undefined behaviour and failed assertions
    apart from ordinary results, and byte-level encodings. *)
From Coq Require Export ZArith List Lia Bool.
Export ListNotations.
Open Scope Z_scope.

(** ** Outcomes *)

(** [Ok v]: the code returned [v].  [UB]: the C/C++ standard gives the execution no meaning
    (out-of-bounds access, signed overflow, out-of-range conversion, division by zero).
    [Abort]: an [assert] of the code failed.  [OutOfFuel]: the model's loop bound ran out;
    theorems about loops exclude it or prove it never happens. *)
Inductive res (A : Type) : Type :=
| Ok (a : A)
| UB
| Abort
| OutOfFuel.
Arguments Ok {A} a.
Arguments UB {A}.
Arguments Abort {A}.
Arguments OutOfFuel {A}.

Definition rbind {A B} (x : res A) (f : A -> res B) : res B :=
  match x with
  | Ok a => f a
  | UB => UB
  | Abort => Abort
  | OutOfFuel => OutOfFuel
  end.

Definition rmap {A B} (f : A -> B) (x : res A) : res B := rbind x (fun a => Ok (f a)).

Notation "'do' x <- e ; f" := (rbind e (fun x => f))
  (at level 200, x pattern, e at level 100, f at level 200, right associativity).

(** Whether [assert] is compiled in.  The project's own makefiles define NDEBUG (libaudiofile/Makefile.am:124,
    modules/Makefile.am:36-37): then it is not and execution goes on after a false assertion.  Every theorem
    that does not name a build holds of both. *)
Class Build := asserting : bool.
Definition Debug : Build := true.
Definition Release : Build := false.

(** [assert(b)] of <assert.h> *)
Definition rassert {B : Build} (b : bool) : res unit :=
  if b then Ok tt else if asserting then Abort else Ok tt.

Fixpoint rmapM {A B} (f : A -> res B) (l : list A) : res (list B) :=
  match l with
  | [] => Ok []
  | x :: l' => do y <- f x; do ys <- rmapM f l'; Ok (y :: ys)
  end.

(** ** Fixed-width integers *)

(** Unsigned reduction to [n] bits: conversion to uintN_t. *)
Definition uN (n : Z) (x : Z) : Z := x mod 2 ^ n.
(** Two's complement reduction to [n] bits: conversion to intN_t. *)
Definition sN (n : Z) (x : Z) : Z := (x + 2 ^ (n - 1)) mod 2 ^ n - 2 ^ (n - 1).

Definition u8 := uN 8.
Definition u16 := uN 16.
Definition u24 := uN 24.
Definition u32 := uN 32.
Definition u64 := uN 64.
Definition s8 := sN 8.
Definition s16 := sN 16.
Definition s24 := sN 24.
Definition s32 := sN 32.
Definition s64 := sN 64.

(** Range predicates (boolean, so hypotheses can be computed). *)
Definition inU (n : Z) (x : Z) : bool := (0 <=? x) && (x <? 2 ^ n).
Definition inS (n : Z) (x : Z) : bool := (- 2 ^ (n - 1) <=? x) && (x <? 2 ^ (n - 1)).

(** Checked signed 32-bit arithmetic: overflow is undefined behaviour. *)
Definition ck32 (x : Z) : res Z := if inS 32 x then Ok x else UB.

(** Array read: out of bounds is undefined behaviour. *)
Definition aget {A} (l : list A) (i : Z) : res A :=
  if i <? 0 then UB
  else match nth_error l (Z.to_nat i) with
       | Some a => Ok a
       | None => UB
       end.

(** ** Bytes *)

Definition byte_ok (b : Z) : bool := (0 <=? b) && (b <? 256).
Definition bytes_ok (l : list Z) : bool := forallb byte_ok l.

(** Little-endian bytes of the low [n] bytes of [x] and the value of such a list. *)
Fixpoint le_bytes (n : nat) (x : Z) : list Z :=
  match n with
  | O => []
  | S n' => x mod 256 :: le_bytes n' (x / 256)
  end.

Fixpoint le_val (l : list Z) : Z :=
  match l with
  | [] => 0
  | b :: l' => b + 256 * le_val l'
  end.

Definition be_bytes (n : nat) (x : Z) : list Z := rev (le_bytes n x).
Definition be_val (l : list Z) : Z := le_val (rev l).

(** ** Lists indexed by Z *)

Definition zlen {A} (l : list A) : Z := Z.of_nat (length l).
Definition zfirstn {A} (n : Z) (l : list A) : list A := firstn (Z.to_nat n) l.
Definition zskipn {A} (n : Z) (l : list A) : list A := skipn (Z.to_nat n) l.
Definition zrepeat {A} (a : A) (n : Z) : list A := repeat a (Z.to_nat n).
