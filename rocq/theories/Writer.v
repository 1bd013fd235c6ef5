(** The fixed-size message writer.  Source: /repo/ua/bytes_writer.go. *)
From Coq Require Import ZArith List Bool Strings.Byte.
From Verif Require Import Bytes.
Import ListNotations.
Open Scope nat_scope.

(** bytes_writer.go:10: underlying slice and writing index *)
Record writer := mkW { w_buf : bytes; w_i : nat }.

(** bytes_writer.go:16 NewWriter *)
Definition new_writer (b : bytes) : writer := mkW b 0.

(** copy(buf[off:], p): the number of bytes copied is the smaller length. *)
Definition copy_at (buf : bytes) (off : nat) (p : bytes) : bytes * nat :=
  let n := Nat.min (length buf - off) (length p) in
  (firstn off buf ++ firstn n p ++ skipn (off + n) buf, n).

(** Result of a call: bytes written and whether io.ErrShortWrite was returned, or
    a run-time panic. *)
Inductive wres : Type := WOk (n : nat) | WShort (n : nat) | WPanic.

(** bytes_writer.go:29 Write *)
Definition w_write (w : writer) (p : bytes) : writer * wres :=
  if Nat.leb (length (w_buf w)) (w_i w) then (w, WShort 0)
  else
    let (b, n) := copy_at (w_buf w) (w_i w) p in
    (mkW b (w_i w + n), if Nat.ltb n (length p) then WShort n else WOk n).

(** bytes_writer.go:46 WriteAt; a negative offset passes the test and panics when slicing *)
Definition w_write_at (w : writer) (p : bytes) (off : Z) : writer * wres :=
  if Z.leb (Z.of_nat (w_i w)) off then (w, WShort 0)
  else if Z.ltb off 0 then (w, WPanic)
  else
    let (b, n) := copy_at (w_buf w) (Z.to_nat off) p in
    (mkW b (w_i w), if Nat.ltb n (length p) then WShort n else WOk n).

(** bytes_writer.go:63 Bytes *)
Definition w_bytes (w : writer) : bytes := firstn (w_i w) (w_buf w).

Inductive wop : Type := Write (p : bytes) | WriteAt (p : bytes) (off : Z).
Definition w_step (w : writer) (o : wop) : writer * wres :=
  match o with Write p => w_write w p | WriteAt p off => w_write_at w p off end.
Definition w_run (w : writer) (ops : list wop) : writer := fold_left (fun w o => fst (w_step w o)) ops w.
