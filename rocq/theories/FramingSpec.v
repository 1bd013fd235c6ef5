(** What it means that the chunks are received as they were sent. *)
From Coq Require Import ZArith List Bool Strings.Byte.
From Verif Require Import Bytes Chunk Framing.
Import ListNotations.
Open Scope Z_scope.

(** The length that the bytes 4 to 7 of a chunk give, little-endian. *)
Definition length_field (b : bytes) : Z :=
  let at_ k := Z.of_N (Byte.to_N (nth k b x00)) in
  at_ 4%nat + 256 * at_ 5%nat + 65536 * at_ 6%nat + 16777216 * at_ 7%nat.

(** A chunk says how long it is, and fits the buffer. *)
Definition whole (cap : Z) (b : bytes) : Prop :=
  8 <= Z.of_nat (length b) <= cap /\ length_field b = Z.of_nat (length b).

(** The network cuts the bytes into pieces, none of them empty. *)
Definition cut (stream : bytes) (ps : list bytes) : Prop := concat ps = stream /\ Forall (fun p => p <> []) ps.

(** What has arrived and has not been read. *)
Definition unread (c : conn) : bytes := concat (pieces c).

(** Several threads write chunks to one connection, each chunk at once: the chunks of each stay in order. *)
Inductive interleaved {A : Type} : list (list A) -> list A -> Prop :=
| interleaved_nil : forall ls, Forall (fun l => l = []) ls -> interleaved ls []
| interleaved_cons : forall before x l after r,
    interleaved (before ++ l :: after) r -> interleaved (before ++ (x :: l) :: after) (x :: r).

(** The same result, whatever pieces are left. *)
Definition left_alike (a b : conn) : Prop := unread a = unread b /\ ending a = ending b.
Definition alike (a b : got) : Prop :=
  match a, b with
  | Chunk b1 r1, Chunk b2 r2 => b1 = b2 /\ left_alike r1 r2
  | TooBig r1, TooBig r2 => left_alike r1 r2
  | Broken b1 e1, Broken b2 e2 => b1 = b2 /\ e1 = e2
  | Blocked b1, Blocked b2 => b1 = b2
  | Panics, Panics => True
  | _, _ => False
  end.

(** What reading ends with when the bytes end: the error of the connection, or it waits. *)
Definition ends (e : option Z) (b : bytes) : got := match e with Some x => Broken b x | None => Blocked b end.
