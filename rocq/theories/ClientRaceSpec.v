(** What it means that the goroutines of a client do not access its data at the same time. Independent of how the
    proofs find it out; [paired], [reaches], [holding] are in MutexSpec.v, and [located], [comes_to], [next],
    [writes], [accesses], [race] in RaceSpec.v. *)
From Coq Require Import ZArith String List Bool.
From Verif Require Import Flow Mutex Race MutexSpec RaceSpec ClientRace.
Import ListNotations.
Open Scope string_scope.

(** A thread that starts as [root] can do these operations, in this order. *)
Definition client_performs (root : string) (ks : list aop) : Prop :=
  exists p t x, In (root, p) data_roots /\ run p t x /\ aops_of t = ks.

(** A thread of that root, on some channel with its locks. Any number of threads can start the same way. *)
Definition client_data_thread (root : string) (ops : list xop) : Prop :=
  client_performs root (map xkind ops) /\ paired [] (map bare ops) /\ located [] ops.

(** the locks and waits among the operations *)
Definition locks_in (ks : list aop) : list lop := flat_map (fun k => match k with L o => [o] | _ => [] end) ks.

(** The threads of clients *)
Definition clients_threads (work : list (list xop)) : Prop :=
  forall ops, In ops work -> exists root, client_data_thread root ops.

(** The fields of a channel that a lock protects: the lock and the fields *)
Definition client_guarded : list (cls * cls * list string) :=
  [(KChannel, KChannel, ["namespaceURIs"; "serverURIs"]);
   (KChannel, KToken, ["localNonce"; "remoteNonce"]);
   (KChannel, KSending, ["sendingTokenID"; "localSigningKey"; "localEncryptingKey"; "localInitializationVector";
      "symSignHMAC"; "symEncryptingBlockCipher"]);
   (KChannel, KReceiving, ["receivingTokenID"; "remoteSigningKey"; "remoteEncryptingKey"; "remoteInitializationVector";
      "symVerifyHMAC"; "symDecryptingBlockCipher"])].

Definition client_guard (f : string) (g : cls) : Prop := exists fs, In (KChannel, g, fs) client_guarded /\ In f fs.

(** Some thread of a client writes this field of its channel. *)
Definition client_written (f : string) : Prop :=
  exists root ops via n, client_data_thread root ops /\ In (XWr via (KChannel, n) f) ops.

(** The fields that only the worker of the channel uses *)
Definition of_worker : list string := ["pendingResponses"; "statusCode"].

(** The threads of one client: [starts] has where each of them starts. *)
Definition threads_of_client (starts : list string) (work : list (list xop)) : Prop := Forall2 client_data_thread starts work.

(** every channel has one worker: client_secure_channel.go 444 *)
Definition one_worker (starts : list string) : Prop :=
  forall i j, nth_error starts i = Some "responseWorker" -> nth_error starts j = Some "responseWorker" -> i = j.

(** ** What the refutations show *)
(** Two threads of these roots can come to a race on field f of a channel: the first is about to write it, and they
    hold these locks. *)
Definition client_race (r1 r2 : string) (f : string) (h1 h2 : list (mode * lock)) : Prop :=
  exists w1 w2 a b, client_data_thread r1 w1 /\ client_data_thread r2 w2 /\ comes_to [w1; w2] [a; b] /\
    race [w1; w2] [a; b] (KChannel, 0%Z) f /\ holding a h1 /\ holding b h2 /\
    exists v, next w1 a = Some (XWr v (KChannel, 0%Z) f).

(** Two threads have both read the field, before either writes it: both have decided by the same value. *)
Definition both_decide (r1 r2 : string) (f : string) : Prop :=
  exists w1 w2 a b v1 v2 u1 u2, client_data_thread r1 w1 /\ client_data_thread r2 w2 /\ comes_to [w1; w2] [a; b] /\
    next w1 a = Some (XWr v1 (KChannel, 0%Z) f) /\ next w2 b = Some (XWr v2 (KChannel, 0%Z) f) /\
    In (XRd u1 (KChannel, 0%Z) f) (firstn (length w1 - length (th_rest a)) w1) /\
    In (XRd u2 (KChannel, 0%Z) f) (firstn (length w2 - length (th_rest b)) w2).
