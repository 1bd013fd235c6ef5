(** What it means that threads do not access data at the same time. Independent of how the proofs find it out. *)
From Coq Require Import ZArith String List Bool.
From Verif Require Import Flow Mutex Race RaceTable MutexSpec.
Import ListNotations.

(** ** Threads *)
(** A thread that starts as [root] can do these operations, in this order. *)
Definition performs (root : string) (ks : list aop) : Prop :=
  exists p t x, In (root, p) RaceTable.roots /\ run p t x /\ aops_of t = ks.

(** Go code accesses the field of the variable whose lock it has taken: of the locks of a kind in [via] that the
    thread holds, the one taken last is a lock of the accessed structure. *)
Definition of_structure (held : list (mode * lock)) (via : list cls) (s : lock) : Prop :=
  forall c before m k after, In c via -> held = before ++ (m, k) :: after -> fst k = c ->
    (forall h, In h before -> fst (snd h) <> c) -> snd k = snd s.

Fixpoint located (held : list (mode * lock)) (ops : list xop) : Prop :=
  match ops with
  | [] => True
  | XL o :: r => located (held_after held [o]) r
  | XRd via s _ :: r | XWr via s _ :: r => of_structure held via s /\ located held r
  end.

(** A thread of the server: the operations of one of the roots, on some structures and their locks. Any number of
    threads can start the same way, and any structures can be involved. *)
Definition thread_with_data (root : string) (ops : list xop) : Prop :=
  performs root (map xkind ops) /\ paired [] (map bare ops) /\ located [] ops.

Definition data_thread (ops : list xop) : Prop := exists root, thread_with_data root ops.

(** Some schedule brings threads with these operations into this state *)
Definition comes_to (work : list (list xop)) (ts : list thread) : Prop := reaches (map (map bare) work) ts.

(** The operation that a thread is about to do *)
Definition next (ops : list xop) (t : thread) : option xop := nth_error ops (length ops - length (th_rest t)).

(** ** Accesses and races *)
Definition writes (x : xop) (s : lock) (f : string) : Prop := exists via, x = XWr via s f.
Definition accesses (x : xop) (s : lock) (f : string) : Prop := writes x s f \/ exists via, x = XRd via s f.

(** Two threads are both about to access this field of this structure, and one of them writes it. If it holds a
    map, Go ends the process ("concurrent map iteration and map write", "concurrent map read and map write"). *)
Definition race (work : list (list xop)) (ts : list thread) (s : lock) (f : string) : Prop :=
  exists i j oi oj ti tj a b, i <> j /\
    nth_error work i = Some oi /\ nth_error ts i = Some ti /\ next oi ti = Some a /\
    nth_error work j = Some oj /\ nth_error ts j = Some tj /\ next oj tj = Some b /\
    writes a s f /\ accesses b s f.

(** ** The fields that a lock protects: kind of structure, kind of its lock, fields *)
Definition guarded : list (cls * cls * list string) :=
  [(KDataItem, KDataItem, ["clientHandle"; "dataChangeFilter"; "discardOldest"; "monitoringMode"; "prequeue";
      "previousQueuedValue"; "queue"; "queueSize"; "sub"; "ti"; "triggered"; "triggeredItems"; "ts"]);
   (KDataTypeNode, KDataTypeNode, ["references"]);
   (KEventItem, KEventItem, ["clientHandle"; "discardOldest"; "eventFilter"; "monitoringMode"; "queue";
      "queueSize"; "samplingInterval"; "sub"; "triggered"; "triggeredItems"]);
   (KMethodNode, KMethodNode, ["references"]);
   (KNamespaceManager, KNamespaceManager, ["namespaces"; "variantTypeMap"]);
   (KObjectNode, KObjectNode, ["references"; "subs"]);
   (KObjectTypeNode, KObjectTypeNode, ["references"]);
   (KPollGroup, KPollGroup, ["subs"]);
   (KReferenceTypeNode, KReferenceTypeNode, ["references"]);
   (KScheduler, KScheduler, ["tickers"]);
   (KSession, KSession, ["browseCPs"; "channelId"; "clientCertificate"; "historyCPs"; "securityMode";
      "securityPolicyURI"]);
   (KSessionManager, KSessionManager, ["sessionsByToken"]);
   (KSubscription, KSubscription, ["isLate"; "moreNotifications"; "resend"]);
   (KVariableNode, KVariableNode, ["historizing"; "references"; "value"]);
   (KVariableTypeNode, KVariableTypeNode, ["references"]);
   (KViewNode, KViewNode, ["references"]);
   (KChannel, KSending, ["localEncryptingKey"; "localInitializationVector"; "localSigningKey";
      "symEncryptingBlockCipher"; "symSignHMAC"]);
   (KChannel, KReceiving, ["remoteEncryptingKey"; "remoteInitializationVector"; "remoteSigningKey";
      "symDecryptingBlockCipher"; "symVerifyHMAC"])]%string.

Definition guard (c : cls) (f : string) (g : cls) : Prop := exists fs, In (c, g, fs) guarded /\ In f fs.

(** Some thread of the server writes this field of a structure of this kind. *)
Definition written (c : cls) (f : string) : Prop :=
  exists ops via s, data_thread ops /\ In (XWr via s f) ops /\ fst s = c.

(** ** What the refutations show *)
(** Two threads of these roots can come to a race on field f of a structure of kind c, with these locks held. *)
Definition race_of (r1 r2 : string) (c : cls) (f : string) (h1 h2 : list (mode * lock)) : Prop :=
  exists w1 w2 a b, thread_with_data r1 w1 /\ thread_with_data r2 w2 /\ comes_to [w1; w2] [a; b] /\
    race [w1; w2] [a; b] (c, 0%Z) f /\ holding a h1 /\ holding b h2.

(** They can come to lose a count: both are about to increment the field, neither has a lock. *)
Definition lost_update (r1 r2 : string) (c : cls) (f : string) : Prop :=
  exists w1 w2 a b v1 v2, thread_with_data r1 w1 /\ thread_with_data r2 w2 /\ comes_to [w1; w2] [a; b] /\
    next w1 a = Some (XWr v1 (c, 0%Z) f) /\ next w2 b = Some (XWr v2 (c, 0%Z) f).
