(** What clients may expect of the values they write and read, whatever other clients do at the same
    time: every variable is one register (linearizability). *)
From Coq Require Import ZArith List Bool Strings.Byte.
From Verif Require Import Bytes Prim Value IndexRange Roles RolesSpec Nodes NodeAccess AccessSpec DataPath.
Import ListNotations.
Open Scope Z_scope.

(** * Time *)
Definition nanos (t : time) : Z := t_sec t * 1000000000 + t_nsec t.
Definition not_after (t t' : time) : Prop := nanos t <= nanos t'.
Definition begins (e : event) : time := match e with Invoke _ _ t | Run _ _ t _ | Respond _ t => t end.
Definition ends (e : event) : time := match e with Invoke _ _ t | Run _ _ _ t | Respond _ t => t end.
(** The clock does not run backwards *)
Fixpoint clock_runs (from : time) (l : list event) : Prop :=
  match l with [] => True | e :: r => not_after from (begins e) /\ not_after (begins e) (ends e) /\ clock_runs (ends e) r end.
Definition clock_ok (l : list event) : Prop := exists from, clock_runs from l.

(** * Histories *)
(** The answer to request [a] arrived before request [b] was sent *)
Definition before (h : list obs) (a b : Z) : Prop :=
  exists h1 h2 h3 res t q t', h = h1 ++ Got a res t :: h2 ++ Sent b q t' :: h3.
(** Operation [i] of request [r] has this answer *)
Definition answered (h : list obs) (r : Z) (i : nat) (a : answer) : Prop :=
  (exists l t d, In (Got r (Values l) t) h /\ nth_error l i = Some d /\ a = AValue d) \/
  (exists l t s, In (Got r (Statuses l) t) h /\ nth_error l i = Some s /\ a = AStatus s).
Definition asked (h : list obs) (r : Z) (i : nat) (q : request) (o : op) : Prop :=
  (exists t, In (Sent r q t) h) /\ nth_error (ops_of q) i = Some o.
(** Byte arrays as the decoder makes them: every element is a Byte *)
Definition proper (v : val) : Prop :=
  match v with VArr (KB BByte) l => Forall (fun x => exists z, x = VB BByte z /\ 0 <= z < 256) l | _ => True end.
(** Every write is of a whole value *)
Definition whole_writes (h : list obs) : Prop :=
  forall r who ops t w, In (Sent r (Write who ops) t) h -> In w ops -> w_range w = [] /\ proper (d_value (w_value w)).
(** Values without picoseconds *)
Definition no_picoseconds (init : nodeid -> dval) : Prop := forall x, d_srcp (init x) = 0 /\ d_srvp (init x) = 0.

(** * Requests *)
(** The double with these bits is a number below zero (IEEE 754: sign, 11 bits exponent, 52 bits fraction) *)
Definition negative (bits : Z) : Prop :=
  let sign := bits / 2 ^ 63 in let exponent := bits / 2 ^ 52 mod 2 ^ 11 in let fraction := bits mod 2 ^ 52 in
  sign = 1 /\ ~ (exponent = 2047 /\ fraction <> 0) /\ ~ (exponent = 0 /\ fraction = 0).
(** When a request is refused as a whole (Part 4, 5.10.2 and 5.10.4): Bad_MaxAgeInvalid, Bad_TimestampsToReturnInvalid,
    Bad_NothingToDo, Bad_TooManyOperations *)
Definition reason (max_read max_write : Z) (q : request) (status : Z) : Prop :=
  match q with
  | Read _ age stamps ops =>
      (status = 0x80700000 /\ negative age) \/
      (status = 0x802B0000 /\ ~ negative age /\ ~ 0 <= stamps <= 3) \/
      (status = 0x800F0000 /\ ~ negative age /\ 0 <= stamps <= 3 /\ ops = []) \/
      (status = 0x80100000 /\ ~ negative age /\ 0 <= stamps <= 3 /\ ops <> [] /\ max_read < Z.of_nat (length ops))
  | Write _ ops =>
      (status = 0x800F0000 /\ ops = []) \/ (status = 0x80100000 /\ ops <> [] /\ max_write < Z.of_nat (length ops))
  end.
Definition fits_request (max_read max_write : Z) (q : request) (a : response) : Prop :=
  match a, q with
  | Fault st, _ => reason max_read max_write q st
  | Values l, Read _ _ _ ops => length l = length ops
  | Statuses l, Write _ ops => length l = length ops
  | _, _ => False
  end.
Definition bits_ok (q : request) : Prop := match q with Read _ age _ _ => 0 <= age < 2 ^ 64 | Write _ _ => True end.

(** * Who may do what *)
Section Spec.
Variable default : list perm.
Variable nodes : nodeid -> option node.
Variable vt : Z -> Z.
Variable lim : limits.
Variable range_read : val -> bytes -> ranged.

(** A variable whose values are kept by the server, not by handlers of the application *)
Definition register (x : nodeid) (n : node) (v : vardata) : Prop :=
  nodes x = Some n /\ nd_kind n = KVariable v /\ va_reader v = None /\ va_writer v = None.
Definition may_read (who : caller) (n : node) (v : vardata) : Prop :=
  exists roles, who = Session roles /\ user_may default roles n p_browse /\ readable v /\ user_may default roles n p_read.
Definition may_write (who : caller) (n : node) (v : vardata) : Prop :=
  exists roles, who = Session roles /\ user_may default roles n p_browse /\ writable v /\ user_may default roles n p_write.

(** The value of the variable after a value was written to it: the value itself, except that a
    ByteString and an array of Byte (built-in type 3) with the same bytes are interchangeable *)
Definition byte_array (s : bytes) : val := VArr (KB BByte) (map (fun b => VB BByte (Z_of_byte b)) s).
Definition byte_string (s : bytes) : val := VScalar (KB BByteString) (VB BByteString s).
Definition holds (v : vardata) (given kept : val) : Prop :=
  (vt (va_type v) = 3 /\ va_rank v = 1 /\ exists s, given = byte_string s /\ kept = byte_array s) \/
  (vt (va_type v) = 15 /\ va_rank v = -1 /\ (exists s, given = byte_array s /\ kept = byte_string s)) \/
  (vt (va_type v) = 15 /\ va_rank v = -1 /\ given = VArrNil (KB BByte) /\ kept = byte_string []) \/
  (kept = given /\ ~ (vt (va_type v) = 3 /\ va_rank v = 1 /\ exists s, given = byte_string s) /\
   ~ (vt (va_type v) = 15 /\ va_rank v = -1 /\ exists s, given = byte_array s) /\
   ~ (vt (va_type v) = 15 /\ va_rank v = -1 /\ given = VArrNil (KB BByte))).

(** What a reader asked for of a value (Part 4, 7.40): Source 0, Server 1, Both 2, Neither 3 *)
Definition with_stamps (stamps : Z) (d : dval) : dval :=
  mkDV (d_value d) (d_status d)
    (if (stamps =? 0) || (stamps =? 2) then d_src d else no_time) (if (stamps =? 0) || (stamps =? 2) then d_srcp d else 0)
    (if (stamps =? 1) || (stamps =? 2) then d_srv d else no_time) (if (stamps =? 1) || (stamps =? 2) then d_srvp d else 0).

(** * One operation after the other *)
(** An operation that took effect, with its answer; [o_from] and [o_to]: the clock when a value was written *)
Record effect : Type := mkEffect { o_req : Z; o_index : nat; o_request : request; o_op : op; o_answer : answer; o_from : time; o_to : time }.
(** The value [d] was written to variable [x] by [o]: the server answered Good *)
Definition wrote (o : effect) (x : nodeid) (v : vardata) (d : dval) : Prop :=
  exists q, o_op o = WR q /\ w_node q = x /\ w_attr q = 13 /\ o_answer o = AStatus 0 /\
    holds v (d_value (w_value q)) (d_value d) /\ d_status d = d_status (w_value q) /\
    d_src d = o_from o /\ d_srv d = o_to o /\ d_srcp d = 0 /\ d_srvp d = 0.
Definition writes (o : effect) (x : nodeid) : Prop :=
  exists q, o_op o = WR q /\ w_node q = x /\ w_attr q = 13 /\ o_answer o = AStatus 0.
(** The register after these operations: what the last write wrote, or the value at the beginning *)
Inductive contents (init : nodeid -> dval) (x : nodeid) (v : vardata) (l : list effect) : dval -> Prop :=
| Untouched : (forall o, In o l -> ~ writes o x) -> contents init x v l (init x)
| Last l1 o l2 d : l = l1 ++ o :: l2 -> wrote o x v d -> (forall o', In o' l2 -> ~ writes o' x) -> contents init x v l d.

(** What an operation answers after the operations [l] *)
Definition legal_read (init : nodeid -> dval) (l : list effect) (who : caller) (stamps : Z) (q : rop) (a : answer) : Prop :=
  forall n v, r_attr q = 13 -> r_encoding q = [] -> register (r_node q) n v ->
  (may_read who n v -> exists d, contents init (r_node q) v l d /\
      (r_range q = [] -> a = AValue (with_stamps stamps d)) /\
      (r_range q <> [] -> exists res, a = AValue res /\
          match range_read (d_value d) (r_range q) with
          | RangeVal x => d_value res = x /\ d_status res = d_status d
          | RangeBad st => d_value res = VNil /\ d_status res = st
          | RangePanic => True
          end)) /\
  (~ may_read who n v -> exists res, a = AValue res /\ d_value res = VNil /\ Z.testbit (d_status res) 31 = true).
Definition legal_write (who : caller) (q : wop) (a : answer) : Prop :=
  forall n v, w_attr q = 13 -> register (w_node q) n v ->
  (a = AStatus 0 <-> may_write who n v /\ exists kept, holds v (d_value (w_value q)) kept /\ check_value lim (vt (va_type v)) (va_rank v) (shape kept) = 0).
Definition legal (init : nodeid -> dval) (l : list effect) (o : effect) : Prop :=
  match o_request o, o_op o with
  | Read who _ stamps _, RD q => legal_read init l who stamps q (o_answer o)
  | Write who _, WR q => legal_write who q (o_answer o)
  | _, _ => False
  end.

(** * Linearizability: the operations of the history can be put in an order in which, done one after
    the other, they have the answers the clients got; the order is that of time for operations which did
    not overlap. *)
Record explains (init : nodeid -> dval) (h : list obs) (l : list effect) : Prop := {
  ex_once : NoDup (map (fun o => (o_req o, o_index o)) l);
  ex_asked : forall o, In o l -> asked h (o_req o) (o_index o) (o_request o) (o_op o);
  ex_answered : forall r i a, answered h r i a -> exists o, In o l /\ o_req o = r /\ o_index o = i /\ o_answer o = a;
  ex_time : forall l1 a l2 b l3, l = l1 ++ a :: l2 ++ b :: l3 -> ~ before h (o_req b) (o_req a);
  ex_legal : forall l1 o l2, l = l1 ++ o :: l2 -> legal init l1 o }.
(** A value is written between the request and the answer, and has that time *)
Definition timely (h : list obs) (l : list effect) : Prop :=
  forall o x n v, In o l -> writes o x -> register x n v ->
  (forall q t, In (Sent (o_req o) q t) h -> not_after t (o_from o)) /\ not_after (o_from o) (o_to o) /\
  (forall a t, In (Got (o_req o) a t) h -> not_after (o_to o) t).
End Spec.
