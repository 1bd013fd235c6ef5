(** What the built-in scalar round trips are supposed to give: legal values and
    the documented normalisations.  Independent of the writers and readers. *)
From Coq Require Import ZArith List Bool Strings.Byte.
From Verif Require Import Bytes CodecSpec Prim.
Import ListNotations.
Open Scope Z_scope.

(** A representable time.Time: int64 seconds, nanoseconds within the second. *)
Definition wf_time (t : time) : Prop := in_s 8 (t_sec t) /\ 0 <= t_nsec t < 1000000000.

(** Times whose distance from 1601 in 100 ns ticks fits int64; years -27600 .. 30800 or so. *)
Definition time_in_int64_ticks (t : time) : Prop :=
  -900000000000 <= t_sec t <= 900000000000.

(** 1601-01-01T00:00:00Z and 9999-12-31T23:59:59Z in seconds since 1970. *)
Definition sec_1601 : Z := -11644473600.
Definition sec_9999 : Z := 253402300799.

(** The instant a reader must see: truncated to 100 ns, saturated at both ends. *)
Definition norm_time (t : time) : time :=
  if t_sec t <? sec_1601 then mkTime sec_1601 0
  else if sec_9999 <=? t_sec t then mkTime sec_9999 0
  else mkTime (t_sec t) (t_nsec t / 100 * 100).

Definition wf_nodeid (n : nodeid) : Prop :=
  match n with
  | NNull => True
  | NNum ns id => in_u 2 ns /\ in_u 4 id
  | NStr ns s => in_u 2 ns /\ len_ok s
  | NGuid ns _ => in_u 2 ns
  | NOpq ns s => in_u 2 ns /\ len_ok s
  end.

(** The null identifier of each kind in namespace 0 is the null NodeId. *)
Definition norm_nodeid (n : nodeid) : nodeid :=
  match n with
  | NNum 0 0 => NNull
  | NStr 0 [] => NNull
  | NOpq 0 [] => NNull
  | NGuid 0 g => if guid_eqb g nil_guid then NNull else n
  | _ => n
  end.

Definition wf_exp (e : expnodeid) : Prop :=
  in_u 4 (e_server e) /\ len_ok (e_uri e) /\ wf_nodeid (e_node e).

(** When the URI is present it replaces the namespace index (which becomes 0). *)
Definition set_ns0 (n : nodeid) : nodeid :=
  match n with
  | NNull => NNull
  | NNum _ id => NNum 0 id
  | NStr _ s => NStr 0 s
  | NGuid _ g => NGuid 0 g
  | NOpq _ s => NOpq 0 s
  end.
(** Only the numeric null is read back as the null NodeId here. *)
Definition null_num (n : nodeid) : nodeid :=
  match n with NNum 0 0 => NNull | _ => n end.
Definition norm_exp (e : expnodeid) : expnodeid :=
  mkExp (e_server e) (e_uri e)
    (null_num (match e_uri e with [] => e_node e | _ => set_ns0 (e_node e) end)).

Definition wf_qname (q : qname) : Prop := in_u 2 (q_ns q) /\ len_ok (q_name q).
Definition wf_ltext (l : ltext) : Prop := len_ok (lt_text l) /\ len_ok (lt_locale l).
