(** Properties of what subscriptions notify, from the monitored item to the caller of the client. *)
From Coq Require Import ZArith List Bool String Strings.Byte.
From Verif Require Import Bytes CodecSpec Prim PrimSpec Value ValueSpec Chunk ChunkSpec Messages IndexRange Roles Nodes NodeAccess AccessLemmas DataPath DataPathLemmas
  MonQueue Subscription SubscriptionSpec SubDeliveryProofs Stack StackSpec StackLemmas Notify NotifySpec NotifyProofs NotifyLemmas.
Import ListNotations.
Open Scope Z_scope.

(** * C120: what a subscription notifies arrives at the client *)

(** Every message of a subscription (data, events, keep-alive, change of status, message sent again) whose contents can be encoded is written by the server, read by the client as a whole, and tells the caller of the client the subscription, sequence number, time, and for each notification the client's handle and the value, in order. *)
Theorem c120_message : forall handle u1 u2 k p e, (forall id, in_u 4 (handle id)) -> in_u 4 k -> ok_slip p -> NotifySpec.ok_event e -> due handle k p e <> None ->
  exists name vals body a, outgoing handle k p e = Some (name, vals) /\ server_send u1 name vals = Some body /\ body <> [] /\
    client_receive u2 body = Ok (name, map norm vals) [] /\ told_of name (map norm vals) = Some a /\ due handle k p e = Some a.
Proof. exact message_due. Qed.
Print Assumptions c120_message.

(** For all subscriptions, schedules and channels with any security: what the caller has been told is a beginning of what was written, in the same order and for the requests which the server answered, and the rest arrives when it is taken, without anything further. *)
Theorem c120_in_order : forall handle uris far line conf, (forall k id, in_u 4 (handle k id)) -> ok_pipe line -> (forall k, ok_terms (conf k)) ->
  forall l s, Forall ok_happening l -> happens handle uris far line (begin_net conf) l = Some s ->
  exists rest, map (arrival handle) (n_log s) = map some_told (n_told s ++ rest) /\
    exists s', happens handle uris far line s (repeat Takes (List.length rest)) = Some s' /\ n_told s' = n_told s ++ rest /\ n_wire s' = [] /\ n_subs s' = n_subs s.
Proof. exact stream. Qed.
Print Assumptions c120_in_order.

(** Each subscription goes on as if it were alone, and what was written for it is what it did: data, keep-alives and repeated messages at once, changes of status when there is a request for them, none twice. *)
Theorem c120_written : forall handle uris far line conf, (forall k id, in_u 4 (handle k id)) -> ok_pipe line -> (forall k, ok_terms (conf k)) ->
  forall l s k, Forall ok_happening l -> happens handle uris far line (begin_net conf) l = Some s ->
  n_subs s k = fst (history conf k l) /\
  filter at_once (log_of k (n_log s)) = filter at_once (rev (snd (history conf k l))) /\
  flat_map status_of (log_of k (n_log s)) ++ changes_of k (n_changes s) = flat_map status_of (rev (snd (history conf k l))).
Proof. exact written. Qed.
Print Assumptions c120_written.

(** Nothing else stops the server or the client: if something cannot happen, then nothing is on the way or waits, 64 changes of status wait, or the channel refuses the size of a message. *)
Theorem c120_only_refused : forall handle uris far line conf, (forall k id, in_u 4 (handle k id)) -> ok_pipe line -> (forall k, ok_terms (conf k)) ->
  forall l s x, Forall ok_happening l -> ok_happening x -> happens handle uris far line (begin_net conf) l = Some s -> next handle uris far line s x = None -> stops line s x.
Proof. exact only_refused. Qed.
Print Assumptions c120_only_refused.

(** What the caller has been told of an item, followed by what waits in the server, is what was queued for the item: nothing lost, repeated or in another order. Missing: subscriptions that are changed meanwhile and responses that cannot be written, refuted below. *)
Theorem c120_exactly_partial : forall handle uris far line conf, (forall k id, in_u 4 (handle k id)) -> ok_pipe line -> (forall k, ok_terms (conf k)) ->
  forall k id, own_handle handle k id ->
  forall l s, Forall ok_happening l -> happens handle uris far line (begin_net conf) l = Some s -> n_wire s = [] ->
  undisturbed id (n_subs (begin_net conf) k) (ops_of k l) -> all_sent (snd (history conf k l)) ->
  data_told k (handle k id) (n_told s) ++ data_in (waiting id (n_subs s k)) = data_in (queued id (ops_of k l)) /\
  events_told k (handle k id) (n_told s) ++ events_in (waiting id (n_subs s k)) = events_in (queued id (ops_of k l)).
Proof. exact exactly. Qed.
Print Assumptions c120_exactly_partial.

(** In all cases: the caller is told nothing that was not queued, nothing twice and nothing out of order. *)
Theorem c120_no_more : forall handle uris far line conf, (forall k id, in_u 4 (handle k id)) -> ok_pipe line -> (forall k, ok_terms (conf k)) ->
  forall k id, own_handle handle k id ->
  forall l s, Forall ok_happening l -> happens handle uris far line (begin_net conf) l = Some s ->
  subseq (data_told k (handle k id) (n_told s) ++ data_in (waiting id (n_subs s k))) (data_in (queued id (ops_of k l))) /\
  subseq (events_told k (handle k id) (n_told s) ++ events_in (waiting id (n_subs s k))) (events_in (queued id (ops_of k l))).
Proof. exact no_more. Qed.
Print Assumptions c120_no_more.

(** A message sent again is one the subscription had built, with the same number and contents. *)
Theorem c120_again : forall handle uris far line conf, (forall k id, in_u 4 (handle k id)) -> ok_pipe line -> (forall k, ok_terms (conf k)) ->
  forall l s r h n, Forall ok_happening l -> happens handle uris far line (begin_net conf) l = Some s -> In (r, Republished h n) (n_told s) ->
  exists k m, In m (messages (snd (history conf k l))) /\ no_number n = fst m /\ no_data n = data_notes (handle k) (snd m) /\ no_events n = event_notes (handle k) (snd m) /\ no_status n = [].
Proof. exact again. Qed.
Print Assumptions c120_again.

(** Sequence numbers: everything written so far, of which the client took the beginning, is a sequence of messages in chunks numbered one by one from the first (C23, C26). *)
Theorem c120_numbered : forall handle uris far line conf, (forall k id, in_u 4 (handle k id)) -> ok_pipe line -> (forall k, ok_terms (conf k)) ->
  forall l s, Forall ok_happening l -> happens handle uris far line (begin_net conf) l = Some s ->
  exists taken, sent_stream line 0 (taken ++ n_wire s) (n_seq s) /\ (~ In Takes l -> taken = []).
Proof. exact numbers. Qed.
Print Assumptions c120_numbered.

(** The sequence numbers which the caller sees of a subscription begin with 1 and have no gaps: each is the next one, or that of the keep-alive before it. *)
Theorem c120_no_gaps : forall handle uris far line conf, (forall k id, in_u 4 (handle k id)) -> ok_pipe line -> (forall k, ok_terms (conf k)) ->
  forall l s k, Forall ok_happening l -> happens handle uris far line (begin_net conf) l = Some s -> gapless (numbers_told k (n_told s)).
Proof. exact no_gaps. Qed.
Print Assumptions c120_no_gaps.

(** A client can write a DiagnosticInfo to a variable of type BaseDataType. It cannot be encoded in a Variant, so that a message with it cannot be sent, and the value of another item in that message is neither told nor kept. *)
Theorem c120_hostage_refuted :
  (exists vals, server_receive [] diag_request = Ok ("WriteRequest"%string, vals) [] /\ question_of "WriteRequest" vals = Some (NNum 1 101, 1, QWrite [diag_write])) /\
  prepare default_permissions (fun t => t) x_limits (one_nodes 24) (fun v _ r => e_range v r) (fun _ => (none, 0)) (fun _ _ => 0) z_who z_init diag_write (at_s 11) (at_s 11) =
    Ready (mkDV diag_value 0 (at_s 11) 0 (at_s 11) 0) /\
  (forall uris, server_send uris "PublishResponse" (publish_vals 1 (u_slip 5 []) [] false (message_val 1 (sl_time (u_slip 5 []))
     (notification_data (u_handle 1) [(1, NData (u_int 41)); (2, NData (mkDV diag_value 0 (at_s 11) 0 (at_s 11) 0))]))) = None) /\
  let l := [ Does 1 (SAddItem 1 MReporting) (u_slip 1 []); Does 1 (SAddItem 2 MReporting) (u_slip 1 []);
             Does 1 (SPut 1 true 5 (NData (u_int 41))) (u_slip 1 []); Does 1 (SPut 2 true 5 (NData (mkDV diag_value 0 (at_s 11) 0 (at_s 11) 0))) (u_slip 1 []);
             Does 1 (STick [1; 2] (Req false)) (u_slip 5 []) ] in
  exists s, u_happens (begin_net u_conf) l = Some s /\ queued 1 (ops_of 1 l) = [NData (u_int 41)] /\ n_told s = [] /\ n_wire s = [] /\ waiting 1 (n_subs s 1) = [].
Proof. exact hostage. Qed.
Print Assumptions c120_hostage_refuted.

(** There is no gap either when a message was lost: the next one gets its number, so that a client that compares numbers, as the standard asks, does not notice that 41 is missing. *)
Theorem c120_unnoticed_refuted :
  let l := [ Does 1 (SAddItem 1 MReporting) (u_slip 1 []); Does 1 (SAddItem 2 MReporting) (u_slip 1 []);
             Does 1 (SPut 1 true 5 (NData (u_int 41))) (u_slip 1 []); Does 1 (SPut 2 true 5 (NData (mkDV diag_value 0 (at_s 11) 0 (at_s 11) 0))) (u_slip 1 []);
             Does 1 (STick [1; 2] (Req false)) (u_slip 5 []);
             Does 1 (SPut 1 true 5 (NData (u_int 42))) (u_slip 1 []); Does 1 (STick [1; 2] (Req true)) (u_slip 6 []); Takes;
             Does 1 (SPut 1 true 5 (NData (u_int 43))) (u_slip 1 []); Does 1 (STick [1; 2] (Req true)) (u_slip 7 []); Takes ] in
  exists s, u_happens (begin_net u_conf) l = Some s /\ queued 1 (ops_of 1 l) = [NData (u_int 41); NData (u_int 42); NData (u_int 43)] /\
    numbers_told 1 (n_told s) = [1; 2] /\ data_told 1 (u_handle 1 1) (n_told s) = data_in [NData (u_int 42); NData (u_int 43)] /\ n_wire s = [] /\ waiting 1 (n_subs s 1) = [].
Proof. exact unnoticed. Qed.
Print Assumptions c120_unnoticed_refuted.
