(** What a program holds of the clients it dialled. *)
From Coq Require Import List Bool Arith.
From Verif Require Import ClientLife.
Import ListNotations.

(** The clients in use, from what the calls returned: dialled, and neither aborted nor closed without error since *)
Definition used1 (u : list nat) (e : op * ret) : list nat :=
  match e with
  | (Dial _, RClient i) => i :: u
  | (CloseClient i _ _, ROk) => remove Nat.eq_dec i u
  | (AbortClient i, _) => remove Nat.eq_dec i u
  | _ => u
  end.
Definition in_use (t : list (op * ret)) : list nat := fold_left used1 t [].
(** Connection [i] is open at this side *)
Definition connected (w : world) (i : nat) : Prop := exists ch b, nth_error (w_chans w) i = Some (ch, b) /\ c_conn ch = Open.
(** A goroutine reads from connection [i] *)
Definition reads (w : world) (i : nat) : Prop := exists ch b, nth_error (w_chans w) i = Some (ch, b) /\ c_worker ch = Reading.
(** IsClosing of client [i] *)
Definition says_closing (w : world) (i : nat) : Prop := exists ch b, nth_error (w_chans w) i = Some (ch, b) /\ c_closing ch = true.
(** Time has passed: whoever read from a connection that is shut now has noticed *)
Definition settled (w : world) : Prop :=
  forall i ch b, nth_error (w_chans w) i = Some (ch, b) -> c_conn ch <> Open -> c_worker ch <> Reading.

(** Discoveries that connected but did not get their channel open *)
Definition half_open (f : fate) : Prop := f <> FEarly /\ f <> FOpened.
Definition stuck (o : op) : Prop :=
  match o with Discover d => half_open (df_open d) | Dial l => half_open (df_open (lf_discover l)) | _ => False end.
(** Closes of clients whose last step fails after the session is closed *)
Definition unfinished (o : op) : Prop := match o with CloseClient _ _ p => p <> PResponse | _ => False end.
Definition proper (o : op) : Prop := ~ stuck o /\ ~ unfinished o.
