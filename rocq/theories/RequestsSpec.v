(** What the theorems about requests and responses talk about. *)
From Coq Require Import ZArith List Bool Strings.Byte.
From Verif Require Import Bytes Requests.
Import ListNotations.
Open Scope Z_scope.

(** The responses that arrived before the channel was closed, in order. *)
Fixpoint arrivals (ops : list qop) : list (Z * bytes) :=
  match ops with
  | [] => []
  | QClose :: _ => []
  | QResponse h b :: ops' => (h, b) :: arrivals ops'
  | _ :: ops' => arrivals ops'
  end.
(** How many requests were made. *)
Fixpoint started (ops : list qop) : nat :=
  match ops with [] => 0 | QStart :: ops' => S (started ops') | _ :: ops' => started ops' end.

(** The call is under way and has not been answered. *)
Definition outstanding (c : caller) : Prop := (cr_state c = Sending \/ cr_state c = Waiting) /\ cr_buf c = None.

(** Requests at the given times, with the lifetime granted if one of them renews the token: each
    is made before the token ends. *)
Fixpoint on_time (tm : timer) (l : list (Z * Z)) : Prop :=
  match l with
  | [] => True
  | (now, lifetime) :: l' => now < tm_end tm /\ on_time (request_at tm now (Some lifetime)) l'
  end.
(** At most [gap] milliseconds pass between requests, less than a quarter of every lifetime granted. *)
Fixpoint busy (gap prev : Z) (l : list (Z * Z)) : Prop :=
  match l with
  | [] => True
  | (now, lifetime) :: l' => prev <= now <= prev + gap /\ 4 * gap < lifetime < 2 ^ 32 /\ busy gap now l'
  end.
