(** Examples for the theorems about how long the server keeps a connection. *)
From Coq Require Import ZArith List Bool Lia.
From Verif Require Import Chunk Requests Deadline DeadlineSpec DeadlineProofs.
Import ListNotations.
Open Scope Z_scope.

Theorem busy gap d start opened back requested c l :
  0 <= gap <= 60000 -> 0 <= d -> gap + 4 * d < 75000 -> start <= opened -> 0 <= back <= d ->
  opened + back <= c_at c -> c_at c + c_go c < start + 20000 -> steady gap d (opened + back) (c :: l) ->
  k_alive (run (connected start) (opening opened back requested (c :: l))) = true.
Proof.
  intros G D S O B C T St. destruct St as (A1 & A2 & A3). apply (renewed_in_time gap d); try assumption; try lia.
  exact (conj A1 (conj A2 A3)).
Qed.

Theorem lifetimes r : revised r = lifetime r /\ 300000 <= lifetime r <= 3600000 /\ (300000 <= r <= 3600000 -> lifetime r = r).
Proof. exact (conj (revised_lifetime r) (conj (lifetime_bounds r) (lifetime_asked r))). Qed.

Example lifetimes_ex : map lifetime [0; 300000; 1800000; 3600000; 3600001] = [300000; 300000; 1800000; 3600000; 3600000].
Proof. reflexivity. Qed.

(** A token, used, a renewal, the new token used; the old one ends at 5 minutes, the new one at 9 minutes *)
Definition history1 : list op := [Opens 10 300000; Message 30 1; Writes 40; Renews 240000 300000; Message 240100 1; Message 240200 2].
Example exact_ex : k_alive (run (connected 0) history1) = true /\ issued history1 = 2 /\ used history1 = 2 /\ limit 0 history1 = 540000 /\
  k_alive (run (connected 0) (history1 ++ [Message 539999 2])) = true /\ k_alive (run (connected 0) (history1 ++ [Message 540000 2])) = false /\
  k_alive (run (connected 0) (history1 ++ [Message 240300 1])) = false.
Proof. repeat split. Qed.
Example hour_ex : Forall (fun o => match o with Opens t _ | Renews t _ => t <= 240000 | _ => True end) history1 /\
  Z.max (0 + 20000) (240000 + 3600000) = 3840000.
Proof. split; [repeat constructor; cbn; lia|reflexivity]. Qed.
Example seconds_ex : k_alive (run (connected 0) ([Writes 5] ++ [Writes 19999])) = true /\ issued [Writes 5] = 0.
Proof. split; reflexivity. Qed.

(** A client that makes a request every minute for ten minutes renews twice *)
Definition calls1 : list call := map (fun k => mkCall (1000 + 60000 * k) 300000 20 20 20 20) [0; 1; 2; 3; 4; 5; 6; 7; 8; 9; 10].
Example busy_ex : steady 60000 1000 120 calls1 /\
  ends (opening 100 20 300000 calls1) = [300100; 541020; 781020] /\
  k_alive (run (connected 0) (opening 100 20 300000 calls1)) = true.
Proof. split; [|split; reflexivity]. cbn. lia. Qed.
(** one that makes its next request after five minutes finds the connection ended *)
Example idle_ex : k_alive (run (connected 0) (opening 100 20 300000 [mkCall 1000 300000 20 20 20 20; mkCall 300100 300000 20 20 20 20])) = false.
Proof. reflexivity. Qed.
