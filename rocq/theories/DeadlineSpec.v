(** How long a connection may live: until 20 seconds after it was made, or, once a token was used on it, until
    the token last used ends. *)
From Coq Require Import ZArith List.
From Verif Require Import Deadline.
Import ListNotations.
Open Scope Z_scope.

(** The lifetime a token gets: the requested one, but at least 5 minutes and at most an hour *)
Definition lifetime (requested : Z) : Z := Z.max 300000 (Z.min requested 3600000).
(** When the tokens issued so far end, the first one first; they are numbered from 1 *)
Definition ends (h : list op) : list Z :=
  flat_map (fun o => match o with Opens t r | Renews t r => [t + lifetime r] | _ => [] end) h.
Definition issued (h : list op) : Z := Z.of_nat (length (ends h)).
(** The number of the token last used, 0: none *)
Fixpoint last_used (u : Z) (h : list op) : Z :=
  match h with [] => u | Message _ n :: r => last_used n r | _ :: r => last_used u r end.
Definition used (h : list op) : Z := last_used 0 h.
Definition limit (start : Z) (h : list op) : Z :=
  if used h =? 0 then start + 20000 else nth (Z.to_nat (used h - 1)) (ends h) 0.
(** What may come next *)
Definition fits (h : list op) (o : op) : Prop :=
  match o with
  | Opens _ _ => issued h = 0
  | Renews _ _ => 0 < issued h
  | Message _ n => 0 < issued h /\ (n = used h \/ n = issued h)
  | Writes _ => True
  end.
(** A client that makes a request at least every [gap], over a network that takes at most [d] *)
Fixpoint steady (gap d last : Z) (l : list call) : Prop :=
  match l with
  | [] => True
  | c :: r => c_at c <= last + gap /\ 0 <= c_go c <= d /\ 0 <= c_back c <= d /\ 0 <= c_again c <= d /\ 0 <= c_reply c <= d /\
              steady gap d (c_at c) r
  end.
