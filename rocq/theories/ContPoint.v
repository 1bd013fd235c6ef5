(** Browse continuation points of a session.

    Sources: /repo/server/session.go (addBrowseContinuationPoint 347-359,
    removeBrowseContinuationPoint 361-374), /repo/server/server_service_set.go (handleBrowse
    1296-1320, handleBrowseNext 1466-1517).  Operations of one request run in parallel on the
    server's workers, so the two halves of a BrowseNext operation are separate steps. *)
From Coq Require Import ZArith List Bool Strings.Byte.
From Verif Require Import Bytes.
Import ListNotations.
Open Scope Z_scope.

Section ContPoint.
  Variable ref : Type.               (* ua.ReferenceDescription *)
  Variable max_points : Z.           (* maxBrowseContinuationPoints *)

  Inductive bstatus : Type := BNoContinuationPoints | BContinuationPointInvalid.
  (** One operation's result: the references and the continuation point, or a status. *)
  Inductive bres : Type := BRefs (refs : list ref) (cp : option bytes) | BBad (s : bstatus) | BReleased.

  Record cpoints := mkCpoints { cp_last : Z; cp_tab : list (Z * (list ref * Z)) }.
  Definition cp_find (l : list (Z * (list ref * Z))) (id : Z) : option (list ref * Z) :=
    option_map snd (find (fun e => fst e =? id) l).
  Definition cp_drop (l : list (Z * (list ref * Z))) (id : Z) : list (Z * (list ref * Z)) :=
    filter (fun e => negb (fst e =? id)) l.

  (** session.go:347 *)
  Definition cp_add (c : cpoints) (data : list ref) (max : Z) : cpoints * option bytes :=
    if (0 <? max_points) && (max_points <=? Z.of_nat (length (cp_tab c))) then (c, None)
    else let id := u32 (cp_last c + 1) in
         (mkCpoints id ((id, (data, max)) :: cp_drop (cp_tab c) id), Some (le_enc 4 id)).
  (** session.go:361.  binary.LittleEndian.Uint32 of fewer than four bytes panics; more are ignored. *)
  Inductive cp_out : Type := CPanic | CMissing | CFound (data : list ref) (max : Z).
  Definition cp_remove (c : cpoints) (cp : bytes) : cpoints * cp_out :=
    if (Z.of_nat (length cp) <? 4) then (c, CPanic)
    else let id := le_dec (firstn 4 cp) in
         match cp_find (cp_tab c) id with
         | Some (data, max) => (mkCpoints (cp_last c) (cp_drop (cp_tab c) id), CFound data max)
         | None => (c, CMissing)
         end.

  (** A page of the list that is left, the rest kept under a new point.
      server_service_set.go:1296 and 1491; [checked]: 1296 also requires max > 0. *)
  Definition page (c : cpoints) (rds : list ref) (max : Z) : cpoints * bres :=
    match cp_add c (skipn (Z.to_nat max) rds) max with
    | (c', Some cp) => (c', BRefs (firstn (Z.to_nat max) rds) (Some cp))
    | (c', None) => (c', BBad BNoContinuationPoints)
    end.
  (** handleBrowse, one operation, after the references have been collected *)
  Definition browse (c : cpoints) (rds : list ref) (max : Z) : cpoints * bres :=
    if (0 <? max) && (max <? Z.of_nat (length rds)) then page c rds max else (c, BRefs rds None).

  (** The workers of BrowseNext operations: what each has taken and not yet answered. *)
  Inductive cevent : Type :=
  | EBrowse (rds : list ref) (r : bres)
  | ENext (cp : bytes) (r : bres)     (* the point, without bytes after the fourth *)
  | EInvalid (cp : bytes)
  | ECrash.
  Record cstate := mkCstate {
    cs_points : cpoints;
    cs_work : list (nat * (bytes * list ref * Z));
    cs_log : list cevent               (* the latest first *)
  }.
  Definition c_init : cstate := mkCstate (mkCpoints 0 []) [] [].

  Inductive bop : Type :=
  | CBrowse (rds : list ref) (max : Z)
  | CTake (t : nat) (cp : bytes) (release : bool)
  | CPut (t : nat).
  Definition work_find (l : list (nat * (bytes * list ref * Z))) (t : nat) : option (bytes * list ref * Z) :=
    option_map snd (find (fun e => Nat.eqb (fst e) t) l).
  Definition c_step (s : cstate) (o : bop) : cstate :=
    match o with
    | CBrowse rds max =>
        let '(c, r) := browse (cs_points s) rds max in mkCstate c (cs_work s) (EBrowse rds r :: cs_log s)
    | CTake t cp release =>
        match work_find (cs_work s) t with
        | Some _ => s                                       (* the worker is busy *)
        | None =>
            if match cp with [] => true | _ => false end then s       (* 1470: Good, nothing else *)
            else match cp_remove (cs_points s) cp with
            | (c, CPanic) => mkCstate c (cs_work s) (ECrash :: cs_log s)
            | (c, CMissing) => mkCstate c (cs_work s) (EInvalid cp :: cs_log s)
            | (c, CFound data max) =>
                if release then mkCstate c (cs_work s) (ENext (firstn 4 cp) BReleased :: cs_log s)
                else mkCstate c ((t, (firstn 4 cp, data, max)) :: cs_work s) (cs_log s)
            end
        end
    | CPut t =>
        match work_find (cs_work s) t with
        | None => s
        | Some (cp, data, max) =>
            let w := filter (fun e => negb (Nat.eqb (fst e) t)) (cs_work s) in
            if max <? Z.of_nat (length data)
            then let '(c, r) := page (cs_points s) data max in mkCstate c w (ENext cp r :: cs_log s)
            else mkCstate (cs_points s) w (ENext cp (BRefs data None) :: cs_log s)
        end
    end.
  Definition c_run (ops : list bop) : cstate := fold_left c_step ops c_init.
End ContPoint.
Arguments BRefs {ref}. Arguments BBad {ref}. Arguments BReleased {ref}.
Arguments EBrowse {ref}. Arguments ENext {ref}. Arguments EInvalid {ref}. Arguments ECrash {ref}.
Arguments CBrowse {ref}. Arguments CTake {ref}. Arguments CPut {ref}.
Arguments cs_points {ref}. Arguments cs_work {ref}. Arguments cs_log {ref}. Arguments cp_tab {ref}. Arguments cp_last {ref}.
Arguments mkCstate {ref}. Arguments mkCpoints {ref}.
Arguments CPanic {ref}. Arguments CMissing {ref}. Arguments CFound {ref}.
Arguments cp_find {ref}. Arguments cp_drop {ref}. Arguments work_find {ref}. Arguments cp_remove {ref}.
