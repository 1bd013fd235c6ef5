(** What the monitored item services must do (Part 4, 5.12; Part 3, 8.55). *)
From Coq Require Import ZArith List Bool.
From Verif Require Import Bytes Float IndexRange IndexRangeSpec Roles Nodes NodeAccess AccessSpec MonService.
Import ListNotations.
Open Scope Z_scope.

(** * What may be monitored *)
Definition p_receive_events : Z := 11.
(** The attributes a node class may have; a data type may have a definition *)
Definition class_attribute (k : kind) (a : Z) : Prop := has_attribute k a \/ (a = 23 /\ exists d, k = KDataType d).
(** An index range that is well formed and has as many dimensions as the value *)
Definition range_fits (s : bytes) (dest rank : Z) : Prop :=
  s = [] \/ exists ds, ds <> [] /\ spells_all s ds /\ Forall bounded ds /\ admits ((dest =? 12) || (dest =? 15)) rank (Z.of_nat (length ds)).
(** Built-in types 2 (SByte) to 11 (Double) are numbers *)
Definition change_filter (f : filter) (dest : Z) : Prop :=
  f = FNone \/ exists trigger deadband value, f = FData trigger deadband value /\ (deadband = 0 \/ 2 <= dest <= 11).
Definition monitorable (default : list perm) (vt : Z -> Z) (roles : option (list Z)) (sp : space) (q : create_req) : Prop :=
  exists n, sp (rq_node (cq_item q)) = Some n /\
    ((rq_attr (cq_item q) = 13 /\
      exists v, nd_kind n = KVariable v /\ readable v /\ user_may default roles n p_read /\
        range_fits (rq_range (cq_item q)) (vt (va_type v)) (va_rank v) /\ change_filter (pr_filter (cq_params q)) (vt (va_type v))) \/
     (rq_attr (cq_item q) = 12 /\ nd_kind n = KObject /\ Z.testbit (event_notifier n) 0 = true /\ user_may default roles n p_receive_events /\
      exists f, pr_filter (cq_params q) = FEvent f) \/
     (rq_attr (cq_item q) <> 13 /\ rq_attr (cq_item q) <> 12 /\ class_attribute (nd_kind n) (rq_attr (cq_item q)) /\ user_may default roles n p_browse /\
      pr_filter (cq_params q) = FNone)).

(** * Histories *)
(** How many items have been asked for *)
Definition asked (o : mop) : Z := match o with OCreate _ _ l => zlen l | _ => 0 end.
Fixpoint all_asked (ops : list mop) : Z := match ops with [] => 0 | o :: r => asked o + all_asked r end.
(** Items are created by users with these roles only, the user of the session and the nodes stay as
    they are. *)
Definition calm (roles : option (list Z)) (o : mop) : Prop :=
  match o with OCreate r _ _ => r = roles | OUser _ | ONode _ _ => False | _ => True end.
(** The item as the answers to the client describe it *)
Definition describes (q : create_req) (r : result) (i : item) : Prop :=
  it_id i = rs_id r /\ it_item i = cq_item q /\ it_mode i = cq_mode q /\ it_handle i = pr_handle (cq_params q) /\ it_interval i = rs_interval r /\
  it_size i = rs_size r /\ it_oldest i = pr_oldest (cq_params q) /\ it_event i = (rq_attr (cq_item q) =? 12) /\ it_links i = [] /\ it_triggered i = false /\
  (pr_filter (cq_params q) <> FNone -> it_filter i = pr_filter (cq_params q)).
(** The sampling interval nearest to the one asked for; [m] the least of the server, [k] of the
    node (milliseconds in units of 2^-1074, f_int); a negative one means the publishing interval [p] *)
Definition nearest_interval (m p k : Z) (x : f64) : f64 :=
  let limit z := FFin (Z.max k (Z.min (f_int 60000) (Z.max m z))) in
  match x with
  | FNaN => FNaN
  | FInf true => limit p
  | FInf false => limit (f_int 60000)
  | FFin z => limit (if z <? 0 then p else z)
  end.
Definition nearest_size (n : Z) : Z := Z.max 1 (Z.min 1024 n).
(** The filters an item of this attribute may be given; [number]: its value is a number *)
Definition number (vt : Z -> Z) (n : node) : Prop := exists v, nd_kind n = KVariable v /\ 2 <= vt (va_type v) <= 11.
Definition suits (attr : Z) (number : Prop) (f : filter) : Prop :=
  f = FNone \/ (attr = 13 /\ exists trigger deadband value, f = FData trigger deadband value /\ (deadband = 0 \/ number)) \/
  (attr = 12 /\ exists c, f = FEvent c).
(** The item has taken the parameters of a modification *)
Definition takes (p : params) (r : result) (j : item) : Prop :=
  it_handle j = pr_handle p /\ it_oldest j = pr_oldest p /\ it_interval j = rs_interval r /\ it_size j = rs_size r /\
  (pr_filter p <> FNone -> it_filter j = pr_filter p).
(** [k]: the least interval of each node; it is for values only *)
Definition least (k : node -> Z) (attr : Z) (n : node) : Z := if attr =? 13 then k n else 0.
(** Size and interval of an answer for an item of attribute [attr] on node [n] *)
Definition revised (m p : Z) (k : node -> Z) (attr : Z) (n : node) (q : params) (r : result) : Prop :=
  rs_size r = (if attr =? 12 then 1024 else nearest_size (pr_size q)) /\
  (pr_interval q <> FNaN -> rs_interval r = (if attr =? 12 then FFin 0 else nearest_interval m p (least k attr n) (pr_interval q))).
(** How many entries a request has *)
Definition entries (o : mop) : option Z :=
  match o with OCreate _ _ l => Some (zlen l) | OModify _ l => Some (zlen l) | OMode _ ids | ODelete ids => Some (zlen ids) | _ => None end.
(** Fields that ModifyMonitoredItems leaves alone *)
Definition same_identity (i j : item) : Prop :=
  it_id j = it_id i /\ it_item j = it_item i /\ it_event j = it_event i /\ it_mode j = it_mode i /\ it_stamps j = it_stamps i /\
  it_links j = it_links i /\ it_triggered j = it_triggered i.

(** What an entry of ModifyMonitoredItems does to the item it names, in [s] and after in [s'] *)
Definition modify_effect (vt : Z -> Z) (m p : Z) (k : node -> Z) (s s' : mon) (q : Z * params) (r : result) : Prop :=
  (~ In (fst q) (map it_id (mo_items s)) -> rs_status r = 0x80420000) /\
  forall i n, In i (mo_items s) -> it_id i = fst q -> mo_space s (rq_node (it_item i)) = Some n -> (rq_attr (it_item i) = 13 -> exists v, nd_kind n = KVariable v) ->
    (suits (rq_attr (it_item i)) (number vt n) (pr_filter (snd q)) /\ rs_status r = 0 /\ revised m p k (rq_attr (it_item i)) n (snd q) r /\
     exists j, In j (mo_items s') /\ same_identity i j /\ takes (snd q) r j) \/
    (~ suits (rq_attr (it_item i)) (number vt n) (pr_filter (snd q)) /\ rs_status r = 0x80450000 /\ In i (mo_items s')).
(** Another mode and nothing else; another trigger and nothing else *)
Definition other_mode (mode : Z) (i j : item) : Prop := j = mkMItem (it_id i) (it_item i) (it_event i) mode (it_handle i) (it_interval i) (it_size i)
  (it_oldest i) (it_filter i) (it_stamps i) (it_links i) (it_triggered i).
Definition triggered_as (b : bool) (i j : item) : Prop := j = mkMItem (it_id i) (it_item i) (it_event i) (it_mode i) (it_handle i) (it_interval i) (it_size i)
  (it_oldest i) (it_filter i) (it_stamps i) (it_links i) b.

(** * Links *)
(** Which item triggers which, as far as the answers tell: a link is there if it was added, and not
    removed since, and both items still exist. *)
Definition links : Type := Z -> Z -> bool.
Definition no_links : links := fun _ _ => false.
Definition set_link (L : links) (t j : Z) (b : bool) : links := fun x y => if (x =? t) && (y =? j) then b else L x y.
Fixpoint told_links (b : bool) (t : Z) (ids statuses : list Z) (L : links) : links :=
  match ids, statuses with
  | j :: ids', s :: ss => told_links b t ids' ss (if s =? 0 then set_link L t j b else L)
  | _, _ => L
  end.
Fixpoint forget (ids : list Z) (L : links) : links :=
  match ids with [] => L | j :: ids' => forget ids' (fun x y => if (x =? j) || (y =? j) then false else L x y) end.
Definition told (L : links) (o : mop) (a : answer) : links :=
  match o, a with
  | OTriggering t add remove, Linked added removed => told_links true t add added (told_links false t remove removed L)
  | ODelete ids, Statuses _ => forget ids L
  | _, _ => L
  end.
(** No link is added that is there already. *)
Fixpoint adds_new (t : Z) (add statuses : list Z) (L : links) : Prop :=
  match add, statuses with
  | j :: r, s :: ss => (s = 0 -> L t j = false) /\ adds_new t r ss (if s =? 0 then set_link L t j true else L)
  | _, _ => True
  end.
Definition news (L : links) (o : mop) (a : answer) : Prop :=
  match o, a with
  | OTriggering t add remove, Linked added removed => adds_new t add added (told_links false t remove removed L)
  | _, _ => True
  end.
Fixpoint all_news (L : links) (ops : list mop) (l : list answer) : Prop :=
  match ops, l with
  | o :: ops', a :: l' => news L o a /\ all_news (told L o a) ops' l'
  | _, _ => True
  end.
Fixpoint all_told (L : links) (ops : list mop) (l : list answer) : links :=
  match ops, l with
  | o :: ops', a :: l' => all_told (told L o a) ops' l'
  | _, _ => L
  end.
