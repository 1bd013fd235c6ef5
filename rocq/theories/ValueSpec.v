(** Which values the codec is expected to carry, and what the reader must see.
    Independent of the encoder and decoder of Value.v (only its types are used). *)
From Coq Require Import ZArith List Bool Strings.Byte.
From Verif Require Import Bytes CodecSpec Prim PrimSpec Value.
Import ListNotations.
Open Scope Z_scope.

(** Legal leaf values.  For ExpandedNodeId the null NodeId may not carry a URI or
    server index (see C05), for DateTime the tick count must fit int64 (see C02). *)
Definition bwf (t : bty) : bval t -> Prop :=
  match t with
  | BBool => fun _ => True
  | BSByte => in_s 1 | BByte => in_u 1
  | BInt16 => in_s 2 | BUInt16 => in_u 2
  | BInt32 => in_s 4 | BUInt32 => in_u 4
  | BInt64 => in_s 8 | BUInt64 => in_u 8
  | BFloat => in_u 4 | BDouble => in_u 8 | BStatus => in_u 4
  | BString | BByteString | BXml => len_ok
  | BTime => fun x => wf_time x /\ time_in_int64_ticks x
  | BGuid => fun _ => True
  | BNodeId => wf_nodeid
  | BExp => fun e => wf_exp e /\ (e_node e = NNull -> e_uri e = [] /\ e_server e = 0)
  | BQName => wf_qname
  | BLText => wf_ltext
  end.

Definition bnorm (t : bty) : bval t -> bval t :=
  match t with
  | BTime => norm_time
  | BNodeId => norm_nodeid
  | BExp => norm_exp
  | _ => fun x => x
  end.

Section WAll.
  Context {A : Type} (P : A -> Prop).
  Fixpoint wall (l : list A) : Prop := match l with [] => True | x :: r => P x /\ wall r end.
End WAll.
Section WZip.
  Context (P : ty -> val -> Prop).
  Fixpoint wzip (ts : list ty) (l : list val) {struct l} : Prop :=
    match ts, l with
    | [], [] => True
    | t :: ts', x :: l' => P t x /\ wzip ts' l'
    | _, _ => False
    end.
End WZip.

(** The registry knows type [tid]: its encoding id resolves through the namespace
    table, and the id as seen by the reader leads back to the same type. *)
Definition registered (E : env) (tid : Z) : Prop :=
  supported (TStruct (v_fields E tid)) = true /\
  exists id, v_id_of_type E tid = Some id /\
    wf_nodeid (to_nodeid id (v_uris E)) /\
    v_type_of_id E (to_expanded (norm_nodeid (to_nodeid id (v_uris E))) (v_uris E)) = Some tid.

Definition rect2 {A} (m : list (list A)) : Prop :=
  exists c, Forall (fun r => length r = c) m.
Definition rect3 {A} (m : list (list (list A))) : Prop :=
  exists c1 c2, (m = [] \/ (0 < c1)%nat) /\
    Forall (fun p => length p = c1 /\ Forall (fun r => length r = c2) p) m.

(** [wf strict t v]: [v] is a legal value of type [t].  With [strict] the value of
    every DataValue inside must be absent: a reader does not notice a cut inside it. *)
Section Wf.
Context (E : env) (strict : bool).
Fixpoint wf (t : ty) (v : val) {struct v} : Prop :=
  match v with
  | VB b x => t = TB b /\ bwf b x
  | VBytes o => t = TBytes /\ match o with Some l => len_ok l | None => True end
  | VStruct l => match t with TStruct ts => wzip wf ts l | _ => False end
  | VPtrNil => False
  | VPtr l => match t with TPtr ts => wzip wf ts l | _ => False end
  | VSlice l => match t with TSlice t' => len_ok l /\ wall (wf t') l | _ => False end
  | VNil => t = TVar
  | VScalar k x =>
      t = TVar /\ match k with KB _ => True | KExt => x <> VExtNil | _ => False end
      /\ wf (ty_of_kind k) x
  | VArrNil k => t = TVar /\ k <> KDiag
  | VArr k l => t = TVar /\ k <> KDiag /\ len_ok l /\ wall (wf (ty_of_kind k)) l
  | VMat2 k m =>
      t = TVar /\ k <> KDiag /\ rect2 m /\ len_ok m /\ len_ok (concat m)
      /\ wall (wall (wf (ty_of_kind k))) m
  | VMat3 k m =>
      t = TVar /\ k <> KDiag /\ rect3 m /\ len_ok m /\ len_ok (concat m) /\ len_ok (concat (concat m))
      /\ wall (wall (wall (wf (ty_of_kind k)))) m
  | VDV x st t1 p1 t2 p2 =>
      t = TDV /\ (strict = true -> x = VNil) /\ wf TVar x /\ in_u 4 st
      /\ wf_time t1 /\ time_in_int64_ticks t1 /\ in_u 2 p1
      /\ wf_time t2 /\ time_in_int64_ticks t2 /\ in_u 2 p2
  | VExtNil => t = TExt
  | VExt tid l => t = TExt /\ registered E tid /\ wzip wf (v_fields E tid) l
  | VDiag d => t = TDiag /\ d = Diag None None None None None None None
  end.
End Wf.

(** An unset timestamp stays unset; any other is normalised like a DateTime. *)
Definition norm_stamp (t : time) : time :=
  if (t_sec t =? -62135596800) && (t_nsec t =? 0) then t else norm_time t.

(** A Variant holding a null NodeId is the null Variant. *)
Definition norm_scalar (k : kind) (v : val) : val :=
  match v with VB BNodeId NNull => VNil | _ => VScalar k v end.

Fixpoint norm (v : val) : val :=
  match v with
  | VB b x => VB b (bnorm b x)
  | VStruct l => VStruct (map norm l)
  | VPtr l => VPtr (map norm l)
  | VSlice l => VSlice (map norm l)
  | VScalar k x => norm_scalar k (norm x)
  | VArr k l => VArr k (map norm l)
  | VMat2 k m => VMat2 k (map (map norm) m)
  | VMat3 k m => VMat3 k (map (map (map norm)) m)
  | VDV x st t1 p1 t2 p2 => VDV (norm x) st (norm_stamp t1) p1 (norm_stamp t2) p2
  | VExt tid l => VExt tid (map norm l)
  | v => v
  end.
