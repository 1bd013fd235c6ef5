(** What data change filters and monitoring modes ask for. *)
From Coq Require Import ZArith List Bool.
From Verif Require Import Bytes Float MonQueue DataChange.
Import ListNotations.
Open Scope Z_scope.

(** * Samples that differ *)
(** A value without the addresses of its slices. *)
Fixpoint content (v : mval) : mval :=
  match v with
  | MSlice t n _ els => MSlice t n 0 (map content els)
  | MByteSlice t n _ bs => MByteSlice t n 0 bs
  | MArray t els => MArray t (map content els)
  | _ => v
  end.
(** No NaN, which differs from itself. *)
Fixpoint plain (v : mval) : Prop :=
  match v with
  | MFlt _ f => f <> FNaN
  | MSlice _ _ _ els | MArray _ els => fold_right (fun x P => plain x /\ P) True els
  | _ => True
  end.
(** All slices lie in one memory: the type, address and length of a slice determine its elements. *)
Section Memory.
  Variables (mem : Z -> Z -> nat -> list mval) (bytemem : Z -> Z -> nat -> list Z).
  Fixpoint stored (v : mval) : Prop :=
    match v with
    | MSlice t _ p els => map content els = mem t p (length els) /\ fold_right (fun x P => stored x /\ P) True els
    | MByteSlice t _ p bs => bs = bytemem t p (length bs)
    | MArray _ els => fold_right (fun x P => stored x /\ P) True els
    | _ => True
    end.
End Memory.
(** Part 4, 7.39: the low 12 bits are information bits *)
Definition same_status (a b : Z) : Prop := a / 2 ^ 12 = b / 2 ^ 12.
Definition status_code (s : Z) : Prop := 0 <= s < 2 ^ 32.
(** Part 4, 7.22.2, with no deadband: trigger 0 reports status changes, 1 also changes of the value,
    2 also changes of the source timestamp. *)
Definition changed (trigger : Z) (cur prev : dval) : Prop :=
  ~ same_status (dv_status cur) (dv_status prev) \/
  1 <= trigger /\ content (dv_value cur) <> content (dv_value prev) \/
  2 <= trigger /\ dv_source cur <> dv_source prev.

(** The number a value stands for, in units of 2^-1074. *)
Definition number (v : mval) : option Z :=
  match v with
  | MInt _ z | MUint _ z => Some (f_int z)
  | MFlt _ (FFin z) => Some z
  | _ => None
  end.
Definition signed64 (z : Z) : Prop := - 2 ^ 63 <= z < 2 ^ 63.
Definition unsigned64 (z : Z) : Prop := 0 <= z < 2 ^ 64.
(** A finite float64 *)
Definition double (z : Z) : Prop := (exists m e, 0 <= e /\ Z.abs m <= 2 ^ 53 /\ z = m * 2 ^ e) /\ Z.abs z < 2 ^ 2098.
(** Two numbers of one type whose difference is a 64-bit number of the type *)
Definition near (cur prev : mval) : Prop :=
  match cur, prev with
  | MInt t a, MInt t' b => t = t' /\ signed64 (a - b)
  | MUint t a, MUint t' b => t = t' /\ unsigned64 (a - b)
  | MFlt t (FFin a), MFlt t' (FFin b) => t = t' /\ double a /\ double b
  | _, _ => False
  end.
(** ... and can be written as a float64 *)
Definition exact (cur prev : mval) : Prop :=
  match cur, prev with
  | MInt _ a, MInt _ b | MUint _ a, MUint _ b => Z.abs (a - b) <= 2 ^ 53
  | MFlt _ (FFin a), MFlt _ (FFin b) => exists m e, 0 <= e /\ Z.abs m <= 2 ^ 53 /\ a - b = m * 2 ^ e
  | _, _ => False
  end.

(** Whether the sample is reported depends on the value only. *)
Definition by_value (f : dfilter) (cur prev : dval) : Prop :=
  (df_trigger f = 1 \/ df_trigger f = 2 /\ dv_source cur = dv_source prev) /\
  same_status (dv_status cur) (dv_status prev) /\ status_code (dv_status cur) /\ status_code (dv_status prev).

(** * The stream of samples *)
(** A sample with a status code and without NaN, in the memory given. *)
Definition tame mem bytemem (v : dval) : Prop := status_code (dv_status v) /\ plain (dv_value v) /\ stored mem bytemem (dv_value v).

(** [reported ch p vs out last]: of the samples [vs], taken when [p] was the last one reported,
    exactly [out] are reported, each because it differs from the last one reported. *)
Inductive reported (ch : dval -> dval -> Prop) : dval -> list dval -> list dval -> dval -> Prop :=
| rp_nil p : reported ch p [] [] p
| rp_yes p v vs out l : ch v p -> reported ch v vs out l -> reported ch p (v :: vs) (v :: out) l
| rp_no p v vs out l : ~ ch v p -> reported ch p vs out l -> reported ch p (v :: vs) out l.
(** The samples of [n] intervals: at the end of each the latest value read by then. *)
Definition interval_samples (n : nat) (ts ti : Z) (pre : list dval) (prev : dval) : list dval :=
  map (fun k => last (filter (fun p => dv_server p <=? ts + Z.of_nat k * ti) pre) prev) (seq 0 n).
Fixpoint in_time_order (pre : list dval) : Prop :=
  match pre with
  | [] => True
  | p :: pre' => Forall (fun q => dv_server p <= dv_server q) pre' /\ in_time_order pre'
  end.
(** What a queue holds after more values have been put in. *)
Definition queued (q : mqueue dval) (vs : list dval) : list dval :=
  mq_queue (fold_left mq_step (map MPut vs) q).

(** The overflow bit, Part 4, 7.39: bit 7 *)
Definition marked (v : dval) : Prop := Z.testbit (dv_status v) 7 = true.

(** * Modes *)
Definition disabled_items (c : dcount) : Z := Z.of_nat (length (filter (fun x => snd x =? m_disabled) (dc_items c))).
(** Every mode change is from or to Disabled. *)
Fixpoint through_disabled (c : dcount) (ops : list dcop) : Prop :=
  match ops with
  | [] => True
  | o :: ops' =>
      match o with
      | CMode id m => forall old, dc_find (dc_items c) id = Some old -> old = m \/ old = m_disabled \/ m = m_disabled
      | _ => True
      end /\ through_disabled (dc_step c o) ops'
  end.
(** Operations that do not leave the mode Disabled. *)
Definition stays_disabled (o : diop) : Prop := match o with DMode m _ _ => m = m_disabled | _ => True end.
(** The item has been triggered, and not handed out all it had since. *)
Fixpoint triggered_since (d : ditem) (ops : list diop) (was : bool) : bool :=
  match ops with
  | [] => was
  | o :: ops' =>
      triggered_since (fst (di_step d o)) ops'
        (match o with
         | DTrigger => true
         | DTake _ => was && negb (empty_list (mq_queue (di_q (fst (di_step d o)))))
         | _ => was
         end)
  end.
(** Mode changes neither from nor to Disabled. *)
Fixpoint switches (c : dcount) (ops : list dcop) : Z :=
  match ops with
  | [] => 0
  | o :: ops' =>
      (match o with
       | CMode id m =>
           match dc_find (dc_items c) id with
           | Some old => if (old =? m) || (old =? m_disabled) || (m =? m_disabled) then 0 else 1
           | None => 0
           end
       | _ => 0
       end) + switches (dc_step c o) ops'
  end.
