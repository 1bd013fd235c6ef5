(** The parameters the server settles on for a subscription.

    Source: /repo/server/subscription.go (setPublishingInterval 187-198, setMaxKeepAliveCount
    200-225, setLifetimeCount 227-258, setMaxNotificationsPerPublish 260-266, NewSubscription 65,
    Modify 172). *)
From Coq Require Import ZArith Bool.
From Verif Require Import Float.
Open Scope Z_scope.

(** subscription.go:15-21, in milliseconds *)
Definition minPublishingInterval : f64 := FFin (f_int 125).
Definition maxPublishingInterval : f64 := FFin (f_int 60000).
Definition minLifetime : f64 := FFin (f_int 10000).
Definition maxLifetime : f64 := FFin (f_int 3600000).
Definition maxUint32 : Z := 2 ^ 32 - 1.

(** 187 *)
Definition set_interval (p : f64) : f64 :=
  let p := if f_isnan p then minPublishingInterval else p in
  let p := if f_lt p minPublishingInterval then minPublishingInterval else p in
  if f_lt maxPublishingInterval p then maxPublishingInterval else p.

(** The repeated fragment 207-212, 218-223, 231-236, 250-256: the limit in intervals, rounded up *)
Definition count_of (limit x : f64) : Z :=
  let c := f_u32 (f_div limit x) in
  if c <? maxUint32 then (if f_mod_nonzero limit x then c + 1 else c) else c.

(** 200; [x] is the publishing interval already set *)
Definition set_keepalive (x : f64) (c : Z) : Z :=
  let c := if c =? 0 then 3 else c in
  let '(c, iv) :=
    if f_lt maxLifetime (f_mul (f_of_Z c) x)
    then let c := count_of maxLifetime x in (c, f_mul (f_of_Z c) x)
    else (c, f_mul (f_of_Z c) x) in
  if f_lt maxPublishingInterval iv then count_of maxPublishingInterval x else c.

(** 227; [k] is the keep-alive count already set.  The interval of the other branch of 239 is
    math.MaxFloat64; it is only compared with the minimum. *)
Definition set_lifetime (x : f64) (k c : Z) : Z :=
  let c := if f_lt maxLifetime (f_mul (f_of_Z c) x) then count_of maxLifetime x else c in
  let '(c, iv) :=
    if k <? maxUint32 / 3
    then let c := if c <? k * 3 then k * 3 else c in (c, f_mul (f_of_Z c) x)
    else (maxUint32, FInf false) in
  if f_lt x minLifetime && f_lt iv minLifetime then count_of minLifetime x else c.

(** 260 *)
Definition set_max_notifications (n : Z) : Z := if 0 <? n then n else 2 ^ 31 - 1.
