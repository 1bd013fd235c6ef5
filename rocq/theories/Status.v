(** Status codes: severity and flag tests.  Source: /repo/ua/status_code.go. *)
From Coq Require Import ZArith Bool.
Open Scope Z_scope.

(** status_code.go:41-49 *)
Definition severity_mask : Z := 0xC0000000.
Definition severity_good : Z := 0x00000000.
Definition severity_uncertain : Z := 0x40000000.
Definition severity_bad : Z := 0x80000000.
(** status_code.go:51-66 *)
Definition structure_changed : Z := 0x8000.
Definition semantics_changed : Z := 0x4000.
Definition info_type_mask : Z := 0xC00.
Definition info_type_data_value : Z := 0x400.
Definition limit_bits_mask : Z := 0x300.
Definition overflow_bit : Z := 0x80.
Definition historian_bits_mask : Z := 0x1F.

(** status_code.go:9,14,19 *)
Definition is_good (c : Z) : bool := Z.land c severity_mask =? severity_good.
Definition is_bad (c : Z) : bool := Z.land c severity_mask =? severity_bad.
Definition is_uncertain (c : Z) : bool := Z.land c severity_mask =? severity_uncertain.
(** status_code.go:24,29,34 *)
Definition is_structure_changed (c : Z) : bool := Z.land c structure_changed =? structure_changed.
Definition is_semantics_changed (c : Z) : bool := Z.land c semantics_changed =? semantics_changed.
Definition is_overflow (c : Z) : bool :=
  (Z.land c info_type_mask =? info_type_data_value) && (Z.land c overflow_bit =? overflow_bit).

(** datachange_monitored_item.go:192 and similar: how flag bits are added *)
Definition set_bits (c bits : Z) : Z := Z.lor c bits.
