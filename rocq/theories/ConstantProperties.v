(** C72, C116 and C117: the numbers the theorems of the other claims speak of are those of the library's constants. *)
From Coq Require Import ZArith List String.
From Verif Require Bytes.
From Verif Require Import StatusTable EnumTable ConstantLemmas.
Import ListNotations.
Open Scope string_scope.
Open Scope Z_scope.

(** Each status code a definition of the model answers with is the library's constant of its name. *)
Theorem c72_codes_used : forall name c, In (name, c) codes_used -> In (name, c) status_table.
Proof. exact codes_named. Qed.
Print Assumptions c72_codes_used.
(** So is each value of an enumeration, *)
Theorem c116_values_used : forall t name v, In (t, name, v) values_used ->
  exists cs, In (t, cs) enum_constants /\ In ((t ++ name)%string, v) cs.
Proof. exact values_named. Qed.
Print Assumptions c116_values_used.
(** and each attribute. *)
Theorem c116_attributes_used : forall name v, In (name, v) attributes_used -> In (name, v) attribute_ids.
Proof. exact attributes_named. Qed.
Print Assumptions c116_attributes_used.
(** Each kind of message begins with its four letters. *)
Theorem c117_message_types : forall letters t, In (letters, t) message_types -> Bytes.le_enc 4 t = list_byte_of_string letters.
Proof. exact types_spelled. Qed.
Print Assumptions c117_message_types.
