(** What the theorems about continuation points talk about. *)
From Coq Require Import ZArith List Bool Strings.Byte.
From Verif Require Import Bytes ContPoint.
Import ListNotations.
Open Scope Z_scope.

Section Spec.
  Variable ref : Type.
  (** Following the continuation points a client was given: a Browse whose matching references
      are [rds] led, over the pages whose concatenation is [got], to the point [cp]. *)
  Inductive chain (log : list (cevent ref)) (rds : list ref) : list ref -> bytes -> Prop :=
  | chain_browse p cp : In (EBrowse rds (BRefs p (Some cp))) log -> chain log rds p cp
  | chain_next got cp p cp' : chain log rds got cp -> In (ENext cp (BRefs p (Some cp'))) log -> chain log rds (got ++ p) cp'.
  (** The point has been given out and not yet sent back. *)
  Definition unused (log : list (cevent ref)) (cp : bytes) : Prop := forall r, ~ In (ENext cp r) log.
  Definition page_max (o : bop ref) : Prop := match o with CBrowse _ max => 0 <= max < 2 ^ 32 | _ => True end.
End Spec.
Arguments chain {ref}. Arguments unused {ref}. Arguments page_max {ref}.
