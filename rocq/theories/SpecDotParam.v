(** NaN in dot products.  Nothing here refers to the model (Model*.v). *)
From Coq Require Import ZArith List Floats.
From Verif Require Import SpecB64.

(** NaN among the first operands makes the dot product NaN. *)
Definition nan_dots64 (dot : list Z -> list PrimFloat.float -> list PrimFloat.float -> PrimFloat.float) : Prop :=
  forall site a b, length a = length b -> ~ Forall number64 a -> ~ number64 (dot site a b).
