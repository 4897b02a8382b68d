(** Dot products of doubles in whatever order and with whatever instructions a
    library computes them.  Nothing here refers to the model (Model*.v). *)
From Coq Require Import Reals List Floats Permutation.
From Verif Require Import SpecB64.
Import ListNotations.
Open Scope R_scope.

(** [r] is a fused multiply-add of [x], [y] and [a]: for finite arguments a finite
    double nearest to the exact [xy + a], unless that is beyond the range of
    doubles. *)
Definition fused64 (x y a r : PrimFloat.float) : Prop :=
  let v := value x * value y + value a in
  finite64 x -> finite64 y -> finite64 a -> Rabs v <= 2 ^ 1023 ->
  finite64 r /\ forall z, finite64 z -> Rabs (value r - v) <= Rabs (value z - v).

(** [r] is a sum of the products of the pairs in [l]: products rounded, then
    added in some order and with some bracketing, or added by fused
    multiply-adds, or both. *)
Inductive dotted64 : list (PrimFloat.float * PrimFloat.float) -> PrimFloat.float -> Prop :=
| dotted_nil : dotted64 [] 0%float
| dotted_one x y : dotted64 [(x, y)] (x * y)%float
| dotted_app l1 l2 a b : dotted64 l1 a -> dotted64 l2 b -> dotted64 (l1 ++ l2) (a + b)%float
| dotted_fma l x y a r : dotted64 l a -> fused64 x y a r -> dotted64 ((x, y) :: l) r
| dotted_perm l l' a : Permutation l l' -> dotted64 l a -> dotted64 l' a.

(** Every dot product, wherever it occurs (the first argument), is of this kind. *)
Definition dots64 (dot : list Z -> list PrimFloat.float -> list PrimFloat.float -> PrimFloat.float) : Prop :=
  forall site a b, length a = length b -> dotted64 (combine a b) (dot site a b).
