(** What a binary64 number denotes, for statements about the code as it runs
    on IEEE 754 doubles.  Nothing here refers to the model (Model*.v). *)
From Coq Require Import Reals List ZArith Floats Permutation Bool.
From Coq Require SpecFloat.
Open Scope R_scope.

(** Neither infinite nor NaN. *)
Definition finite64 (x : PrimFloat.float) : Prop :=
  match FloatOps.Prim2SF x with
  | SpecFloat.S754_zero _ | SpecFloat.S754_finite _ _ _ => True
  | _ => False
  end.
(** The real number a finite double stands for (0 for the others). *)
Definition value (x : PrimFloat.float) : R :=
  match FloatOps.Prim2SF x with
  | SpecFloat.S754_finite s m e => (if s then - IZR (Zpos m) else IZR (Zpos m)) * powerRZ 2 e
  | _ => 0
  end.
(** Not NaN. *)
Definition number64 (x : PrimFloat.float) : Prop := FloatOps.Prim2SF x <> SpecFloat.S754_nan.

(** The real vector behind a vector of doubles. *)
Definition values (l : list PrimFloat.float) : list R := map value l.
(** All entries finite and in [a,b]. *)
Definition within (a b : R) (l : list PrimFloat.float) : Prop :=
  Forall (fun x => finite64 x /\ a <= value x <= b) l.

(** Half the distance from 1 to the next larger double. *)
Definition ulp64 : R := / 2 ^ 53.
(** Sum of the componentwise errors. *)
Fixpoint error1 (x y : list R) : R :=
  match x, y with
  | a :: x, b :: y => Rabs (a - b) + error1 x y
  | _, _ => 0
  end.
(** Half the smallest positive double. *)
Definition tiny64 : R := / 2 ^ 1075.
(** The largest componentwise error is at most [e]. *)
Definition near64 (e : R) (x : list PrimFloat.float) (y : list R) : Prop :=
  Forall2 (fun a b => finite64 a /\ Rabs (value a - b) <= e) x y.
(** A double in [0,1]. *)
Definition unit64 (x : PrimFloat.float) : Prop := finite64 x /\ 0 <= value x <= 1.
(** The doubles [t 0], ..., [t m] are spread over [0,1]: each within a relative
    error of three ulps of [i/m], starting at 0, strictly increasing, ending at 1
    or at the largest double below 1. *)
Definition spread64 (m : Z) (t : Z -> PrimFloat.float) : Prop :=
  (forall i, (0 <= i <= m)%Z -> unit64 (t i) /\
     Rabs (value (t i) - IZR i / IZR m) <= 3 * ulp64 * (IZR i / IZR m)) /\
  value (t 0%Z) = 0 /\ (value (t m) = 1 \/ value (t m) = 1 - ulp64) /\
  (forall i j, (0 <= i < j)%Z -> (j <= m)%Z -> value (t i) < value (t j)).
(** [a] is the sum of the doubles in [l], each addition rounded, in some order
    and with some bracketing. *)
Inductive added64 : list PrimFloat.float -> PrimFloat.float -> Prop :=
| added_nil : added64 nil 0%float
| added_one x : added64 (x :: nil) x
| added_app l1 l2 a b : added64 l1 a -> added64 l2 b -> added64 (l1 ++ l2) (a + b)%float
| added_perm l l' a : Permutation l l' -> added64 l a -> added64 l' a.
(** A double that is infinite, NaN, or outside [a,b]. *)
Definition stray64 (a b : R) (x : PrimFloat.float) : bool :=
  match FloatOps.Prim2SF x with
  | SpecFloat.S754_zero _ | SpecFloat.S754_finite _ _ _ =>
      if Rlt_dec (value x) a then true else if Rlt_dec b (value x) then true else false
  | _ => true
  end.
(** Rows whose parameter (column 3; for surfaces columns 3 and 4) is stray. *)
Definition curve_strays64 (a b : R) (rows : list (list PrimFloat.float)) : nat :=
  length (filter (fun r => stray64 a b (nth 3 r 0%float)) rows).
Definition surf_strays64 (a b c d : R) (rows : list (list PrimFloat.float)) : nat :=
  length (filter (fun r => stray64 a b (nth 3 r 0%float) || stray64 c d (nth 4 r 0%float)) rows).
(** Dividing 1 by the width [w] and multiplying back gives 1. *)
Definition undoes64 (w : PrimFloat.float) : Prop := / 2 ^ 1000 <= value w /\ (w * (1 / w))%float = 1%float.
(** The same number: equal in Python's sense (the two zeros are equal, a NaN equals nothing). *)
Definition equal64 (x y : list PrimFloat.float) : Prop := Forall2 (fun a b => (a =? b)%float = true) x y.
