(** What a double stands for among the exact numbers. *)
From Coq Require Import Reals.
From Verif Require Import Num SpecB64.
Definition image (x : PrimFloat.float) : xr :=
  match FloatOps.Prim2SF x with
  | SpecFloat.S754_infinity s => if s then NInf else PInf
  | SpecFloat.S754_nan => NaN
  | _ => Fin (value x)
  end.
Definition negative_zero (x : PrimFloat.float) : Prop := FloatOps.Prim2SF x = SpecFloat.S754_zero true.
