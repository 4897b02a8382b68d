(** Number systems.  The numeric code of /repo is modelled once over [Num]. *)
From Coq Require Import Reals Lra.
From Coq Require PrimFloat FloatOps Uint63.
From Verif Require Import Py.
Open Scope Z_scope.

(** Operations the code uses on [np.float64] values. *)
Record Num := mkNum {
  carrier :> Type;
  ofZ : Z -> carrier;                             (* int -> float *)
  nadd : carrier -> carrier -> carrier;
  nsub : carrier -> carrier -> carrier;
  nmul : carrier -> carrier -> carrier;
  ndiv : carrier -> carrier -> carrier;           (* numpy division: never raises *)
  nopp : carrier -> carrier;
  nabs : carrier -> carrier;
  nsqrt : carrier -> carrier;
  nltb : carrier -> carrier -> bool;
  nleb : carrier -> carrier -> bool;
  neqb : carrier -> carrier -> bool;
  nfinite : carrier -> bool;
  ntrunc : carrier -> option Z;                   (* int(x); None on inf/NaN *)
  nceil : carrier -> option Z                     (* math.ceil; None on inf/NaN *)
}.
Arguments ofZ {n} _.
Arguments nadd {n} _ _.
Arguments nsub {n} _ _.
Arguments nmul {n} _ _.
Arguments ndiv {n} _ _.
Arguments nopp {n} _.
Arguments nabs {n} _.
Arguments nsqrt {n} _.
Arguments nltb {n} _ _.
Arguments nleb {n} _ _.
Arguments neqb {n} _ _.
Arguments nfinite {n} _.
Arguments ntrunc {n} _.
Arguments nceil {n} _.

Declare Scope num_scope.
Delimit Scope num_scope with num.
Infix "+" := nadd : num_scope.
Infix "-" := nsub : num_scope.
Infix "*" := nmul : num_scope.
Infix "/" := ndiv : num_scope.
Infix "<?" := nltb : num_scope.
Infix "<=?" := nleb : num_scope.
Infix "=?" := neqb : num_scope.
Notation "0" := (ofZ 0) : num_scope.
Notation "1" := (ofZ 1) : num_scope.

Section Generic.
Context {K : Num}.
Local Open Scope num_scope.

(** Decimal literals [1e-k] (one correctly rounded division in binary64). *)
Definition lit_1em5 : K := 1 / ofZ 100000.
Definition lit_1em6 : K := 1 / ofZ 1000000.
Definition lit_1em8 : K := 1 / ofZ 100000000.
Definition lit_1e6 : K := ofZ 1000000.

(** [np.isclose(a, b, rtol, atol)] on scalars. *)
Definition isclose_tol (rtol atol a b : K) : bool :=
  if nfinite a && nfinite b then nabs (a - b) <=? atol + rtol * nabs b
  else a =? b.
(** [np.isclose(a, b)] with the numpy defaults rtol=1e-5, atol=1e-8. *)
Definition isclose (a b : K) : bool := isclose_tol lit_1em5 lit_1em8 a b.

(** Left-to-right sum, dot product, Euclidean norm of a vector.
    [np.sum]/[@]/[np.linalg.norm] may use another summation order. *)
Definition nsum (l : list K) : K := fold_left nadd l 0.
Definition vmap2 (f : K -> K -> K) (a b : list K) : list K :=
  map (fun xy => f (fst xy) (snd xy)) (combine a b).
Definition vdot (a b : list K) : K := nsum (vmap2 nmul a b).
Definition vnorm (a : list K) : K := nsqrt (vdot a a).
Definition vadd (a b : list K) : list K := vmap2 nadd a b.
Definition vscale (c : K) (a : list K) : list K := map (nmul c) a.

(** [a @ b] for 1-D operands: lengths must agree. *)
Definition matmul11 (a b : list K) : res K :=
  if (zlen a =? zlen b)%Z then Ok (vdot a b) else Err ValueError.
End Generic.

(** [<] is a strict weak order on the values satisfying [P]. *)
Record weak_order (K : Num) (P : K -> Prop) : Prop := {
  wo_irrefl : forall x, P x -> nltb x x = false;
  wo_trans : forall x y z, P x -> P y -> P z -> nltb x y = true -> nltb y z = true -> nltb x z = true;
  wo_cotrans : forall x y z, P x -> P y -> P z -> nltb x z = true -> nltb x y = true \/ nltb y z = true
}.

(** ** Exact numbers: reals with IEEE special values, no rounding. *)
Inductive xr := Fin (r : R) | PInf | NInf | NaN.

Section ExactOps.
Local Open Scope R_scope.
Definition Rltb (a b : R) : bool := if Rlt_dec a b then true else false.
Definition Rleb (a b : R) : bool := if Rle_dec a b then true else false.
Definition Reqb (a b : R) : bool := if Req_EM_T a b then true else false.

Definition xopp (a : xr) : xr :=
  match a with Fin r => Fin (- r) | PInf => NInf | NInf => PInf | NaN => NaN end.
Definition xadd (a b : xr) : xr :=
  match a, b with
  | Fin x, Fin y => Fin (x + y)
  | NaN, _ | _, NaN => NaN
  | PInf, NInf | NInf, PInf => NaN
  | PInf, _ | _, PInf => PInf
  | NInf, _ | _, NInf => NInf
  end.
Definition xsub (a b : xr) : xr :=
  match a, b with
  | Fin x, Fin y => Fin (x - y)
  | _, _ => xadd a (xopp b)
  end.
(** infinity times a real *)
Definition xinf_mul (inf : xr) (y : R) : xr :=
  if Req_EM_T y 0 then NaN else if Rlt_dec y 0 then xopp inf else inf.
Definition xmul (a b : xr) : xr :=
  match a, b with
  | Fin x, Fin y => Fin (x * y)
  | NaN, _ | _, NaN => NaN
  | Fin x, i => xinf_mul i x
  | i, Fin y => xinf_mul i y
  | PInf, i => i
  | NInf, i => xopp i
  end.
Definition xdiv (a b : xr) : xr :=
  match a, b with
  | Fin x, Fin y =>
      if Req_EM_T y 0 then
        if Req_EM_T x 0 then NaN else if Rlt_dec x 0 then NInf else PInf
      else Fin (x / y)
  | NaN, _ | _, NaN => NaN
  | Fin _, _ => Fin 0
  | i, Fin y => if Rlt_dec y 0 then xopp i else i
  | _, _ => NaN
  end.
Definition xabs (a : xr) : xr :=
  match a with Fin r => Fin (Rabs r) | PInf | NInf => PInf | NaN => NaN end.
Definition xsqrt (a : xr) : xr :=
  match a with
  | Fin r => if Rlt_dec r 0 then NaN else Fin (R_sqrt.sqrt r)
  | PInf => PInf | NInf => NaN | NaN => NaN
  end.
Definition xltb (a b : xr) : bool :=
  match a, b with
  | Fin x, Fin y => Rltb x y
  | NaN, _ | _, NaN => false
  | NInf, NInf => false | NInf, _ => true
  | _, PInf => match a with PInf => false | _ => true end
  | _, _ => false
  end.
Definition xeqb (a b : xr) : bool :=
  match a, b with
  | Fin x, Fin y => Reqb x y
  | PInf, PInf | NInf, NInf => true
  | _, _ => false
  end.
Definition xleb (a b : xr) : bool :=
  match a, b with
  | Fin x, Fin y => Rleb x y
  | _, _ => xltb a b || xeqb a b
  end.
Definition xfinite (a : xr) : bool := match a with Fin _ => true | _ => false end.
(** floor of a real as an integer *)
Definition Rfloor (r : R) : Z := (up r - 1)%Z.
Definition xtrunc (a : xr) : option Z :=
  match a with
  | Fin r => Some (if Rlt_dec r 0 then (- Rfloor (- r))%Z else Rfloor r)
  | _ => None
  end.
Definition xceil (a : xr) : option Z :=
  match a with Fin r => Some (- Rfloor (- r))%Z | _ => None end.
End ExactOps.

Definition Exact : Num :=
  mkNum xr (fun z => Fin (IZR z)) xadd xsub xmul xdiv xopp xabs xsqrt
        xltb xleb xeqb xfinite xtrunc xceil.

(** Vectors and matrices of real numbers as arrays of [Exact] numbers. *)
Definition fin (l : list R) : list Exact := map Fin l.
Definition fin2 (m : list (list R)) : list (list Exact) := map fin m.

(** ** Binary64: Coq's primitive IEEE 754 doubles (round to nearest even). *)
Definition b64_ofZ (z : Z) : PrimFloat.float :=
  match z with
  | Z0 => PrimFloat.zero
  | Zpos _ => PrimFloat.of_uint63 (Uint63.of_Z z)      (* exact below 2^53 *)
  | Zneg p => PrimFloat.opp (PrimFloat.of_uint63 (Uint63.of_Z (Zpos p)))
  end.
Definition b64_finite (x : PrimFloat.float) : bool :=
  PrimFloat.eqb (PrimFloat.sub x x) PrimFloat.zero.
(** floor of the absolute value, sign: from the mantissa/exponent form *)
Definition b64_parts (x : PrimFloat.float) : option (bool * Z * Z) :=
  match FloatOps.Prim2SF x with
  | SpecFloat.S754_zero s => Some (s, 0, 0)
  | SpecFloat.S754_finite s m e => Some (s, Zpos m, e)
  | _ => None
  end.
Definition b64_trunc (x : PrimFloat.float) : option Z :=
  match b64_parts x with
  | Some (s, m, e) =>
      let a := if 0 <=? e then m * 2 ^ e else m / 2 ^ (- e) in
      Some (if s then - a else a)
  | None => None
  end.
Definition b64_ceil (x : PrimFloat.float) : option Z :=
  match b64_parts x with
  | Some (s, m, e) =>
      let v := if s then - m else m in
      Some (if 0 <=? e then v * 2 ^ e else - ((- v) / 2 ^ (- e)))
  | None => None
  end.
Definition Binary64 : Num :=
  mkNum PrimFloat.float b64_ofZ PrimFloat.add PrimFloat.sub PrimFloat.mul PrimFloat.div
        PrimFloat.opp PrimFloat.abs PrimFloat.sqrt PrimFloat.ltb PrimFloat.leb PrimFloat.eqb
        b64_finite b64_trunc b64_ceil.
