(** Notions for the reference model. *)
From Verif Require Import Py Num ModelKnots ModelCurve ModelSurface ModelInit ModelParam ModelFit ModelIO ModelData ModelRef.
Open Scope Z_scope.

Section Ref.
Context {K : Num}.

(** The reference is to [a]. *)
Definition opt_is (o : option nat) (a : nat) : bool := match o with Some b => (a =? b)%nat | None => false end.
(** Curve [k] is the initial or the fitted curve of boundary problem [i]; the
    same for surfaces and interior problems. *)
Definition owned (s : store K) (i k : nat) : Prop := rb_init (bp_at s i) = Some k \/ rb_fit (bp_at s i) = Some k.
Definition iowned (s : store K) (i k : nat) : Prop := ri_init (ip_at s i) = Some k \/ ri_fit (ip_at s i) = Some k.
(** Assignment to an attribute of curve [k], and what the setter makes of its contents. *)
Definition cur_op (o : rop K) (k : nat) : Prop :=
  match o with UCurDegree k' _ | UCurCtrl k' _ | UCurKv k' _ => k' = k | _ => False end.
Definition cur_op_val (s : store K) (o : rop K) (c : curve_obj K) : res (curve_obj K) :=
  match o with
  | UCurDegree _ d => set_degree c d
  | UCurCtrl _ a => store_ctrl c (dt_rows (mat_at s a))
  | UCurKv _ a => set_knot_vector c (NdArray (vec_at s a))
  | _ => Ok c
  end.
End Ref.
