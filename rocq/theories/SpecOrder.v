(** Data arrays that hold the same points in another order. *)
From Coq Require Import Permutation.
From Verif Require Import Py Num ModelCurve ModelSurface ModelInit ModelParam ModelFit ModelIO ModelData.

(** Zero is written in one way: in exact arithmetic every number is like this, among
    doubles all but -0. *)
Definition one_zero {K : Num} (x : K) : Prop := (x =? 0)%num = true -> x = 0%num.
(** Points of three coordinates, and the same points in another order. *)
Definition reordered {K : Num} (d d' : data_array K) : Prop :=
  dt_cols d = 3%Z /\ dt_cols d' = 3%Z /\ Permutation (dt_rows d) (dt_rows d') /\ Forall (fun r => length r = 3%nat /\ Forall one_zero r) (dt_rows d).
(** The same problem with other data. *)
Definition with_points {K : Num} (b : bproblem K) (x : data_array K) : bproblem K :=
  mkBP (bp_degree b) (Some x) (bp_start b) (bp_end b) (bp_num b) (bp_adaptive b) (bp_init b) (bp_param b) (bp_fit b).
Definition with_inner_points {K : Num} (p : iproblem K) (x : data_array K) : iproblem K :=
  mkIP (ip_degree p) (Some x) (ip_num p) (ip_top p) (ip_bottom p) (ip_init p) (ip_param p) (ip_fit p).
(** The order of [np.sort] on numbers, NaN last, and on records, field by field in the
    order given. *)
Definition comes_first {K : Num} (x y : K) : Prop := (x <? y)%num = true \/ ((x =? x)%num = true /\ (y =? y)%num = false).
Fixpoint in_order {K : Num} (fields : list nat) (a b : list K) : Prop :=
  match fields with
  | [] => True
  | i :: t => comes_first (nth i a 0%num) (nth i b 0%num) \/ (~ comes_first (nth i b 0%num) (nth i a 0%num) /\ in_order t a b)
  end.
