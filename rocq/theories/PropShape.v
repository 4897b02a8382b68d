(** C112-C116: shape of curves and surfaces, reversal and exchange of the
    parameters, and what fits do not depend on. *)
From Coq Require Import Floats Permutation Sorted.
From Verif Require Import Py Num ModelKnots ModelBasis ModelCurve ModelSurface ModelInit ModelParam ModelFit Spec SpecParam SpecFit SpecSmooth SpecShape MathKnots MathCox MathDeriv
  ProofNum ProofSpan2 ProofFit3 ProofCurve ProofSurface ProofSurface2 ProofShape ProofShape2 ProofShape3 ProofShape4 ProofShape5 Examples PropSurface PropData PropParam PropSmooth.
Open Scope R_scope.

(** ** C112: shape *)

Theorem C112_curve : forall p U P d c l L u v, clamped (Z.of_nat p) (len P) U -> (1 <= p)%nat -> strict (Z.of_nat p) (len P) U ->
  kn U (Z.of_nat p) = 0 -> kn U (len P) = 1 -> wide_end (len P) U -> Forall (fun row => length row = 3%nat) P ->
  (c < 3)%nat -> rates p U (coords c P) l L -> 0 <= u -> u <= v -> v <= 1 ->
  exists a b, single_point (curve_of (Z.of_nat p) U P d) (Fin u : Exact) = Ok (fin a) /\ single_point (curve_of (Z.of_nat p) U P d) (Fin v : Exact) = Ok (fin b) /\
    length a = 3%nat /\ length b = 3%nat /\ l * (v - u) <= nth c b 0 - nth c a 0 <= L * (v - u).
Proof. exact single_point_rates. Qed.
Print Assumptions C112_curve.

Theorem C112_injective : forall p U P d c l L u v x, clamped (Z.of_nat p) (len P) U -> (1 <= p)%nat -> strict (Z.of_nat p) (len P) U ->
  kn U (Z.of_nat p) = 0 -> kn U (len P) = 1 -> wide_end (len P) U -> Forall (fun row => length row = 3%nat) P ->
  (c < 3)%nat -> rates p U (coords c P) l L -> 0 < l ->
  single_point (curve_of (Z.of_nat p) U P d) (Fin u : Exact) = Ok x -> single_point (curve_of (Z.of_nat p) U P d) (Fin v : Exact) = Ok x -> u = v.
Proof. exact single_point_injective. Qed.
Print Assumptions C112_injective.

Theorem C112_convex : forall p U P d c u v w, clamped (Z.of_nat p) (len P) U -> (2 <= p)%nat -> strict (Z.of_nat p) (len P) U ->
  kn U (Z.of_nat p) = 0 -> kn U (len P) = 1 -> wide_end (len P) U -> Forall (fun row => length row = 3%nat) P ->
  (c < 3)%nat -> convex_rates p U (coords c P) -> 0 <= u -> u <= v -> v <= w -> w <= 1 ->
  exists x y z, single_point (curve_of (Z.of_nat p) U P d) (Fin u : Exact) = Ok (fin x) /\ single_point (curve_of (Z.of_nat p) U P d) (Fin v : Exact) = Ok (fin y) /\
    single_point (curve_of (Z.of_nat p) U P d) (Fin w : Exact) = Ok (fin z) /\ length x = 3%nat /\ length y = 3%nat /\ length z = 3%nat /\
    (nth c y 0 - nth c x 0) * (w - v) <= (nth c z 0 - nth c y 0) * (v - u).
Proof. exact single_point_convex. Qed.
Print Assumptions C112_convex.

Theorem C112_surface_u : forall p q nu nv U V P c l L u u' v, clamped (Z.of_nat p) (Z.of_nat nu) U -> (1 <= p)%nat -> strict (Z.of_nat p) (Z.of_nat nu) U ->
  kn U (Z.of_nat p) = 0 -> kn U (Z.of_nat nu) = 1 -> wide_end (Z.of_nat nu) U ->
  clamped (Z.of_nat q) (Z.of_nat nv) V -> (1 <= q)%nat -> strict (Z.of_nat q) (Z.of_nat nv) V -> kn V (Z.of_nat q) = 0 -> kn V (Z.of_nat nv) = 1 -> wide_end (Z.of_nat nv) V ->
  Forall (fun row => length row = 3%nat) P -> length P = (nu * nv)%nat -> (c < 3)%nat ->
  (forall j, (j < nv)%nat -> rates p U (coords c (net_col nu nv P j)) l L) -> 0 <= u -> u <= u' -> u' <= 1 -> 0 <= v <= 1 ->
  exists a b, surf_point (surf_of p q nu nv U V P) (Fin u : Exact) (Fin v : Exact) = Ok (fin a) /\ surf_point (surf_of p q nu nv U V P) (Fin u' : Exact) (Fin v : Exact) = Ok (fin b) /\
    length a = 3%nat /\ length b = 3%nat /\ l * (u' - u) <= nth c b 0 - nth c a 0 <= L * (u' - u).
Proof. exact surf_point_rates. Qed.
Print Assumptions C112_surface_u.

Theorem C112_surface_v : forall p q nu nv U V P c l L u v v', clamped (Z.of_nat p) (Z.of_nat nu) U -> (1 <= p)%nat -> strict (Z.of_nat p) (Z.of_nat nu) U ->
  kn U (Z.of_nat p) = 0 -> kn U (Z.of_nat nu) = 1 -> wide_end (Z.of_nat nu) U ->
  clamped (Z.of_nat q) (Z.of_nat nv) V -> (1 <= q)%nat -> strict (Z.of_nat q) (Z.of_nat nv) V -> kn V (Z.of_nat q) = 0 -> kn V (Z.of_nat nv) = 1 -> wide_end (Z.of_nat nv) V ->
  Forall (fun row => length row = 3%nat) P -> length P = (nu * nv)%nat -> (c < 3)%nat ->
  (forall i, (i < nu)%nat -> rates q V (coords c (net_row nv P i)) l L) -> 0 <= v -> v <= v' -> v' <= 1 -> 0 <= u <= 1 ->
  exists a b, surf_point (surf_of p q nu nv U V P) (Fin u : Exact) (Fin v : Exact) = Ok (fin a) /\ surf_point (surf_of p q nu nv U V P) (Fin u : Exact) (Fin v' : Exact) = Ok (fin b) /\
    length a = 3%nat /\ length b = 3%nat /\ l * (v' - v) <= nth c b 0 - nth c a 0 <= L * (v' - v).
Proof. exact surf_point_rates_v. Qed.
Print Assumptions C112_surface_v.


(** The first coordinate of [hB] grows, the second one is convex; the first
    coordinate of the net [gS] grows along u, the second along v. *)
Definition hB : list (list R) := [[0; 1; 0]; [1; 0; 0]; [2; 0; 5]; [3; 1; 0]].
Example C112_example : rates 2 bU (coords 0 hB) 2 4 /\ convex_rates 2 bU (coords 1 hB) /\
  (forall j, (j < 3)%nat -> rates 2 bU (coords 0 (net_col 4 3 gS j)) 1 1) /\ (forall i, (i < 4)%nat -> rates 2 gV (coords 1 (net_row 3 gS i)) 1 1).
Proof.
  split; [|split; [|split]].
  - intros i Hi; assert (i = 1 \/ i = 2 \/ i = 3)%Z as [->|[->| ->]] by (change (len (coords 0 hB)) with 4%Z in Hi; lia); unfold coords, hB, bU; kn_eval; nat_eval; cbn; lra.
  - intros i Hi Hj; assert (i = 1 \/ i = 2)%Z as [->| ->] by (change (len (coords 1 hB)) with 4%Z in Hj; lia); unfold coords, hB, bU; kn_eval; nat_eval; cbn; lra.
  - intros j Hj i Hi; assert (i = 1 \/ i = 2 \/ i = 3)%Z as [->|[->| ->]] by (change (len (coords 0 (net_col 4 3 gS j))) with 4%Z in Hi; lia);
      destruct j as [|[|[|]]]; try lia; unfold coords, net_col, gS, bU; kn_eval; nat_eval; cbn; lra.
  - intros j Hj i Hi; assert (i = 1 \/ i = 2)%Z as [->| ->] by (change (len (coords 1 (net_row 3 gS j))) with 3%Z in Hi; lia);
      destruct j as [|[|[|[|]]]]; try lia; unfold coords, net_row, gS, gV; kn_eval; nat_eval; cbn; lra.
Qed.
(** With a last span inside the end tolerance the first coordinate can fall
    although it grows along the control points (dyadic numbers throughout). *)
Definition nU : list Binary64 := [0; 0; 0x1.fffff8p-1; 1; 1]%float.
Definition nP : list (list Binary64) := [[0; 0; 0]; [1; 0; 0]; [2; 0; 0]]%float.
Theorem C112_narrow_refuted : exists (kv : list Binary64) (P : list (list Binary64)) p (u v x y : Binary64),
  check_knot_vector p (NdArray kv) (zlen P) = Ok true /\ map (fun r => nth 0 r 0%float) P = [0; 1; 2]%float /\ (u <? v)%float = true /\
  single_point (mkCurve (Some p) (Some P) (Some kv) 3) u = Ok [x; 0; 0]%float /\ single_point (mkCurve (Some p) (Some P) (Some kv) 3) v = Ok [y; 0; 0]%float /\ (y <? x)%float = true.
Proof.
  exists nU, nP, 1%Z, (0x1.ffff8p-1%float : Binary64), (0x1.ffffep-1%float : Binary64).
  exists (match single_point (mkCurve (Some 1%Z) (Some nP) (Some nU) 3) (0x1.ffff8p-1%float : Binary64) with Ok [x; _; _] => x | _ => 0%float end : Binary64).
  exists (match single_point (mkCurve (Some 1%Z) (Some nP) (Some nU) 3) (0x1.ffffep-1%float : Binary64) with Ok [x; _; _] => x | _ => 0%float end : Binary64).
  split; [vm_compute; reflexivity|]; split; [reflexivity|]; split; [reflexivity|]; split; [vm_compute; reflexivity|]; split; vm_compute; reflexivity.
Qed.
Print Assumptions C112_narrow_refuted.

(** ** C113: reversed and exchanged parameters *)

Theorem C113_curve : forall p U P d d' u, clamped (Z.of_nat p) (len P) U -> (1 <= p)%nat -> strict (Z.of_nat p) (len P) U ->
  kn U (Z.of_nat p) = 0 -> kn U (len P) = 1 -> wide_end (len P) U -> 1/500000 <= kn U (Z.of_nat p + 1) -> Forall (fun row => length row = 3%nat) P -> 0 <= u <= 1 ->
  exists x, single_point (curve_of (Z.of_nat p) U P d) (Fin u : Exact) = Ok (fin x) /\ length x = 3%nat /\
    single_point (curve_of (Z.of_nat p) (mirror U) (rev P) d') (Fin (1 - u) : Exact) = Ok (fin x).
Proof. exact single_point_reversed. Qed.
Print Assumptions C113_curve.

Theorem C113_surface : forall p q nu nv U V P u v, clamped (Z.of_nat p) (Z.of_nat nu) U -> (1 <= p)%nat -> strict (Z.of_nat p) (Z.of_nat nu) U ->
  kn U (Z.of_nat p) = 0 -> kn U (Z.of_nat nu) = 1 -> wide_end (Z.of_nat nu) U -> 1/500000 <= kn U (Z.of_nat p + 1) ->
  clamped (Z.of_nat q) (Z.of_nat nv) V -> (1 <= q)%nat -> strict (Z.of_nat q) (Z.of_nat nv) V -> kn V (Z.of_nat q) = 0 -> kn V (Z.of_nat nv) = 1 -> wide_end (Z.of_nat nv) V -> 1/500000 <= kn V (Z.of_nat q + 1) ->
  Forall (fun row => length row = 3%nat) P -> length P = (nu * nv)%nat -> 0 <= u <= 1 -> 0 <= v <= 1 ->
  exists x, surf_point (surf_of p q nu nv U V P) (Fin u : Exact) (Fin v : Exact) = Ok (fin x) /\ length x = 3%nat /\
    surf_point (surf_of q p nv nu V U (net_swap nu nv P)) (Fin v : Exact) (Fin u : Exact) = Ok (fin x) /\
    surf_point (surf_of p q nu nv (mirror U) V (net_rev_u nu nv P)) (Fin (1 - u) : Exact) (Fin v : Exact) = Ok (fin x) /\
    surf_point (surf_of p q nu nv U (mirror V) (net_rev_v nu nv P)) (Fin u : Exact) (Fin (1 - v) : Exact) = Ok (fin x).
Proof. exact surf_point_symmetry. Qed.
Print Assumptions C113_surface.


Example C113_example : mirror bU = [0; 0; 0; 1/2; 1; 1; 1] /\ mirror [0; 0; 0; 1/4; 1; 1; 1] = [0; 0; 0; 3/4; 1; 1; 1] /\ 1/500000 <= kn bU (Z.of_nat 2 + 1) /\ 1/500000 <= kn gV (Z.of_nat 2 + 1) /\
  net_swap 2 3 [[1]; [2]; [3]; [4]; [5]; [6]] = [[1]; [4]; [2]; [5]; [3]; [6]] /\
  net_rev_u 2 3 [[1]; [2]; [3]; [4]; [5]; [6]] = [[4]; [5]; [6]; [1]; [2]; [3]] /\ net_rev_v 2 3 [[1]; [2]; [3]; [4]; [5]; [6]] = [[3]; [2]; [1]; [6]; [5]; [4]].
Proof.
  split; [unfold mirror, bU; cbn; repeat (f_equal; try lra)|]; split; [unfold mirror; cbn; repeat (f_equal; try lra)|].
  split; [unfold bU; kn_eval; lra|]; split; [unfold gV; kn_eval; lra|]; repeat split.
Qed.
(** A first span inside the tolerance: reversed, it is the last one, and a
    parameter of the next span is evaluated there. *)
Theorem C113_narrow_refuted : exists (kv kv' : list Binary64) (P : list (list Binary64)) p (u : Binary64) (x y : list Binary64),
  kv' = map (fun t : Binary64 => (1 - t)%float) (rev kv) /\ check_knot_vector p (NdArray kv) (zlen P) = Ok true /\ check_knot_vector p (NdArray kv') (zlen P) = Ok true /\
  single_point (mkCurve (Some p) (Some P) (Some kv) 3) u = Ok x /\ single_point (mkCurve (Some p) (Some (rev P)) (Some kv') 3) (1 - u)%float = Ok y /\
  (nth 0 x 0 <? nth 0 y 0)%float = true.
Proof.
  exists [0; 0; 0x1p-22; 1; 1]%float, (map (fun t : Binary64 => (1 - t)%float) (rev [0; 0; 0x1p-22; 1; 1]%float)), nP, 1%Z, (0x1p-20%float : Binary64).
  exists (match single_point (mkCurve (Some 1%Z) (Some nP) (Some [0; 0; 0x1p-22; 1; 1]%float) 3) (0x1p-20%float : Binary64) with Ok x => x | _ => [] end).
  exists (match single_point (mkCurve (Some 1%Z) (Some (rev nP)) (Some (map (fun t : Binary64 => (1 - t)%float) (rev [0; 0; 0x1p-22; 1; 1]%float))) 3) (1 - 0x1p-20)%float with Ok x => x | _ => [] end).
  split; [reflexivity|]; split; [vm_compute; reflexivity|]; split; [vm_compute; reflexivity|]; split; [vm_compute; reflexivity|]; split; vm_compute; reflexivity.
Qed.
Print Assumptions C113_narrow_refuted.

(** ** C114: what fits do not depend on *)
(** The order of the rows, and the solver. *)

Theorem C114_curve_order : forall sv sv' c c' p U P rows rows', least_squares sv -> least_squares sv' -> clamped (Z.of_nat p) (len P) U -> strict (Z.of_nat p) (len P) U -> (1 <= p)%nat ->
  c_degree c = Some (Z.of_nat p) -> c_ctrl c = Some (fin2 P) -> c_kv c = Some (fin U) -> Forall (fun r => length r = 3%nat) P ->
  Forall (fun r => length r = 4%nat /\ kn U (Z.of_nat p) <= nth 3 r 0 <= kn U (len P)) rows ->
  plenty (S p) (Z.of_nat p) (len P) U (fun u => exists r, In r rows /\ nth 3 r 0 = u) ->
  c_degree c' = Some (Z.of_nat p) -> c_ctrl c' = Some (fin2 P) -> c_kv c' = Some (fin U) -> Permutation rows' rows ->
  exists P', single_fit_curve store_ctrl sv c (fin2 rows) = Ok (mkCurve (c_degree c) (Some (fin2 P')) (c_kv c) (c_dim c)) /\
    single_fit_curve store_ctrl sv' c' (fin2 rows') = Ok (mkCurve (c_degree c') (Some (fin2 P')) (c_kv c') (c_dim c')).
Proof. exact single_fit_curve_order. Qed.
Print Assumptions C114_curve_order.

(** The direction in which the curve is run through. *)

Theorem C114_curve_reversed : forall sv sv' c c' p U P rows rows', least_squares sv -> least_squares sv' -> clamped (Z.of_nat p) (len P) U -> strict (Z.of_nat p) (len P) U -> (1 <= p)%nat ->
  c_degree c = Some (Z.of_nat p) -> c_ctrl c = Some (fin2 P) -> c_kv c = Some (fin U) -> Forall (fun r => length r = 3%nat) P ->
  Forall (fun r => length r = 4%nat /\ kn U (Z.of_nat p) <= nth 3 r 0 <= kn U (len P)) rows ->
  plenty (S p) (Z.of_nat p) (len P) U (fun u => exists r, In r rows /\ nth 3 r 0 = u) ->
  c_degree c' = Some (Z.of_nat p) -> c_ctrl c' = Some (fin2 (rev P)) -> c_kv c' = Some (fin (mirror U)) ->
  Permutation rows' (map (fun r => [nth 0 r 0; nth 1 r 0; nth 2 r 0; 1 - nth 3 r 0]) rows) ->
  exists P', single_fit_curve store_ctrl sv c (fin2 rows) = Ok (mkCurve (c_degree c) (Some (fin2 P')) (c_kv c) (c_dim c)) /\
    single_fit_curve store_ctrl sv' c' (fin2 rows') = Ok (mkCurve (c_degree c') (Some (fin2 (rev P'))) (c_kv c') (c_dim c')).
Proof. exact single_fit_curve_turned. Qed.
Print Assumptions C114_curve_reversed.

Theorem C114_surface_order : forall sv sv' p q nu nv U V P rows rows2, clamped (Z.of_nat p) (Z.of_nat nu) U -> strict (Z.of_nat p) (Z.of_nat nu) U -> (1 <= p)%nat -> clamped (Z.of_nat q) (Z.of_nat nv) V -> strict (Z.of_nat q) (Z.of_nat nv) V -> (1 <= q)%nat ->
  length P = (nu * nv)%nat -> Forall (fun r => length r = 3%nat) P ->
  Forall (fun r => length r = 5%nat /\ kn U (Z.of_nat p) <= nth 3 r 0 <= kn U (Z.of_nat nu) /\ kn V (Z.of_nat q) <= nth 4 r 0 <= kn V (Z.of_nat nv)) rows ->
  plenty (S q) (Z.of_nat q) (Z.of_nat nv) V (fun v => plenty (S p) (Z.of_nat p) (Z.of_nat nu) U (fun u => exists r, In r rows /\ nth 3 r 0 = u /\ nth 4 r 0 = v)) ->
  let s P := mkSurf (K := Exact) (Z.of_nat p) (Z.of_nat q) (Z.of_nat nu) (Z.of_nat nv) (fin2 P) (fin U) (fin V) in
  least_squares sv -> least_squares sv' -> Permutation rows2 rows ->
  exists P', single_fit_surface sv (s P) (fin2 rows) = Ok (s P') /\ single_fit_surface sv' (s P) (fin2 rows2) = Ok (s P').
Proof. intros; apply single_fit_surface_order; assumption. Qed.
Print Assumptions C114_surface_order.

(** Exchanging u and v, and running through one of them backwards. *)

Theorem C114_surface_exchanged : forall sv sv' p q nu nv U V P rows rows2, clamped (Z.of_nat p) (Z.of_nat nu) U -> strict (Z.of_nat p) (Z.of_nat nu) U -> (1 <= p)%nat -> clamped (Z.of_nat q) (Z.of_nat nv) V -> strict (Z.of_nat q) (Z.of_nat nv) V -> (1 <= q)%nat ->
  length P = (nu * nv)%nat -> Forall (fun r => length r = 3%nat) P ->
  Forall (fun r => length r = 5%nat /\ kn U (Z.of_nat p) <= nth 3 r 0 <= kn U (Z.of_nat nu) /\ kn V (Z.of_nat q) <= nth 4 r 0 <= kn V (Z.of_nat nv)) rows ->
  plenty (S q) (Z.of_nat q) (Z.of_nat nv) V (fun v => plenty (S p) (Z.of_nat p) (Z.of_nat nu) U (fun u => exists r, In r rows /\ nth 3 r 0 = u /\ nth 4 r 0 = v)) ->
  let s P := mkSurf (K := Exact) (Z.of_nat p) (Z.of_nat q) (Z.of_nat nu) (Z.of_nat nv) (fin2 P) (fin U) (fin V) in
  least_squares sv -> least_squares sv' ->
  Permutation rows2 (map (fun r => [nth 0 r 0; nth 1 r 0; nth 2 r 0; nth 4 r 0; nth 3 r 0]) rows) ->
  exists P', single_fit_surface sv (s P) (fin2 rows) = Ok (s P') /\
  single_fit_surface sv' (mkSurf (K := Exact) (Z.of_nat q) (Z.of_nat p) (Z.of_nat nv) (Z.of_nat nu) (fin2 (net_swap nu nv P)) (fin V) (fin U)) (fin2 rows2) =
  Ok (mkSurf (K := Exact) (Z.of_nat q) (Z.of_nat p) (Z.of_nat nv) (Z.of_nat nu) (fin2 (net_swap nu nv P')) (fin V) (fin U)).
Proof. intros; apply single_fit_surface_swapped; assumption. Qed.
Print Assumptions C114_surface_exchanged.

Theorem C114_surface_reversed_u : forall sv sv' p q nu nv U V P rows rows2, clamped (Z.of_nat p) (Z.of_nat nu) U -> strict (Z.of_nat p) (Z.of_nat nu) U -> (1 <= p)%nat -> clamped (Z.of_nat q) (Z.of_nat nv) V -> strict (Z.of_nat q) (Z.of_nat nv) V -> (1 <= q)%nat ->
  length P = (nu * nv)%nat -> Forall (fun r => length r = 3%nat) P ->
  Forall (fun r => length r = 5%nat /\ kn U (Z.of_nat p) <= nth 3 r 0 <= kn U (Z.of_nat nu) /\ kn V (Z.of_nat q) <= nth 4 r 0 <= kn V (Z.of_nat nv)) rows ->
  plenty (S q) (Z.of_nat q) (Z.of_nat nv) V (fun v => plenty (S p) (Z.of_nat p) (Z.of_nat nu) U (fun u => exists r, In r rows /\ nth 3 r 0 = u /\ nth 4 r 0 = v)) ->
  let s P := mkSurf (K := Exact) (Z.of_nat p) (Z.of_nat q) (Z.of_nat nu) (Z.of_nat nv) (fin2 P) (fin U) (fin V) in
  least_squares sv -> least_squares sv' ->
  Permutation rows2 (map (fun r => [nth 0 r 0; nth 1 r 0; nth 2 r 0; 1 - nth 3 r 0; nth 4 r 0]) rows) ->
  exists P', single_fit_surface sv (s P) (fin2 rows) = Ok (s P') /\
  single_fit_surface sv' (mkSurf (K := Exact) (Z.of_nat p) (Z.of_nat q) (Z.of_nat nu) (Z.of_nat nv) (fin2 (net_rev_u nu nv P)) (fin (mirror U)) (fin V)) (fin2 rows2) =
  Ok (mkSurf (K := Exact) (Z.of_nat p) (Z.of_nat q) (Z.of_nat nu) (Z.of_nat nv) (fin2 (net_rev_u nu nv P')) (fin (mirror U)) (fin V)).
Proof. intros; apply single_fit_surface_turned_u; assumption. Qed.
Print Assumptions C114_surface_reversed_u.

Theorem C114_surface_reversed_v : forall sv sv' p q nu nv U V P rows rows2, clamped (Z.of_nat p) (Z.of_nat nu) U -> strict (Z.of_nat p) (Z.of_nat nu) U -> (1 <= p)%nat -> clamped (Z.of_nat q) (Z.of_nat nv) V -> strict (Z.of_nat q) (Z.of_nat nv) V -> (1 <= q)%nat ->
  length P = (nu * nv)%nat -> Forall (fun r => length r = 3%nat) P ->
  Forall (fun r => length r = 5%nat /\ kn U (Z.of_nat p) <= nth 3 r 0 <= kn U (Z.of_nat nu) /\ kn V (Z.of_nat q) <= nth 4 r 0 <= kn V (Z.of_nat nv)) rows ->
  plenty (S q) (Z.of_nat q) (Z.of_nat nv) V (fun v => plenty (S p) (Z.of_nat p) (Z.of_nat nu) U (fun u => exists r, In r rows /\ nth 3 r 0 = u /\ nth 4 r 0 = v)) ->
  let s P := mkSurf (K := Exact) (Z.of_nat p) (Z.of_nat q) (Z.of_nat nu) (Z.of_nat nv) (fin2 P) (fin U) (fin V) in
  least_squares sv -> least_squares sv' ->
  Permutation rows2 (map (fun r => [nth 0 r 0; nth 1 r 0; nth 2 r 0; nth 3 r 0; 1 - nth 4 r 0]) rows) ->
  exists P', single_fit_surface sv (s P) (fin2 rows) = Ok (s P') /\
  single_fit_surface sv' (mkSurf (K := Exact) (Z.of_nat p) (Z.of_nat q) (Z.of_nat nu) (Z.of_nat nv) (fin2 (net_rev_v nu nv P)) (fin U) (fin (mirror V))) (fin2 rows2) =
  Ok (mkSurf (K := Exact) (Z.of_nat p) (Z.of_nat q) (Z.of_nat nu) (Z.of_nat nv) (fin2 (net_rev_v nu nv P')) (fin U) (fin (mirror V))).
Proof. intros; apply single_fit_surface_turned_v; assumption. Qed.
Print Assumptions C114_surface_reversed_v.


(** [gR] and [gD] have enough parameters (see [C108_example]). *)
Example C114_example : Permutation (rev gR) gR /\ rev gR <> gR /\ c_ctrl (curve_of (Z.of_nat 2) bU bB 3) = Some (fin2 bB) /\
  map (fun r => [nth 0 r 0; nth 1 r 0; nth 2 r 0; 1 - nth 3 r 0]) gR = [[0; 1; 0; 1]; [1; 2; 0; 3/4]; [2; 0; 0; 1/2]; [3; 1; 1; 1/4]; [4; 0; 0; 0]].
Proof.
  split; [symmetry; apply Permutation_rev|]; split; [unfold gR; cbn; intros H; injection H; intros; lra|]; split; [reflexivity|]; unfold gR; cbn; repeat (f_equal; try lra).
Qed.


(** ** C115: surfaces are smooth *)

Theorem C115_smooth : forall p q nu nv U V P, clamped (Z.of_nat p) (Z.of_nat nu) U -> strict (Z.of_nat p) (Z.of_nat nu) U -> kn U (Z.of_nat p) = 0 -> kn U (Z.of_nat nu) = 1 -> wide_end (Z.of_nat nu) U ->
  clamped (Z.of_nat q) (Z.of_nat nv) V -> strict (Z.of_nat q) (Z.of_nat nv) V -> kn V (Z.of_nat q) = 0 -> kn V (Z.of_nat nv) = 1 -> wide_end (Z.of_nat nv) V ->
  Forall (fun row => length row = 3%nat) P -> length P = (nu * nv)%nat ->
  exists D : nat -> nat -> R -> R -> list R,
    (forall u v, 0 <= u <= 1 -> 0 <= v <= 1 -> surf_point (surf_of p q nu nv U V P) (Fin u : Exact) (Fin v : Exact) = Ok (fin (D 0%nat 0%nat u v))) /\
    (forall u v ou ov, 0 <= u <= 1 -> 0 <= v <= 1 -> exists m,
       surf_derivatives (surf_of p q nu nv U V P) (Fin u : Exact) (Fin v : Exact) (Z.of_nat ou) (Z.of_nat ov) false = Ok (fin2 m) /\
       length m = ((Nat.min ou p + 1) * (Nat.min ov q + 1))%nat /\
       forall a b, (a <= Nat.min ou p)%nat -> (b <= Nat.min ov q)%nat -> nth (a * (Nat.min ov q + 1) + b) m [] = D a b u v) /\
    (forall a b c u v, (S a < p)%nat -> (c < 3)%nat -> 0 < u < 1 -> derivable_pt_lim (fun x => nth c (D a b x v) 0) u (nth c (D (S a) b u v) 0)) /\
    (forall a b c u v, (S b < q)%nat -> (c < 3)%nat -> 0 < v < 1 -> derivable_pt_lim (fun y => nth c (D a b u y) 0) v (nth c (D a (S b) u v) 0)) /\
    (forall a b c u v, (a < p)%nat -> (b < q)%nat -> (c < 3)%nat -> 0 < u < 1 -> 0 < v < 1 -> forall eps, 0 < eps ->
       exists d, 0 < d /\ forall x y, Rabs (x - u) < d -> Rabs (y - v) < d -> Rabs (nth c (D a b x y) 0 - nth c (D a b u v) 0) < eps).
Proof. exact smooth_surface. Qed.
Print Assumptions C115_smooth.


Example C115_example : clamped (Z.of_nat 2) (Z.of_nat 4) bU /\ strict (Z.of_nat 2) (Z.of_nat 4) bU /\ kn bU (Z.of_nat 2) = 0 /\ kn bU (Z.of_nat 4) = 1 /\ wide_end (Z.of_nat 4) bU /\
  clamped (Z.of_nat 2) (Z.of_nat 3) gV /\ strict (Z.of_nat 2) (Z.of_nat 3) gV /\ kn gV (Z.of_nat 2) = 0 /\ kn gV (Z.of_nat 3) = 1 /\ wide_end (Z.of_nat 3) gV /\
  Forall (fun row => length row = 3%nat) gS /\ length gS = (4 * 3)%nat /\ (1 < 2)%nat /\ kn bU 3 = 1/2 /\ 0 < 1/2 < 1.
Proof.
  split; [apply bU_clamped|]; split; [apply bU_strict|]; split; [reflexivity|]; split; [reflexivity|]; split; [apply bU_wide|].
  split; [apply gV_clamped|]; split; [apply gV_strict|]; split; [reflexivity|]; split; [reflexivity|]; split; [apply gV_wide|].
  split; [apply gS_3|]; split; [reflexivity|]; split; [lia|]; split; [unfold bU; kn_eval; reflexivity|lra].
Qed.
(** The row of order p jumps at a knot: its second coordinate is 0 below it and 8 at it. *)
Definition jU : list Binary64 := [0; 0; 0; 0.5; 1; 1; 1]%float.
Definition jP : list (list Binary64) := [[0; 0; 0]; [1; 0; 0]; [2; 0; 0]; [2; 1; 0]]%float.
Definition jQ : list (list Binary64) := flat_map (fun r : list Binary64 => [r; vadd (K := Binary64) r [0; 0; 1]%float]) jP.
Definition jS : surf Binary64 := mkSurf (K := Binary64) 2%Z 1%Z 4%Z 2%Z jQ jU [0; 0; 1; 1]%float.
Theorem C115_top_row_refuted : exists (s : surf Binary64) (below at_ v : Binary64) (m m' : list (list Binary64)),
  check_knot_vector 2 (NdArray jU) 4 = Ok true /\ s = jS /\ (at_ - below <? 0x1p-52)%float = true /\ surf_derivatives s below v 2 0 false = Ok m /\ surf_derivatives s at_ v 2 0 false = Ok m' /\
  (nth 1 (nth 2 m []) 0 <? nth 1 (nth 2 m' []) 0 - 7)%float = true.
Proof.
  exists jS, (0x1.fffffffffffffp-2%float : Binary64), (0.5%float : Binary64), (0.25%float : Binary64).
  exists (match surf_derivatives jS (0x1.fffffffffffffp-2%float : Binary64) (0.25%float : Binary64) 2 0 false with Ok m => m | _ => [] end).
  exists (match surf_derivatives jS (0.5%float : Binary64) (0.25%float : Binary64) 2 0 false with Ok m => m | _ => [] end).
  split; [vm_compute; reflexivity|]; split; [reflexivity|]; split; [reflexivity|]; split; [vm_compute; reflexivity|]; split; vm_compute; reflexivity.
Qed.
Print Assumptions C115_top_row_refuted.

(** ** C116: derivatives of reversed and exchanged curves and surfaces *)

Theorem C116_curve : forall p U P d d' u o, clamped (Z.of_nat p) (len P) U -> strict (Z.of_nat p) (len P) U ->
  kn U (Z.of_nat p) = 0 -> kn U (len P) = 1 -> wide_end (len P) U -> 1/500000 <= kn U (Z.of_nat p + 1) -> Forall (fun row => length row = 3%nat) P -> 0 <= u <= 1 -> (2 <= o)%nat ->
  exists m m', derivatives3 (curve_of (Z.of_nat p) U P d) (Fin u : Exact) (Z.of_nat o) = Ok (fin2 m) /\
    derivatives3 (curve_of (Z.of_nat p) (mirror U) (rev P) d') (Fin (1 - u) : Exact) (Z.of_nat o) = Ok (fin2 m') /\ length m = S (Nat.min o p) /\ length m' = S (Nat.min o p) /\
    forall k, (k <= Nat.min o p)%nat -> (k < p)%nat \/ (forall i, (Z.of_nat p < i < len P)%Z -> kn U i <> u) -> nth k m' [] = map (fun x => (-1) ^ k * x) (nth k m []).
Proof. exact derivatives_reversed. Qed.
Print Assumptions C116_curve.

Theorem C116_surface_exchanged : forall p q nu nv U V P u v ou ov nrm, clamped (Z.of_nat p) (Z.of_nat nu) U -> strict (Z.of_nat p) (Z.of_nat nu) U -> kn U (Z.of_nat p) = 0 -> kn U (Z.of_nat nu) = 1 ->
  clamped (Z.of_nat q) (Z.of_nat nv) V -> strict (Z.of_nat q) (Z.of_nat nv) V -> kn V (Z.of_nat q) = 0 -> kn V (Z.of_nat nv) = 1 ->
  Forall (fun row => length row = 3%nat) P -> length P = (nu * nv)%nat -> 0 <= u <= 1 -> 0 <= v <= 1 ->
  exists m m', surf_derivatives (surf_of p q nu nv U V P) (Fin u : Exact) (Fin v : Exact) (Z.of_nat ou) (Z.of_nat ov) nrm = Ok (fin2 m) /\
    surf_derivatives (surf_of q p nv nu V U (net_swap nu nv P)) (Fin v : Exact) (Fin u : Exact) (Z.of_nat ov) (Z.of_nat ou) nrm = Ok (fin2 m') /\
    length m = ((Nat.min ou p + 1) * (Nat.min ov q + 1))%nat /\ length m' = length m /\
    forall a b, (a <= Nat.min ou p)%nat -> (b <= Nat.min ov q)%nat -> nth (b * (Nat.min ou p + 1) + a) m' [] = nth (a * (Nat.min ov q + 1) + b) m [].
Proof. exact derivatives_exchanged. Qed.
Print Assumptions C116_surface_exchanged.

Theorem C116_surface_reversed_u : forall p q nu nv U V P u v ou ov nrm, clamped (Z.of_nat p) (Z.of_nat nu) U -> strict (Z.of_nat p) (Z.of_nat nu) U -> kn U (Z.of_nat p) = 0 -> kn U (Z.of_nat nu) = 1 ->
  wide_end (Z.of_nat nu) U -> 1/500000 <= kn U (Z.of_nat p + 1) ->
  clamped (Z.of_nat q) (Z.of_nat nv) V -> strict (Z.of_nat q) (Z.of_nat nv) V -> kn V (Z.of_nat q) = 0 -> kn V (Z.of_nat nv) = 1 ->
  Forall (fun row => length row = 3%nat) P -> length P = (nu * nv)%nat -> 0 <= u <= 1 -> 0 <= v <= 1 ->
  exists m m', surf_derivatives (surf_of p q nu nv U V P) (Fin u : Exact) (Fin v : Exact) (Z.of_nat ou) (Z.of_nat ov) nrm = Ok (fin2 m) /\
    surf_derivatives (surf_of p q nu nv (mirror U) V (net_rev_u nu nv P)) (Fin (1 - u) : Exact) (Fin v : Exact) (Z.of_nat ou) (Z.of_nat ov) nrm = Ok (fin2 m') /\
    length m = ((Nat.min ou p + 1) * (Nat.min ov q + 1))%nat /\ length m' = length m /\
    forall a b, (a <= Nat.min ou p)%nat -> (b <= Nat.min ov q)%nat -> (a < p)%nat \/ (forall i, (Z.of_nat p < i < Z.of_nat nu)%Z -> kn U i <> u) ->
      nth (a * (Nat.min ov q + 1) + b) m' [] = map (fun x => (-1) ^ a * x) (nth (a * (Nat.min ov q + 1) + b) m []).
Proof. exact derivatives_turned_u. Qed.
Print Assumptions C116_surface_reversed_u.

Theorem C116_surface_reversed_v : forall p q nu nv U V P u v ou ov nrm, clamped (Z.of_nat p) (Z.of_nat nu) U -> strict (Z.of_nat p) (Z.of_nat nu) U -> kn U (Z.of_nat p) = 0 -> kn U (Z.of_nat nu) = 1 ->
  clamped (Z.of_nat q) (Z.of_nat nv) V -> strict (Z.of_nat q) (Z.of_nat nv) V -> kn V (Z.of_nat q) = 0 -> kn V (Z.of_nat nv) = 1 ->
  wide_end (Z.of_nat nv) V -> 1/500000 <= kn V (Z.of_nat q + 1) ->
  Forall (fun row => length row = 3%nat) P -> length P = (nu * nv)%nat -> 0 <= u <= 1 -> 0 <= v <= 1 ->
  exists m m', surf_derivatives (surf_of p q nu nv U V P) (Fin u : Exact) (Fin v : Exact) (Z.of_nat ou) (Z.of_nat ov) nrm = Ok (fin2 m) /\
    surf_derivatives (surf_of p q nu nv U (mirror V) (net_rev_v nu nv P)) (Fin u : Exact) (Fin (1 - v) : Exact) (Z.of_nat ou) (Z.of_nat ov) nrm = Ok (fin2 m') /\
    length m = ((Nat.min ou p + 1) * (Nat.min ov q + 1))%nat /\ length m' = length m /\
    forall a b, (a <= Nat.min ou p)%nat -> (b <= Nat.min ov q)%nat -> (b < q)%nat \/ (forall j, (Z.of_nat q < j < Z.of_nat nv)%Z -> kn V j <> v) ->
      nth (a * (Nat.min ov q + 1) + b) m' [] = map (fun x => (-1) ^ b * x) (nth (a * (Nat.min ov q + 1) + b) m []).
Proof. exact derivatives_turned_v. Qed.
Print Assumptions C116_surface_reversed_v.


Example C116_example : 1/500000 <= kn bU (Z.of_nat 2 + 1) /\ 1/500000 <= kn gV (Z.of_nat 2 + 1) /\ (forall i, (2 < i < 4)%Z -> kn bU i <> 1/4) /\ (2 <= 2)%nat /\
  map (fun x => (-1) ^ 1 * x) [1; 2; 3] = [-1; -2; -3] /\ map (fun x => (-1) ^ 2 * x) [1; 2; 3] = [1; 2; 3].
Proof.
  split; [unfold bU; kn_eval; lra|]; split; [unfold gV; kn_eval; lra|]; split; [intros i Hi; assert (i = 3)%Z as -> by lia; unfold bU; kn_eval; lra|]; split; [lia|].
  split; cbn; repeat (f_equal; try lra).
Qed.
(** The row of order p at an interior knot belongs to the span after it, so
    reversing the curve returns the other one-sided value. *)
Theorem C116_knot_refuted : exists (kv : list Binary64) (P : list (list Binary64)) p (u : Binary64) (m m' : list (list Binary64)),
  kv = map (fun t : Binary64 => (1 - t)%float) (rev kv) /\ check_knot_vector p (NdArray kv) (zlen P) = Ok true /\
  derivatives3 (mkCurve (Some p) (Some P) (Some kv) 3) u p = Ok m /\ derivatives3 (mkCurve (Some p) (Some (rev P)) (Some kv) 3) (1 - u)%float p = Ok m' /\
  (nth 1 (nth 2 m []) 0 <? nth 1 (nth 2 m' []) 0)%float || (nth 1 (nth 2 m' []) 0 <? nth 1 (nth 2 m []) 0)%float = true.
Proof.
  exists jU, jP, 2%Z, (0.5%float : Binary64).
  exists (match derivatives3 (mkCurve (Some 2%Z) (Some jP) (Some jU) 3) (0.5%float : Binary64) 2 with Ok m => m | _ => [] end).
  exists (match derivatives3 (mkCurve (Some 2%Z) (Some (rev jP)) (Some jU) 3) (1 - 0.5)%float 2 with Ok m => m | _ => [] end).
  split; [reflexivity|]; split; [vm_compute; reflexivity|]; split; [vm_compute; reflexivity|]; split; vm_compute; reflexivity.
Qed.
Print Assumptions C116_knot_refuted.
