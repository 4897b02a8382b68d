(** C39-C42: surfaces. *)
From Coq Require Import Floats.
From Verif Require Import Py Num ModelKnots ModelBasis ModelCurve ModelSurface Spec MathKnots ProofNum ProofSpan2 ProofCurve ProofSurface ProofSurface2 Examples PropCurve.
Open Scope R_scope.

(** Example net: degree 2 x 1, 6 x 3 control points. *)
Definition sV : list R := [0; 0; 1/3; 1; 1].
Lemma sV_clamped : clamped 1 3 sV.
Proof. unfold sV; solve_clamped. Qed.
Lemma sV_strict : strict 1 3 sV.
Proof. intros i Hi; assert (i = 1 \/ i = 2)%Z as [->| ->] by lia; unfold sV; kn_eval; lra. Qed.
Definition sP : list (list R) :=
  flat_map (fun x => [[x; 0; x * x]; [x; 1; 2 - x]; [x; 2; 0]]) [0; 1; 2; 3; 4; 5].
Lemma sP_3 : Forall (fun row => length row = 3%nat) sP.
Proof. repeat constructor. Qed.

(** ** C39: evaluation is the tensor-product sum. *)
Theorem C39_surface_is_sum : forall p q nu nv U V P u v s t,
  clamped (Z.of_nat p) (Z.of_nat nu) U -> clamped (Z.of_nat q) (Z.of_nat nv) V ->
  Forall (fun row => length row = 3%nat) P -> length P = (nu * nv)%nat -> 0 <= u <= 1 -> 0 <= v <= 1 ->
  find_span (Z.of_nat nu) (Z.of_nat p) (Fin u : Exact) (fin U) = Ok s ->
  find_span (Z.of_nat nv) (Z.of_nat q) (Fin v : Exact) (fin V) = Ok t ->
  (Z.of_nat p <= s < Z.of_nat nu)%Z -> (Z.of_nat q <= t < Z.of_nat nv)%Z ->
  kn U s < kn U (s + 1) -> kn V t < kn V (t + 1) ->
  kn U s <= u <= kn U (s + 1) -> kn V t <= v <= kn V (t + 1) ->
  u < kn U (s + 1) \/ continuous (Z.of_nat p) (Z.of_nat nu) U ->
  v < kn V (t + 1) \/ continuous (Z.of_nat q) (Z.of_nat nv) V ->
  surf_point (surf_of p q nu nv U V P) (Fin u : Exact) (Fin v : Exact) = Ok (fin (surface_xyz U V p q nu nv P u v)).
Proof. exact surf_point_sum. Qed.
Print Assumptions C39_surface_is_sum.
(** With distinct interior knots: everywhere outside the end tolerance. *)
Theorem C39_surface_is_sum_everywhere : forall p q nu nv U V P u v,
  clamped (Z.of_nat p) (Z.of_nat nu) U -> clamped (Z.of_nat q) (Z.of_nat nv) V -> (1 <= p)%nat -> (1 <= q)%nat ->
  Forall (fun row => length row = 3%nat) P -> length P = (nu * nv)%nat ->
  kn U (Z.of_nat p) = 0 -> kn U (Z.of_nat nu) = 1 -> strict (Z.of_nat p) (Z.of_nat nu) U ->
  kn V (Z.of_nat q) = 0 -> kn V (Z.of_nat nv) = 1 -> strict (Z.of_nat q) (Z.of_nat nv) V ->
  0 <= u <= 1 -> (close (1/1000000) (1/100000000) u 1 -> kn U (Z.of_nat nu - 1) <= u) ->
  0 <= v <= 1 -> (close (1/1000000) (1/100000000) v 1 -> kn V (Z.of_nat nv - 1) <= v) ->
  surf_point (surf_of p q nu nv U V P) (Fin u : Exact) (Fin v : Exact) = Ok (fin (surface_xyz U V p q nu nv P u v)).
Proof. exact surf_point_strict. Qed.
Print Assumptions C39_surface_is_sum_everywhere.
Example C39_example :
  clamped (Z.of_nat 2) (Z.of_nat 6) exU /\ clamped (Z.of_nat 1) (Z.of_nat 3) sV /\
  Forall (fun row => length row = 3%nat) sP /\ length sP = (6 * 3)%nat /\
  kn exU (Z.of_nat 2) = 0 /\ kn exU (Z.of_nat 6) = 1 /\ strict (Z.of_nat 2) (Z.of_nat 6) exU /\
  kn sV (Z.of_nat 1) = 0 /\ kn sV (Z.of_nat 3) = 1 /\ strict (Z.of_nat 1) (Z.of_nat 3) sV /\
  (close (1/1000000) (1/100000000) (1/2) 1 -> kn exU (Z.of_nat 6 - 1) <= 1/2).
Proof.
  split; [exact exU_clamped|]; split; [exact sV_clamped|]; split; [exact sP_3|]; split; [reflexivity|].
  split; [unfold exU; kn_eval; reflexivity|]; split; [unfold exU; kn_eval; reflexivity|]; split; [exact exU_strict|].
  split; [unfold sV; kn_eval; reflexivity|]; split; [unfold sV; kn_eval; reflexivity|]; split; [exact sV_strict|].
  unfold close; rewrite Rabs_left, Rabs_right by lra; lra.
Qed.
Theorem C39_surface_outside : forall (s : surf Exact) (u v : Exact),
  (forall x, u = Fin x -> x < 0 \/ 1 < x) \/ (forall x, v = Fin x -> x < 0 \/ 1 < x) ->
  surf_point s u v = Err ValueError.
Proof. exact surf_point_outside. Qed.
Print Assumptions C39_surface_outside.
Theorem C39_surface_rejects : forall (K : Num) (s : surf K) (u v : K),
  validate_knot u = false \/ validate_knot v = false -> surf_point s u v = Err ValueError.
Proof. exact surf_point_rejects. Qed.
Print Assumptions C39_surface_rejects.
Example C39_rejects_example : validate_knot (nan : Binary64) = false /\ validate_knot ((-0.5)%float : Binary64) = false.
Proof. vm_compute; auto. Qed.
Theorem C39_points : forall (K : Num) (s : surf K) m rows,
  surf_points s (ND2 m) = Ok rows <->
  Forall2 (fun r row => exists u v, aget r 0 = Ok u /\ aget r 1 = Ok v /\ surf_point s u v = Ok row) m rows.
Proof. exact surf_points_spec. Qed.
Print Assumptions C39_points.
Theorem C39_points_rank : forall (K : Num) (s : surf K) (a : ndarray K),
  (forall m, a <> ND2 m) -> surf_points s a = Err ValueError.
Proof. exact surf_points_rank. Qed.
Print Assumptions C39_points_rank.

(** ** C40: edges, corners, bounding box. *)
Theorem C40_surface_edges : forall p q nu nv U V P d,
  Forall (fun row => length row = 3%nat) P -> length P = (nu * nv)%nat ->
  tight (Z.of_nat p) (Z.of_nat nu) U -> tight (Z.of_nat q) (Z.of_nat nv) V ->
  kn U (Z.of_nat p) = 0 -> kn U (Z.of_nat nu) = 1 -> kn V (Z.of_nat q) = 0 -> kn V (Z.of_nat nv) = 1 ->
  let S := surf_of p q nu nv U V P in
  (forall u s, 0 <= u <= 1 -> find_span (Z.of_nat nu) (Z.of_nat p) (Fin u : Exact) (fin U) = Ok s -> kn U s < kn U (s + 1) ->
     surf_point S (Fin u : Exact) (Fin 0 : Exact) = single_point (curve_of (Z.of_nat p) U (net_col nu nv P 0) d) (Fin u : Exact) /\
     surf_point S (Fin u : Exact) (Fin 1 : Exact) = single_point (curve_of (Z.of_nat p) U (net_col nu nv P (nv - 1)) d) (Fin u : Exact)) /\
  (forall v t, 0 <= v <= 1 -> find_span (Z.of_nat nv) (Z.of_nat q) (Fin v : Exact) (fin V) = Ok t -> kn V t < kn V (t + 1) ->
     surf_point S (Fin 0 : Exact) (Fin v : Exact) = single_point (curve_of (Z.of_nat q) V (net_row nv P 0) d) (Fin v : Exact) /\
     surf_point S (Fin 1 : Exact) (Fin v : Exact) = single_point (curve_of (Z.of_nat q) V (net_row nv P (nu - 1)) d) (Fin v : Exact)).
Proof. exact surface_edges. Qed.
Print Assumptions C40_surface_edges.
Theorem C40_surface_corners : forall p q nu nv U V P,
  Forall (fun row => length row = 3%nat) P -> length P = (nu * nv)%nat ->
  tight (Z.of_nat p) (Z.of_nat nu) U -> tight (Z.of_nat q) (Z.of_nat nv) V ->
  kn U (Z.of_nat p) = 0 -> kn U (Z.of_nat nu) = 1 -> kn V (Z.of_nat q) = 0 -> kn V (Z.of_nat nv) = 1 ->
  let S := surf_of p q nu nv U V P in
  surf_point S (Fin 0 : Exact) (Fin 0 : Exact) = Ok (fin (nth 0 P [])) /\
  surf_point S (Fin 0 : Exact) (Fin 1 : Exact) = Ok (fin (nth (nv - 1) P [])) /\
  surf_point S (Fin 1 : Exact) (Fin 0 : Exact) = Ok (fin (nth ((nu - 1) * nv) P [])) /\
  surf_point S (Fin 1 : Exact) (Fin 1 : Exact) = Ok (fin (last P [])).
Proof. exact surface_corners. Qed.
Print Assumptions C40_surface_corners.
Example C40_tight_example : tight (Z.of_nat 2) (Z.of_nat 6) exU /\ tight (Z.of_nat 1) (Z.of_nat 3) sV.
Proof. split; (split; [first [exact exU_clamped|exact sV_clamped]|]); unfold exU, sV; kn_eval; lra. Qed.
Theorem C40_surface_box : forall p q nu nv U V P u v s t,
  knots_for (Z.of_nat p) (Z.of_nat nu) U -> knots_for (Z.of_nat q) (Z.of_nat nv) V ->
  Forall (fun row => length row = 3%nat) P -> length P = (nu * nv)%nat -> 0 <= u <= 1 -> 0 <= v <= 1 ->
  find_span (Z.of_nat nu) (Z.of_nat p) (Fin u : Exact) (fin U) = Ok s ->
  find_span (Z.of_nat nv) (Z.of_nat q) (Fin v : Exact) (fin V) = Ok t ->
  (Z.of_nat p <= s < Z.of_nat nu)%Z -> (Z.of_nat q <= t < Z.of_nat nv)%Z ->
  kn U s < kn U (s + 1) -> kn V t < kn V (t + 1) ->
  kn U s <= u <= kn U (s + 1) -> kn V t <= v <= kn V (t + 1) ->
  exists w, surf_point (surf_of p q nu nv U V P) (Fin u : Exact) (Fin v : Exact) = Ok (fin w) /\ length w = 3%nat /\
    forall c lo hi, (c < 3)%nat ->
      (forall i j, (s - Z.of_nat p <= i <= s)%Z -> (t - Z.of_nat q <= j <= t)%Z ->
         lo <= nth c (nth (Z.to_nat (i * Z.of_nat nv + j)) P []) 0 <= hi) ->
      lo <= nth c w 0 <= hi.
Proof. exact surface_box. Qed.
Print Assumptions C40_surface_box.

(** ** C41: derivatives. *)
Theorem C41_surface_derivatives : forall p q nu nv U V P u v s t ou ov,
  knots_for (Z.of_nat p) (Z.of_nat nu) U -> knots_for (Z.of_nat q) (Z.of_nat nv) V ->
  Forall (fun row => length row = 3%nat) P -> length P = (nu * nv)%nat -> 0 <= u <= 1 -> 0 <= v <= 1 ->
  find_span (Z.of_nat nu) (Z.of_nat p) (Fin u : Exact) (fin U) = Ok s ->
  find_span (Z.of_nat nv) (Z.of_nat q) (Fin v : Exact) (fin V) = Ok t ->
  (Z.of_nat p <= s < Z.of_nat nu)%Z -> (Z.of_nat q <= t < Z.of_nat nv)%Z ->
  kn U s < kn U (s + 1) -> kn V t < kn V (t + 1) ->
  exists m, surf_derivatives (surf_of p q nu nv U V P) (Fin u : Exact) (Fin v : Exact) (Z.of_nat ou) (Z.of_nat ov) false = Ok (fin2 m) /\
    length m = ((Nat.min ou p + 1) * (Nat.min ov q + 1))%nat /\ Forall (fun row => length row = 3%nat) m /\
    surf_point (surf_of p q nu nv U V P) (Fin u : Exact) (Fin v : Exact) = Ok (fin (nth 0 m [])) /\
    (forall a b c, (a <= ou)%nat -> (a <= p)%nat -> (b <= ov)%nat -> (b <= q)%nat -> (c < 3)%nat ->
       exists G, mixed_partial a b (surface_piece U V s t p q nu nv (coords c P)) G /\
         nth c (nth (a * (Nat.min ov q + 1) + b) m []) 0 = G u v) /\
    exists m', surf_derivatives (surf_of p q nu nv U V P) (Fin u : Exact) (Fin v : Exact) (Z.of_nat ou) (Z.of_nat ov) true = Ok (fin2 m') /\
      length m' = length m /\ nth 0 m' [] = nth 0 m [] /\
      forall k, (0 < k < length m)%nat ->
        (norm3 (nth k m []) <= 1/100000000 -> nth k m' [] = nth k m []) /\
        (1/100000000 < norm3 (nth k m []) -> norm3 (nth k m' []) = 1 /\
           nth k m' [] = map (fun x => x / norm3 (nth k m [])) (nth k m [])).
Proof. exact surf_derivatives_true. Qed.
Print Assumptions C41_surface_derivatives.
Theorem C41_outside : forall (s : surf Exact) (u v : Exact) ou ov nz,
  (forall x, u = Fin x -> x < 0 \/ 1 < x) \/ (forall x, v = Fin x -> x < 0 \/ 1 < x) ->
  surf_derivatives s u v ou ov nz = Err ValueError.
Proof. exact surf_derivatives_outside. Qed.
Print Assumptions C41_outside.
Theorem C41_rejects : forall (K : Num) (s : surf K) (u v : K) ou ov nz,
  validate_knot u = false \/ validate_knot v = false -> surf_derivatives s u v ou ov nz = Err ValueError.
Proof. exact surf_derivatives_rejects. Qed.
Print Assumptions C41_rejects.
(** The hypotheses of C39 (first theorem), C40 (box) and C41 hold together. *)
Example C41_example : exists s t,
  find_span (Z.of_nat 6) (Z.of_nat 2) (Fin (3/5) : Exact) (fin exU) = Ok s /\
  find_span (Z.of_nat 3) (Z.of_nat 1) (Fin (1/2) : Exact) (fin sV) = Ok t /\
  (Z.of_nat 2 <= s < Z.of_nat 6)%Z /\ (Z.of_nat 1 <= t < Z.of_nat 3)%Z /\
  kn exU s < kn exU (s + 1) /\ kn sV t < kn sV (t + 1) /\
  kn exU s <= 3/5 <= kn exU (s + 1) /\ kn sV t <= 1/2 <= kn sV (t + 1).
Proof.
  destruct (find_span_strict 2 6 exU (3/5) exU_clamped exU_strict) as (s & E & H1 & H2 & H3).
  - unfold exU; kn_eval; lra.
  - unfold exU; kn_eval; unfold close; rewrite Rabs_left, Rabs_right by lra; lra.
  - destruct (find_span_strict 1 3 sV (1/2) sV_clamped sV_strict) as (t & E' & H1' & H2' & H3').
    + unfold sV; kn_eval; lra.
    + unfold sV; kn_eval; unfold close; rewrite Rabs_left, Rabs_right by lra; lra.
    + exists s, t; repeat split; try assumption; try apply H1; try apply H1'; try apply H2; try apply H2'.
Qed.

(** ** C42: the surface object. *)
Theorem C42_no_surface : forall (K : Num) c degree_u degree_v dimension, c = CSurface \/ c = CBSurface ->
  surface_init (K := K) c degree_u degree_v dimension = Err TypeError.
Proof. exact surface_init_fails. Qed.
Print Assumptions C42_no_surface.
(** super(cls, self): the class after [cls] in the method resolution order of
    the object's class, TypeError if there is none. *)
Theorem C42_super : forall c cls, (forall a b, mro c = a ++ cls :: b -> ~ In cls a -> py_super cls c = Ok (hd CObject b)) /\
  (~ In cls (mro c) -> py_super cls c = Err TypeError).
Proof. exact super_spec. Qed.
Print Assumptions C42_super.
Example C42_super_example : mro CBCurve = [CBCurve] ++ CCurve :: [CGeometry; CAbc; CObject] /\ ~ In CCurve (mro CBSurface) /\ ~ In CSurface (mro CBCurve) /\ ~ In CSurface (mro CCurve).
Proof. repeat split; try reflexivity; intros H; cbn in H; decompose [or] H; try discriminate; contradiction. Qed.
Theorem C42_setters : forall (K : Num) (o : surf_obj K),
  (forall d, (d < 1)%Z -> surf_step o (SDegreeU d) = (o, Some ValueError) /\ surf_step o (SDegreeV d) = (o, Some ValueError)) /\
  (forall d, (1 <= d)%Z ->
     surf_step o (SDegreeU d) = (mkSurfObj (Some d) (o_degree_v o) (o_num_u o) (o_num_v o) (o_nc_u o) (o_nc_v o) (o_ctrl o) (o_ku o) (o_kv o) (o_dim o), None) /\
     surf_step o (SDegreeV d) = (mkSurfObj (o_degree_u o) (Some d) (o_num_u o) (o_num_v o) (o_nc_u o) (o_nc_v o) (o_ctrl o) (o_ku o) (o_kv o) (o_dim o), None)) /\
  (forall n, o_degree_u o = None -> surf_step o (SNumU n) = (o, Some TypeError)) /\
  (forall n, o_degree_v o = None -> surf_step o (SNumV n) = (o, Some TypeError)) /\
  (forall n d, o_degree_u o = Some d -> (n <= d)%Z -> surf_step o (SNumU n) = (o, Some ValueError)) /\
  (forall n d, o_degree_v o = Some d -> (n <= d)%Z -> surf_step o (SNumV n) = (o, Some ValueError)) /\
  (forall n d, o_degree_u o = Some d -> (d < n)%Z ->
     surf_step o (SNumU n) = (mkSurfObj (Some d) (o_degree_v o) (Some n) (o_num_v o) (o_nc_u o) (o_nc_v o) (o_ctrl o) (o_ku o) (o_kv o) (o_dim o), None)) /\
  (forall n d, o_degree_v o = Some d -> (d < n)%Z ->
     surf_step o (SNumV n) = (mkSurfObj (o_degree_u o) (Some d) (o_num_u o) (Some n) (o_nc_u o) (o_nc_v o) (o_ctrl o) (o_ku o) (o_kv o) (o_dim o), None)) /\
  (o_degree_u o = None \/ o_degree_v o = None -> forall a, surf_step o (SCtrl a) = (o, Some ValueError)) /\
  (o_degree_u o = None \/ o_ctrl o = None -> forall kv, surf_step o (SKnotU kv) = (o, Some ValueError)) /\
  (o_degree_v o = None \/ o_ctrl o = None -> forall kv, surf_step o (SKnotV kv) = (o, Some ValueError)).
Proof. exact surf_setters. Qed.
Print Assumptions C42_setters.
Theorem C42_control_points_inverted : forall (K : Num) (o : surf_obj K) du dv a,
  o_degree_u o = Some du -> o_degree_v o = Some dv ->
  (width a = o_dim o -> set_surf_ctrl o a = Err ValueError) /\
  (width a <> o_dim o -> exists o', set_surf_ctrl o a = Ok o' /\ o_ctrl o' = Some a /\
     (o_degree_u o', o_degree_v o', o_num_u o', o_num_v o', o_ku o', o_kv o', o_dim o')
     = (o_degree_u o, o_degree_v o, o_num_u o, o_num_v o, o_ku o, o_kv o, o_dim o)).
Proof. exact surf_ctrl_setter. Qed.
Print Assumptions C42_control_points_inverted.
(** Whatever is assigned to a surface whose constructor had got through. *)
Theorem C42_history : forall (K : Num) degree_u degree_v (ops : list (surf_op K)) (u v : K),
  let o := surf_run (surf_fresh degree_u degree_v) ops in
  o_ku o = None /\ o_kv o = None /\
  (validate_knot u = true -> validate_knot v = true -> obj_single_point o u v = Err AttributeError).
Proof. exact history_surface. Qed.
Print Assumptions C42_history.
Theorem C42_history_knots : forall (K : Num) degree_u degree_v (ops : list (surf_op K)) kv,
  let o := surf_run (surf_fresh degree_u degree_v) ops in
  surf_step o (SKnotU kv) = (o, Some (if o_degree_u o then if o_ctrl o then AttributeError else ValueError else ValueError)) /\
  surf_step o (SKnotV kv) = (o, Some (if o_degree_v o then if o_ctrl o then AttributeError else ValueError else ValueError)).
Proof. exact history_knots. Qed.
Print Assumptions C42_history_knots.
Theorem C42_counts : forall (K : Num) (ops : list (surf_op K)),
  let o := surf_run (surf_fresh None None) ops in
  (forall d, o_degree_u o = Some d -> (1 <= d)%Z) /\ (forall d, o_degree_v o = Some d -> (1 <= d)%Z) /\
  (forall n, o_num_u o = Some n -> (2 <= n)%Z /\ o_degree_u o <> None) /\ (forall n, o_num_v o = Some n -> (2 <= n)%Z /\ o_degree_v o <> None).
Proof. exact history_counts. Qed.
Print Assumptions C42_counts.
(** The count is not always enough for the degree: the degree may be raised later. *)
Theorem C42_counts_refuted : exists ops : list (surf_op Binary64), let o := surf_run (surf_fresh None None) ops in
  o_degree_u o = Some 5%Z /\ o_num_u o = Some 3%Z.
Proof. exists [SDegreeU 2%Z; SNumU 3%Z; SDegreeU 5%Z]; split; reflexivity. Qed.
Print Assumptions C42_counts_refuted.
Example C42_example :
  let ops := [SDegreeU 2%Z; SDegreeV 1%Z; SNumU 6%Z; SNumV 3%Z; SCtrl [[0;0;0]%float : list Binary64]; SKnotU (NdArray wU)] in
  o_ctrl (surf_run (surf_fresh None None) ops) = Some [[0;0;0]%float : list Binary64] /\
  o_num_u (surf_run (surf_fresh None None) ops) = Some 6%Z /\
  snd (surf_step (surf_run (surf_fresh None None) ops) (SKnotU (NdArray wU))) = Some AttributeError /\
  snd (surf_step (surf_run (surf_fresh None None) ops) (SNumV 1%Z)) = Some ValueError.
Proof. repeat split. Qed.
