(** C123: the order in which the data points are given does not matter. *)
From Coq Require Import Permutation Sorted Floats Reals Lia.
From Verif Require Import Py Num ModelKnots ModelBasis ModelCurve ModelSurface ModelInit ModelParam ModelFit ModelIO ModelData SpecFit SpecData SpecSpecial SpecOrder ModelDot ModelDotParam ProofDot4 ProofOrder2 ProofOrder3 Examples PropParam PropFit PropData PropB64Adapt.
Open Scope Z_scope.

(** In exact arithmetic every data array qualifies, among doubles every one in which
    no zero is negative (NaN and infinities included). *)
Theorem C123_qualifies : (forall x : Exact, one_zero x) /\ (forall x : PrimFloat.float, one_zero (K := Binary64) x <-> ~ negative_zero x) /\
  forall (K : Num) (d d' : data_array K), reordered d d' <-> reordered d' d.
Proof. split; [exact exact_one_zero|]; split; [exact one_zero64|exact @reordered_both]. Qed.
Print Assumptions C123_qualifies.

(** Whatever algorithm sorts the records: there is one result only. *)
Theorem C123_any_sort : forall K : Num, K = Exact \/ K = Binary64 -> forall w fields (rows sorted : list (list K)), (forall i, (i < w)%nat -> In i fields) ->
  Forall (fun r => length r = w /\ Forall one_zero r) rows -> Permutation rows sorted ->
  (StronglySorted (in_order fields) sorted <-> sorted = rec_sort fields rows).
Proof. exact @any_sort. Qed.
Print Assumptions C123_any_sort.
Example C123_any_sort_example : let rows := [[0.5; 2]; [nan; 1]; [0.5; 1]; [infinity; 0]]%float in let out := [[0.5; 1]; [0.5; 2]; [infinity; 0]; [nan; 1]]%float in
  (forall i, (i < 2)%nat -> In i [0; 1]%nat) /\ Forall (fun r => length r = 2%nat /\ Forall (one_zero (K := Binary64)) r) rows /\ rec_sort (K := Binary64) [0; 1]%nat rows = out.
Proof.
  split; [intros [|[|i]] H; [left; reflexivity|right; left; reflexivity|lia]|]; split; [|vm_compute; reflexivity].
  repeat (apply Forall_cons; [split; [reflexivity|repeat (apply Forall_cons; [intros H; vm_compute in H; first [discriminate H|reflexivity]|]); apply Forall_nil]|]); apply Forall_nil.
Qed.

(** Parameterizing the points gives the same array. *)
Theorem C123_parameterize : forall K : Num, K = Exact \/ K = Binary64 -> forall d d' : data_array K, reordered d d' -> forall out,
  (forall c : curve_beh K, parameterize_curve c d = Ok out <-> parameterize_curve c d' = Ok out) /\
  (forall s : surf_beh K, parameterize_surface s d = Ok out <-> parameterize_surface s d' = Ok out).
Proof. intros K HK d d' HD out; split; [intros c; exact (order_parameterize HK d d' HD c out)|intros s; exact (order_parameterize2 HK d d' HD s out)]. Qed.
Print Assumptions C123_parameterize.

(** So it does with dot products, norms and 2x2 solutions of any values (ModelDotParam.v)
    if every point is projected with the same arithmetic. *)
Theorem C123_any_arithmetic : forall K : Num, K = Exact \/ K = Binary64 -> forall d d' : data_array K, reordered d d' -> forall dot solve out,
  (forall c : curve_beh K, parameterize_curve_dot dot c d = Ok out <-> parameterize_curve_dot dot c d' = Ok out) /\
  (forall s : surf_beh K, parameterize_surface_dot dot solve s d = Ok out <-> parameterize_surface_dot dot solve s d' = Ok out).
Proof. exact @order_parameterize_dot. Qed.
Print Assumptions C123_any_arithmetic.

(** The fits give the same curve and the same surface. *)
Theorem C123_fit : forall K : Num, K = Exact \/ K = Binary64 -> forall d d' : data_array K, reordered d d' -> forall (cl : curve_class K) (sv : solver K),
  (forall c num r, fit_curve_knot_insertion cl sv c d num = Ok r <-> fit_curve_knot_insertion cl sv c d' num = Ok r) /\
  (forall c r, fit_curve_fixed_ctrlpts cl sv c d = Ok r <-> fit_curve_fixed_ctrlpts cl sv c d' = Ok r) /\
  (forall s top bot r, fit_surface sv s d top bot = Ok r <-> fit_surface sv s d' top bot = Ok r).
Proof.
  intros K HK d d' HD cl sv; split; [|split].
  - exact (order_insertion HK d d' HD cl sv).
  - exact (order_fixed HK d d' HD cl sv).
  - exact (order_surface HK d d' HD sv).
Qed.
Print Assumptions C123_fit.

(** Whole problems: after a successful call the two objects differ in the order of
    their data only. *)
Theorem C123_boundary : forall K : Num, K = Exact \/ K = Binary64 -> forall d d' : data_array K, reordered d d' -> forall cl sv (b r : bproblem K),
  (bp_parameterize cl (with_points b d) = (r, Ok tt) -> r = with_points r d /\ bp_parameterize cl (with_points b d') = (with_points r d', Ok tt)) /\
  (bp_fit_run cl sv (with_points b d) = (r, Ok tt) -> r = with_points r d /\ bp_fit_run cl sv (with_points b d') = (with_points r d', Ok tt)).
Proof. exact @order_boundary_run. Qed.
Print Assumptions C123_boundary.
Theorem C123_interior : forall K : Num, K = Exact \/ K = Binary64 -> forall d d' : data_array K, reordered d d' -> forall new sv (p r : iproblem K),
  (ip_parameterize new (with_inner_points p d) = (r, Ok tt) -> r = with_inner_points r d /\ ip_parameterize new (with_inner_points p d') = (with_inner_points r d', Ok tt)) /\
  (ip_fit_run new sv (with_inner_points p d) = (r, Ok tt) -> r = with_inner_points r d /\ ip_fit_run new sv (with_inner_points p d') = (with_inner_points r d', Ok tt)).
Proof. exact @order_interior_run. Qed.
Print Assumptions C123_interior.

(** Example: the points of [arch], shuffled. *)
Definition shuffled : data_array Binary64 := mkData (K := Binary64) 3 (rev (dt_rows arch)).
Example C123_example : reordered arch shuffled /\ dt_rows arch <> dt_rows shuffled /\
  snd (bp_fit_run working_class (gs_solver Binary64) (with_points (problem64 5 true) arch)) = Ok tt /\
  snd (bp_fit_run working_class (gs_solver Binary64) (with_points (problem64 5 true) shuffled)) = Ok tt.
Proof.
  split; [|split; [intros H; apply (f_equal (fun l => PrimFloat.eqb (nth 0 (nth 0 l []) 0%float) 0.125%float)) in H; vm_compute in H; discriminate H|split; vm_compute; reflexivity]].
  split; [reflexivity|]; split; [reflexivity|]; split; [apply Permutation_rev|].
  repeat (apply Forall_cons; [split; [reflexivity|repeat (apply Forall_cons; [intros H; vm_compute in H; first [discriminate H|reflexivity]|]); apply Forall_nil]|]); apply Forall_nil.
Qed.

Example C123_any_arithmetic_example :
  match parameterize_curve_dot (K := Binary64) dot_reversed (beh_of_curve3 bowl) shuffled with Ok m => length m =? length (dt_rows arch) | _ => false end%nat = true /\
  parameterize_curve_dot (K := Binary64) dot_reversed (beh_of_curve3 bowl) shuffled = parameterize_curve_dot (K := Binary64) dot_reversed (beh_of_curve3 bowl) arch.
Proof. split; vm_compute; reflexivity. Qed.

(** With negative zeros the sort cannot tell two points apart, and keeps them in the
    order given. *)
Definition first_positive (rows : list (list PrimFloat.float)) : bool := PrimFloat.eqb (1 / nth 0 (nth 0 rows []) 0)%float PrimFloat.infinity.
Theorem C123_negative_zero_refuted : exists (c : curve_beh Binary64) (r r' : list PrimFloat.float) out out',
  Forall2 (fun x y => PrimFloat.eqb x y = true) r r' /\
  parameterize_curve c (mkData (K := Binary64) 3 [r; r']) = Ok out /\ parameterize_curve c (mkData (K := Binary64) 3 [r'; r]) = Ok out' /\ out <> out'.
Proof.
  assert (H : forall x y : res (list (list Binary64)), match x, y with Ok o, Ok o' => andb (first_positive o) (negb (first_positive o')) | _, _ => false end = true ->
    exists out out', x = Ok out /\ y = Ok out' /\ out <> out').
  { intros [o| |] [o'| |] H; try discriminate H; exists o, o'; split; [reflexivity|]; split; [reflexivity|]; intros E; rewrite E in H; destruct (first_positive o'); discriminate H. }
  destruct (H (parameterize_curve (beh_of_curve3 bowl) (mkData (K := Binary64) 3 [[0; 1; 0]; [-0; 1; 0]]%float)) (parameterize_curve (beh_of_curve3 bowl) (mkData (K := Binary64) 3 [[-0; 1; 0]; [0; 1; 0]]%float))) as (o & o' & E & E' & N); [vm_compute; reflexivity|].
  exists (beh_of_curve3 bowl), [0; 1; 0]%float, [-0; 1; 0]%float, o, o'.
  split; [repeat constructor|]; split; [exact E|]; split; [exact E'|exact N].
Qed.
Print Assumptions C123_negative_zero_refuted.
