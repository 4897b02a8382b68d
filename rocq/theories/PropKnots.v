(** C06-C11: knot vector utilities. *)
From Coq Require Import Floats.
From Verif Require Import Py Num ModelKnots Spec MathKnots ProofNum ProofKnots Examples.
Open Scope R_scope.

(** C06 *)
Theorem C06_normalize_affine : forall l, (exists x y, In x l /\ In y l /\ x <> y) ->
  exists lo hi r,
    In lo l /\ In hi l /\ (forall x, In x l -> lo <= x <= hi) /\ lo < hi /\
    normalize (NdArray (fin l : list Exact)) = Ok (fin r) /\
    r = map (fun x => (x - lo) / (hi - lo)) l /\
    (forall y, In y r -> 0 <= y <= 1) /\ In 0 r /\ In 1 r /\
    (forall i j, (0 <= i < len l)%Z -> (0 <= j < len l)%Z -> (kn r i <= kn r j <-> kn l i <= kn l j)).
Proof. exact normalize_spec. Qed.
Print Assumptions C06_normalize_affine.
Theorem C06_normalize_idempotent : forall l r, (exists x y, In x l /\ In y l /\ x <> y) ->
  normalize (NdArray (fin l : list Exact)) = Ok r -> normalize (NdArray r) = Ok r.
Proof. exact normalize_idempotent. Qed.
Print Assumptions C06_normalize_idempotent.
Theorem C06_normalize_invariant : forall l a b, (exists x y, In x l /\ In y l /\ x <> y) -> 0 < a ->
  normalize (NdArray (fin (map (fun x => a * x + b) l) : list Exact)) = normalize (NdArray (fin l : list Exact)).
Proof. exact normalize_affine. Qed.
Print Assumptions C06_normalize_invariant.
Example C06_example : exists x y, In x exW /\ In y exW /\ x <> y.
Proof. exists 2, 3; cbn; repeat split; auto; lra. Qed.

(** C07 *)
Theorem C07_normalize_constant : forall l c, l <> [] -> (forall x, In x l -> x = c) ->
  normalize (NdArray (fin l : list Exact)) = Ok (repeat (NaN : Exact) (length l)).
Proof. exact normalize_constant. Qed.
Print Assumptions C07_normalize_constant.
Theorem C07_normalize_empty : forall K : Num,
  normalize (NdArray (@nil K)) = Err ValueError /\ normalize (PyList (@nil K)) = Err ValueError.
Proof. exact normalize_nil. Qed.
Print Assumptions C07_normalize_empty.
Theorem C07_normalize_list : forall (K : Num) (l : list K), l <> [] -> normalize (PyList l) = Err AttributeError.
Proof. exact normalize_pylist. Qed.
Print Assumptions C07_normalize_list.
Example C07_example : [3; 3; 3] <> [] /\ forall x, In x [3; 3; 3] -> x = 3.
Proof. split; [discriminate|intros x [<-|[<-|[<-|[]]]]; reflexivity]. Qed.

(** C08 *)
Theorem C08_check_knot_vector : forall p n U, (0 <= p)%Z -> (0 <= n)%Z -> U <> [] ->
  exists b, check_knot_vector p (NdArray (fin U : list Exact)) n = Ok b /\ (b = true <-> near_clamped p n U).
Proof. exact check_knot_vector_spec. Qed.
Print Assumptions C08_check_knot_vector.
Theorem C08_clamped_accepted : forall p n U, clamped p n U ->
  check_knot_vector p (NdArray (fin U : list Exact)) n = Ok true.
Proof. exact check_clamped. Qed.
Print Assumptions C08_clamped_accepted.
Example C08_example : near_clamped 3 6 exV.
Proof. apply clamped_near, exV_clamped. Qed.

(** C09 *)
Theorem C09_generate_uniform : forall p n, (0 <= p)%Z -> (p + 1 <= n)%Z ->
  exists U, generate_uniform p n = Ok (fin U : list Exact) /\ clamped p n U /\
    (forall i, (0 <= i <= p)%Z -> kn U i = 0) /\
    (forall i, (n <= i <= n + p)%Z -> kn U i = 1) /\
    (forall i, (p <= i <= n)%Z -> kn U i = (IZR i - IZR p) / (IZR n - IZR p)).
Proof. exact generate_uniform_spec. Qed.
Print Assumptions C09_generate_uniform.
Theorem C09_generate_uniform_short : forall (K : Num) p n, (n < p - 1 \/ p < 0)%Z ->
  generate_uniform p n = Err (A := list K) ValueError.
Proof. exact generate_uniform_short. Qed.
Print Assumptions C09_generate_uniform_short.
Example C09_example :
  generate_uniform 2 6 = Ok ([0; 0; 0; 0.25; 0.5; 0.75; 1; 1; 1]%float : list Binary64).
Proof. vm_compute; reflexivity. Qed.

(** C10 *)
Theorem C10_uniform_accepted : forall p n, (0 <= p)%Z -> (p + 1 <= n)%Z ->
  (let* U := generate_uniform p n in check_knot_vector p (NdArray (U : list Exact)) n) = Ok true.
Proof. exact uniform_accepted. Qed.
Print Assumptions C10_uniform_accepted.
Theorem C10_uniform_rejected : forall p, (1 <= p)%Z ->
  (let* U := generate_uniform p p in check_knot_vector p (NdArray (U : list Exact)) p) = Ok false.
Proof. exact uniform_rejected. Qed.
Print Assumptions C10_uniform_rejected.
Example C10_example :
  (let* U := generate_uniform 3 7 in check_knot_vector 3 (NdArray (U : list Binary64)) 7) = Ok true /\
  (let* U := generate_uniform 3 3 in check_knot_vector 3 (NdArray (U : list Binary64)) 3) = Ok false.
Proof. split; vm_compute; reflexivity. Qed.

(** C11: the count is over the entries within the tolerance. *)
Theorem C11_find_multiplicity : forall u U,
  find_multiplicity (Fin u : Exact) (fin U)
  = Z.of_nat (length (filter (fun x => if Rle_dec (Rabs (u - x)) (1/100000000 + 1/100000 * Rabs x)
                                       then true else false) U)).
Proof. exact find_multiplicity_count. Qed.
Print Assumptions C11_find_multiplicity.
Theorem C11_at_least_exact : forall u U,
  (Z.of_nat (count_occ Req_EM_T U u) <= find_multiplicity (Fin u : Exact) (fin U))%Z.
Proof. exact find_multiplicity_ge. Qed.
Print Assumptions C11_at_least_exact.
Theorem C11_exact_when_separated : forall u U,
  (forall x, In x U -> x <> u -> ~ close (1/100000) (1/100000000) u x) ->
  find_multiplicity (Fin u : Exact) (fin U) = Z.of_nat (count_occ Req_EM_T U u).
Proof. exact find_multiplicity_exact. Qed.
Print Assumptions C11_exact_when_separated.
Example C11_example : forall x, In x exU -> x <> 1/2 -> ~ close (1/100000) (1/100000000) (1/2) x.
Proof.
  intros x H N; unfold close.
  repeat (destruct H as [<-|H]; [try lra; intros C; apply Rabs_le_inv in C || idtac;
    revert C; unfold Rabs; repeat destruct Rcase_abs; lra|]); destruct H.
Qed.
(** Two distinct knots closer than the tolerance are both counted. *)
Example C11_example_double : find_multiplicity (0.5%float : Binary64) [0; 0.5; 0.500001; 1]%float = 2%Z.
Proof. vm_compute; reflexivity. Qed.
