(** Property C97 (see properties.jsonl): fits of interior problems on binary64 numbers. *)
From Coq Require Import Reals Lra Lia ZArith List Floats Permutation Sorted.
From Verif Require Import Py Num ModelKnots ModelCurve ModelSurface ModelInit ModelParam ModelFit ModelData Spec SpecFit SpecParam SpecData SpecB64
  ProofB64Interior Examples PropB64 PropFit PropData PropB64Adapt.
Import ListNotations.
Open Scope R_scope.

(** ** C97: interior problems from their settings to their fits, with any solver *)
Theorem C97_interior_fit : forall sv (ip ip' : iproblem Binary64) (t b : bproblem Binary64) ct cb p q nu nv (T B : list (list PrimFloat.float)) (U : list PrimFloat.float) M (data : list (list PrimFloat.float)),
  ip_init ip = None -> ip_top ip = Some t -> ip_bottom ip = Some b ->
  ip_degree ip = Some (Z.of_nat q) -> ip_num ip = Some (Z.of_nat nv) -> ip_data ip = Some (mkData (K := Binary64) 3 data) ->
  Forall (fun r => length r = 3%nat /\ Forall finite64 r) data ->
  bp_degree t = Some (Z.of_nat p) -> bp_degree b = Some (Z.of_nat p) ->
  bp_num t = Some (Z.of_nat nu) -> bp_num b = Some (Z.of_nat nu) ->
  bp_fit t = Some ct -> bp_fit b = Some cb -> c_ctrl ct = Some T -> c_ctrl cb = Some B -> c_kv cb = Some U ->
  Forall (fun row => length row = 3%nat /\ within (- M) M row) T -> Forall (fun row => length row = 3%nat /\ within (- M) M row) B ->
  length T = nu -> length B = nu -> (Z.of_nat nu <= 2 ^ 48)%Z -> 0 <= M <= 2 ^ 889 ->
  (1 <= p)%nat -> INR p <= 2 ^ 40 -> (1 <= q)%nat -> INR q <= 2 ^ 40 -> (q + 1 <= nv)%nat -> (Z.of_nat nv - Z.of_nat q <= 490000)%Z ->
  within 0 1 U -> clamped (Z.of_nat p) (Z.of_nat nu) (values U) ->
  kn (values U) (Z.of_nat p) = 0 -> kn (values U) (Z.of_nat nu) = 1 ->
  (forall i, (Z.of_nat p <= i < Z.of_nat nu)%Z -> / 2 ^ 1000 <= kn (values U) (i + 1) - kn (values U) i) ->
  ip_fit_run working_surface sv ip = (ip', Ok tt) ->
  exists (V : list PrimFloat.float) (P Q : list (list PrimFloat.float)) (rows : list (list PrimFloat.float)) (uvs : list (PrimFloat.float * PrimFloat.float)),
  let S0 := mkSurf (K := Binary64) (Z.of_nat p) (Z.of_nat q) (Z.of_nat nu) (Z.of_nat nv) P U V in
  let S1 := mkSurf (K := Binary64) (Z.of_nat p) (Z.of_nat q) (Z.of_nat nu) (Z.of_nat nv) Q U V in
    init_surface working_surface (Some t) (Some b) (Some (Z.of_nat q)) (Some (Z.of_nat nv)) = Ok S0 /\
    generate_uniform (Z.of_nat q) (Z.of_nat nv) = Ok (V : list Binary64) /\
    ip_init ip' = Some S0 /\ ip_fit ip' = Some S1 /\ length Q = (nu * nv)%nat /\ Forall (fun r => length r = 3%nat) Q /\
    (exists top bottom, bp_param t = Some top /\ bp_param b = Some bottom /\ dt_cols top = 4%Z /\ dt_cols bottom = 4%Z) /\
    (forall i j, (i < nu)%nat -> (j < nv)%nat -> on_edge nu nv i j ->
       nth (i * nv + j) Q [] = nth (i * nv + j) P [] /\
       near64 (8 * ulp64 * M + 2 * tiny64) (nth (i * nv + j) Q []) (lerp (values (nth i B [])) (values (nth i T [])) (INR j / INR (nv - 1)))) /\
    (forall i, (i < nu)%nat -> values (nth (i * nv) Q []) = values (nth i B [])) /\
    ip_param ip' = Some (mkData (K := Binary64) 5 rows) /\
    Forall2 (fun (r : list PrimFloat.float) (uv : PrimFloat.float * PrimFloat.float) =>
      surface_inversion (beh_of_surf S1) (r : list Binary64) lit_1em5 lit_1em5 100 = Ok (uv : Binary64 * Binary64) /\ unit64 (fst uv) /\ unit64 (snd uv)) data uvs /\
    Permutation rows (map (fun t => fst t ++ [fst (snd t); snd (snd t)]) (combine data uvs)) /\
    StronglySorted (fun a b => lex_le [3%nat; 4%nat; 0%nat; 1%nat; 2%nat] (values a) (values b)) rows /\
    (forall k, (Z.of_nat nv = Z.of_nat q + 2 ^ Z.of_nat k)%Z -> undoes64 (nth (S q) V 0%float) /\ undoes64 (1 - nth (nv - 1) V 0)%float) /\
    forall M' d, Forall (within (- M') M') Q -> 0 <= M' <= 2 ^ 890 ->
    forall x : Binary64, finite64 x -> 0 <= value x <= 1 -> (1 - value x <= 102 / 100000000 -> kn (values U) (Z.of_nat nu - 1) <= value x) ->
      (undoes64 (nth (S q) V 0%float) -> exists z w, surf_point S1 x 0%float = Ok z /\
         single_point (mkCurve (K := Binary64) (Some (Z.of_nat p)) (Some B) (Some U) d) x = Ok w /\ equal64 z w) /\
      (undoes64 (1 - nth (nv - 1) V 0)%float -> exists z, surf_point S1 x 1%float = Ok z /\
         near64 (15 * INR (p + 1) * (ulp64 * M + tiny64)) z (curve_xyz (values U) p (map values T) (value x))).
Proof. exact interior_fit64. Qed.
Print Assumptions C97_interior_fit.

(** The problem of C70's example: four control points along the boundaries,
    three across; one free row of two points, three interior points. *)
Definition eU : list PrimFloat.float := [0; 0; 0; 0.5; 1; 1; 1]%float.
Definition eB (y z : PrimFloat.float) : list (list PrimFloat.float) := [[0; y; 0]; [1; y; 0]; [2; y; 0]; [3; y; z]]%float.
Example C97_hypotheses : bp_fit (edge64 1 1)%float = Some (mkCurve (K := Binary64) (Some 2%Z) (Some (eB 1 1)%float) (Some eU) 3) /\
  Forall (fun row => length row = 3%nat /\ within (- 3) 3 row) (eB 1 1)%float /\ Forall (fun row => length row = 3%nat /\ within (- 3) 3 row) (eB 0 0)%float /\
  within 0 1 eU /\ clamped 2 4 (values eU) /\ kn (values eU) 2 = 0 /\ kn (values eU) 4 = 1 /\
  (forall i, (2 <= i < 4)%Z -> / 2 ^ 1000 <= kn (values eU) (i + 1) - kn (values eU) i) /\ (Z.of_nat 3 = Z.of_nat 2 + 2 ^ Z.of_nat 0)%Z.
Proof.
  assert (E : values eU = [0; 0; 0; 1/2; 1; 1; 1]) by (unfold values, eU; cbn [map]; repeat f_equal; val_eval; lra).
  split; [reflexivity|]; split; [unfold eB; repeat (apply Forall_cons; [split; [reflexivity|within_eval]|]); apply Forall_nil|].
  split; [unfold eB; repeat (apply Forall_cons; [split; [reflexivity|within_eval]|]); apply Forall_nil|].
  split; [unfold eU; within_eval|]; rewrite E.
  split; [solve_clamped|]; split; [kn_eval; lra|]; split; [kn_eval; lra|]; split; [|reflexivity].
  intros i Hi; apply gap_ok; assert (i = 2 \/ i = 3)%Z as [-> | ->] by lia; kn_eval; lra.
Qed.
Definition same_point (x y : res (list Binary64)) : bool :=
  match x, y with Ok x, Ok y => Nat.eqb (length x) (length y) && forallb (fun ab => (fst ab =? snd ab)%float) (combine x y) | _, _ => false end.
Definition ends_check (prob : list (ip_op Binary64)) (p : Z) (B T : list (list PrimFloat.float)) (U : list PrimFloat.float) (xs : list PrimFloat.float) : option (list (bool * bool)) :=
  match ip_fit_run working_surface (gs_solver Binary64) (ip_run working_surface (gs_solver Binary64) ip_new prob) with
  | (p', Ok tt) => match ip_fit p' with
                   | Some s => Some (map (fun x => (same_point (surf_point s x 0%float) (single_point (mkCurve (K := Binary64) (Some p) (Some B) (Some U) 3) x),
                                                    same_point (surf_point s x 1%float) (single_point (mkCurve (K := Binary64) (Some p) (Some T) (Some U) 3) x))) xs)
                   | None => None end
  | _ => None end.
Example C97_example : ends_check interior64 2 (eB 0 0)%float (eB 1 1)%float eU [0; 0.3; 0.7; 1]%float = Some [(true, true); (true, true); (true, true); (true, true)].
Proof. vm_compute; reflexivity. Qed.
(** The hypothesis on the number of control points is needed: with 93 spans
    across, the surface misses its bottom curve by one unit in the last place.
    The initial surface is shown; its edges are those of the fit. *)
Definition strip64 (y : PrimFloat.float) : bproblem Binary64 :=
  mkBP (K := Binary64) (Some 2%Z) None None None (Some 3%Z) false None (Some (mkData (K := Binary64) 4 []))
    (Some (mkCurve (K := Binary64) (Some 2%Z) (Some [[1; y; 1]; [2; y; 1]; [3; y; 1]]%float) (Some [0; 0; 0; 1; 1; 1]%float) 3)).
Definition misses_bottom (n : Z) : option bool :=
  match init_surface working_surface (Some (strip64 2)%float) (Some (strip64 1)%float) (Some 2%Z) (Some n) with
  | Ok s => match surf_point s 0%float 0%float with Ok [x; y; z] => Some (x <? 1)%float | _ => None end
  | _ => None end.
Theorem C97_bottom_refuted : exists n, misses_bottom n = Some true /\ misses_bottom (n - 29) = Some false.
Proof. exists 95%Z; split; vm_compute; reflexivity. Qed.
Print Assumptions C97_bottom_refuted.
