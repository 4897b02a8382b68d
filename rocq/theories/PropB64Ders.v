(** C98-C100: derivatives of the basis functions, of curves and of surfaces on
    IEEE 754 doubles. *)
From Coq Require Import Reals Lra Lia ZArith List Floats.
From Verif Require Import Py PyLemmas Num ModelKnots ModelBasis ModelCurve ModelSurface ModelParam Spec SpecParam SpecB64 MathKnots
  ProofB64Ders2 ProofB64Ders3 ProofB64Ders4 Examples PropB64.
Import ListNotations.
Open Scope R_scope.

(** ** C98: the table of derivatives of the basis functions.  [g] is the width of
    the span. *)
Theorem C98_derivatives : forall (U : list PrimFloat.float) s (x : Binary64) p nd,
  within 0 1 U -> nondecreasing (values U) -> finite64 x ->
  kn (values U) s <= value x <= kn (values U) (s + 1) ->
  let g := kn (values U) (s + 1) - kn (values U) s in / 2 ^ 1000 <= g ->
  (Z.of_nat p - 1 <= s)%Z -> (0 <= s)%Z -> (s + Z.of_nat p < len U)%Z -> (s + 1 < len U)%Z -> INR p <= 2 ^ 40 ->
  exists m : list (list PrimFloat.float), basis_function_ders s x (Z.of_nat p) U (Z.of_nat nd) = Ok (m : list (list Binary64)) /\
    length m = S p /\ Forall (fun row => length row = S nd) m /\
    basis_functions s x (Z.of_nat p) U = Ok (map (fun row => nth 0 row 0%float) m : list Binary64) /\
    (forall k, (p < k <= nd)%nat -> Forall (fun row => nth k row 0%float = 0%float) m) /\
    (forall k, (k <= nd)%nat -> (k <= p)%nat -> (2 / g) ^ k <= 2 ^ 900 -> INR (fact p) / INR (fact (p - k)) < 2 ^ 53 ->
      Forall (fun row => finite64 (nth k row 0%float)) m /\
      exists G : nat -> R -> R,
        (forall r, (r <= p)%nat -> nth_derivative k (piece (values U) s p (s - Z.of_nat p + Z.of_nat r)) (G r)) /\
        error1 (values (map (fun row => nth k row 0%float) m)) (map (fun r => G r (value x)) (seq 0 (S p))) <=
          12 * INR p * ulp64 * (INR (fact p) / INR (fact (p - k)) * (2 / g) ^ k)).
Proof. exact ders_b64. Qed.
Print Assumptions C98_derivatives.
(** On doubles as on any other numbers, for any parameter and knots, the first
    column is the basis functions, bit for bit. *)
Theorem C98_first_column : forall (K : Num) (U : list K) s (x : K) p nd, (Z.of_nat p - 1 <= s)%Z -> (s + Z.of_nat p < zlen U)%Z ->
  exists (m : list (list K)) (B : list K), basis_function_ders s x (Z.of_nat p) U (Z.of_nat nd) = Ok m /\ length m = S p /\
    Forall (fun row => length row = S nd) m /\ basis_functions s x (Z.of_nat p) U = Ok B /\ map (fun row => nth 0 row (0 : K)%num) m = B.
Proof. exact @ders_any. Qed.
Print Assumptions C98_first_column.
Example C98_example : within 0 1 fU /\ nondecreasing (values fU) /\ finite64 0.5%float /\
  kn (values fU) 3 <= value 0.5%float <= kn (values fU) (3 + 1) /\ / 2 ^ 1000 <= kn (values fU) (3 + 1) - kn (values fU) 3 /\
  (2 / (kn (values fU) (3 + 1) - kn (values fU) 3)) ^ 2 <= 2 ^ 900 /\ INR (fact 2) / INR (fact (2 - 2)) < 2 ^ 53 /\
  basis_function_ders 3 (0.5%float : Binary64) 2 fU 3
  = Ok ([[0x1.1111111111111p-4; -0x1.1111111111111p0; 0x1.1111111111111p3; 0];
         [0x1.6c16c16c16c16p-1; -0x1.6c16c16c16c16p-1; -0x1.f49f49f49f4a0p3; 0];
         [0x1.c71c71c71c71cp-3; 0x1.c71c71c71c71cp0; 0x1.c71c71c71c71cp2; 0]]%float : list (list Binary64)).
Proof.
  split; [exact fU_within|]; split; [apply fU_clamped|]; split; [exact I|]; rewrite fU_values.
  split; [kn_eval; val_eval; lra|]; split; [apply gap_ok; kn_eval; lra|].
  split; [kn_eval; replace ((2 / (5 / 8 - 1 / 4)) ^ 2) with (256 / 9) by field; apply small_pow; lra|].
  split; [cbn [fact INR Nat.sub Nat.mul Nat.add]; cbn [pow]; lra|vm_compute; reflexivity].
Qed.

(** Spans allowed by C80 are too narrow for higher derivatives: infinite entries,
    for accepted knots. *)
Theorem C98_narrow_span_refuted : exists (U : list PrimFloat.float) (m : list (list PrimFloat.float)),
  within 0 1 U /\ check_knot_vector 2 (NdArray (U : list Binary64)) 4 = Ok true /\
  find_span 4 2 (0%float : Binary64) U = Ok 2%Z /\ / 2 ^ 1000 <= kn (values U) (2 + 1) - kn (values U) 2 /\
  basis_function_ders 2 (0%float : Binary64) 2 U 2 = Ok (m : list (list Binary64)) /\
  nth 2 (nth 0 m []) 0%float = infinity /\ nth 2 (nth 1 m []) 0%float = neg_infinity.
Proof.
  exists [0; 0; 0; 0x1p-520; 1; 1; 1]%float,
    [[1; -0x1p521; infinity]; [0; 0x1p521; neg_infinity]; [0; 0; 0x1p521]]%float.
  split; [repeat (apply Forall_cons; [split; [vm_compute; exact I|]|]); try apply Forall_nil|].
  1-3, 5-7: val_eval; lra.
  - assert (E : value 0x1p-520%float = / 2 ^ 520).
    { val_eval; replace (IZR 4503599627370496) with (2 ^ 52) by (rewrite pow_IZR; reflexivity).
      replace 572%nat with (52 + 520)%nat by reflexivity; rewrite pow_add; field; split; apply pow_nonzero; lra. }
    rewrite E; split; [apply Rlt_le, Rinv_0_lt_compat, pow_lt; lra|].
    rewrite <- Rinv_1; apply Rinv_le_contravar; [lra|apply pow_R1_Rle; lra].
  - split; [vm_compute; reflexivity|]; split; [vm_compute; reflexivity|]; split; [|split; [vm_compute; reflexivity|split; reflexivity]].
    assert (E : value 0x1p-520%float = / 2 ^ 520).
    { val_eval; replace (IZR 4503599627370496) with (2 ^ 52) by (rewrite pow_IZR; reflexivity).
      replace 572%nat with (52 + 520)%nat by reflexivity; rewrite pow_add; field; split; apply pow_nonzero; lra. }
    assert (E0 : value 0%float = 0) by (val_eval; lra).
    change (kn (values [0; 0; 0; 0x1p-520; 1; 1; 1]%float) (2 + 1)) with (value 0x1p-520%float).
    change (kn (values [0; 0; 0; 0x1p-520; 1; 1; 1]%float) 2) with (value 0%float).
    rewrite E, E0, Rminus_0_r.
    apply Rinv_le_contravar; [apply pow_lt; lra|apply Rle_pow; [lra|lia]].
Qed.
Print Assumptions C98_narrow_span_refuted.
(** The derivatives of the basis functions do not sum exactly to 0. *)
Theorem C98_exact_sum_refuted : exists (U : list PrimFloat.float) (m : list (list PrimFloat.float)),
  check_knot_vector 2 (NdArray (U : list Binary64)) 4 = Ok true /\ find_span 4 2 (0.125%float : Binary64) U = Ok 3%Z /\
  basis_function_ders 3 (0.125%float : Binary64) 2 U 1 = Ok (m : list (list Binary64)) /\
  fold_right Rplus 0 (values (map (fun row => nth 1 row 0%float) m)) <> 0.
Proof.
  exists [0; 0; 0; 0x1.70a3d70a3d70ap-4; 1; 1; 1]%float,
    [[0x1.aec4ec4ec4ec4p-1; -0x1.ec4ec4ec4ec4ep0]; [0x1.41e4bbd595f6ep-3; 0x1.d6aaf487e6083p0]; [0x1.83c977ab2bedep-10; 0x1.5a3d06468bcb3p-4]]%float.
  split; [vm_compute; reflexivity|]; split; [vm_compute; reflexivity|]; split; [vm_compute; reflexivity|].
  unfold values; cbn [map fold_right nth]; val_eval; lra.
Qed.
Print Assumptions C98_exact_sum_refuted.

(** ** C99: derivatives of a curve, each coordinate. *)
Theorem C99_curve : forall p (U : list PrimFloat.float) P d (x : Binary64) M s o,
  within 0 1 U -> nondecreasing (values U) -> len U = (len P + Z.of_nat p + 1)%Z -> INR p <= 2 ^ 40 ->
  Forall (fun row => length row = 3%nat /\ within (- M) M row) P -> 0 <= M ->
  finite64 x -> 0 <= value x <= 1 ->
  find_span (len P) (Z.of_nat p) x U = Ok s -> (Z.of_nat p <= s < len P)%Z ->
  kn (values U) s <= value x <= kn (values U) (s + 1) ->
  let g := kn (values U) (s + 1) - kn (values U) s in / 2 ^ 1000 <= g -> (2 <= o)%nat ->
  exists m : list (list PrimFloat.float),
    derivatives3 (mkCurve (K := Binary64) (Some (Z.of_nat p)) (Some P) (Some U) d) x (Z.of_nat o) = Ok m /\
    length m = S (Nat.min o p) /\ Forall (fun row => length row = 3%nat) m /\
    single_point (mkCurve (K := Binary64) (Some (Z.of_nat p)) (Some P) (Some U) d) x = Ok (nth 0 m []) /\
    forall k c, (k <= o)%nat -> (k <= p)%nat -> (c < 3)%nat ->
      let W := INR (fact p) / INR (fact (p - k)) * (2 / g) ^ k in
      (2 / g) ^ k <= 2 ^ 900 -> INR (fact p) / INR (fact (p - k)) < 2 ^ 53 -> W * M <= 2 ^ 980 ->
      exists G, nth_derivative k (curve_piece (values U) s p (coords c (map values P))) G /\
        finite64 (nth c (nth k m []) 0%float) /\
        Rabs (value (nth c (nth k m []) 0%float) - G (value x)) <= 14 * INR (S p) * W * (ulp64 * M + tiny64).
Proof. exact derivatives3_b64. Qed.
Print Assumptions C99_curve.
(** Over the knots of [generate_uniform] the parameters of [0,1] have such spans. *)
Theorem C99_uniform : forall p P d (x : Binary64) M, (2 <= p)%nat -> INR p <= 2 ^ 26 -> (Z.of_nat p + 1 <= len P)%Z ->
  (len P - Z.of_nat p <= 490000)%Z ->
  Forall (fun row => length row = 3%nat /\ within (- M) M row) P -> 0 <= M <= 2 ^ 880 ->
  finite64 x -> 0 <= value x <= 1 ->
  exists U : list PrimFloat.float, generate_uniform (Z.of_nat p) (len P) = Ok (U : list Binary64) /\
  exists s m, find_span (len P) (Z.of_nat p) x U = Ok s /\ (Z.of_nat p <= s < len P)%Z /\
    kn (values U) s < kn (values U) (s + 1) /\ kn (values U) s <= value x <= kn (values U) (s + 1) /\
    derivatives3 (mkCurve (K := Binary64) (Some (Z.of_nat p)) (Some P) (Some U) d) x 2 = Ok m /\
    length m = 3%nat /\ Forall (fun row => length row = 3%nat) m /\
    single_point (mkCurve (K := Binary64) (Some (Z.of_nat p)) (Some P) (Some U) d) x = Ok (nth 0 m []) /\
    forall k c, (k <= 2)%nat -> (c < 3)%nat ->
      exists G, nth_derivative k (curve_piece (values U) s p (coords c (map values P))) G /\
        finite64 (nth c (nth k m []) 0%float) /\
        Rabs (value (nth c (nth k m []) 0%float) - G (value x)) <= 14 * INR (S p) * (4 * INR p * (IZR (len P) - INR p)) ^ k * (ulp64 * M + tiny64).
Proof. exact uniform_derivatives_b64. Qed.
Print Assumptions C99_uniform.
Example C99_example : within 0 1 fU /\ nondecreasing (values fU) /\ len fU = (len fP + Z.of_nat 2 + 1)%Z /\
  Forall (fun row => length row = 3%nat /\ within (- 6) 6 row) fP /\ finite64 0.5%float /\ 0 <= value 0.5%float <= 1 /\
  find_span (len fP) 2 (0.5%float : Binary64) fU = Ok 3%Z /\ kn (values fU) 3 <= value 0.5%float <= kn (values fU) (3 + 1) /\
  / 2 ^ 1000 <= kn (values fU) (3 + 1) - kn (values fU) 3 /\
  (2 / (kn (values fU) (3 + 1) - kn (values fU) 3)) ^ 2 <= 2 ^ 900 /\ INR (fact 2) / INR (fact (2 - 2)) < 2 ^ 53 /\
  INR (fact 2) / INR (fact (2 - 2)) * (2 / (kn (values fU) (3 + 1) - kn (values fU) 3)) ^ 2 * 6 <= 2 ^ 980 /\
  derivatives3 (mkCurve (K := Binary64) (Some 2%Z) (Some fP) (Some fU) 3) (0.5%float : Binary64) 2
  = Ok [[0x1.8b60b60b60b60p1; 0x1.82d82d82d82d8p0; -0x1.3333333333332p-1]; [0x1.f49f49f49f4a0p1; 0x1.3e93e93e93e94p1; 0x1.9999999999999p0]; [-0x1.3e93e93e93e98p3; 0x1.6c16c16c16c16p4; 0x1.3333333333334p4]]%float.
Proof.
  split; [exact fU_within|]; split; [apply fU_clamped|]; split; [reflexivity|]; split; [exact fP_within|]; split; [exact I|].
  split; [val_eval; lra|]; split; [vm_compute; reflexivity|]; rewrite fU_values.
  split; [kn_eval; val_eval; lra|]; split; [apply gap_ok; kn_eval; lra|].
  assert (E : (2 / (kn [0; 0; 0; 1 / 4; 5 / 8; 1; 1; 1] (3 + 1) - kn [0; 0; 0; 1 / 4; 5 / 8; 1; 1; 1] 3)) ^ 2 = 256 / 9) by (kn_eval; field).
  rewrite E; split; [apply small_pow; lra|].
  assert (F : INR (fact 2) / INR (fact (2 - 2)) = 2) by (cbn [fact INR Nat.sub Nat.mul Nat.add]; field); rewrite F.
  split; [cbn [pow]; lra|]; split; [|vm_compute; reflexivity].
  apply Rle_trans with (2 ^ 10); [cbn [pow]; lra|apply Rle_pow; [lra|lia]].
Qed.
(** Not exactly: the control points coincide and the derivatives are not 0. *)
Theorem C99_exact_refuted : exists (U : list PrimFloat.float) (m : list (list PrimFloat.float)),
  within 0 1 U /\ check_knot_vector 2 (NdArray (U : list Binary64)) 4 = Ok true /\
  derivatives3 (mkCurve (K := Binary64) (Some 2%Z) (Some (repeat [1; 1; 1]%float 4)) (Some U) 3) (0.125%float : Binary64) 2 = Ok m /\
  Forall (fun v => 0 < value v) (nth 1 m []) /\ Forall (fun v => 0 < value v) (nth 2 m []).
Proof.
  exists [0; 0; 0; 0x1.70a3d70a3d70ap-4; 1; 1; 1]%float,
    [[0x1.fffffffffffffp-1; 0x1.fffffffffffffp-1; 0x1.fffffffffffffp-1]; [0x1.8000000000000p-55; 0x1.8000000000000p-55; 0x1.8000000000000p-55]; [0x1.0000000000000p-51; 0x1.0000000000000p-51; 0x1.0000000000000p-51]]%float.
  split; [within_eval|]; split; [vm_compute; reflexivity|]; split; [vm_compute; reflexivity|].
  split; cbn [nth]; repeat (apply Forall_cons; [val_eval; lra|]); apply Forall_nil.
Qed.
Print Assumptions C99_exact_refuted.

(** ** C100: partial derivatives of a surface, each coordinate. *)
Theorem C100_surface : forall p q nu nv (U V : list PrimFloat.float) P (x y : Binary64) s t M,
  within 0 1 U -> within 0 1 V -> knots_for (Z.of_nat p) (Z.of_nat nu) (values U) -> knots_for (Z.of_nat q) (Z.of_nat nv) (values V) ->
  length P = (nu * nv)%nat -> Forall (fun row => length row = 3%nat /\ within (- M) M row) P -> 0 <= M ->
  finite64 x -> finite64 y -> 0 <= value x <= 1 -> 0 <= value y <= 1 ->
  find_span (Z.of_nat nu) (Z.of_nat p) x U = Ok s -> find_span (Z.of_nat nv) (Z.of_nat q) y V = Ok t ->
  (Z.of_nat p <= s < Z.of_nat nu)%Z -> (Z.of_nat q <= t < Z.of_nat nv)%Z ->
  kn (values U) s <= value x <= kn (values U) (s + 1) -> kn (values V) t <= value y <= kn (values V) (t + 1) ->
  let g := kn (values U) (s + 1) - kn (values U) s in let h := kn (values V) (t + 1) - kn (values V) t in
  / 2 ^ 1000 <= g -> / 2 ^ 1000 <= h -> INR p <= 2 ^ 40 -> INR q <= 2 ^ 40 ->
  forall ou ov nrm, exists m : list (list PrimFloat.float),
  surf_derivatives (mkSurf (K := Binary64) (Z.of_nat p) (Z.of_nat q) (Z.of_nat nu) (Z.of_nat nv) P U V) x y (Z.of_nat ou) (Z.of_nat ov) nrm = Ok m /\
  length m = ((Nat.min ou p + 1) * (Nat.min ov q + 1))%nat /\ Forall (fun row => length row = 3%nat) m /\
  surf_point (mkSurf (K := Binary64) (Z.of_nat p) (Z.of_nat q) (Z.of_nat nu) (Z.of_nat nv) P U V) x y = Ok (nth 0 m []) /\
  (nrm = false -> forall a b c, (a <= ou)%nat -> (a <= p)%nat -> (b <= ov)%nat -> (b <= q)%nat -> (c < 3)%nat ->
    let Wa := INR (fact p) / INR (fact (p - a)) * (2 / g) ^ a in
    let Wb := INR (fact q) / INR (fact (q - b)) * (2 / h) ^ b in
    (2 / g) ^ a <= 2 ^ 900 -> INR (fact p) / INR (fact (p - a)) < 2 ^ 53 ->
    (2 / h) ^ b <= 2 ^ 900 -> INR (fact q) / INR (fact (q - b)) < 2 ^ 53 -> Wa * Wb * M <= 2 ^ 970 ->
    let e := nth c (nth (a * (Nat.min ov q + 1) + b) m []) 0%float in
    exists G, mixed_partial a b (surface_piece (values U) (values V) s t p q nu nv (coords c (map values P))) G /\
      finite64 e /\ Rabs (value e - G (value x) (value y)) <= 15 * INR (p + q + 1) * (Wa * Wb) * (ulp64 * M + tiny64)).
Proof. exact surf_derivatives_b64. Qed.
Print Assumptions C100_surface.
Theorem C100_uniform : forall p q nu nv P (x y : Binary64) M, (2 <= p)%nat -> INR p <= 2 ^ 26 -> (2 <= q)%nat -> INR q <= 2 ^ 26 ->
  (p + 1 <= nu)%nat -> (Z.of_nat nu - Z.of_nat p <= 490000)%Z -> (q + 1 <= nv)%nat -> (Z.of_nat nv - Z.of_nat q <= 490000)%Z ->
  length P = (nu * nv)%nat -> Forall (fun row => length row = 3%nat /\ within (- M) M row) P -> 0 <= M <= 2 ^ 780 ->
  finite64 x -> 0 <= value x <= 1 -> finite64 y -> 0 <= value y <= 1 ->
  exists U V : list PrimFloat.float, generate_uniform (Z.of_nat p) (Z.of_nat nu) = Ok (U : list Binary64) /\
  generate_uniform (Z.of_nat q) (Z.of_nat nv) = Ok (V : list Binary64) /\
  exists s t m, find_span (Z.of_nat nu) (Z.of_nat p) x U = Ok s /\ find_span (Z.of_nat nv) (Z.of_nat q) y V = Ok t /\
    kn (values U) s < kn (values U) (s + 1) /\ kn (values U) s <= value x <= kn (values U) (s + 1) /\
    kn (values V) t < kn (values V) (t + 1) /\ kn (values V) t <= value y <= kn (values V) (t + 1) /\
    surf_derivatives (mkSurf (K := Binary64) (Z.of_nat p) (Z.of_nat q) (Z.of_nat nu) (Z.of_nat nv) P U V) x y 2 2 false = Ok m /\
    length m = 9%nat /\ Forall (fun row => length row = 3%nat) m /\
    surf_point (mkSurf (K := Binary64) (Z.of_nat p) (Z.of_nat q) (Z.of_nat nu) (Z.of_nat nv) P U V) x y = Ok (nth 0 m []) /\
    forall a b c, (a <= 2)%nat -> (b <= 2)%nat -> (c < 3)%nat ->
      let e := nth c (nth (a * 3 + b) m []) 0%float in
      exists G, mixed_partial a b (surface_piece (values U) (values V) s t p q nu nv (coords c (map values P))) G /\
        finite64 e /\ Rabs (value e - G (value x) (value y)) <=
          15 * INR (p + q + 1) * ((4 * INR p * (INR nu - INR p)) ^ a * (4 * INR q * (INR nv - INR q)) ^ b) * (ulp64 * M + tiny64).
Proof. exact uniform_surf_derivatives_b64. Qed.
Print Assumptions C100_uniform.
Example C100_example : knots_for 2 5 (values fU) /\ knots_for 1 3 (values fV) /\ length fQ = (5 * 3)%nat /\
  Forall (fun row => length row = 3%nat /\ within (- 7) 7 row) fQ /\
  find_span 5 2 (0.5%float : Binary64) fU = Ok 3%Z /\ find_span 3 1 (0.25%float : Binary64) fV = Ok 1%Z /\
  kn (values fU) 3 <= value 0.5%float <= kn (values fU) (3 + 1) /\ kn (values fV) 1 <= value 0.25%float <= kn (values fV) (1 + 1) /\
  / 2 ^ 1000 <= kn (values fU) (3 + 1) - kn (values fU) 3 /\ / 2 ^ 1000 <= kn (values fV) (1 + 1) - kn (values fV) 1 /\
  (2 / (kn (values fU) (3 + 1) - kn (values fU) 3)) ^ 2 = 256 / 9 /\ (2 / (kn (values fV) (1 + 1) - kn (values fV) 1)) ^ 1 = 16 / 3 /\
  surf_derivatives (mkSurf (K := Binary64) 2 1 5 3 fQ fU fV) (0.5%float : Binary64) (0.25%float : Binary64) 2 2 false
  = Ok [[0x1.b60b60b60b60ap1; 0x1.d82d82d82d82cp0; -0x1.1111111111110p-2]; [0x1.5555555555558p0; 0x1.5555555555554p0; 0x1.5555555555554p0]; [0x1.f49f49f49f4a0p1; 0x1.3e93e93e93e93p1; 0x1.9999999999998p0]; [0; -0x1.0000000000000p-50; 0]; [-0x1.3e93e93e93e98p3; 0x1.6c16c16c16c15p4; 0x1.3333333333333p4]; [0; -0x1.0000000000000p-47; -0x1.0000000000000p-47]]%float.
Proof.
  split; [apply fU_clamped|]; split; [apply fV_clamped|]; split; [reflexivity|]; split; [exact fQ_within|].
  split; [vm_compute; reflexivity|]; split; [vm_compute; reflexivity|]; rewrite fU_values, fV_values.
  split; [kn_eval; val_eval; lra|]; split; [kn_eval; val_eval; lra|]; split; [apply gap_ok; kn_eval; lra|]; split; [apply gap_ok; kn_eval; lra|].
  split; [kn_eval; field|]; split; [kn_eval; field|]; vm_compute; reflexivity.
Qed.
(** Not exactly: all control points coincide. *)
Theorem C100_exact_refuted : exists (U V : list PrimFloat.float) (m : list (list PrimFloat.float)),
  within 0 1 U /\ check_knot_vector 2 (NdArray (U : list Binary64)) 4 = Ok true /\ check_knot_vector 2 (NdArray (V : list Binary64)) 3 = Ok true /\
  surf_derivatives (mkSurf (K := Binary64) 2 2 4 3 (repeat [1; 1; 1]%float 12) U V) (0.125%float : Binary64) (0.5%float : Binary64) 1 0 false = Ok m /\
  Forall (fun v => 0 < value v) (nth 1 m []).
Proof.
  exists [0; 0; 0; 0x1.70a3d70a3d70ap-4; 1; 1; 1]%float, [0; 0; 0; 1; 1; 1]%float,
    [[0x1.fffffffffffffp-1; 0x1.fffffffffffffp-1; 0x1.fffffffffffffp-1]; [0x1.8000000000000p-55; 0x1.8000000000000p-55; 0x1.8000000000000p-55]]%float.
  split; [within_eval|]; split; [vm_compute; reflexivity|]; split; [vm_compute; reflexivity|]; split; [vm_compute; reflexivity|].
  cbn [nth]; repeat (apply Forall_cons; [val_eval; lra|]); apply Forall_nil.
Qed.
Print Assumptions C100_exact_refuted.
