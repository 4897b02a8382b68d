(** The initial curve and the ruled initial surface on binary64 numbers. *)
From Coq Require Import Reals Lra Lia ZArith List Floats.
From Flocq Require Import Core.Core.
From Verif Require Import Py PyLemmas Num ModelKnots ModelCurve ModelInit Spec SpecB64 MathCox MathKnots ProofNum ProofKnots ProofBasis
  ProofInit ProofInsert2 ProofData3 ProofB64 ProofB64Basis ProofB64Knots ProofB64Curve ProofB64Surface ProofB64Uniform ProofB64Insert ProofB64Insert2 ProofB64Init.
Import ListNotations.
Open Scope R_scope.

Lemma near64_trans e1 e2 y z w : near64 e1 y z -> Forall2 (fun a b => Rabs (a - b) <= e2) z w -> near64 (e1 + e2) y w.
Proof.
  intros H; revert w; induction H as [|a b y z (F & B) H IH]; intros w H2; inversion H2; subst; constructor; [|apply IH; assumption].
  split; [exact F|]; match goal with |- Rabs (value a - ?q) <= _ => replace (value a - q) with ((value a - b) + (b - q)) by ring end.
  apply Rle_trans with (1 := Rabs_triang _ _); lra.
Qed.
Lemma near64_le e e' y z : near64 e y z -> e <= e' -> near64 e' y z.
Proof.
  intros H L; induction H as [|a b y z (F & B) H IH]; constructor; [split; [exact F|lra]|exact IH].
Qed.
Lemma near64_nth e y z c : near64 e y z -> (c < length z)%nat -> Rabs (nth c (values y) 0 - nth c z 0) <= e.
Proof.
  intros H; revert c; induction H as [|a b y z (F & B) H IH]; intros c Hc; [cbn in Hc; lia|].
  destruct c; cbn [values map nth]; [exact B|apply IH; cbn in Hc; lia].
Qed.

(** Moving the control points by at most [e] moves the curve by at most [e]. *)
Lemma curve_sum_close U p n (x y : list R) e u : clamped (Z.of_nat p) (Z.of_nat n) U -> kn U (Z.of_nat p) <= u <= kn U (Z.of_nat n) ->
  length x = n -> length y = n -> (forall i, (i < n)%nat -> Rabs (nth i x 0 - nth i y 0) <= e) ->
  Rabs (curve_sum U p x u - curve_sum U p y u) <= e.
Proof.
  intros HC Hu Lx Ly H; unfold curve_sum; rewrite Lx, Ly, <- zsum_minus.
  apply Rle_trans with (1 := zsum_Rabs _ _ _).
  apply Rle_trans with (zsum 0 n (fun i => bspline U p i u * e)).
  - apply zsum_le; intros i Hi; rewrite <- Rmult_minus_distr_l, Rabs_mult, Rabs_right by (apply Rle_ge, bspline_nonneg, HC).
    apply Rmult_le_compat_l; [apply bspline_nonneg, HC|apply H; lia].
  - rewrite zsum_scal_r, bspline_unity by assumption; lra.
Qed.
Lemma surface_sum_close U V p q nu nv (x y : list R) e u v :
  clamped (Z.of_nat p) (Z.of_nat nu) U -> kn U (Z.of_nat p) <= u <= kn U (Z.of_nat nu) ->
  clamped (Z.of_nat q) (Z.of_nat nv) V -> kn V (Z.of_nat q) <= v <= kn V (Z.of_nat nv) ->
  (forall i, (i < nu * nv)%nat -> Rabs (nth i x 0 - nth i y 0) <= e) ->
  Rabs (surface_sum U V p q nu nv x u v - surface_sum U V p q nu nv y u v) <= e.
Proof.
  intros HC Hu HV Hv H; unfold surface_sum; rewrite <- zsum_minus.
  apply Rle_trans with (1 := zsum_Rabs _ _ _).
  apply Rle_trans with (zsum 0 nu (fun i => bspline U p i u * e)); [|rewrite zsum_scal_r, bspline_unity by assumption; lra].
  apply zsum_le; intros i Hi; rewrite <- zsum_minus; apply Rle_trans with (1 := zsum_Rabs _ _ _).
  pose proof (bspline_nonneg U p i u (proj2 (proj2 (proj2 (proj1 HC))))) as B1.
  apply Rle_trans with (zsum 0 nv (fun j => bspline V q j v * (bspline U p i u * e))); [|rewrite zsum_scal_r, bspline_unity by assumption; lra].
  apply zsum_le; intros j Hj; pose proof (bspline_nonneg V q j v (proj2 (proj2 (proj2 (proj1 HV))))) as B2.
  rewrite <- Rmult_minus_distr_l, Rabs_mult, Rabs_right by (apply Rle_ge, Rmult_le_pos; assumption).
  rewrite (Rmult_comm (bspline U p i u)), Rmult_assoc; apply Rmult_le_compat_l; [exact B2|]; apply Rmult_le_compat_l; [exact B1|apply H; nia].
Qed.

Lemma within_nth M (a : list PrimFloat.float) c : within (- M) M a -> (c < length a)%nat ->
  finite64 (nth c a 0%float) /\ Rabs (value (nth c a 0%float)) <= M.
Proof.
  intros W H; unfold within in W; rewrite Forall_forall in W; destruct (W _ (nth_In a 0%float H)) as (F & B); split; [exact F|apply Rabs_le; exact B].
Qed.

(** ** The initial curve *)
Lemma initial_curve_b64 (a b : list PrimFloat.float) p n M : (1 <= p)%Z -> (p + 1 <= n)%Z -> (n <= 2 ^ 49)%Z ->
  (3 <= len a)%Z -> (3 <= len b)%Z -> within (- M) M a -> within (- M) M b -> 0 <= M <= 2 ^ 1000 ->
  let e := 8 * ulp64 * M + 2 * (IZR n + 1) * tiny64 in
  exists (U : list PrimFloat.float) (P : list (list PrimFloat.float)),
    initialize_curve (K := Binary64) a b p n = Ok (mkCurve (K := Binary64) (Some p) (Some P) (Some U) 0) /\
    generate_uniform p n = Ok (U : list Binary64) /\ len P = n /\
    (forall i, (0 <= i < n)%Z -> near64 e (nth (Z.to_nat i) P []) (lerp (values a) (values b) (IZR i / IZR (n - 1)))) /\
    values (nth 0 P []) = firstn 3 (values a) /\ last P [] = firstn 3 b /\
    (forall c, (c < 3)%nat -> let x i := nth c (values (nth (Z.to_nat i) P [])) 0 in
       let s := nth c (values a) 0 in let t := nth c (values b) 0 in
       s = t \/ / 2 ^ 900 <= Rabs (t - s) -> forall i j, (0 <= i <= j)%Z -> (j < n)%Z ->
       s <= x i <= x j /\ x j <= t \/ t <= x j <= x i /\ x i <= s).
Proof.
  intros Hp Hn Hb La Lb Wa Wb HM e.
  assert (L3 : (3 <= length a)%nat /\ (3 <= length b)%nat) by (unfold len in *; lia); destruct L3 as (L3a & L3b).
  set (m := (n - 1)%Z); assert (Hm : (1 <= m <= 2 ^ 49)%Z) by (unfold m; lia).
  assert (En : n = (m + 1)%Z) by (unfold m; lia).
  assert (G : forall c, (c < 3)%nat -> exists f : Z -> PrimFloat.float,
    np_linspace (nth (A := Binary64) c a (0%float : Binary64)) (nth (A := Binary64) c b (0%float : Binary64)) n = Ok (tab (Z.to_nat n) f : list Binary64) /\
    value (f 0%Z) = value (nth c a 0%float) /\ f m = nth c b 0%float /\
    (value (nth c a 0%float) = value (nth c b 0%float) \/ / 2 ^ 900 <= Rabs (value (nth c b 0%float) - value (nth c a 0%float)) -> forall i j, (0 <= i <= j)%Z -> (j <= m)%Z ->
     value (nth c a 0%float) <= value (f i) <= value (f j) /\ value (f j) <= value (nth c b 0%float) \/
     value (nth c b 0%float) <= value (f j) <= value (f i) /\ value (f i) <= value (nth c a 0%float)) /\
    forall i, (0 <= i <= m)%Z -> finite64 (f i) /\
      Rabs (value (f i) - (value (nth c a 0%float) + IZR i / IZR m * (value (nth c b 0%float) - value (nth c a 0%float)))) <= e).
  { intros c Hc; destruct (within_nth M a c Wa ltac:(lia)) as (Fa & Ba); destruct (within_nth M b c Wb ltac:(lia)) as (Fb & Bb).
    rewrite En; destruct (linspace_b64 _ _ m M Fa Fb Ba Bb ltac:(lra) Hm) as (f & E & E0 & Em & EB & EE).
    exists f; split; [exact E|]; split; [exact E0|]; split; [exact Em|]; split; [exact EB|].
    intros i Hi; destruct (EE i Hi) as (F & B); split; [exact F|]; eapply Rle_trans; [exact B|].
    unfold e; rewrite En, plus_IZR; apply Req_le; ring. }
  destruct (G 0%nat ltac:(lia)) as (f0 & E0 & S0 & T0 & B0 & N0); destruct (G 1%nat ltac:(lia)) as (f1 & E1 & S1 & T1 & B1 & N1);
    destruct (G 2%nat ltac:(lia)) as (f2 & E2 & S2 & T2 & B2 & N2).
  destruct (generate_uniform_b64 p n ltac:(lia) Hn ltac:(lia)) as (U & EU & _).
  set (P := tab (Z.to_nat n) (fun i => [f0 i; f1 i; f2 i])).
  assert (LP : zlen (P : list (list Binary64)) = n) by (unfold P, zlen; rewrite tab_length; lia).
  exists U, P; split; [|split; [exact EU|split; [unfold P; rewrite len_tab; lia|split; [|split; [|split]]]]].
  - pose proof (uniform_accepted_b64 p n ltac:(lia) Hn ltac:(lia)) as A; rewrite EU in A; cbn [bind] in A.
    unfold initialize_curve, initialize_curve_with.
    destruct (Z.leb_spec p n); [cbn [negb]|lia]; unfold set_degree; destruct (Z.ltb_spec p 1); [lia|]; cbn [bind].
    assert (GA : forall (l : list Binary64) c, (3 <= length l)%nat -> (c < 3)%nat -> aget l (Z.of_nat c) = Ok (nth c l (0%float : Binary64))).
    { intros l c H3 Hc; rewrite (aget_nth l _ (0%float : Binary64)) by (unfold zlen; lia); rewrite Nat2Z.id; reflexivity. }
    change 0%Z with (Z.of_nat 0) at 1 2; change 1%Z with (Z.of_nat 1); change 2%Z with (Z.of_nat 2).
    rewrite (GA a 0%nat L3a) by lia; cbn [bind]; rewrite (GA b 0%nat L3b) by lia; cbn [bind]; rewrite E0; cbn [bind].
    rewrite (GA a 1%nat L3a) by lia; cbn [bind]; rewrite (GA b 1%nat L3b) by lia; cbn [bind]; rewrite E1; cbn [bind].
    rewrite (GA a 2%nat L3a) by lia; cbn [bind]; rewrite (GA b 2%nat L3b) by lia; cbn [bind]; rewrite E2; cbn [bind].
    match goal with |- context [column_stack3 ?x ?y ?z] =>
      assert (EC : column_stack3 (K := Binary64) x y z = P) by exact (column_stack3_tab (K := Binary64) (Z.to_nat n) f0 f1 f2) end.
    rewrite !EC; clear EC.
    unfold store_ctrl; cbn [bind c_degree c_kv c_dim curve_init]; rewrite LP, EU; cbn [bind].
    unfold set_knot_vector; cbn [c_degree c_ctrl]; rewrite LP, A; reflexivity.
  - intros i Hi; unfold P; rewrite nth_tab by lia; rewrite Z2Nat.id by lia; unfold lerp; cbn [map]; fold m; rewrite !nth_values.
    apply Forall2_cons; [apply N0; lia|]; apply Forall2_cons; [apply N1; lia|]; apply Forall2_cons; [apply N2; lia|]; constructor.
  - unfold P; rewrite nth_tab by lia; change (Z.of_nat 0) with 0%Z.
    destruct a as [|a0 [|a1 [|a2 a]]]; cbn [length] in L3a; try lia; cbn [values map firstn nth] in *; rewrite S0, S1, S2; reflexivity.
  - rewrite last_nth; unfold P; rewrite tab_length, nth_tab by lia; replace (Z.of_nat (Z.to_nat n - 1)) with m by (unfold m; lia); rewrite T0, T1, T2.
    destruct b as [|b0 [|b1 [|b2 b]]]; cbn [length] in L3b; try lia; reflexivity.
  - intros c Hc x s t HD i j Hij Hj; unfold x, s, t in *; rewrite !nth_values in *; unfold P; rewrite !nth_tab by lia; rewrite !Z2Nat.id by lia.
    destruct c as [|[|[|]]]; [| | |lia]; cbn [nth] in *; [apply B0|apply B1|apply B2]; try assumption; lia.
Qed.

Lemma lerp_bound M (a b : list PrimFloat.float) t c : within (- M) M a -> within (- M) M b -> (c < length a)%nat -> (c < length b)%nat -> 0 <= t <= 1 ->
  - M <= nth c (values a) 0 + t * (nth c (values b) 0 - nth c (values a) 0) <= M.
Proof.
  intros Wa Wb La Lb Ht; rewrite !nth_values; destruct (within_nth M a c Wa La) as (_ & A); destruct (within_nth M b c Wb Lb) as (_ & B).
  apply Rabs_le_inv in A; apply Rabs_le_inv in B; set (x := value (nth c a 0%float)) in *; set (y := value (nth c b 0%float)) in *.
  replace (x + t * (y - x)) with ((1 - t) * x + t * y) by ring; nra.
Qed.
Lemma frac_range i m : (0 <= i <= m)%Z -> (1 <= m)%Z -> 0 <= IZR i / IZR m <= 1.
Proof.
  intros Hi Hm; assert (1 <= IZR m) by (apply IZR_le; lia); split; [apply Rmult_le_pos; [apply IZR_le; lia|left; apply Rinv_0_lt_compat; lra]|].
  apply (Rmult_le_reg_r (IZR m)); [lra|]; unfold Rdiv; rewrite Rmult_assoc, Rinv_l, Rmult_1_r, Rmult_1_l by lra; apply IZR_le; lia.
Qed.
Lemma curve_xyz_close U p n (x y : list (list R)) e u : clamped (Z.of_nat p) (Z.of_nat n) U -> kn U (Z.of_nat p) <= u <= kn U (Z.of_nat n) ->
  length x = n -> length y = n -> (forall i c, (i < n)%nat -> (c < 3)%nat -> Rabs (nth c (nth i x []) 0 - nth c (nth i y []) 0) <= e) ->
  Forall2 (fun a b => Rabs (a - b) <= e) (curve_xyz U p x u) (curve_xyz U p y u).
Proof.
  intros HC Hu Lx Ly H; unfold curve_xyz; cbn [map].
  assert (S : forall c, (c < 3)%nat -> Rabs (curve_sum U p (coords c x) u - curve_sum U p (coords c y) u) <= e).
  { intros c Hc; apply (curve_sum_close U p n); try assumption; unfold coords; rewrite ?map_length; try assumption.
    intros i Hi; pose proof (H i c Hi Hc) as B; pose proof (nth_coords c x i) as X; pose proof (nth_coords c y i) as Y; unfold coords in X, Y; rewrite X, Y; exact B. }
  apply Forall2_cons; [apply S; lia|]; apply Forall2_cons; [apply S; lia|]; apply Forall2_cons; [apply S; lia|]; constructor.
Qed.
Lemma segment_xyz a b U p n u : clamped (Z.of_nat p) (Z.of_nat n) U -> kn U (Z.of_nat p) <= u <= kn U (Z.of_nat n) ->
  curve_xyz U p (segment a b (Z.of_nat n)) u = lerp a b (ramp U p n u).
Proof.
  intros HC Hu.
  assert (EC : forall k, (k < 3)%nat -> coords k (segment a b (Z.of_nat n))
    = tab n (fun i => nth k a 0 + IZR i / IZR (Z.of_nat n - 1) * (nth k b 0 - nth k a 0))).
  { intros k Hk; unfold segment; rewrite coords_tab, Nat2Z.id; destruct k as [|[|[|]]]; [reflexivity..|lia]. }
  unfold curve_xyz, lerp, ramp; cbn [map]; rewrite !EC by lia; rewrite !curve_sum_affine by assumption; reflexivity.
Qed.
Lemma tiny_small : 0 < tiny64 <= / 1000 * ulp64.
Proof. rewrite tiny_eta; apply eta_small. Qed.
Lemma tiny_count k : IZR k <= 2 ^ 50 -> IZR k * tiny64 <= 1 /\ ulp64 * IZR k <= / 8.
Proof.
  intros H; rewrite tiny_eta; pose proof eta_ulp as E; pose proof eta64_pos; pose proof ulp64_small.
  assert (2 ^ 50 <= 2 ^ 100) by (apply Rle_pow; [lra|lia]).
  assert (IZR k * eta64 <= 2 ^ 100 * eta64) by (apply Rmult_le_compat_r; lra); split; [lra|].
  apply Rle_trans with (ulp64 * 2 ^ 50); [apply Rmult_le_compat_l; lra|].
  unfold ulp64; replace (2 ^ 53) with (2 ^ 50 * 8) by (cbn; lra); rewrite Rinv_mult.
  assert (0 < 2 ^ 50) by (apply pow_lt; lra); right; field; lra.
Qed.

Lemma initial_points_b64 p n : (1 <= p)%nat -> INR p <= 2 ^ 40 -> (p + 1 <= n)%nat -> (Z.of_nat n - Z.of_nat p <= 490000)%Z ->
  exists t : R -> R, t 0 = 0 /\ t 1 = 1 /\ (forall x, 0 <= x <= 1 -> 0 <= t x <= 1) /\
  forall (a b : list PrimFloat.float) M,
  (3 <= len a)%Z -> (3 <= len b)%Z -> within (- M) M a -> within (- M) M b -> 0 <= M <= 2 ^ 899 ->
  exists c : curve_obj Binary64, initialize_curve (K := Binary64) a b (Z.of_nat p) (Z.of_nat n) = Ok c /\
    forall x : Binary64, finite64 x -> 0 <= value x <= 1 -> exists y, single_point c x = Ok y /\
      near64 (15 * INR (S p) * (ulp64 * M + tiny64) + 2 * INR (S n) * tiny64) y (lerp (values a) (values b) (t (value x))).
Proof.
  intros Hp1 Hp Hn Hb.
  assert (P1 : 1 <= 2 ^ 899) by (apply pow_R1_Rle; lra).
  assert (P2 : 2 ^ 899 <= 2 ^ 1000) by (apply Rle_pow; [lra|lia]).
  assert (P9 : 2 * 2 ^ 899 = 2 ^ 900) by (change (2 ^ 900) with (2 ^ (1 + 899)); rewrite pow_add, pow_1; reflexivity).
  assert (Hp40 : (Z.of_nat p <= 2 ^ 40)%Z).
  { apply le_IZR; rewrite <- INR_IZR_INZ; replace (IZR (2 ^ 40)) with (2 ^ 40) by (cbn; lra); exact Hp. }
  destruct (uniform_good (Z.of_nat p) (Z.of_nat n) ltac:(lia) ltac:(lia) Hb) as (U & EU & W & C & K0 & K1 & G & T).
  assert (G0 : 0 < / 2 ^ 1000) by (apply Rinv_0_lt_compat, pow_lt; lra).
  assert (HT : tight (Z.of_nat p) (Z.of_nat n) (values U)).
  { split; [exact C|]; split; [pose proof (G (Z.of_nat p) ltac:(lia)); lra|]; pose proof (G (Z.of_nat n - 1)%Z ltac:(lia)) as G1.
    replace (Z.of_nat n - 1 + 1)%Z with (Z.of_nat n) in G1 by lia; lra. }
  exists (ramp (values U) p n).
  split; [apply ramp_start; try assumption; lia|]; split; [apply ramp_end; try assumption; lia|].
  split; [intros x Hx; apply ramp_range; [exact C|lia|lra]|].
  intros a b M La Lb Wa Wb HM.
  destruct (initial_curve_b64 a b (Z.of_nat p) (Z.of_nat n) M ltac:(lia) ltac:(lia) ltac:(lia) La Lb Wa Wb ltac:(lra)) as (U' & P & EI & EU' & LP & NP & _).
  rewrite EU in EU'; injection EU' as <-.
  set (e := 8 * ulp64 * M + 2 * (IZR (Z.of_nat n) + 1) * tiny64) in *.
  pose proof ulp64_small as Hu; pose proof tiny_small as Ht.
  assert (Bn : IZR (Z.of_nat n + 1) <= 2 ^ 50) by (rewrite pow_IZR; apply IZR_le; cbn [Z.of_nat]; lia).
  destruct (tiny_count _ Bn) as (Tn & Un); rewrite plus_IZR in Tn, Un.
  assert (N1 : 1 <= IZR (Z.of_nat n)) by (apply IZR_le; lia).
  assert (uM : 0 <= ulp64 * M <= / 1000 * M) by (split; [apply Rmult_le_pos; lra|apply Rmult_le_compat_r; lra]).
  assert (Tn0 : 0 <= (IZR (Z.of_nat n) + 1) * tiny64) by (apply Rmult_le_pos; lra).
  assert (L3 : (3 <= length a)%nat /\ (3 <= length b)%nat) by (unfold len in *; lia); destruct L3 as (L3a & L3b).
  assert (HP : Forall (fun row => length row = 3%nat /\ within (- (M + e)) (M + e) row) P).
  { apply Forall_forall; intros row HR; destruct (In_nth _ _ [] HR) as (i & Hi & <-).
    pose proof (NP (Z.of_nat i) ltac:(unfold len in LP; lia)) as N; rewrite Nat2Z.id in N.
    split; [rewrite (Forall2_len _ _ _ N); reflexivity|]; apply near64_within with (1 := N).
    pose proof (frac_range (Z.of_nat i) (Z.of_nat n - 1) ltac:(unfold len in LP; lia) ltac:(lia)) as F.
    unfold lerp; cbn [map]; repeat (apply Forall_cons; [apply lerp_bound; try assumption; lia|]); apply Forall_nil. }
  exists (mkCurve (K := Binary64) (Some (Z.of_nat p)) (Some P) (Some U) 0); split; [exact EI|].
  intros x Fx Hx.
  destruct (single_point_b64 p U P 0 x (M + e)) as (y & Ey & Ny); rewrite ?LP; try assumption; [unfold e; lra|apply T; lra|].
  exists y; split; [exact Ey|].
  assert (FC : Forall2 (fun a b => Rabs (a - b) <= e) (curve_xyz (values U) p (map values P) (value x)) (lerp (values a) (values b) (ramp (values U) p n (value x)))).
  { rewrite <- segment_xyz; [|exact C|lra]; apply (curve_xyz_close (values U) p n); [exact C|lra|rewrite map_length; unfold len in LP; lia|unfold segment; rewrite tab_length; lia|].
    intros i c Hi Hc; change (@nil R) with (values []) at 1; rewrite map_nth.
    unfold segment; rewrite nth_tab by lia; pose proof (NP (Z.of_nat i) ltac:(lia)) as N; rewrite Nat2Z.id in N.
    apply near64_nth; [exact N|exact Hc]. }
  pose proof (near64_trans _ _ _ _ _ Ny FC) as R.
  apply near64_le with (1 := R).
  rewrite (S_INR n), (INR_IZR_INZ n).
  assert (I2 : 2 <= INR (S p)) by (rewrite S_INR; apply le_INR in Hp1; cbn in Hp1; lra).
  assert (ue : ulp64 * e <= / 100 * (ulp64 * M) + / 4 * tiny64).
  { unfold e; assert (ulp64 * (ulp64 * M) <= / 1000 * (ulp64 * M)) by (apply Rmult_le_compat_r; lra).
    assert (ulp64 * (IZR (Z.of_nat n) + 1) * tiny64 <= / 8 * tiny64) by (apply Rmult_le_compat_r; lra); lra. }
  assert (J1 : 2 * (ulp64 * M) <= INR (S p) * (ulp64 * M)) by (apply Rmult_le_compat_r; lra).
  assert (J2 : 2 * tiny64 <= INR (S p) * tiny64) by (apply Rmult_le_compat_r; lra).
  assert (J3 : INR (S p) * (ulp64 * e) <= INR (S p) * (/ 100 * (ulp64 * M) + / 4 * tiny64)) by (apply Rmult_le_compat_l; lra).
  unfold e at 2; lra.
Qed.
