(** Initial guesses on the library's own curves and surfaces over uniform knots,
    on binary64 numbers: distances from the true curve. *)
From Coq Require Import Reals Lra Lia ZArith List Floats.
From Flocq Require Import Core.Core.
From Verif Require Import Py PyLemmas Num ModelKnots ModelBasis ModelCurve ModelSurface ModelParam Spec SpecB64
  MathCox MathKnots MathJoin ProofNum ProofBasis ProofSpan ProofInsert2 ProofCurve ProofCurve2 ProofSurface ProofParam
  ProofB64 ProofB64Basis ProofB64Span ProofB64Curve ProofB64Surface ProofB64Knots ProofB64Uniform ProofB64Norm ProofB64Param.
Import ListNotations.
Open Scope R_scope.

Lemma norm_lip E r r' : 0 <= E -> Forall2 (fun a b => Rabs (a - b) <= E) r' r -> normR r' <= normR r + INR (length r) * E.
Proof.
  intros HE H; induction H as [|a b r' r Hab _ IH].
  - unfold normR, dotR; cbn; lra.
  - cbn [length]; rewrite S_INR; unfold normR, dotR in *; cbn [combine map fold_right fst snd] in *.
    set (S' := fold_right Rplus 0 (map (fun xy : R * R => fst xy * snd xy) (combine r' r'))) in *.
    set (S0 := fold_right Rplus 0 (map (fun xy : R * R => fst xy * snd xy) (combine r r))) in *.
    assert (P' : 0 <= S') by (exact (dotR_self_nonneg r')); assert (P0 : 0 <= S0) by (exact (dotR_self_nonneg r)).
    set (t := INR (length r) * E) in *.
    assert (T0 : 0 <= t) by (apply Rmult_le_pos; [apply pos_INR|lra]).
    pose proof (Rle_0_sqr b) as B2; pose proof (Rle_0_sqr a) as A2; unfold Rsqr in *.
    pose proof (sqrt_sqrt S' P') as Q'; pose proof (sqrt_sqrt S0 P0) as Q0; pose proof (sqrt_pos S'); pose proof (sqrt_pos S0).
    set (s' := sqrt S') in *; set (s := sqrt S0) in *.
    pose proof (sqrt_sqrt (b * b + S0) ltac:(lra)) as QN; pose proof (sqrt_pos (b * b + S0)).
    set (n := sqrt (b * b + S0)) in *.
    assert (NS : s <= n) by (unfold s, n; apply sqrt_le_1_alt; lra).
    assert (NB : Rabs b <= n) by (unfold n; rewrite <- sqrt_Rsqr_abs; apply sqrt_le_1_alt; unfold Rsqr; lra).
    rewrite <- (sqrt_square (n + (INR (length r) + 1) * E)).
    2:{ apply Rplus_le_le_0_compat; [assumption|apply Rmult_le_pos; [pose proof (pos_INR (length r)); lra|lra]]. }
    apply sqrt_le_1_alt.
    replace ((INR (length r) + 1) * E) with (t + E) by (unfold t; ring).
    assert (C1 : S' <= (s + t) * (s + t)) by (rewrite <- Q'; apply Rmult_le_compat; lra).
    assert (C2 : a * a <= (Rabs b + E) * (Rabs b + E)).
    { replace (a * a) with (Rabs a * Rabs a) by (rewrite <- Rabs_mult; apply Rabs_right; lra).
      assert (Rabs a <= Rabs b + E) by (replace a with (b + (a - b)) by ring; eapply Rle_trans; [apply Rabs_triang|]; lra).
      apply Rmult_le_compat; try apply Rabs_pos; assumption. }
    assert (C3 : Rabs b * Rabs b = b * b) by (rewrite <- Rabs_mult; apply Rabs_right; lra).
    assert (C4 : Rabs b * E <= n * E) by (apply Rmult_le_compat_r; lra).
    assert (C5 : s * t <= n * t) by (apply Rmult_le_compat_r; lra).
    assert (C6 : 0 <= t * E) by (apply Rmult_le_pos; lra).
    replace ((n + (t + E)) * (n + (t + E))) with (n * n + 2 * (n * t) + 2 * (n * E) + t * t + E * E + 2 * (t * E)) by ring.
    replace ((s + t) * (s + t)) with (s * s + 2 * (s * t) + t * t) in C1 by ring.
    replace ((Rabs b + E) * (Rabs b + E)) with (Rabs b * Rabs b + 2 * (Rabs b * E) + E * E) in C2 by ring.
    lra.
Qed.
Lemma dist_lip E Q a b : 0 <= E -> length Q = length b -> Forall2 (fun x y => Rabs (x - y) <= E) a b ->
  Rabs (distR Q a - distR Q b) <= INR (length b) * E.
Proof.
  intros HE HL H; unfold distR.
  assert (S1 : Forall2 (fun x y => Rabs (x - y) <= E) (subR Q a) (subR Q b) /\ length (subR Q b) = length b /\ length (subR Q a) = length b).
  { revert Q HL; induction H as [|x y a b Hxy _ IH]; intros [|z Q] HL; try discriminate; [repeat constructor|].
    injection HL as HL; destruct (IH Q HL) as (I1 & I2 & I3); unfold subR in *; cbn [combine map fst snd length].
    split; [constructor; [|exact I1]|split; f_equal; assumption].
    replace (z - x - (z - y)) with (- (x - y)) by ring; rewrite Rabs_Ropp; exact Hxy. }
  destruct S1 as (F & L1 & L2).
  pose proof (norm_lip E (subR Q b) (subR Q a) HE F) as N1; rewrite L1 in N1.
  assert (F' : Forall2 (fun x y => Rabs (x - y) <= E) (subR Q b) (subR Q a)).
  { clear - F; induction F; constructor; [rewrite Rabs_minus_sym; assumption|assumption]. }
  pose proof (norm_lip E (subR Q a) (subR Q b) HE F') as N2; rewrite L2 in N2.
  apply Rabs_le; lra.
Qed.

Lemma near_values E y z : near64 E y z -> Forall2 (fun a b => Rabs (a - b) <= E) (values y) z /\ length y = length z /\ Forall finite64 y.
Proof.
  unfold near64; induction 1 as [|a b y z (F & H) _ (I1 & I2 & I3)]; cbn; [repeat constructor|].
  split; [constructor; assumption|]; split; [f_equal; assumption|constructor; assumption].
Qed.
Lemma near_within E B y z : near64 E y z -> Forall (fun b => Rabs b <= B) z -> within (- (B + E)) (B + E) y.
Proof.
  unfold near64, within; induction 1 as [|a b y z (F & H) _ IH]; intros HB; constructor; inversion HB; subst.
  - split; [exact F|]; apply Rabs_le_inv in H; match goal with K : Rabs b <= B |- _ => apply Rabs_le_inv in K end; lra.
  - apply IH; assumption.
Qed.
(** ** Points lie in the box of the control points *)
Lemma rows_box M P c i : Forall (fun row => length row = 3%nat /\ within (- M) M row) P -> (c < 3)%nat -> (0 <= i < len P)%Z ->
  - M <= nth c (nth (Z.to_nat i) (map values P) []) 0 <= M.
Proof.
  intros HP Hc Hi; unfold len in Hi; rewrite (nth_indep _ [] (values [])) by (rewrite map_length; lia); rewrite map_nth.
  rewrite Forall_forall in HP; destruct (HP (nth (Z.to_nat i) P [])) as (L & W); [apply nth_In; lia|].
  unfold values; rewrite (nth_indep _ 0 (value 0%float)) by (rewrite map_length; lia); rewrite map_nth.
  unfold within in W; rewrite Forall_forall in W; apply W, nth_In; lia.
Qed.
Lemma curve_in_box p (U : list PrimFloat.float) P (x : Binary64) M :
  within 0 1 U -> clamped (Z.of_nat p) (len P) (values U) -> (1 <= p)%nat ->
  kn (values U) (Z.of_nat p) = 0 -> kn (values U) (len P) = 1 ->
  (forall i, (Z.of_nat p <= i < len P)%Z -> / 2 ^ 1000 <= kn (values U) (i + 1) - kn (values U) i) ->
  Forall (fun row => length row = 3%nat /\ within (- M) M row) P ->
  finite64 x -> 0 <= value x <= 1 ->
  (1 - value x <= 102 / 100000000 -> kn (values U) (len P - 1) <= value x) ->
  Forall (fun b => Rabs b <= M) (curve_xyz (values U) p (map values P) (value x)).
Proof.
  intros HW HC Hp1 H0 H1 Hgap HP Fx Hx Ht.
  assert (Hpos : 0 < / 2 ^ 1000) by (apply Rinv_0_lt_compat, pow_lt; lra).
  destruct (find_span_strict64 _ _ x U HW HC H0 H1 Fx Hx Ht) as (s & E & Hs & Hc).
  pose proof (Hgap s Hs) as Gs.
  rewrite <- (span_xyz_curve p (values U) (map values P) (value x) s); try assumption; rewrite ?len_map; try assumption; try lra.
  - apply Forall_map; apply Forall_forall; intros c Hc3.
    assert (c < 3)%nat by (cbn in Hc3; lia).
    apply Rabs_le, span_sum_between; try assumption; try lra; [apply HC|].
    intros m Hm; rewrite nth_coords; apply rows_box; try assumption; lia.
  - right; apply strict_continuous; try assumption; try lia.
    intros i Hi; pose proof (Hgap i Hi); lra.
Qed.
Lemma surface_in_box p q nu nv (U V : list PrimFloat.float) P (x y : Binary64) M :
  within 0 1 U -> clamped (Z.of_nat p) (Z.of_nat nu) (values U) -> (1 <= p)%nat ->
  kn (values U) (Z.of_nat p) = 0 -> kn (values U) (Z.of_nat nu) = 1 ->
  (forall i, (Z.of_nat p <= i < Z.of_nat nu)%Z -> / 2 ^ 1000 <= kn (values U) (i + 1) - kn (values U) i) ->
  within 0 1 V -> clamped (Z.of_nat q) (Z.of_nat nv) (values V) -> (1 <= q)%nat ->
  kn (values V) (Z.of_nat q) = 0 -> kn (values V) (Z.of_nat nv) = 1 ->
  (forall i, (Z.of_nat q <= i < Z.of_nat nv)%Z -> / 2 ^ 1000 <= kn (values V) (i + 1) - kn (values V) i) ->
  length P = (nu * nv)%nat -> Forall (fun row => length row = 3%nat /\ within (- M) M row) P ->
  finite64 x -> 0 <= value x <= 1 -> (1 - value x <= 102 / 100000000 -> kn (values U) (Z.of_nat nu - 1) <= value x) ->
  finite64 y -> 0 <= value y <= 1 -> (1 - value y <= 102 / 100000000 -> kn (values V) (Z.of_nat nv - 1) <= value y) ->
  Forall (fun b => Rabs b <= M) (surface_xyz (values U) (values V) p q nu nv (map values P) (value x) (value y)).
Proof.
  intros WU CU Hp1 U0 U1 GU WV CV Hq1 V0 V1 GV HL HP Fx Hx Tx Fy Hy Ty.
  assert (Hpos : 0 < / 2 ^ 1000) by (apply Rinv_0_lt_compat, pow_lt; lra).
  destruct (find_span_strict64 _ _ x U WU CU U0 U1 Fx Hx Tx) as (s & Es & Hs & Bx).
  destruct (find_span_strict64 _ _ y V WV CV V0 V1 Fy Hy Ty) as (t & Et & Ht & By).
  pose proof (GU s Hs) as Gs; pose proof (GV t Ht) as Gt.
  replace (surface_xyz (values U) (values V) p q nu nv (map values P) (value x) (value y))
    with (span2_xyz (values U) (values V) s t p q nv (map values P) (value x) (value y)).
  - apply Forall_map; apply Forall_forall; intros c Hc3.
    assert (c < 3)%nat by (cbn in Hc3; lia).
    rewrite (span2_v (values U) (values V) s t p q nu nv) by assumption.
    apply Rabs_le, span_sum_between; try assumption; try lra; [apply CV|]; intros j Hj; rewrite nth_tab by lia.
    apply span_sum_between; try assumption; try lra; [apply CU|]; intros i Hi; rewrite nth_tab by lia.
    unfold net; rewrite nth_coords, !Z2Nat.id by lia; apply rows_box; try assumption.
    unfold len; rewrite HL, Nat2Z.inj_mul; nia.
  - unfold span2_xyz, surface_xyz; apply map_ext; intros c.
    apply span2_surface; try assumption; try lra; right; apply strict_continuous; try assumption; try lia.
    + intros i Hi; pose proof (GU i Hi); lra.
    + intros i Hi; pose proof (GV i Hi); lra.
Qed.

(** ** The error of an evaluated point is small against the bound on coordinates *)
Lemma small_point_error k M : 0 <= k <= 2 ^ 42 -> 0 <= M <= 2 ^ 390 -> 0 <= 11 * k * (ulp64 * M + tiny64) <= 2 ^ 398.
Proof.
  intros Hk HM; rewrite tiny_eta; pose proof ulp64_pos; pose proof eta64_pos; pose proof eta_ulp.
  assert (0 <= ulp64 * M) by (apply Rmult_le_pos; lra).
  assert (E1 : eta64 <= ulp64).
  { assert (1 <= 2 ^ 100) by (apply pow_R1_Rle; lra); assert (eta64 * 1 <= eta64 * 2 ^ 100) by (apply Rmult_le_compat_l; lra); lra. }
  split; [apply Rmult_le_pos; [lra|lra]|].
  assert (P390 : 1 <= 2 ^ 390) by (apply pow_R1_Rle; lra).
  apply Rle_trans with (2 ^ 46 * (ulp64 * 2 ^ 391)).
  - assert (A1 : 11 * k <= 2 ^ 46) by (replace (2 ^ 46) with (16 * 2 ^ 42) by (cbn [pow]; ring); lra).
    assert (A2 : ulp64 * M + eta64 <= ulp64 * 2 ^ 391).
    { change 391%nat with (1 + 390)%nat; rewrite pow_add; replace (2 ^ 1) with 2 by ring.
      assert (ulp64 * M <= ulp64 * 2 ^ 390) by (apply Rmult_le_compat_l; lra).
      assert (ulp64 * 1 <= ulp64 * 2 ^ 390) by (apply Rmult_le_compat_l; lra); lra. }
    apply Rmult_le_compat; [lra|lra|exact A1|exact A2].
  - rewrite ulp64_bpow, !pow_bpow, <- !bpow_plus; apply bpow_le; cbn; lia.
Qed.

Lemma uniform_guess64 p P Q d (c : curve_beh Binary64) M :
  (1 <= p)%nat -> INR p <= 2 ^ 40 -> (Z.of_nat p + 1 <= len P)%Z -> (len P - Z.of_nat p <= 490000)%Z -> (len P <= 2 ^ 48)%Z ->
  Forall (fun row => length row = 3%nat /\ within (- M) M row) P -> 0 <= M <= 2 ^ 390 ->
  length Q = 3%nat -> within (- 2 ^ 399) (2 ^ 399) Q ->
  exists U : list PrimFloat.float, generate_uniform (Z.of_nat p) (len P) = Ok (U : list Binary64) /\
  (cb_count c = len P ->
   (forall x, cb_point c x = single_point (mkCurve (K := Binary64) (Some (Z.of_nat p)) (Some P) (Some U) d) x) ->
   exists k : Z, (0 <= k < 2 * len P)%Z /\ initial_guess_curve c (Q : list Binary64) = Ok (sample64 (2 * len P - 1) k) /\
    let D i := distR (values Q) (curve_xyz (values U) p (map values P) (value (sample64 (2 * len P - 1) i))) in
    let E := 30 * INR (S p) * (ulp64 * M + tiny64) in
    ((exists i, (0 <= i < 2 * len P)%Z /\ D i + E <= 999999) ->
     forall i, (0 <= i < 2 * len P)%Z -> D k <= (1 + 36 * ulp64) * D i + 3 * E + / 2 ^ 518) /\
    ((forall i, (0 <= i < 2 * len P)%Z -> 1000001 + E <= D i) -> k = 0%Z)).
Proof.
  intros Hp1 Hp Hn Hb Hb2 HP HM HQ WQ.
  destruct (uniform_good (Z.of_nat p) (len P) ltac:(lia) Hn Hb) as (U & EU & W & C & K0 & K1 & G & T).
  exists U; split; [exact EU|]; intros Ec Ept.
  set (n := len P) in *; set (u := sample64 (2 * n - 1)).
  set (e := 10 * INR (S p) * (ulp64 * M + tiny64)).
  assert (Hu : forall i, (0 <= i < 2 * n)%Z -> unit64 (u i)) by (intros i Hi; apply sample_unit; lia).
  assert (M900 : 0 <= M <= 2 ^ 900) by (split; [lra|]; apply Rle_trans with (2 ^ 390); [lra|apply Rle_pow; [lra|lia]]).
  assert (He : 0 <= e <= 2 ^ 398).
  { assert (K : 0 <= INR (S p) <= 2 ^ 42).
    { split; [apply pos_INR|]; rewrite S_INR; replace (2 ^ 42) with (4 * 2 ^ 40) by (cbn [pow]; ring).
      assert (1 <= 2 ^ 40) by (apply pow_R1_Rle; lra); lra. }
    destruct (small_point_error (INR (S p)) M K HM) as (A & B); unfold e.
    assert (0 <= INR (S p) * (ulp64 * M + tiny64)) by lra; lra. }
  assert (PT : forall i, exists y : list PrimFloat.float, (0 <= i < 2 * n)%Z ->
    cb_point c (u i) = Ok (y : list Binary64) /\ near64 e y (curve_xyz (values U) p (map values P) (value (u i))) /\
    within (- 2 ^ 399) (2 ^ 399) y).
  { intros i; destruct (Z_le_dec 0 i); [|exists []; lia]; destruct (Z_lt_dec i (2 * n)); [|exists []; lia].
    destruct (Hu i ltac:(lia)) as (Fi & Vi).
    destruct (single_point_b64 p U P d (u i) M W C Hp1 Hp K0 K1 G HP M900 Fi Vi (T _ (proj2 Vi))) as (y & Ey & Ny).
    exists y; intros _; split; [rewrite Ept; exact Ey|]; split; [exact Ny|].
    pose proof (curve_in_box p U P (u i) M W C Hp1 K0 K1 G HP Fi Vi (T _ (proj2 Vi))) as B.
    pose proof (near_within _ _ _ _ Ny B) as WY; fold e in WY.
    assert (M + e <= 2 ^ 399).
    { assert (2 ^ 390 <= 2 ^ 398) by (apply Rle_pow; [lra|lia]).
      change 399%nat with (1 + 398)%nat; rewrite pow_add; replace (2 ^ 1) with 2 by ring; lra. }
    eapply Forall_impl; [|exact WY]; intros z (Fz & Hz); split; [exact Fz|lra]. }
  assert (CH : exists q : Z -> list PrimFloat.float, forall i, (0 <= i < 2 * n)%Z ->
    cb_point c (u i) = Ok (q i : list Binary64) /\ near64 e (q i) (curve_xyz (values U) p (map values P) (value (u i))) /\
    within (- 2 ^ 399) (2 ^ 399) (q i)).
  { exists (fun i => match cb_point c (u i) with Ok y => y | _ => [] end); intros i Hi.
    destruct (PT i) as (y & Hy); destruct (Hy Hi) as (E1 & E2 & E3); rewrite E1; auto. }
  destruct CH as (q & Hq).
  destruct (guess64 c Q q n Ec ltac:(lia)) as (k & Hk & Ek & R1 & R2).
  { rewrite HQ; cbn; lra. }
  { exact WQ. }
  { intros i Hi; destruct (Hq i Hi) as (A1 & A2 & A3); split; [exact A1|]; split; [|exact A3].
    destruct (near_values _ _ _ A2) as (_ & L & _); rewrite L, HQ; reflexivity. }
  exists k; split; [exact Hk|]; split; [exact Ek|]; fold u; cbv zeta.
  set (D := fun i => distR (values Q) (curve_xyz (values U) p (map values P) (value (u i)))).
  assert (DQ : forall i, (0 <= i < 2 * n)%Z -> Rabs (distR (values Q) (values (q i)) - D i) <= 3 * e).
  { intros i Hi; destruct (Hq i Hi) as (_ & A2 & _); destruct (near_values _ _ _ A2) as (N & _ & _).
    pose proof (dist_lip e (values Q) (values (q i)) (curve_xyz (values U) p (map values P) (value (u i))) (proj1 He)) as L.
    unfold values in L at 1; rewrite map_length, HQ in L; specialize (L eq_refl N); cbn [length curve_xyz map] in L.
    replace (INR 3) with 3 in L by (cbn; ring); exact L. }
  replace (30 * INR (S p) * (ulp64 * M + tiny64)) with (3 * e) by (unfold e; ring).
  rewrite HQ in R1; replace (3 * ((2 * INR 3 + 6) * ulp64)) with (36 * ulp64) in R1 by (cbn; ring).
  pose proof ulp64_pos as Hu0; pose proof ulp64_small.
  split.
  - intros (i0 & Hi0 & H0) i Hi.
    assert (X : distR (values Q) (values (q k)) <= (1 + 36 * ulp64) * distR (values Q) (values (q i)) + / 2 ^ 518).
    { apply R1; [|exact Hi]; exists i0; split; [exact Hi0|]; pose proof (Rabs_le_inv _ _ (DQ i0 Hi0)); fold (D i0) in H0; lra. }
    pose proof (Rabs_le_inv _ _ (DQ i Hi)); pose proof (Rabs_le_inv _ _ (DQ k Hk)).
    fold (D k) (D i).
    assert ((1 + 36 * ulp64) * distR (values Q) (values (q i)) <= (1 + 36 * ulp64) * (D i + 3 * e)) by (apply Rmult_le_compat_l; lra).
    assert (36 * ulp64 * (3 * e) <= 1 * (3 * e)) by (apply Rmult_le_compat_r; lra).
    lra.
  - intros H0; apply R2; intros i Hi; pose proof (Rabs_le_inv _ _ (DQ i Hi)); specialize (H0 i Hi); fold (D i) in H0; lra.
Qed.

Lemma uniform_guess_surf64 p q nu nv P Q (s : surf_beh Binary64) M :
  (1 <= p)%nat -> INR p <= 2 ^ 40 -> (1 <= q)%nat -> INR q <= 2 ^ 40 ->
  (p + 1 <= nu)%nat -> (Z.of_nat nu - Z.of_nat p <= 490000)%Z -> (Z.of_nat nu <= 2 ^ 48)%Z ->
  (q + 1 <= nv)%nat -> (Z.of_nat nv - Z.of_nat q <= 490000)%Z -> (Z.of_nat nv <= 2 ^ 48)%Z ->
  length P = (nu * nv)%nat -> Forall (fun row => length row = 3%nat /\ within (- M) M row) P -> 0 <= M <= 2 ^ 390 ->
  length Q = 3%nat -> within (- 2 ^ 399) (2 ^ 399) Q ->
  exists U V : list PrimFloat.float, generate_uniform (Z.of_nat p) (Z.of_nat nu) = Ok (U : list Binary64) /\
  generate_uniform (Z.of_nat q) (Z.of_nat nv) = Ok (V : list Binary64) /\
  (sb_nu s = Z.of_nat nu -> sb_nv s = Z.of_nat nv ->
   (forall x y, sb_point s x y = surf_point (mkSurf (K := Binary64) (Z.of_nat p) (Z.of_nat q) (Z.of_nat nu) (Z.of_nat nv) P U V) x y) ->
   exists k l : Z, (0 <= k < 2 * Z.of_nat nu)%Z /\ (0 <= l < 2 * Z.of_nat nv)%Z /\
    initial_guess_surf s (Q : list Binary64) = Ok (sample64 (2 * Z.of_nat nu - 1) k, sample64 (2 * Z.of_nat nv - 1) l) /\
    let D i j := distR (values Q) (surface_xyz (values U) (values V) p q nu nv (map values P)
                   (value (sample64 (2 * Z.of_nat nu - 1) i)) (value (sample64 (2 * Z.of_nat nv - 1) j))) in
    let E := 33 * INR (p + q + 1) * (ulp64 * M + tiny64) in
    ((exists i j, (0 <= i < 2 * Z.of_nat nu)%Z /\ (0 <= j < 2 * Z.of_nat nv)%Z /\ D i j + E <= 999999) ->
     forall i j, (0 <= i < 2 * Z.of_nat nu)%Z -> (0 <= j < 2 * Z.of_nat nv)%Z ->
       D k l <= (1 + 36 * ulp64) * D i j + 3 * E + / 2 ^ 518) /\
    ((forall i j, (0 <= i < 2 * Z.of_nat nu)%Z -> (0 <= j < 2 * Z.of_nat nv)%Z -> 1000001 + E <= D i j) -> k = 0%Z /\ l = 0%Z)).
Proof.
  intros Hp1 Hp Hq1 Hq Hnu Bu Bu2 Hnv Bv Bv2 HL HP HM HQ WQ.
  destruct (uniform_good (Z.of_nat p) (Z.of_nat nu) ltac:(lia) ltac:(lia) Bu) as (U & EU & WU & CU & KU0 & KU1 & GU & TU).
  destruct (uniform_good (Z.of_nat q) (Z.of_nat nv) ltac:(lia) ltac:(lia) Bv) as (V & EV & WV & CV & KV0 & KV1 & GV & TV).
  exists U, V; split; [exact EU|]; split; [exact EV|]; intros Eu Ev Ept.
  set (u := sample64 (2 * Z.of_nat nu - 1)); set (v := sample64 (2 * Z.of_nat nv - 1)).
  set (e := 11 * INR (p + q + 1) * (ulp64 * M + tiny64)).
  assert (Hu : forall i, (0 <= i < 2 * Z.of_nat nu)%Z -> unit64 (u i)) by (intros i Hi; apply sample_unit; lia).
  assert (Hv : forall i, (0 <= i < 2 * Z.of_nat nv)%Z -> unit64 (v i)) by (intros i Hi; apply sample_unit; lia).
  assert (M890 : 0 <= M <= 2 ^ 890) by (split; [lra|]; apply Rle_trans with (2 ^ 390); [lra|apply Rle_pow; [lra|lia]]).
  assert (He : 0 <= e <= 2 ^ 398).
  { assert (K : 0 <= INR (p + q + 1) <= 2 ^ 42).
    { split; [apply pos_INR|]; rewrite !plus_INR; replace (2 ^ 42) with (4 * 2 ^ 40) by (cbn [pow]; ring).
      assert (1 <= 2 ^ 40) by (apply pow_R1_Rle; lra); change (INR 1) with 1; lra. }
    exact (small_point_error (INR (p + q + 1)) M K HM). }
  set (X := fun i j => surface_xyz (values U) (values V) p q nu nv (map values P) (value (u i)) (value (v j))).
  assert (CH : exists w : Z -> Z -> list PrimFloat.float, forall i j, (0 <= i < 2 * Z.of_nat nu)%Z -> (0 <= j < 2 * Z.of_nat nv)%Z ->
    sb_point s (u i) (v j) = Ok (w i j : list Binary64) /\ near64 e (w i j) (X i j) /\ within (- 2 ^ 399) (2 ^ 399) (w i j)).
  { exists (fun i j => match sb_point s (u i) (v j) with Ok y => y | _ => [] end); intros i j Hi Hj.
    destruct (Hu i Hi) as (Fi & Vi); destruct (Hv j Hj) as (Fj & Vj).
    destruct (surf_point_b64 p q nu nv U V P (u i) (v j) M WU CU Hp1 Hp KU0 KU1 GU WV CV Hq1 Hq KV0 KV1 GV HL HP M890
      Fi Vi (TU _ (proj2 Vi)) Fj Vj (TV _ (proj2 Vj))) as (y & Ey & Ny).
    rewrite Ept, Ey; split; [reflexivity|]; split; [exact Ny|].
    pose proof (surface_in_box p q nu nv U V P (u i) (v j) M WU CU Hp1 KU0 KU1 GU WV CV Hq1 KV0 KV1 GV HL HP
      Fi Vi (TU _ (proj2 Vi)) Fj Vj (TV _ (proj2 Vj))) as B.
    pose proof (near_within _ _ _ _ Ny B) as WY; fold e in WY.
    assert (M + e <= 2 ^ 399).
    { assert (2 ^ 390 <= 2 ^ 398) by (apply Rle_pow; [lra|lia]).
      change 399%nat with (1 + 398)%nat; rewrite pow_add; replace (2 ^ 1) with 2 by ring; lra. }
    eapply Forall_impl; [|exact WY]; intros z (Fz & Hz); split; [exact Fz|lra]. }
  destruct CH as (w & Hw).
  destruct (guess_surf64 s Q w (Z.of_nat nu) (Z.of_nat nv) Eu Ev ltac:(lia) ltac:(lia)) as (k & l & Hk & Hl & Ek & R1 & R2).
  { rewrite HQ; cbn; lra. }
  { exact WQ. }
  { intros i j Hi Hj; destruct (Hw i j Hi Hj) as (A1 & A2 & A3); split; [exact A1|]; split; [|exact A3].
    destruct (near_values _ _ _ A2) as (_ & L & _); rewrite L, HQ; reflexivity. }
  exists k, l; split; [exact Hk|]; split; [exact Hl|]; split; [exact Ek|]; fold u v; cbv zeta.
  set (D := fun i j => distR (values Q) (X i j)).
  assert (DQ : forall i j, (0 <= i < 2 * Z.of_nat nu)%Z -> (0 <= j < 2 * Z.of_nat nv)%Z -> Rabs (distR (values Q) (values (w i j)) - D i j) <= 3 * e).
  { intros i j Hi Hj; destruct (Hw i j Hi Hj) as (_ & A2 & _); destruct (near_values _ _ _ A2) as (N & _ & _).
    pose proof (dist_lip e (values Q) (values (w i j)) (X i j) (proj1 He)) as L.
    unfold values in L at 1; rewrite map_length, HQ in L; specialize (L eq_refl N); unfold X in L at 2; cbn [length surface_xyz map] in L.
    replace (INR 3) with 3 in L by (cbn; ring); exact L. }
  replace (33 * INR (p + q + 1) * (ulp64 * M + tiny64)) with (3 * e) by (unfold e; ring).
  rewrite HQ in R1; replace (3 * ((2 * INR 3 + 6) * ulp64)) with (36 * ulp64) in R1 by (cbn; ring).
  pose proof ulp64_pos as Hu0; pose proof ulp64_small.
  split.
  - intros (i0 & j0 & Hi0 & Hj0 & H0) i j Hi Hj.
    assert (Y : distR (values Q) (values (w k l)) <= (1 + 36 * ulp64) * distR (values Q) (values (w i j)) + / 2 ^ 518).
    { apply R1; [|exact Hi|exact Hj]; exists i0, j0; split; [exact Hi0|]; split; [exact Hj0|].
      pose proof (Rabs_le_inv _ _ (DQ i0 j0 Hi0 Hj0)); fold (X i0 j0) in H0; fold (D i0 j0) in H0; lra. }
    pose proof (Rabs_le_inv _ _ (DQ i j Hi Hj)); pose proof (Rabs_le_inv _ _ (DQ k l Hk Hl)).
    fold (X k l) (X i j); fold (D k l) (D i j).
    assert ((1 + 36 * ulp64) * distR (values Q) (values (w i j)) <= (1 + 36 * ulp64) * (D i j + 3 * e)) by (apply Rmult_le_compat_l; lra).
    assert (36 * ulp64 * (3 * e) <= 1 * (3 * e)) by (apply Rmult_le_compat_r; lra).
    lra.
  - intros H0; apply R2; intros i j Hi Hj; pose proof (Rabs_le_inv _ _ (DQ i j Hi Hj)); specialize (H0 i j Hi Hj); fold (X i j) in H0; fold (D i j) in H0; lra.
Qed.
