(** The ruled initial surface on binary64 numbers. *)
From Coq Require Import Reals Lra Lia ZArith List Floats.
From Flocq Require Import Core.Core.
From Verif Require Import Py PyLemmas Num ModelKnots ModelCurve ModelSurface ModelParam ModelData Spec SpecB64 MathCox MathKnots ProofNum ProofKnots ProofBasis
  ProofInit ProofInsert2 ProofFit ProofIO3 ProofData3 ProofB64 ProofB64Basis ProofB64Knots ProofB64Curve ProofB64Surface ProofB64Uniform ProofB64Insert ProofB64Insert2 ProofB64Init ProofB64Init2.
Import ListNotations.
Open Scope R_scope.

(** The net over any numbers. *)
Section Net.
Context {K : Num}.
Variable z : K.
Definition ruled_rowK (T B : list (list K)) (nv : nat) (ij : Z * Z) : list K :=
  map (fun c => let b := nth c (nth (Z.to_nat (fst ij)) B []) z in let t := nth c (nth (Z.to_nat (fst ij)) T []) z in
    (b + ofZ (snd ij) / ofZ (Z.of_nat nv - 1) * (t - b))%num) [0%nat; 1%nat; 2%nat].
Definition ruledK (T B : list (list K)) (nu nv : nat) : list (list K) :=
  map (ruled_rowK T B nv) (list_prod (zrange 0 (Z.of_nat nu)) (zrange 0 (Z.of_nat nv))).
Lemma threeK (r : list K) : length r = 3%nat -> exists x y w, r = [x; y; w].
Proof. destruct r as [|x [|y [|w [|]]]]; try discriminate; intros _; exists x, y, w; reflexivity. Qed.

Lemma ruled_net_any T B nu nv : Forall (fun r => length r = 3%nat) T -> Forall (fun r => length r = 3%nat) B ->
  length T = nu -> length B = nu -> (2 <= nv)%nat ->
  ruled_net (K := K) T B (Z.of_nat nu) (Z.of_nat nv) = Ok (ruledK T B nu nv).
Proof.
  intros FT FB LT LB Hv; unfold ruled_net.
  unfold np_full2; destruct (Z.ltb_spec (Z.of_nat nu * Z.of_nat nv) 0); [lia|]; cbn [orb Z.ltb Z.compare bind].
  unfold for_range.
  set (us := zrange 0 (Z.of_nat nu)); set (vs := zrange 0 (Z.of_nat nv)).
  set (row := fun ij : Z * Z => Ok (ruled_rowK T B nv ij) : res (list K)).
  rewrite (for_list_ext_in us _ (fun u => for_list vs (fun v => fill row (u, v)))).
  2:{ intros u st Iu; apply in_zrange in Iu.
      rewrite !(aget_nth _ _ []) by (unfold zlen; lia); cbn [bind].
      assert (HT : length (nth (Z.to_nat u) T []) = 3%nat) by (apply (proj1 (Forall_forall _ _) FT); apply nth_In; lia).
      assert (HB : length (nth (Z.to_nat u) B []) = 3%nat) by (apply (proj1 (Forall_forall _ _) FB); apply nth_In; lia).
      unfold np_sub, np_bin at 1, zlen at 1 2; rewrite HT, HB, Z.eqb_refl; cbn [bind]; apply for_list_ext_in; intros v st' Iv; apply in_zrange in Iv.
      destruct (Z.eqb_spec (Z.of_nat nv - 1) 0); [lia|].
      unfold fill, row, ruled_rowK; cbn [fst snd bind].
      destruct (threeK _ HT) as (a & b & c & ET), (threeK _ HB) as (d & e & f & EB); rewrite ET, EB; cbn [map nth].
      unfold np_bin; cbn [combine map fst snd zlen length Z.of_nat Z.eqb Pos.of_succ_nat Pos.succ Pos.eqb vmap2]; reflexivity. }
  rewrite for_list_prod.
  assert (EL : repeat (repeat (0 : K)%num (Z.to_nat 3)) (Z.to_nat (Z.of_nat nu * Z.of_nat nv)) =
    [] ++ repeat (repeat (0 : K)%num (Z.to_nat 3)) (length (list_prod us vs))).
  { cbn [app]; f_equal; rewrite prod_length; unfold us, vs; rewrite !length_zrange; nia. }
  rewrite EL.
  assert (EX : forall l s, for_list l (fun uv => fill row (fst uv, snd uv)) s = for_list l (fill row) s)
    by (intros l s; apply for_list_ext_in; intros [x y] s' _; reflexivity).
  rewrite EX.
  pose proof (fill_all row (list_prod us vs) [] 3 (repeat (0 : K)%num (Z.to_nat 3)) eq_refl) as F.
  change (zlen ([] : list (list K))) with 0%Z in F; rewrite F; clear F.
  assert (EM : mapM (fun uv => let* q := row uv in broadcast 3 q) (list_prod us vs) = Ok (ruledK T B nu nv)).
  { clear EL; unfold ruledK; fold us vs; induction (list_prod us vs) as [|x l IH]; [reflexivity|].
    cbn [mapM map]; rewrite IH; reflexivity. }
  rewrite EM; reflexivity.
Qed.
Lemma ruledK_nth T B nu nv i j : (i < nu)%nat -> (j < nv)%nat ->
  nth (i * nv + j) (ruledK T B nu nv) [] = ruled_rowK T B nv (Z.of_nat i, Z.of_nat j).
Proof.
  intros Hi Hj; unfold ruledK.
  assert (L : length (list_prod (zrange 0 (Z.of_nat nu)) (zrange 0 (Z.of_nat nv))) = (nu * nv)%nat)
    by (rewrite prod_length, !length_zrange; f_equal; lia).
  rewrite (nth_indep _ [] (ruled_rowK T B nv (0, 0)%Z)) by (rewrite map_length, L; nia).
  rewrite (map_nth (ruled_rowK T B nv)).
  pose proof (nth_list_prod (zrange 0 (Z.of_nat nu)) (zrange 0 (Z.of_nat nv)) i j 0%Z 0%Z) as E.
  rewrite !length_zrange in E; replace (Z.to_nat (Z.of_nat nv - 0)) with nv in E by lia.
  rewrite E by lia; rewrite !nth_zrange by lia; reflexivity.
Qed.
Lemma ruledK_length T B nu nv : length (ruledK T B nu nv) = (nu * nv)%nat.
Proof. unfold ruledK; rewrite map_length, prod_length, !length_zrange; f_equal; lia. Qed.

Lemma init_surface_any (t b : bproblem K) ct cb p q nu nv T B U :
  bp_degree t = Some (Z.of_nat p) -> bp_degree b = Some (Z.of_nat p) ->
  bp_num t = Some (Z.of_nat nu) -> bp_num b = Some (Z.of_nat nu) ->
  bp_fit t = Some ct -> bp_fit b = Some cb -> c_ctrl ct = Some T -> c_ctrl cb = Some B -> c_kv cb = Some U ->
  Forall (fun r => length r = 3%nat) T -> Forall (fun r => length r = 3%nat) B -> length T = nu -> length B = nu ->
  (1 <= p)%nat -> (p + 1 <= nu)%nat -> (1 <= q)%nat -> (q + 1 <= nv)%nat ->
  init_surface working_surface (Some t) (Some b) (Some (Z.of_nat q)) (Some (Z.of_nat nv))
  = let* V := generate_uniform (Z.of_nat q) (Z.of_nat nv) in
    Ok (mkSurf (Z.of_nat p) (Z.of_nat q) (Z.of_nat nu) (Z.of_nat nv) (ruledK T B nu nv) U V).
Proof.
  intros Dt Db Nt Nb Ft Fb Ct Cb Kb FT FB LT LB Hp Hu Hq Hv.
  unfold init_surface; rewrite Dt, Db, Nt, Nb; unfold opt_eqb; rewrite !Z.eqb_refl; cbn [negb].
  unfold working_surface, surf_fresh; cbn [bind].
  unfold set_degree_u; destruct (Z.ltb_spec (Z.of_nat p) 1); [lia|]; cbn [bind o_degree_u o_degree_v o_num_u o_num_v o_nc_u o_nc_v o_ctrl o_ku o_kv o_dim].
  unfold set_degree_v; destruct (Z.ltb_spec (Z.of_nat q) 1); [lia|]; cbn [bind o_degree_u o_degree_v o_num_u o_num_v o_nc_u o_nc_v o_ctrl o_ku o_kv o_dim].
  unfold set_num_u; cbn [o_degree_u]; destruct (Z.ltb_spec (Z.of_nat nu) (Z.of_nat p + 1)); [lia|]; cbn [bind o_degree_u o_degree_v o_num_u o_num_v o_nc_u o_nc_v o_ctrl o_ku o_kv o_dim].
  unfold set_num_v; cbn [o_degree_v]; destruct (Z.ltb_spec (Z.of_nat nv) (Z.of_nat q + 1)); [lia|]; cbn [bind].
  unfold fit_ctrl; rewrite Ft, Fb, Ct, Cb; cbn [bind].
  rewrite ruled_net_any by (assumption || lia); cbn [bind]; rewrite Kb; reflexivity.
Qed.
End Net.

Lemma blend_row b t i m M : finite64 b -> finite64 t -> Rabs (value b) <= M -> Rabs (value t) <= M -> M <= 2 ^ 1000 -> (0 <= i <= m)%Z -> (1 <= m <= 2 ^ 49)%Z ->
  let x := (b + (ofZ i : Binary64) / (ofZ m : Binary64) * (t - b))%float in
  finite64 x /\ (i = 0%Z -> value x = value b) /\ Rabs (value x - (value b + IZR i / IZR m * (value t - value b))) <= 8 * ulp64 * M + 2 * tiny64.
Proof.
  intros Fb Ft Hb Ht HM Hi Hm x; destruct (ratio_first b t i m M Fb Ft Hb Ht HM Hi Hm) as (F & Z0 & B & _).
  pose proof eta_small as ES; pose proof ulp64_small as US.
  destruct (lerp_sum b t i m M Fb Hb Ht HM Hi Hm _ eta64 F ltac:(lra) B Z0) as (_ & S); rewrite tiny_eta; exact S.
Qed.

Section Ruled.
Variables (T B : list (list PrimFloat.float)) (nu nv : nat) (M : R).
Hypothesis HT : Forall (fun row => length row = 3%nat /\ within (- M) M row) T.
Hypothesis HB : Forall (fun row => length row = 3%nat /\ within (- M) M row) B.
Hypothesis LT : length T = nu.
Hypothesis LB : length B = nu.
Hypothesis Hv : (2 <= nv)%nat.
Hypothesis Hv49 : (Z.of_nat nv <= 2 ^ 49)%Z.
Hypothesis HM : 0 <= M <= 2 ^ 1000.
Notation net := (ruledK (K := Binary64) 0%float T B nu nv).
Notation err := (8 * ulp64 * M + 2 * tiny64).

Lemma rows3 (X : list (list PrimFloat.float)) : Forall (fun row => length row = 3%nat /\ within (- M) M row) X -> Forall (fun r => length r = 3%nat) X.
Proof. intros H; eapply Forall_impl; [|exact H]; intros r (L & _); exact L. Qed.
Lemma row_at (X : list (list PrimFloat.float)) i : Forall (fun row => length row = 3%nat /\ within (- M) M row) X -> (i < length X)%nat ->
  length (nth i X []) = 3%nat /\ within (- M) M (nth i X []).
Proof. intros H Hi; rewrite Forall_forall in H; apply H, nth_In; exact Hi. Qed.

Lemma ruled_entry i j : (i < nu)%nat -> (j < nv)%nat ->
  near64 err (nth (i * nv + j) net []) (lerp (values (nth i B [])) (values (nth i T [])) (INR j / INR (nv - 1))) /\
  (j = 0%nat -> values (nth (i * nv + j) net []) = values (nth i B [])).
Proof.
  intros Hi Hj; pose proof (ruledK_nth (K := Binary64) 0%float T B nu nv i j Hi Hj) as E.
  change (nth (i * nv + j) net (@nil PrimFloat.float)) with (nth (i * nv + j) net (@nil Binary64)); rewrite E.
  destruct (row_at T i HT ltac:(lia)) as (L1 & W1); destruct (row_at B i HB ltac:(lia)) as (L2 & W2).
  assert (G : forall c, (c < 3)%nat -> let b := nth c (nth i B []) 0%float in let t := nth c (nth i T []) 0%float in
    let x := (b + (ofZ (Z.of_nat j) : Binary64) / (ofZ (Z.of_nat nv - 1) : Binary64) * (t - b))%float in
    (finite64 x /\ Rabs (value x - (nth c (values (nth i B [])) 0 + INR j / INR (nv - 1) * (nth c (values (nth i T [])) 0 - nth c (values (nth i B [])) 0))) <= err) /\
    (j = 0%nat -> value x = value b)).
  { intros c Hc b t x; destruct (within_nth M _ c W1 ltac:(lia)) as (Ft & Bt); destruct (within_nth M _ c W2 ltac:(lia)) as (Fb & Bb).
    destruct (blend_row b t (Z.of_nat j) (Z.of_nat nv - 1) M Fb Ft Bb Bt ltac:(lra) ltac:(lia) ltac:(lia)) as (F & Z0 & A).
    split; [split; [exact F|]|intros ->; apply Z0; reflexivity].
    rewrite !nth_values, !INR_IZR_INZ; replace (Z.of_nat (nv - 1)) with (Z.of_nat nv - 1)%Z by lia; exact A. }
  unfold ruled_rowK; cbn [map fst snd]; rewrite Nat2Z.id; split.
  - unfold near64, lerp; cbn [map]; apply Forall2_cons; [apply (G 0%nat); lia|]; apply Forall2_cons; [apply (G 1%nat); lia|]; apply Forall2_cons; [apply (G 2%nat); lia|]; constructor.
  - intros J0; pose proof (proj2 (G 0%nat ltac:(lia)) J0) as A0; pose proof (proj2 (G 1%nat ltac:(lia)) J0) as A1; pose proof (proj2 (G 2%nat ltac:(lia)) J0) as A2.
    cbn [values map]; cbv zeta in A0, A1, A2.
    transitivity [value (nth 0 (nth i B []) 0%float); value (nth 1 (nth i B []) 0%float); value (nth 2 (nth i B []) 0%float)].
    + f_equal; [exact A0|]; f_equal; [exact A1|]; f_equal; exact A2.
    + destruct (nth i B []) as [|b0 [|b1 [|b2 [|]]]]; try discriminate L2; reflexivity.
Qed.

Lemma ruled_within : Forall (fun row => length row = 3%nat /\ within (- (M + err)) (M + err) row) net.
Proof.
  apply Forall_forall; intros row HR; destruct (In_nth _ _ [] HR) as (k & Hk & <-).
  assert (Hk' : (k < nu * nv)%nat) by (rewrite <- (ruledK_length (K := Binary64) 0%float T B nu nv); exact Hk); clear Hk; rename Hk' into Hk; assert (D : k = ((k / nv) * nv + k mod nv)%nat) by (pose proof (Nat.div_mod k nv); lia).
  assert (D1 : (k / nv < nu)%nat) by (apply Nat.div_lt_upper_bound; lia); assert (D2 : (k mod nv < nv)%nat) by (apply Nat.mod_upper_bound; lia).
  rewrite D; destruct (ruled_entry _ _ D1 D2) as (N & _).
  change (nth (k / nv * nv + k mod nv) net (@nil Binary64)) with (nth (k / nv * nv + k mod nv) net (@nil PrimFloat.float)).
  split; [exact (Forall2_len _ _ _ N)|]; apply near64_within with (1 := N).
  destruct (row_at T (k / nv) HT ltac:(lia)) as (L1 & W1); destruct (row_at B (k / nv) HB ltac:(lia)) as (L2 & W2).
  assert (F : 0 <= INR (k mod nv) / INR (nv - 1) <= 1) by (rewrite !INR_IZR_INZ; apply frac_range; lia).
  unfold lerp; cbn [map]; repeat (apply Forall_cons; [apply lerp_bound; try assumption; lia|]); apply Forall_nil.
Qed.

Lemma ruled_close U V p q u v : clamped (Z.of_nat p) (Z.of_nat nu) U -> kn U (Z.of_nat p) <= u <= kn U (Z.of_nat nu) ->
  clamped (Z.of_nat q) (Z.of_nat nv) V -> kn V (Z.of_nat q) <= v <= kn V (Z.of_nat nv) ->
  Forall2 (fun a b => Rabs (a - b) <= err) (surface_xyz U V p q nu nv (map values net) u v)
    (lerp (curve_xyz U p (map values B) u) (curve_xyz U p (map values T) u) (ramp V q nv v)).
Proof.
  intros HC Hu HV Hr; rewrite <- (ruled_xyz U V p q nu nv) by (try assumption; rewrite ?map_length; assumption).
  assert (S : forall c, (c < 3)%nat -> Rabs (surface_sum U V p q nu nv (coords c (map values net)) u v -
     surface_sum U V p q nu nv (coords c (ruled (map values T) (map values B) nu nv)) u v) <= err).
  { intros c Hc; apply surface_sum_close; try assumption; intros k Hk; rewrite !nth_coords.
    assert (D : k = ((k / nv) * nv + k mod nv)%nat) by (pose proof (Nat.div_mod k nv); lia).
    assert (D1 : (k / nv < nu)%nat) by (apply Nat.div_lt_upper_bound; lia); assert (D2 : (k mod nv < nv)%nat) by (apply Nat.mod_upper_bound; lia).
    rewrite D, ruled_nth by assumption; destruct (ruled_entry _ _ D1 D2) as (N & _).
    pose proof (near64_nth _ _ _ c N Hc) as A; change (@nil R) with (values []); rewrite !(map_nth values).
    replace (IZR (Z.of_nat nv - 1)) with (INR (nv - 1)) by (rewrite INR_IZR_INZ; f_equal; lia); exact A. }
  unfold surface_xyz; cbn [map]; apply Forall2_cons; [apply S; lia|]; apply Forall2_cons; [apply S; lia|]; apply Forall2_cons; [apply S; lia|]; constructor.
Qed.
End Ruled.

Lemma ruled_surface_b64 (t b : bproblem Binary64) ct cb p q nu nv (T B : list (list PrimFloat.float)) (U : list PrimFloat.float) M :
  bp_degree t = Some (Z.of_nat p) -> bp_degree b = Some (Z.of_nat p) ->
  bp_num t = Some (Z.of_nat nu) -> bp_num b = Some (Z.of_nat nu) ->
  bp_fit t = Some ct -> bp_fit b = Some cb -> c_ctrl ct = Some T -> c_ctrl cb = Some B -> c_kv cb = Some U ->
  Forall (fun row => length row = 3%nat /\ within (- M) M row) T -> Forall (fun row => length row = 3%nat /\ within (- M) M row) B ->
  length T = nu -> length B = nu -> 0 <= M <= 2 ^ 889 ->
  (1 <= p)%nat -> INR p <= 2 ^ 40 -> (1 <= q)%nat -> INR q <= 2 ^ 40 -> (q + 1 <= nv)%nat -> (Z.of_nat nv - Z.of_nat q <= 490000)%Z ->
  within 0 1 U -> clamped (Z.of_nat p) (Z.of_nat nu) (values U) ->
  kn (values U) (Z.of_nat p) = 0 -> kn (values U) (Z.of_nat nu) = 1 ->
  (forall i, (Z.of_nat p <= i < Z.of_nat nu)%Z -> / 2 ^ 1000 <= kn (values U) (i + 1) - kn (values U) i) ->
  exists (V : list PrimFloat.float) (P : list (list PrimFloat.float)) (phi : R -> R), let S := mkSurf (K := Binary64) (Z.of_nat p) (Z.of_nat q) (Z.of_nat nu) (Z.of_nat nv) P U V in
    init_surface working_surface (Some t) (Some b) (Some (Z.of_nat q)) (Some (Z.of_nat nv)) = Ok S /\
    generate_uniform (Z.of_nat q) (Z.of_nat nv) = Ok (V : list Binary64) /\ length P = (nu * nv)%nat /\
    (forall i j, (i < nu)%nat -> (j < nv)%nat ->
       near64 (8 * ulp64 * M + 2 * tiny64) (nth (i * nv + j) P []) (lerp (values (nth i B [])) (values (nth i T [])) (INR j / INR (nv - 1)))) /\
    (forall i, (i < nu)%nat -> values (nth (i * nv) P []) = values (nth i B [])) /\
    phi 0 = 0 /\ phi 1 = 1 /\ (forall v, 0 <= v <= 1 -> 0 <= phi v <= 1) /\
    forall x y : Binary64, finite64 x -> 0 <= value x <= 1 -> (1 - value x <= 102 / 100000000 -> kn (values U) (Z.of_nat nu - 1) <= value x) ->
      finite64 y -> 0 <= value y <= 1 -> exists z, surf_point S x y = Ok z /\
      near64 (15 * INR (p + q + 1) * (ulp64 * M + tiny64)) z
        (lerp (curve_xyz (values U) p (map values B) (value x)) (curve_xyz (values U) p (map values T) (value x)) (phi (value y))).
Proof.
  intros Dt Db Nt Nb Ft Fb Ct Cb Kb HT HB LT LB HM Hp1 Hp Hq1 Hq Hv Hb HU CU U0 U1 GU.
  assert (P1 : 1 <= 2 ^ 889) by (apply pow_R1_Rle; lra).
  assert (P2 : 2 ^ 889 <= 2 ^ 1000) by (apply Rle_pow; [lra|lia]).
  assert (P9 : 2 * 2 ^ 889 = 2 ^ 890) by (change (2 ^ 890) with (2 ^ (1 + 889)); rewrite pow_add, pow_1; reflexivity).
  assert (Hu : (p + 1 <= nu)%nat) by (destruct (clamped_facts _ _ _ CU) as (_ & Hn & _); lia).
  destruct (uniform_good (Z.of_nat q) (Z.of_nat nv) ltac:(lia) ltac:(lia) Hb) as (V & EV & WV & CV & V0 & V1 & GV & TV).
  assert (G0 : 0 < / 2 ^ 1000) by (apply Rinv_0_lt_compat, pow_lt; lra).
  assert (HTV : tight (Z.of_nat q) (Z.of_nat nv) (values V)).
  { split; [exact CV|]; split; [pose proof (GV (Z.of_nat q) ltac:(lia)); lra|]; pose proof (GV (Z.of_nat nv - 1)%Z ltac:(lia)) as G1.
    replace (Z.of_nat nv - 1 + 1)%Z with (Z.of_nat nv) in G1 by lia; lra. }
  assert (Hq40 : (Z.of_nat q <= 2 ^ 40)%Z).
  { apply le_IZR; rewrite <- INR_IZR_INZ; replace (IZR (2 ^ 40)) with (2 ^ 40) by (cbn; lra); exact Hq. }
  set (e := 8 * ulp64 * M + 2 * tiny64).
  exists V, (ruledK (K := Binary64) 0%float T B nu nv), (ramp (values V) q nv); intros S.
  split; [|split; [exact EV|split; [exact (ruledK_length (K := Binary64) 0%float T B nu nv)|split; [|split; [|split; [|split; [|split]]]]]]].
  - etransitivity; [apply (init_surface_any (K := Binary64) 0%float t b ct cb p q nu nv T B U); try assumption; apply rows3 with M; assumption|].
    rewrite EV; reflexivity.
  - intros i j Hi Hj; apply ruled_entry; try assumption; try lia; lra.
  - intros i Hi; pose proof (ruled_entry T B nu nv M HT HB LT LB ltac:(lia) ltac:(lia) ltac:(lra) i 0 Hi ltac:(lia)) as (_ & E).
    rewrite Nat.add_0_r in E; apply E; reflexivity.
  - apply ramp_start; try assumption; lia.
  - apply ramp_end; try assumption; lia.
  - intros v Hvr; apply ramp_range; [exact CV|lia|lra].
  - intros x y Fx Hx Tx Fy Hy.
    pose proof ulp64_small as Hul; pose proof tiny_small as Ht.
    assert (uM : 0 <= ulp64 * M <= / 1000 * M) by (split; [apply Rmult_le_pos; lra|apply Rmult_le_compat_r; lra]).
    assert (Be : 0 <= M + e <= 2 ^ 890) by (unfold e; lra).
    pose proof (ruled_within T B nu nv M HT HB LT LB ltac:(lia) ltac:(lia) ltac:(lra)) as HW.
    destruct (surf_point_b64 p q nu nv U V (ruledK (K := Binary64) 0%float T B nu nv) x y (M + e)) as (z & Ez & Nz); try assumption;
      [exact (ruledK_length (K := Binary64) 0%float T B nu nv)|apply TV; lra|].
    exists z; split; [exact Ez|].
    pose proof (near64_trans _ _ _ _ _ Nz (ruled_close T B nu nv M HT HB LT LB ltac:(lia) ltac:(lia) ltac:(lra) (values U) (values V) p q (value x) (value y) CU ltac:(lra) CV ltac:(lra))) as R.
    apply near64_le with (1 := R); fold e.
    assert (I2 : 3 <= INR (p + q + 1)) by (replace 3 with (INR 3) by (cbn; lra); apply le_INR; lia).
    assert (ue : ulp64 * e <= / 100 * (ulp64 * M) + / 4 * tiny64).
    { unfold e; assert (ulp64 * (ulp64 * M) <= / 1000 * (ulp64 * M)) by (apply Rmult_le_compat_r; lra).
      assert (ulp64 * tiny64 <= / 1000 * tiny64) by (apply Rmult_le_compat_r; lra); lra. }
    assert (J1 : 3 * (ulp64 * M) <= INR (p + q + 1) * (ulp64 * M)) by (apply Rmult_le_compat_r; lra).
    assert (J2 : 3 * tiny64 <= INR (p + q + 1) * tiny64) by (apply Rmult_le_compat_r; lra).
    assert (J3 : INR (p + q + 1) * (ulp64 * e) <= INR (p + q + 1) * (/ 100 * (ulp64 * M) + / 4 * tiny64)) by (apply Rmult_le_compat_l; lra).
    unfold e at 2; lra.
Qed.
