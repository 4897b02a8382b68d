(** The interior problem: ruled initial surfaces, and what any sequence of calls leaves. *)
From Coq Require Import String Reals Lra.
From Verif Require Import Py PyLemmas Num ModelKnots ModelBasis ModelCurve ModelSurface ModelInit ModelParam ModelFit ModelIO ModelData Spec SpecFit SpecParam SpecData MathCox MathKnots ProofNum ProofSpan ProofSpan2 ProofKnots ProofOneBasis ProofCurve ProofCurve2 ProofSurface ProofSurface2 ProofInit ProofParam ProofFit ProofFit2 ProofFit3 ProofFit4 ProofFit5 ProofFit6 ProofFit8 ProofIO3 ProofData.
Open Scope Z_scope.

(** ** The ruled net *)
Lemma nth_list_prod {X Y} (us : list X) (vs : list Y) i j dx dy : (i < length us)%nat -> (j < length vs)%nat ->
  nth (i * length vs + j) (list_prod us vs) (dx, dy) = (nth i us dx, nth j vs dy).
Proof.
  revert i; induction us as [|u us IH]; intros i Hi Hj; cbn [length] in Hi; [lia|]; cbn [list_prod].
  destruct i as [|i].
  - rewrite app_nth1 by (rewrite map_length; lia); cbn [Nat.mul Nat.add nth].
    rewrite (nth_indep _ (dx, dy) (u, dy)) by (rewrite map_length; lia); apply (map_nth (fun y => (u, y))).
  - rewrite app_nth2 by (rewrite map_length; cbn; lia); rewrite map_length.
    replace (S i * length vs + j - length vs)%nat with (i * length vs + j)%nat by (cbn; lia); cbn [nth]; apply IH; lia.
Qed.
Lemma length_zrange a b : length (zrange a b) = Z.to_nat (b - a).
Proof. unfold zrange; rewrite map_length, seq_length; reflexivity. Qed.
Lemma nth_zrange a b i d : (i < Z.to_nat (b - a))%nat -> nth i (zrange a b) d = a + Z.of_nat i.
Proof.
  intros H; unfold zrange; rewrite (nth_indep _ d (a + Z.of_nat 0)) by (rewrite map_length, seq_length; lia).
  rewrite (map_nth (fun k => a + Z.of_nat k)), seq_nth by lia; reflexivity.
Qed.
Lemma in_zrange a b i : In i (zrange a b) -> a <= i < b.
Proof. unfold zrange; rewrite in_map_iff; intros (k & <- & I); apply in_seq in I; lia. Qed.

Definition ruled_row (T B : list (list R)) (nv : nat) (ij : Z * Z) : list R :=
  lerp (nth (Z.to_nat (fst ij)) B []) (nth (Z.to_nat (fst ij)) T []) (IZR (snd ij) / IZR (Z.of_nat nv - 1)).
Definition ruled (T B : list (list R)) (nu nv : nat) : list (list R) :=
  map (ruled_row T B nv) (list_prod (zrange 0 (Z.of_nat nu)) (zrange 0 (Z.of_nat nv))).

Lemma three (r : list R) : length r = 3%nat -> exists x y z, r = [x; y; z].
Proof. destruct r as [|x [|y [|z [|]]]]; try discriminate; intros _; exists x, y, z; reflexivity. Qed.
Lemma ofZ_exact k : (ofZ k : Exact) = Fin (IZR k). Proof. reflexivity. Qed.

Lemma aget_fin2 (P : list (list R)) i : 0 <= i < len P -> aget (fin2 P) i = Ok (fin (nth (Z.to_nat i) P []) : list Exact).
Proof.
  intros Hi; unfold aget; rewrite zlen_fin2; destruct (Z.ltb_spec i 0); [lia|].
  destruct (Z.leb_spec 0 i), (Z.ltb_spec i (len P)); try lia; cbn [andb].
  unfold fin2; rewrite nth_error_map, (nth_error_nth' P []) by (unfold len in Hi; lia); reflexivity.
Qed.

Lemma ruled_net_exact T B nu nv : Forall (fun r => length r = 3%nat) T -> Forall (fun r => length r = 3%nat) B ->
  length T = nu -> length B = nu -> (2 <= nv)%nat ->
  ruled_net (fin2 T) (fin2 B) (Z.of_nat nu) (Z.of_nat nv) = Ok (fin2 (ruled T B nu nv) : list (list Exact)).
Proof.
  intros FT FB LT LB Hv; unfold ruled_net.
  unfold np_full2; destruct (Z.ltb_spec (Z.of_nat nu * Z.of_nat nv) 0); [lia|]; cbn [orb Z.ltb Z.compare bind].
  unfold for_range.
  set (us := zrange 0 (Z.of_nat nu)); set (vs := zrange 0 (Z.of_nat nv)).
  set (row := fun ij : Z * Z => Ok (fin (ruled_row T B nv ij)) : res (list Exact)).
  rewrite (for_list_ext_in us _ (fun u => for_list vs (fun v => fill row (u, v)))).
  2:{ intros u st Iu; apply in_zrange in Iu.
      rewrite !aget_fin2 by (unfold len; lia); cbn [bind].
      assert (HT : length (nth (Z.to_nat u) T []) = 3%nat) by (apply (proj1 (Forall_forall _ _) FT); apply nth_In; lia).
      assert (HB : length (nth (Z.to_nat u) B []) = 3%nat) by (apply (proj1 (Forall_forall _ _) FB); apply nth_In; lia).
      rewrite E_np_sub by lia; cbn [bind]; apply for_list_ext_in; intros v st' Iv; apply in_zrange in Iv.
      destruct (Z.eqb_spec (Z.of_nat nv - 1) 0); [lia|].
      unfold fill, row, ruled_row; cbn [fst snd bind].
      destruct (three _ HT) as (a & b & c & ET), (three _ HB) as (d & e & f & EB); rewrite ET, EB; cbn [lerp map nth].
      unfold np_bin; cbn [subR combine map fst snd fin zlen length Z.of_nat Z.eqb Pos.of_succ_nat Pos.succ Pos.eqb vmap2].
      rewrite !ofZ_exact; rewrite E_div by (apply IZR_neq; lia); rewrite !E_mul, !E_add; reflexivity. }
  rewrite for_list_prod.
  assert (EL : repeat (repeat (0 : Exact)%num (Z.to_nat 3)) (Z.to_nat (Z.of_nat nu * Z.of_nat nv)) =
    [] ++ repeat (repeat (0 : Exact)%num (Z.to_nat 3)) (length (list_prod us vs))).
  { cbn [app]; f_equal; rewrite prod_length; unfold us, vs; rewrite !length_zrange; nia. }
  rewrite EL.
  assert (EX : forall l s, for_list l (fun uv => fill row (fst uv, snd uv)) s = for_list l (fill row) s)
    by (intros l s; apply for_list_ext_in; intros [x y] s' _; reflexivity).
  rewrite EX.
  pose proof (fill_all row (list_prod us vs) [] 3 (repeat (0 : Exact)%num (Z.to_nat 3)) eq_refl) as F.
  change (zlen ([] : list (list Exact))) with 0 in F; rewrite F; clear F.
  assert (EM : mapM (fun uv => let* q := row uv in broadcast 3 q) (list_prod us vs) = Ok (fin2 (ruled T B nu nv) : list (list Exact))).
  { clear EL; unfold ruled, fin2; fold us vs; rewrite map_map; induction (list_prod us vs) as [|x l IH]; [reflexivity|].
    cbn [mapM map]; rewrite IH; reflexivity. }
  rewrite EM; reflexivity.
Qed.
Lemma ruled_nth T B nu nv i j : (i < nu)%nat -> (j < nv)%nat ->
  nth (i * nv + j) (ruled T B nu nv) [] = lerp (nth i B []) (nth i T []) (INR j / IZR (Z.of_nat nv - 1)).
Proof.
  intros Hi Hj; unfold ruled.
  assert (L : length (list_prod (zrange 0 (Z.of_nat nu)) (zrange 0 (Z.of_nat nv))) = (nu * nv)%nat)
    by (rewrite prod_length, !length_zrange; f_equal; lia).
  rewrite (nth_indep _ [] (ruled_row T B nv (0, 0))) by (rewrite map_length, L; nia).
  rewrite (map_nth (ruled_row T B nv)).
  pose proof (nth_list_prod (zrange 0 (Z.of_nat nu)) (zrange 0 (Z.of_nat nv)) i j 0 0) as E.
  rewrite !length_zrange in E; replace (Z.to_nat (Z.of_nat nv - 0)) with nv in E by lia.
  rewrite E by lia; rewrite !nth_zrange by lia; unfold ruled_row; cbn [fst snd].
  replace (Z.to_nat (0 + Z.of_nat i)) with i by lia; rewrite INR_IZR_INZ; reflexivity.
Qed.
Lemma ruled_length T B nu nv : length (ruled T B nu nv) = (nu * nv)%nat.
Proof. unfold ruled; rewrite map_length, prod_length, !length_zrange; f_equal; lia. Qed.
Lemma ruled_three T B nu nv : Forall (fun r => length r = 3%nat) (ruled T B nu nv).
Proof. unfold ruled; apply Forall_forall; intros x I; apply in_map_iff in I; destruct I as (y & <- & _); reflexivity. Qed.

Lemma lerp_0 a b : length a = 3%nat -> lerp a b 0 = a.
Proof. intros H; destruct (three _ H) as (x & y & z & ->); unfold lerp; cbn [map nth]; repeat f_equal; ring. Qed.
Lemma lerp_1 a b : length b = 3%nat -> lerp a b 1 = b.
Proof. intros H; destruct (three _ H) as (x & y & z & ->); unfold lerp; cbn [map nth]; repeat f_equal; ring. Qed.

Lemma ruled_col T B nu nv j (C : list (list R)) : length C = nu -> (j < nv)%nat ->
  (forall i, (i < nu)%nat -> lerp (nth i B []) (nth i T []) (INR j / IZR (Z.of_nat nv - 1)) = nth i C []) ->
  net_col nu nv (ruled T B nu nv) j = C.
Proof.
  intros L Hj H; unfold net_col; apply nth_ext with (d := []) (d' := []); [rewrite map_length, seq_length; lia|].
  intros i Hi; rewrite map_length, seq_length in Hi.
  rewrite (nth_indep _ [] (nth (0 * nv + j) (ruled T B nu nv) [])) by (rewrite map_length, seq_length; lia).
  rewrite (map_nth (fun i => nth (i * nv + j) (ruled T B nu nv) [])), seq_nth by lia; cbn [Nat.add].
  rewrite ruled_nth by lia; apply H; lia.
Qed.
Lemma ruled_bottom T B nu nv : Forall (fun r => length r = 3%nat) B -> length B = nu -> (1 <= nv)%nat ->
  net_col nu nv (ruled T B nu nv) 0 = B.
Proof.
  intros F L Hv; apply ruled_col; [assumption|lia|]; intros i Hi; replace (INR 0 / _)%R with 0%R by (cbn; unfold Rdiv; ring).
  apply lerp_0; apply (proj1 (Forall_forall _ _) F); apply nth_In; lia.
Qed.
Lemma ruled_top T B nu nv : Forall (fun r => length r = 3%nat) T -> length T = nu -> (2 <= nv)%nat ->
  net_col nu nv (ruled T B nu nv) (nv - 1) = T.
Proof.
  intros F L Hv; apply ruled_col; [assumption|lia|]; intros i Hi.
  replace (INR (nv - 1) / _)%R with 1%R.
  2:{ rewrite INR_IZR_INZ; replace (Z.of_nat (nv - 1)) with (Z.of_nat nv - 1) by lia; field; apply IZR_neq; lia. }
  apply lerp_1; apply (proj1 (Forall_forall _ _) F); apply nth_In; lia.
Qed.

(** ** Evaluation *)
Open Scope R_scope.
Definition ramp (V : list R) (q nv : nat) (v : R) : R :=
  zsum 0 nv (fun j => bspline V q j v * (IZR j / IZR (Z.of_nat nv - 1))).

Lemma ramp_range V q nv v : clamped (Z.of_nat q) (Z.of_nat nv) V -> (2 <= nv)%nat ->
  kn V (Z.of_nat q) <= v <= kn V (Z.of_nat nv) -> 0 <= ramp V q nv v <= 1.
Proof.
  intros HC Hv Hr; destruct (clamped_facts _ _ _ HC) as (_ & _ & _ & HU & _).
  assert (P : 0 < IZR (Z.of_nat nv - 1)) by (apply IZR_lt; lia).
  assert (W : forall j, (0 <= j < 0 + Z.of_nat nv)%Z -> 0 <= IZR j / IZR (Z.of_nat nv - 1) <= 1).
  { intros j Hj; split; [apply Rmult_le_pos; [apply IZR_le; lia|left; apply Rinv_0_lt_compat; lra]|].
    apply (Rmult_le_reg_r (IZR (Z.of_nat nv - 1))); [lra|]; unfold Rdiv; rewrite Rmult_assoc, Rinv_l, Rmult_1_r, Rmult_1_l by lra; apply IZR_le; lia. }
  unfold ramp; split.
  - apply zsum_nonneg; intros j Hj; apply Rmult_le_pos; [apply bspline_nonneg; assumption|apply W; assumption].
  - rewrite <- (bspline_unity q nv V v HC Hr); apply zsum_le; intros j Hj.
    pose proof (bspline_nonneg V q j v HU); pose proof (W j Hj); nra.
Qed.
Lemma ramp_start V q nv : tight (Z.of_nat q) (Z.of_nat nv) V -> (2 <= nv)%nat -> kn V (Z.of_nat q) = 0 -> ramp V q nv 0 = 0.
Proof.
  intros (HC & HF & _) Hv K0; destruct (clamped_facts _ _ _ HC) as (_ & Hn & HL & HU & Hl & _ & HE & H0 & _).
  unfold ramp; apply zsum_0; intros j Hj.
  assert (HI : in_span V (Z.of_nat q) (kn V 0)) by (left; rewrite H0; lra).
  assert (E0 : kn V 0 = 0) by congruence.
  assert (E : bspline V q j 0 = delta 0 j).
  { rewrite E0 in HI; rewrite (bspline_piece V _ _ HU HI).
    rewrite (piece_start V (Z.of_nat q) q _ HF); [|intros k Hk; apply Hl; lia|congruence].
    replace (Z.of_nat q - Z.of_nat q)%Z with 0%Z by lia; reflexivity. }
  rewrite E; destruct (Z.eq_dec j 0) as [->|N]; [unfold Rdiv; ring|rewrite delta_other by lia; ring].
Qed.
Lemma ramp_end V q nv : tight (Z.of_nat q) (Z.of_nat nv) V -> (2 <= nv)%nat -> kn V (Z.of_nat nv) = 1 -> ramp V q nv 1 = 1.
Proof.
  intros (HC & _ & HF) Hv K1; destruct (clamped_facts _ _ _ HC) as (_ & Hn & HL & HU & Hl & _ & HE & H0 & _).
  assert (E : forall j, bspline V q j 1 = delta (Z.of_nat nv - 1) j)
    by (intros j; rewrite <- K1, <- HE; eapply bspline_end; eassumption).
  unfold ramp; rewrite (zsum_single 0 nv (Z.of_nat nv - 1)).
  - rewrite E, delta_same; field; apply IZR_neq; lia.
  - lia.
  - intros j Hj N; rewrite E, delta_other by lia; ring.
Qed.

Lemma ruled_sum U V p q nu nv T B c u v : clamped (Z.of_nat q) (Z.of_nat nv) V -> (2 <= nv)%nat ->
  kn V (Z.of_nat q) <= v <= kn V (Z.of_nat nv) -> length T = nu -> length B = nu -> (c < 3)%nat ->
  surface_sum U V p q nu nv (coords c (ruled T B nu nv)) u v
  = curve_sum U p (coords c B) u + ramp V q nv v * (curve_sum U p (coords c T) u - curve_sum U p (coords c B) u).
Proof.
  intros HC Hv Hr LT LB Hc; unfold surface_sum, curve_sum; rewrite !coords_length, LT, LB.
  rewrite (zsum_ext _ _ _ (fun i => bspline U p i u * nth (Z.to_nat i) (coords c B) 0 +
    ramp V q nv v * (bspline U p i u * nth (Z.to_nat i) (coords c T) 0 - bspline U p i u * nth (Z.to_nat i) (coords c B) 0))).
  { rewrite zsum_plus, zsum_scal, zsum_minus; reflexivity. }
  intros i Hi.
  set (b := nth (Z.to_nat i) (coords c B) 0); set (t := nth (Z.to_nat i) (coords c T) 0).
  rewrite (zsum_ext _ _ _ (fun j => bspline V q j v * (bspline U p i u * b) + bspline V q j v * (IZR j / IZR (Z.of_nat nv - 1)) * (bspline U p i u * (t - b)))).
  - rewrite zsum_plus, !zsum_scal_r, bspline_unity by assumption; unfold ramp; ring.
  - intros j Hj; rewrite nth_coords.
    replace (Z.to_nat (i * Z.of_nat nv + j)) with (Z.to_nat i * nv + Z.to_nat j)%nat by nia.
    rewrite ruled_nth by lia; rewrite INR_IZR_INZ, Z2Nat.id by lia.
    unfold b, t; rewrite !nth_coords; destruct c as [|[|[|]]]; [| | |lia]; unfold lerp; cbn [map nth]; ring.
Qed.
Lemma ruled_xyz U V p q nu nv T B u v : clamped (Z.of_nat q) (Z.of_nat nv) V -> (2 <= nv)%nat ->
  kn V (Z.of_nat q) <= v <= kn V (Z.of_nat nv) -> length T = nu -> length B = nu ->
  surface_xyz U V p q nu nv (ruled T B nu nv) u v = lerp (curve_xyz U p B u) (curve_xyz U p T u) (ramp V q nv v).
Proof.
  intros HC Hv Hr LT LB; unfold surface_xyz, curve_xyz, lerp; cbn [map nth]; rewrite !ruled_sum by (assumption || lia); reflexivity.
Qed.

Lemma init_surface_ruled (t b : bproblem Exact) ct cb p q nu nv T B U :
  bp_degree t = Some (Z.of_nat p) -> bp_degree b = Some (Z.of_nat p) ->
  bp_num t = Some (Z.of_nat nu) -> bp_num b = Some (Z.of_nat nu) ->
  bp_fit t = Some ct -> bp_fit b = Some cb -> c_ctrl ct = Some (fin2 T) -> c_ctrl cb = Some (fin2 B) -> c_kv cb = Some (fin U) ->
  Forall (fun r => length r = 3%nat) T -> Forall (fun r => length r = 3%nat) B -> length T = nu -> length B = nu ->
  (1 <= p)%nat -> (p + 1 <= nu)%nat -> (1 <= q)%nat -> (q + 1 <= nv)%nat ->
  init_surface working_surface (Some t) (Some b) (Some (Z.of_nat q)) (Some (Z.of_nat nv))
  = Ok (surf_of p q nu nv U (uniform (Z.of_nat q) (Z.of_nat nv)) (ruled T B nu nv)).
Proof.
  intros Dt Db Nt Nb Ft Fb Ct Cb Kb FT FB LT LB Hp Hu Hq Hv.
  unfold init_surface; rewrite Dt, Db, Nt, Nb; unfold opt_eqb; rewrite !Z.eqb_refl; cbn [negb].
  unfold working_surface, surf_fresh; cbn [bind].
  unfold set_degree_u; destruct (Z.ltb_spec (Z.of_nat p) 1); [lia|]; cbn [bind o_degree_u o_degree_v o_num_u o_num_v o_nc_u o_nc_v o_ctrl o_ku o_kv o_dim].
  unfold set_degree_v; destruct (Z.ltb_spec (Z.of_nat q) 1); [lia|]; cbn [bind o_degree_u o_degree_v o_num_u o_num_v o_nc_u o_nc_v o_ctrl o_ku o_kv o_dim].
  unfold set_num_u; cbn [o_degree_u]; destruct (Z.ltb_spec (Z.of_nat nu) (Z.of_nat p + 1)); [lia|]; cbn [bind o_degree_u o_degree_v o_num_u o_num_v o_nc_u o_nc_v o_ctrl o_ku o_kv o_dim].
  unfold set_num_v; cbn [o_degree_v]; destruct (Z.ltb_spec (Z.of_nat nv) (Z.of_nat q + 1)); [lia|]; cbn [bind].
  unfold fit_ctrl; rewrite Ft, Fb, Ct, Cb; cbn [bind].
  rewrite ruled_net_exact by (assumption || lia); cbn [bind]; rewrite Kb.
  rewrite generate_uniform_eq by lia; reflexivity.
Qed.

Lemma uniform_tight' q nv : (1 <= q)%nat -> (q + 1 <= nv)%nat ->
  tight (Z.of_nat q) (Z.of_nat nv) (uniform (Z.of_nat q) (Z.of_nat nv)) /\
  kn (uniform (Z.of_nat q) (Z.of_nat nv)) (Z.of_nat q) = 0 /\ kn (uniform (Z.of_nat q) (Z.of_nat nv)) (Z.of_nat nv) = 1.
Proof.
  intros Hq Hv; pose proof (uniform_tight (Z.of_nat q) (Z.of_nat nv - Z.of_nat q) ltac:(lia) ltac:(lia)) as A.
  pose proof (uniform_ends (Z.of_nat q) (Z.of_nat nv - Z.of_nat q) ltac:(lia) ltac:(lia)) as B.
  replace (Z.of_nat q + (Z.of_nat nv - Z.of_nat q))%Z with (Z.of_nat nv) in A, B by lia; tauto.
Qed.

Lemma ruled_surface_point p q nu nv T B U : Forall (fun r => length r = 3%nat) T -> Forall (fun r => length r = 3%nat) B ->
  length T = nu -> length B = nu -> (1 <= p)%nat -> (1 <= q)%nat -> (q + 1 <= nv)%nat -> (Z.of_nat nv - Z.of_nat q <= 900000)%Z ->
  clamped (Z.of_nat p) (Z.of_nat nu) U -> strict (Z.of_nat p) (Z.of_nat nu) U ->
  kn U (Z.of_nat p) = 0 -> kn U (Z.of_nat nu) = 1 ->
  forall u v, 0 <= u <= 1 -> (close (1/1000000) (1/100000000) u 1 -> kn U (Z.of_nat nu - 1) <= u) -> 0 <= v <= 1 ->
  surf_point (surf_of p q nu nv U (uniform (Z.of_nat q) (Z.of_nat nv)) (ruled T B nu nv)) (Fin u : Exact) (Fin v : Exact)
  = Ok (fin (lerp (curve_xyz U p B u) (curve_xyz U p T u) (ramp (uniform (Z.of_nat q) (Z.of_nat nv)) q nv v))).
Proof.
  intros FT FB LT LB Hp Hq Hv Hb HC HS K0 K1 u v Hu Hcu Hvr.
  destruct (uniform_tight' q nv Hq Hv) as ((HCV & _) & V0 & V1).
  rewrite (surf_point_strict p q nu nv U _ (ruled T B nu nv) u v); try assumption; try apply ruled_three; try apply ruled_length.
  - rewrite ruled_xyz; try assumption; try lia; [reflexivity|lra].
  - apply uniform_strict; lia.
  - intros HE; apply uniform_end; try assumption; lia.
Qed.

Lemma ruled_surface_edges p q nu nv T B U d : Forall (fun r => length r = 3%nat) T -> Forall (fun r => length r = 3%nat) B ->
  length T = nu -> length B = nu -> (1 <= p)%nat -> (1 <= q)%nat -> (q + 1 <= nv)%nat ->
  tight (Z.of_nat p) (Z.of_nat nu) U -> kn U (Z.of_nat p) = 0 -> kn U (Z.of_nat nu) = 1 ->
  forall u s, 0 <= u <= 1 -> find_span (Z.of_nat nu) (Z.of_nat p) (Fin u : Exact) (fin U) = Ok s -> kn U s < kn U (s + 1) ->
  let S := surf_of p q nu nv U (uniform (Z.of_nat q) (Z.of_nat nv)) (ruled T B nu nv) in
  surf_point S (Fin u : Exact) (Fin 0 : Exact) = single_point (curve_of (Z.of_nat p) U B d) (Fin u : Exact) /\
  surf_point S (Fin u : Exact) (Fin 1 : Exact) = single_point (curve_of (Z.of_nat p) U T d) (Fin u : Exact).
Proof.
  intros FT FB LT LB Hp Hq Hv HT K0 K1 u s Hu HF HL.
  destruct (uniform_tight' q nv Hq Hv) as (HTV & V0 & V1).
  destruct (surface_edges p q nu nv U (uniform (Z.of_nat q) (Z.of_nat nv)) (ruled T B nu nv) d (ruled_three _ _ _ _) (ruled_length _ _ _ _) HT HTV K0 K1 V0 V1) as (E & _).
  rewrite ruled_bottom, ruled_top in E by (assumption || lia); exact (E u s Hu HF HL).
Qed.

Lemma init_surface_refused (K : Num) (t b : bproblem K) degree num :
  (bp_degree t <> bp_degree b \/ bp_num t <> bp_num b) -> forall new, init_surface new (Some t) (Some b) degree num = Err ValueError.
Proof.
  assert (EQ : forall a b, opt_eqb a b = true -> a = b).
  { intros [a|] [c|]; cbn; try discriminate; [rewrite Z.eqb_eq; congruence|reflexivity]. }
  intros H new; unfold init_surface.
  destruct (opt_eqb (bp_degree t) (bp_degree b)) eqn:E1; cbn [negb]; [|reflexivity].
  destruct (opt_eqb (bp_num t) (bp_num b)) eqn:E2; cbn [negb]; [|reflexivity].
  apply EQ in E1, E2; destruct H; contradiction.
Qed.
Lemma init_surface_repo (K : Num) top bottom degree num s : init_surface (K := K) repo_surface top bottom degree num <> Ok s.
Proof.
  unfold init_surface; destruct top as [t|], bottom as [b|]; try discriminate.
  destruct (opt_eqb (bp_degree t) (bp_degree b)); cbn [negb]; [|discriminate].
  destruct (opt_eqb (bp_num t) (bp_num b)); cbn [negb]; [|discriminate].
  unfold repo_surface; rewrite (surface_init_fails K CBSurface None None None (or_intror eq_refl)); discriminate.
Qed.

(** ** Any sequence of calls *)
Section History.
Context {K : Num}.
Definition bare (p : iproblem K) := ip_top p = None /\ ip_bottom p = None /\ ip_init p = None /\ ip_param p = None /\ ip_fit p = None.
Lemma bare_init new p : bare p -> ip_set_init new p = (p, Err AttributeError).
Proof. intros (A & B & _); unfold ip_set_init, init_surface; rewrite A; reflexivity. Qed.
Lemma bare_param new p : bare p -> ip_parameterize new p = (p, Err AttributeError).
Proof.
  intros H; pose proof (bare_init new p H) as E; destruct H as (A & B & C & D & F).
  unfold ip_parameterize; rewrite C, F, E; reflexivity.
Qed.
Lemma bare_fit new sv p : bare p -> ip_fit_run new sv p = (p, Err AttributeError).
Proof.
  intros H; pose proof (bare_init new p H) as E; destruct H as (A & B & C & D & F).
  unfold ip_fit_run; rewrite C, E; reflexivity.
Qed.
Lemma bare_step new sv p o : ~ planted o -> bare p -> bare (fst (ip_step new sv p o)).
Proof.
  intros NP H; destruct o; cbn [ip_step]; rewrite ?(bare_init new p H), ?(bare_param new p H), ?(bare_fit new sv p H); try exact H.
  1-3: unfold ip_set_degree, ip_set_data, ip_set_num, finish; (match goal with |- context [bind ?m _] => destruct m end); cbn [bind]; try exact H.
  - destruct (_ <? 3)%Z; exact H.
  - destruct o as [[b|]|b|]; [destruct (NP I)|exact H..].
  - destruct o as [[b|]|b|]; [destruct (NP I)|exact H..].
Qed.
Lemma bare_run new sv ops : Forall (fun o => ~ planted o) ops -> bare (ip_run new sv ip_new ops).
Proof.
  unfold ip_run; assert (G : forall ops p, Forall (fun o => ~ planted o) ops -> bare p -> bare (fold_left (fun p o => fst (ip_step new sv p o)) ops p)).
  { induction ops0 as [|o l IH]; intros p F H; [exact H|]; inversion_clear F; cbn [fold_left]; apply IH; [assumption|]; apply bare_step; assumption. }
  intros F; apply G; [exact F|]; unfold bare; cbn; tauto.
Qed.
(** With the repository's surface class, whatever the boundaries. *)
Definition unset (p : iproblem K) := ip_init p = None /\ ip_param p = None /\ ip_fit p = None.
Lemma repo_fails p : unset p ->
  (exists e, ip_set_init repo_surface p = (p, Err e) /\ ip_parameterize repo_surface p = (p, Err e) /\
     forall sv, ip_fit_run repo_surface sv p = (p, Err e)).
Proof.
  intros (A & B & C).
  assert (E : exists e, init_surface repo_surface (ip_top p) (ip_bottom p) (ip_degree p) (ip_num p) = Err e).
  { unfold init_surface; destruct (ip_top p) as [t|], (ip_bottom p) as [b|]; try (eexists; reflexivity).
    destruct (opt_eqb (bp_degree t) (bp_degree b)); cbn [negb]; [|eexists; reflexivity].
    destruct (opt_eqb (bp_num t) (bp_num b)); cbn [negb]; [|eexists; reflexivity].
    unfold repo_surface; rewrite (surface_init_fails K CBSurface None None None (or_intror eq_refl)); eexists; reflexivity. }
  destruct E as (e & E); exists e.
  assert (S : ip_set_init repo_surface p = (p, Err e)) by (unfold ip_set_init; rewrite E; reflexivity).
  split; [exact S|]; split; [unfold ip_parameterize; rewrite A, C, S; reflexivity|].
  intros sv; unfold ip_fit_run; rewrite A, S; reflexivity.
Qed.
Lemma unset_step sv p o : unset p -> unset (fst (ip_step repo_surface sv p o)).
Proof.
  intros H; destruct (repo_fails p H) as (e & E1 & E2 & E3); destruct o; cbn [ip_step]; rewrite ?E1, ?E2, ?E3; try exact H.
  1-3: unfold ip_set_degree, ip_set_data, ip_set_num, finish; (match goal with |- context [bind ?m _] => destruct m end); cbn [bind]; try exact H.
  - destruct (_ <? 3)%Z; exact H.
  - unfold ip_set_top; destruct (check_boundary o); exact H.
  - unfold ip_set_bottom; destruct (check_boundary o); exact H.
Qed.
Lemma unset_run sv ops : unset (ip_run repo_surface sv ip_new ops).
Proof.
  unfold ip_run; assert (G : forall ops p, unset p -> unset (fold_left (fun p o => fst (ip_step repo_surface sv p o)) ops p)).
  { induction ops0 as [|o l IH]; intros p H; [exact H|]; cbn [fold_left]; apply IH, unset_step, H. }
  apply G; repeat split.
Qed.
Lemma bare_save cd p name d : bare p -> ip_save cd p name d = (d, Err ValueError).
Proof. intros (_ & _ & _ & _ & F); unfold ip_save; rewrite F; reflexivity. Qed.
Lemma ip_load_never step cd (p : iproblem K) name d : exists r, ip_load step cd p name d = (d, r) /\ r <> Ok tt.
Proof.
  unfold ip_load; destruct (ip_fit p); [eexists; split; [reflexivity|discriminate]|].
  destruct (read_curve_from_txt step cd None name d) as [[d' o] r] eqn:E.
  destruct (ProofIO.read_curve_none step cd name d) as (r' & E' & N); rewrite E in E'; injection E' as -> _ ->.
  exists r'; split; [reflexivity|exact N].
Qed.
End History.
Lemma bare_vtk_exact {T} dl (mw : text -> list (list Exact) -> T -> io unit) (p : iproblem Exact) name d : bare p ->
  ip_vtk dl mw p name d = (d, Err AttributeError).
Proof.
  intros (_ & _ & _ & _ & F); unfold ip_vtk, surf_to_vtk; rewrite F; cbn [option_map].
  assert (E : vtk_grid (fun _ _ : Exact => Err AttributeError : res (list Exact)) 100 = Err AttributeError).
  { rewrite vtk_grid_exact by lia; unfold zrange; cbn [Z.to_nat Z.sub Z.add Z.opp Pos.add Pos.succ Pos.to_nat Pos.iter_op Nat.add seq map list_prod app mapM bind]; reflexivity. }
  rewrite E; reflexivity.
Qed.
Lemma bare_vtk_b64 {T} dl (mw : text -> list (list Binary64) -> T -> io unit) (p : iproblem Binary64) name d : bare p ->
  ip_vtk dl mw p name d = (d, Err AttributeError).
Proof.
  intros (_ & _ & _ & _ & F); unfold ip_vtk, surf_to_vtk; rewrite F; cbn [option_map].
  assert (E : vtk_grid (fun _ _ : Binary64 => Err AttributeError : res (list Binary64)) 100 = Err AttributeError) by (vm_compute; reflexivity).
  rewrite E; reflexivity.
Qed.

Lemma ruled_surface (t b : bproblem Exact) ct cb p q nu nv T B U d :
  bp_degree t = Some (Z.of_nat p) -> bp_degree b = Some (Z.of_nat p) ->
  bp_num t = Some (Z.of_nat nu) -> bp_num b = Some (Z.of_nat nu) ->
  bp_fit t = Some ct -> bp_fit b = Some cb -> c_ctrl ct = Some (fin2 T) -> c_ctrl cb = Some (fin2 B) -> c_kv cb = Some (fin U) ->
  Forall (fun r => length r = 3%nat) T -> Forall (fun r => length r = 3%nat) B -> length T = nu -> length B = nu ->
  (1 <= p)%nat -> (1 <= q)%nat -> (q + 1 <= nv)%nat -> (Z.of_nat nv - Z.of_nat q <= 900000)%Z ->
  tight (Z.of_nat p) (Z.of_nat nu) U -> kn U (Z.of_nat p) = 0 -> kn U (Z.of_nat nu) = 1 ->
  exists V P phi S,
    init_surface working_surface (Some t) (Some b) (Some (Z.of_nat q)) (Some (Z.of_nat nv)) = Ok S /\
    S = mkSurf (K := Exact) (Z.of_nat p) (Z.of_nat q) (Z.of_nat nu) (Z.of_nat nv) (fin2 P) (fin U) (fin V) /\
    (len V = Z.of_nat nv + Z.of_nat q + 1)%Z /\
    (forall i, (0 <= i < len V)%Z -> kn V i = if (i <=? Z.of_nat q)%Z then 0 else if (Z.of_nat nv <=? i)%Z then 1
                                       else IZR (i - Z.of_nat q) / IZR (Z.of_nat nv - Z.of_nat q)) /\
    length P = (nu * nv)%nat /\ Forall (fun r => length r = 3%nat) P /\
    (forall i j, (i < nu)%nat -> (j < nv)%nat ->
       nth (i * nv + j) P [] = lerp (nth i B []) (nth i T []) (INR j / IZR (Z.of_nat nv - 1))) /\
    (forall u s, 0 <= u <= 1 -> find_span (Z.of_nat nu) (Z.of_nat p) (Fin u : Exact) (fin U) = Ok s -> kn U s < kn U (s + 1) ->
       surf_point S (Fin u : Exact) (Fin 0 : Exact) = single_point (curve_of (Z.of_nat p) U B d) (Fin u : Exact) /\
       surf_point S (Fin u : Exact) (Fin 1 : Exact) = single_point (curve_of (Z.of_nat p) U T d) (Fin u : Exact)) /\
    phi 0 = 0 /\ phi 1 = 1 /\ (forall v, 0 <= v <= 1 -> 0 <= phi v <= 1) /\
    (strict (Z.of_nat p) (Z.of_nat nu) U -> forall u v, 0 <= u <= 1 ->
       (close (1/1000000) (1/100000000) u 1 -> kn U (Z.of_nat nu - 1) <= u) -> 0 <= v <= 1 ->
       surf_point S (Fin u : Exact) (Fin v : Exact) = Ok (fin (lerp (curve_xyz U p B u) (curve_xyz U p T u) (phi v)))).
Proof.
  intros Dt Db Nt Nb Ft Fb Ct Cb Kb FT FB LT LB Hp Hq Hv Hb HT K0 K1.
  destruct (uniform_tight' q nv Hq Hv) as (HTV & V0 & V1).
  assert (Hu : (p + 1 <= nu)%nat) by (destruct (clamped_facts _ _ _ (proj1 HT)) as (_ & Hn & _); lia).
  exists (uniform (Z.of_nat q) (Z.of_nat nv)), (ruled T B nu nv), (ramp (uniform (Z.of_nat q) (Z.of_nat nv)) q nv), (surf_of p q nu nv U (uniform (Z.of_nat q) (Z.of_nat nv)) (ruled T B nu nv)).
  split; [eapply init_surface_ruled; eauto|]; split; [reflexivity|].
  assert (LV : len (uniform (Z.of_nat q) (Z.of_nat nv)) = (Z.of_nat nv + Z.of_nat q + 1)%Z) by (unfold uniform; rewrite len_tab; lia).
  split; [exact LV|]; split.
  { intros i Hi; rewrite LV in Hi; unfold uniform; rewrite kn_tab by lia; rewrite !minus_IZR; reflexivity. }
  split; [apply ruled_length|]; split; [apply ruled_three|]; split; [intros; apply ruled_nth; assumption|].
  split; [intros u s; apply ruled_surface_edges; assumption|].
  split; [apply ramp_start; try assumption; lia|]; split; [apply ramp_end; try assumption; lia|].
  split; [intros v Hvr; apply ramp_range; [apply HTV|lia|lra]|].
  intros HS u v; apply ruled_surface_point; try assumption; apply HT.
Qed.
Lemma interior_history (K : Num) new sv (ops : list (ip_op K)) : Forall (fun o => ~ planted o) ops ->
  let p := ip_run new sv ip_new ops in
  ip_top p = None /\ ip_bottom p = None /\ ip_init p = None /\ ip_param p = None /\ ip_fit p = None /\
  ip_set_init new p = (p, Err AttributeError) /\ ip_parameterize new p = (p, Err AttributeError) /\
  ip_fit_run new sv p = (p, Err AttributeError) /\
  (forall cd name d, ip_save cd p name d = (d, Err ValueError)) /\
  (forall step cd name d, exists r, ip_load step cd p name d = (d, r) /\ r <> Ok tt).
Proof.
  intros NP p; pose proof (bare_run new sv ops NP : bare p) as H; pose proof H as (A & B & C & D & E); repeat (split; [assumption|]).
  split; [apply bare_init, H|]; split; [apply bare_param, H|]; split; [apply bare_fit, H|].
  split; [intros; apply bare_save, H|intros; apply ip_load_never].
Qed.
Lemma interior_vtk (K : Num) : K = Exact \/ K = Binary64 -> forall new sv (ops : list (ip_op K)) (T : Type) dl (mw : text -> list (list K) -> T -> io unit) name d,
  Forall (fun o => ~ planted o) ops -> ip_vtk dl mw (ip_run new sv ip_new ops) name d = (d, Err AttributeError).
Proof. intros [-> | ->] new sv ops T dl mw name d NP; [apply bare_vtk_exact|apply bare_vtk_b64]; apply bare_run, NP. Qed.
Lemma repo_history (K : Num) sv (ops : list (ip_op K)) :
  let p := ip_run repo_surface sv ip_new ops in
  ip_init p = None /\ ip_param p = None /\ ip_fit p = None /\
  (exists e, ip_set_init repo_surface p = (p, Err e) /\ ip_parameterize repo_surface p = (p, Err e) /\
     ip_fit_run repo_surface sv p = (p, Err e)) /\
  (forall cd name d, ip_save cd p name d = (d, Err ValueError)).
Proof.
  intros p; pose proof (unset_run sv ops : unset p) as H; pose proof H as (A & B & C); repeat (split; [assumption|]); split.
  - destruct (repo_fails p H) as (e & E1 & E2 & E3); exists e; auto.
  - intros cd name d; unfold ip_save; rewrite C; reflexivity.
Qed.
(** Which objects can be assigned. *)
Lemma assign_boundary (K : Num) (p : iproblem K) o :
  match o with
  | OBoundary (Some b) => bp_fit b <> None ->
      ip_set_top p o = (mkIP (ip_degree p) (ip_data p) (ip_num p) (Some b) (ip_bottom p) (ip_init p) (ip_param p) (ip_fit p), Ok tt) /\
      ip_set_bottom p o = (mkIP (ip_degree p) (ip_data p) (ip_num p) (ip_top p) (Some b) (ip_init p) (ip_param p) (ip_fit p), Ok tt)
  | _ => True
  end /\
  ((forall b, o = OBoundary (Some b) -> bp_fit b = None) ->
   exists e, ip_set_top p o = (p, Err e) /\ ip_set_bottom p o = (p, Err e)).
Proof.
  split.
  - destruct o as [[b|]|b|]; try exact I; intros N; unfold ip_set_top, ip_set_bottom, check_boundary; destruct (bp_fit b); [split; reflexivity|contradiction].
  - intros H; destruct o as [[b|]|b|]; unfold ip_set_top, ip_set_bottom, check_boundary; try (eexists; split; reflexivity).
    rewrite (H b eq_refl); eexists; split; reflexivity.
Qed.
