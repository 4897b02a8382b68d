(** [fit_curve_knot_insertion] (model: ModelFit.v) on binary64 numbers: the knots
    stay exact dyadic fractions, the end control points are not touched. *)
From Coq Require Import Reals Lra Lia ZArith List Floats.
From Flocq Require Import Core.Core IEEE754.BinarySingleNaN IEEE754.PrimFloat.
From Verif Require Import Py PyLemmas Num ModelKnots ModelBasis ModelCurve ModelInit ModelParam ModelFit Spec SpecB64 MathCox MathKnots ProofNum ProofBasis ProofKnots ProofSpan ProofSpan2
  ProofInsert ProofInsert2 ProofFit4 ProofFit5 ProofFit6 ProofCurve2 ProofFit8 ProofB64 ProofB64Basis ProofB64Span ProofB64Curve ProofB64Knots ProofB64Surface ProofB64Insert ProofInit.
Import ListNotations.
Open Scope R_scope.

(** ** Over any numbers *)
Section Any.
Context {K : Num}.
(** Inserting a new knot once leaves the first and the last control point. *)
Lemma insertion_ends (kv : list K) (P : list (list K)) (x : K) (p k : Z) :
  find_span (zlen P) p x kv = Ok k -> (p <= k < zlen P)%Z -> zlen kv = (zlen P + p + 1)%Z ->
  (1 <= p)%Z -> find_multiplicity x kv = 0%Z -> Forall (fun row => length row = 3%nat) P ->
  exists Q, curve_knot_insertion p kv P x 1 = Ok (firstn (Z.to_nat (k + 1)) kv ++ [x] ++ skipn (Z.to_nat (k + 1)) kv, Q) /\
    zlen Q = (zlen P + 1)%Z /\ Forall (fun row => length row = 3%nat) Q /\ nth 0 Q [] = nth 0 P [] /\ last Q [] = last P [].
Proof.
  intros Hspan Hk HL Hp Hm HF; unfold zlen in *.
  assert (Ek : kv = tab (length P + Z.to_nat p + 1) (fun i => nth (Z.to_nat i) kv x)).
  { replace (length P + Z.to_nat p + 1)%nat with (length kv) by lia; apply list_as_tab. }
  assert (EP : P = tab (length P) (fun i => nth (Z.to_nat i) P [])) by apply list_as_tab.
  assert (HW : forall i, (0 <= i < Z.of_nat (length P))%Z -> zlen (nth (Z.to_nat i) P []) = 3%Z).
  { intros i Hi; unfold zlen; rewrite (proj1 (Forall_forall _ _) HF); [reflexivity|apply nth_In; lia]. }
  pose proof (insertion_tables (length P) (Z.to_nat p) 1 k 0
    (fun i => nth (Z.to_nat i) kv x) x (fun i => nth (Z.to_nat i) P []) ltac:(lia) ltac:(lia) ltac:(lia) HW) as H.
  rewrite <- Ek, <- EP in H; rewrite !Z2Nat.id in H by lia.
  specialize (H Hspan Hm).
  eexists; split; [change 1%Z with (Z.of_nat 1); rewrite H; apply f_equal, (f_equal2 pair); [|reflexivity]|split; [|split; [|split]]].
  - change [x] with (repeat x 1); change (Z.of_nat 1) with 1%Z; rewrite <- (tab_new_knot kv x k 1 x) by (unfold zlen; lia).
    f_equal; lia.
  - rewrite tab_length; lia.
  - apply Forall_tab; intros i Hi; apply Nat2Z.inj; apply (QX_width (length P) (Z.to_nat p) 1); [lia|lia|exact HW|lia].
  - rewrite nth_tab by lia; rewrite (QX_low (length P) (Z.to_nat p) 1 k 0 _ _ _ 0 1) by lia; reflexivity.
  - rewrite !last_nth, tab_length, nth_tab by lia.
    pose proof (QX_high (length P) (Z.to_nat p) 1 k 0 (fun i => nth (Z.to_nat i) kv x) x (fun i => nth (Z.to_nat i) P []) 0 1 (Z.of_nat (length P) - 1) ltac:(lia) ltac:(lia) ltac:(lia)) as E.
    replace (Z.of_nat (length P) - 1 + Z.of_nat 1 - Z.of_nat 0)%Z with (Z.of_nat (length P + 1 - 1)) in E by lia.
    rewrite E; cbn [QX]; f_equal; lia.
Qed.
Lemma span_midpoints_tab p N (kv : list K) d : (0 <= p)%Z -> zlen kv = (Z.of_nat N + 2 * p + 1)%Z ->
  span_midpoints p kv = Ok (tab N (fun j => let l := nth (Z.to_nat (p + j)) kv d in (l + (nth (Z.to_nat (p + j + 1)) kv d - l) / ofZ 2)%num)).
Proof.
  intros Hp HL; unfold span_midpoints; cbv zeta; rewrite HL.
  replace (Z.of_nat N + 2 * p + 1 - p - 1)%Z with (p + Z.of_nat N)%Z by lia.
  rewrite (np_full_tab' _ N) by lia; cbn [bind].
  set (g := fun j => (nth (Z.to_nat (p + j)) kv d + (nth (Z.to_nat (p + j + 1)) kv d - nth (Z.to_nat (p + j)) kv d) / ofZ 2)%num).
  rewrite (for_range_fun (fun k => tab N (fun j => if (j <? k - p)%Z then g j else (0 : K)%num)) p (p + Z.of_nat N)); [|lia| |].
  - f_equal; apply tab_ext; intros j Hj; destruct (Z.ltb_spec j (p + Z.of_nat N - p)); [reflexivity|lia].
  - apply tab_ext; intros j Hj; destruct (Z.ltb_spec j (p - p)); [lia|reflexivity].
  - intros k Hk; rewrite !(aget_nth kv _ d) by lia; cbn [bind]; rewrite aset_tab by lia; f_equal; apply tab_ext; intros j Hj; unfold fupd.
    destruct (Z.eqb_spec j (k - p)) as [->|Hne].
    + destruct (Z.ltb_spec (k - p) (k + 1 - p)); [|lia]; unfold g.
      replace (p + (k - p))%Z with k by lia; reflexivity.
    + destruct (Z.ltb_spec j (k - p)), (Z.ltb_spec j (k + 1 - p)); try lia; reflexivity.
Qed.
End Any.

(** ** Dyadic fractions are exact *)
Lemma dyadic_fmt z e : (Z.abs z < 2 ^ 53)%Z -> (0 <= e <= 1074)%Z -> fmt (IZR z / IZR (2 ^ e)).
Proof.
  intros Hz He; replace (IZR z / IZR (2 ^ e)) with (F2R (Float radix2 z (- e))).
  - apply generic_format_FLT; exists (Float radix2 z (- e)); [reflexivity|exact Hz|cbn; lia].
  - unfold F2R, Rdiv; cbn [Fnum Fexp]; f_equal; rewrite bpow_opp; f_equal.
    rewrite <- IZR_Zpower by lia; reflexivity.
Qed.

Section Dyadic.
Variables (p : Z) (k : nat).
Hypotheses (Hp : (1 <= p)%Z) (Hk : (k <= 15)%nat).
Notation N := (2 ^ Z.of_nat k)%Z.
Lemma N_pos : (1 <= N <= 32768)%Z.
Proof.
  pose proof (Z.pow_pos_nonneg 2 (Z.of_nat k)); pose proof (Z.pow_le_mono_r 2 (Z.of_nat k) 15 ltac:(lia) ltac:(lia)) as HX.
  change (2 ^ 15)%Z with 32768%Z in HX; lia.
Qed.
Lemma N2 : (2 * N = 2 ^ Z.of_nat (S k))%Z.
Proof. rewrite Nat2Z.inj_succ, Z.pow_succ_r by lia; reflexivity. Qed.
Lemma midpoint64 (a b : Binary64) z : (0 <= z < N)%Z -> finite64 a -> finite64 b ->
  value a = IZR z / IZR N -> value b = IZR (z + 1) / IZR N ->
  finite64 ((a + (b - a) / ofZ 2)%num : Binary64) /\ value ((a + (b - a) / ofZ 2)%num : Binary64) = mid N z.
Proof.
  intros Hz Fa Fb Va Vb; pose proof N_pos as HN.
  assert (PN : 0 < IZR N) by (apply IZR_lt; lia).
  assert (E2 : IZR 2 = 2) by reflexivity.
  assert (S1 : forall t e, t = IZR e / IZR (2 * N) -> (Z.abs e <= 2 * N)%Z -> fmt t /\ Rabs (rnd t) < bpow radix2 1024 /\ rnd t = t).
  { intros t e -> He; assert (F : fmt (IZR e / IZR (2 * N))).
    { rewrite N2; apply dyadic_fmt; [rewrite N2 in He|lia].
      pose proof (Z.pow_le_mono_r 2 (Z.of_nat (S k)) 16 ltac:(lia) ltac:(lia)) as HX; change (2 ^ 16)%Z with 65536%Z in HX; lia. }
    split; [exact F|]; split; [|apply rnd_fmt; exact F]; apply rnd_safe with 0%Z; [lia|]; cbn [bpow].
    unfold Rdiv; rewrite Rabs_mult, Rabs_inv by (apply Rgt_not_eq, IZR_lt; lia); rewrite (Rabs_right (IZR (2 * N))) by (apply Rle_ge, IZR_le; lia).
    apply Rmult_le_reg_r with (IZR (2 * N)); [apply IZR_lt; lia|]; rewrite Rmult_assoc, Rinv_l, Rmult_1_r, Rmult_1_l by (apply Rgt_not_eq, IZR_lt; lia).
    rewrite <- abs_IZR; apply IZR_le; exact He. }
  change (nadd a (ndiv (nsub b a) (ofZ 2 : Binary64))) with (a + (b - a) / (ofZ 2%Z : Binary64))%float.
  destruct (ofZ64 2 ltac:(lia)) as (F2 & V2).
  destruct (S1 (value b - value a) 2%Z) as (_ & B1 & R1).
  { rewrite Va, Vb, plus_IZR, mult_IZR; field; lra. } { lia. }
  destruct (sub64 b a Fb Fa B1) as (Fd & Vd); rewrite R1 in Vd.
  destruct (S1 (value (b - a)%float / value (ofZ 2 : Binary64)) 1%Z) as (_ & B2 & R2).
  { rewrite Vd, V2, Va, Vb, plus_IZR, mult_IZR; field; lra. } { lia. }
  destruct (div64 (b - a)%float (ofZ 2 : Binary64) Fd F2 ltac:(rewrite V2; lra) B2) as (Fh & Vh); rewrite R2 in Vh.
  destruct (S1 (value a + value ((b - a) / (ofZ 2%Z : Binary64))%float) (2 * z + 1)%Z) as (_ & B3 & R3).
  { rewrite Vh, Vd, V2, Va, Vb, !plus_IZR, !mult_IZR; field; lra. } { lia. }
  destruct (add64 a ((b - a) / (ofZ 2%Z : Binary64))%float Fa Fh B3) as (Fs & Vs); rewrite R3 in Vs.
  split; [exact Fs|]; etransitivity; [exact Vs|]; rewrite Vh, Vd, V2, Va, Vb; unfold mid; rewrite !plus_IZR, !mult_IZR; field; lra.
Qed.

Lemma mid_apart j y : (0 <= j < N)%Z -> In y (half_knots p N j) -> ~ close (101/10000000) (101/10000000000) (mid N j) y.
Proof.
  intros Hj Hy HC; pose proof N_pos as HN; unfold half_knots, tab in Hy; apply in_map_iff in Hy; destruct Hy as (i & <- & _).
  set (m := gz p N j (Z.of_nat i)) in *.
  assert (Hm : m <> (2 * j + 1)%Z) by (apply gz_new; lia).
  assert (Hr : (0 <= m <= 2 * N)%Z) by (apply gz_range; lia).
  assert (HB : 0 <= IZR m / IZR (2 * N) <= 1).
  { rewrite <- (frac_0 N), <- (frac_1 N ltac:(lia)) at 1; split; apply frac_le; lia. }
  unfold close in HC; rewrite (Rabs_right (IZR m / _)) in HC by lra.
  assert (HD : 1 / 65536 <= Rabs (mid N j - IZR m / IZR (2 * N))).
  { assert (H2 : 0 < IZR (2 * N)) by (apply IZR_lt; lia).
    assert (E1 : / 65536 <= / IZR (2 * N)) by (apply Rinv_le_contravar; [exact H2|apply IZR_le; lia]).
    unfold mid; replace (IZR (2 * j + 1) / IZR (2 * N) - IZR m / IZR (2 * N)) with (IZR (2 * j + 1 - m) * / IZR (2 * N))
      by (rewrite minus_IZR; unfold Rdiv; ring).
    rewrite Rabs_mult, (Rabs_right (/ _)) by lra; rewrite <- abs_IZR.
    assert (1 <= IZR (Z.abs (2 * j + 1 - m))) by (apply IZR_le; lia).
    nra. }
  lra.
Qed.

(** ** One insertion *)
Lemma within_unit (U : list PrimFloat.float) : within 0 1 U -> within (- 2 ^ 1000) (2 ^ 1000) U.
Proof. assert (1 <= 2 ^ 1000) by (apply pow_R1_Rle; lra); intros H'; eapply Forall_impl; [|exact H']; intros x (F & B); split; [exact F|lra]. Qed.
Lemma half_within j (U : list PrimFloat.float) : (0 <= j <= N)%Z -> Forall finite64 U -> values U = half_knots p N j -> within 0 1 U.
Proof.
  intros Hj F E; pose proof N_pos as HN; apply Forall_forall; intros x Hx; split; [rewrite Forall_forall in F; apply F; exact Hx|].
  assert (HI : In (value x) (half_knots p N j)) by (rewrite <- E; apply in_map; exact Hx).
  unfold half_knots, tab in HI; apply in_map_iff in HI; destruct HI as (i & <- & _).
  pose proof (gz_range p N ltac:(lia) j (Z.of_nat i) Hj).
  rewrite <- (frac_0 N), <- (frac_1 N ltac:(lia)) at 1; split; apply frac_le; lia.
Qed.
Lemma insert_mid64 j (U : list PrimFloat.float) (P : list (list PrimFloat.float)) (x : Binary64) d : (0 <= j < N)%Z -> Forall finite64 U -> values U = half_knots p N j ->
  len P = (N + p + j)%Z -> Forall (fun r => length r = 3%nat) P -> finite64 x -> value x = mid N j ->
  exists (T : list PrimFloat.float) (Q : list (list PrimFloat.float)),
    insert_knot_working (mkCurve (K := Binary64) (Some p) (Some P) (Some U) d) x = Ok (mkCurve (K := Binary64) (Some p) (Some Q) (Some T) d) /\
    Forall finite64 T /\ values T = half_knots p N (j + 1) /\
    len Q = (N + p + (j + 1))%Z /\ Forall (fun r => length r = 3%nat) Q /\ nth 0 Q [] = nth 0 P [] /\ last Q [] = last P [].
Proof.
  intros Hj FU EU HP H3 Fx Vx; pose proof N_pos as HN.
  pose proof (half_within j U ltac:(lia) FU EU) as HW0; pose proof (within_unit U HW0) as HW.
  assert (HC : clamped p (len P) (values U)) by (rewrite HP, EU; apply half_clamped; lia).
  assert (LU : len U = (N + j + 2 * p + 1)%Z) by (rewrite <- len_values, EU; apply half_len; lia).
  assert (P1000 : 1 <= 2 ^ 1000) by (apply pow_R1_Rle; lra).
  assert (Bx : 0 <= value x <= 1) by (rewrite Vx; apply mid_range; lia).
  assert (Bx' : Rabs (value x) <= 2 ^ 1000) by (rewrite Rabs_right; lra).
  assert (K0 : kn (values U) p = 0) by (rewrite EU; apply half_kn_start; lia).
  assert (K1 : kn (values U) (len P) = 1) by (rewrite EU, HP; apply half_kn_end; lia).
  assert (Apart : forall y, In y (values U) -> y <> value x -> ~ close (101/10000000) (101/10000000000) (value x) y).
  { intros y Hy _; rewrite Vx; apply mid_apart; [exact Hj|rewrite <- EU; exact Hy]. }
  assert (IK : forall i, (0 <= i < len U)%Z -> In (kn (values U) i) (values U)) by (intros i Hi; apply kn_In; rewrite len_values; exact Hi).
  assert (NE : forall i, (0 <= i < len U)%Z -> value x <> kn (values U) i).
  { intros i Hi E; apply (mid_apart j (kn (values U) i) Hj); [rewrite <- EU; apply IK; exact Hi|rewrite <- Vx, <- E; apply close_refl; lra]. }
  destruct (find_span_b64 p (len P) x U Fx FU (proj1 HC) ltac:(rewrite K0, K1; exact Bx) Bx' ltac:(rewrite K1, Rabs_right; lra)) as (m & Em & Hm & Hs).
  assert (Hmx : kn (values U) m < value x < kn (values U) (m + 1)).
  { destruct Hs as [(_ & C)|(C & _)].
    - exfalso; apply (mid_apart j (kn (values U) (len P)) Hj); [rewrite <- EU; apply IK; lia|]; unfold close; rewrite <- Vx.
      rewrite K1 in *; rewrite (Rabs_right 1) in * by lra; rewrite Rabs_minus_sym, Rabs_right by lra; eapply Rle_trans; [exact C|].
      pose proof ulp64_small; lra.
    - pose proof (NE m ltac:(lia)); pose proof (NE (m + 1)%Z ltac:(lia)); lra. }
  assert (Emm : m = (p + 2 * j)%Z).
  { rewrite EU, !half_kn in Hmx by lia; rewrite Vx in Hmx; unfold mid in Hmx; destruct Hmx as [H1 H2].
    assert (I1 : (gz p N j m <= 2 * j + 1)%Z).
    { destruct (Z.le_gt_cases (gz p N j m) (2 * j + 1)) as [|L]; [assumption|]; apply (frac_lt N ltac:(lia)) in L; lra. }
    assert (I2 : (2 * j + 1 < gz p N j (m + 1))%Z).
    { destruct (Z.lt_ge_cases (2 * j + 1) (gz p N j (m + 1))) as [|L]; [assumption|]; apply (frac_le N ltac:(lia)) in L; lra. }
    unfold gz in I1, I2; destruct (Z.leb_spec m p), (Z.leb_spec (m + 1) p), (Z.leb_spec m (p + 2 * j)), (Z.leb_spec (m + 1) (p + 2 * j)); lia. }
  subst m.
  assert (C0 : find_multiplicity x (U : list Binary64) = 0%Z).
  { rewrite (multiplicity64 x U HW Fx Bx' Apart), (proj1 (count_occ_not_In Req_EM_T (values U) (value x))); [reflexivity|].
    intros HI; apply In_kn in HI; destruct HI as (i & Hi & E); rewrite len_values in Hi; exact (NE i Hi (eq_sym E)). }
  destruct (insertion_ends (K := Binary64) U P x p (p + 2 * j) Em ltac:(change (zlen P) with (len P); lia) ltac:(change (zlen U) with (len U); change (zlen P) with (len P); lia) ltac:(lia) C0 H3)
    as (Q & E & LQ & F3 & Q0 & Q1).
  set (T := firstn (Z.to_nat (p + 2 * j + 1)) U ++ [x] ++ skipn (Z.to_nat (p + 2 * j + 1)) U) in *.
  assert (FT : Forall finite64 T).
  { apply Forall_app; split; [|apply Forall_cons; [exact Fx|]].
    - apply Forall_forall; intros y Hy; rewrite Forall_forall in FU; apply FU; rewrite <- (firstn_skipn (Z.to_nat (p + 2 * j + 1)) U); apply in_or_app; left; exact Hy.
    - apply Forall_forall; intros y Hy; rewrite Forall_forall in FU; apply FU; rewrite <- (firstn_skipn (Z.to_nat (p + 2 * j + 1)) U); apply in_or_app; right; exact Hy. }
  assert (VT : values T = half_knots p N (j + 1)).
  { rewrite <- half_next by lia; rewrite <- EU; unfold T, values; rewrite !map_app, firstn_map, skipn_map; cbn [map]; rewrite Vx; reflexivity. }
  assert (LQ' : len Q = (N + p + (j + 1))%Z) by (change (zlen Q) with (len Q) in LQ; change (zlen P) with (len P) in LQ; lia).
  exists T, Q; split; [|split; [exact FT|]; split; [exact VT|]; split; [exact LQ'|]; split; [exact F3|]; split; [exact Q0|exact Q1]].
  unfold insert_knot_working.
  assert (EV : validate_knot x = true).
  { apply validate64; assumption. }
  rewrite EV; cbn [negb curve_fields c_ctrl c_kv c_degree bind]; rewrite E; cbn [bind fst snd store_ctrl c_degree c_ctrl c_kv c_dim].
  unfold set_knot_vector; cbn [c_degree c_ctrl c_kv c_dim].
  assert (CK : check_knot_vector p (NdArray (T : list Binary64)) (zlen Q) = Ok true).
  { apply (check_clamped_b64 p (len Q) T FT); [rewrite VT, LQ'; apply half_clamped; lia| |].
    - pose proof (half_within (j + 1) T ltac:(lia) FT VT) as WT; eapply Forall_impl; [|exact WT]; intros y (_ & B); rewrite Rabs_right; lra.
    - rewrite VT, LQ', half_kn_end by lia; rewrite half_kn by lia; unfold gz; destruct (Z.leb_spec 0 p); [|lia]; rewrite frac_0.
      assert (/ 2 ^ 1000 <= / 1) by (apply Rinv_le_contravar; lra); lra. }
  match goal with |- bind ?m _ = _ => replace m with (Ok true : res bool) by (symmetry; exact CK) end; reflexivity.
Qed.

(** ** All midpoints *)
Lemma half_start64 (U : list PrimFloat.float) i : values U = uniform p (p + N) -> Forall finite64 U -> (0 <= i <= N)%Z ->
  finite64 (nth (Z.to_nat (p + i)) U 0%float) /\ value (nth (Z.to_nat (p + i)) U 0%float) = IZR i / IZR N.
Proof.
  intros EU FU Hi; pose proof N_pos as HN.
  assert (LU : len U = (N + 0 + 2 * p + 1)%Z) by (rewrite <- len_values, EU, <- half_start by lia; apply half_len; lia).
  split; [apply nth_finite; [exact FU|lia]|].
  rewrite <- (kn_values U (p + i) 0%float) by lia; rewrite EU, <- half_start, half_kn by lia.
  assert (0 < IZR N) by (apply IZR_lt; lia).
  replace (gz p N 0 (p + i)) with (2 * i)%Z; [rewrite !mult_IZR; field; lra|].
  unfold gz; destruct (Z.leb_spec (p + i) p), (Z.leb_spec (p + i) (p + 2 * 0)); lia.
Qed.
Lemma midpoints64 (U : list PrimFloat.float) : Forall finite64 U -> values U = uniform p (p + N) ->
  exists m : Z -> Binary64, span_midpoints p (U : list Binary64) = Ok (tab (Z.to_nat N) m) /\
    forall j, (0 <= j < N)%Z -> finite64 (m j) /\ value (m j) = mid N j.
Proof.
  intros FU EU; pose proof N_pos as HN.
  assert (LU : len U = (N + 0 + 2 * p + 1)%Z) by (rewrite <- len_values, EU, <- half_start by lia; apply half_len; lia).
  eexists; split; [apply (span_midpoints_tab (K := Binary64) p (Z.to_nat N) U 0%float); [lia|change (zlen U) with (len U); lia]|].
  intros j Hj; cbv zeta beta.
  destruct (half_start64 U j EU FU ltac:(lia)) as (Fa & Va); destruct (half_start64 U (j + 1) EU FU ltac:(lia)) as (Fb & Vb).
  replace (p + (j + 1))%Z with (p + j + 1)%Z in Fb, Vb by lia.
  apply midpoint64; assumption.
Qed.
Lemma insert_all64 (U : list PrimFloat.float) (P : list (list PrimFloat.float)) (m : Z -> Binary64) d :
  Forall finite64 U -> values U = uniform p (p + N) -> (forall j, (0 <= j < N)%Z -> finite64 (m j) /\ value (m j) = mid N j) ->
  len P = (p + N)%Z -> Forall (fun r => length r = 3%nat) P ->
  exists (T : list PrimFloat.float) (Q : list (list PrimFloat.float)),
    for_range 0 N (fun i t => let* u := aget (tab (Z.to_nat N) m) i in insert_knot_working t u)
      (mkCurve (K := Binary64) (Some p) (Some P) (Some U) d) = Ok (mkCurve (K := Binary64) (Some p) (Some Q) (Some T) d) /\
    Forall finite64 T /\ values T = uniform p (p + 2 * N) /\
    len Q = (p + 2 * N)%Z /\ Forall (fun r => length r = 3%nat) Q /\ nth 0 Q [] = nth 0 P [] /\ last Q [] = last P [].
Proof.
  intros FU EU Hm HP H3; pose proof N_pos as HN.
  destruct (for_range_inv (fun j t => exists (T : list PrimFloat.float) (Q : list (list PrimFloat.float)), t = mkCurve (K := Binary64) (Some p) (Some Q) (Some T) d /\
      Forall finite64 T /\ values T = half_knots p N j /\ len Q = (N + p + j)%Z /\ Forall (fun r => length r = 3%nat) Q /\
      nth 0 Q [] = nth 0 P [] /\ last Q [] = last P [])
    0 N (fun i t => let* u := aget (tab (Z.to_nat N) m) i in insert_knot_working t u)
    (mkCurve (K := Binary64) (Some p) (Some P) (Some U) d)) as (t & E & T & Q & -> & FT & VT & L & F & A & B).
  - lia.
  - exists U, P; rewrite half_start by lia; repeat split; auto; lia.
  - intros j t Hj (T & Q & -> & FT & VT & L & F & A & B); rewrite aget_tab by lia; cbn [bind].
    destruct (Hm j Hj) as (Fx & Vx).
    destruct (insert_mid64 j T Q (m j) d Hj FT VT L F Fx Vx) as (T' & Q' & E' & FT' & VT' & L' & F' & A' & B').
    eexists; split; [exact E'|]; exists T', Q'; split; [reflexivity|]; split; [exact FT'|]; split; [exact VT'|]; split; [exact L'|]; split; [exact F'|].
    split; congruence.
  - exists T, Q; rewrite half_end in VT by lia; split; [exact E|]; split; [exact FT|]; split; [exact VT|]; split; [lia|]; auto.
Qed.
End Dyadic.

(** ** The loop *)
Lemma insertion_loop64 sv data p num : (1 <= p)%Z -> (num <= p + 65536)%Z ->
  forall fuel k (U : list PrimFloat.float) (P : list (list PrimFloat.float)) (c : curve_obj Binary64), Forall finite64 U -> values U = uniform p (p + 2 ^ Z.of_nat k) ->
  len P = (p + 2 ^ Z.of_nat k)%Z -> Forall (fun r => length r = 3%nat) P ->
  (k = 0%nat \/ (p + 2 ^ Z.of_nat (k - 1) < num)%Z) ->
  insertion_loop fuel working_class sv data num (mkCurve (K := Binary64) (Some p) (Some P) (Some U) 0) = Ok c ->
  exists k' (T : list PrimFloat.float) (Q : list (list PrimFloat.float)), c = mkCurve (K := Binary64) (Some p) (Some Q) (Some T) 0 /\
    Forall finite64 T /\ values T = uniform p (p + 2 ^ Z.of_nat k') /\
    len Q = (p + 2 ^ Z.of_nat k')%Z /\ (num <= len Q)%Z /\ (k' = 0%nat \/ (p + 2 ^ Z.of_nat (k' - 1) < num)%Z) /\
    Forall (fun r => length r = 3%nat) Q /\ nth 0 Q [] = nth 0 P [] /\ last Q [] = last P [].
Proof.
  intros Hp Hnum; induction fuel as [|fuel IH]; intros k U P c FU EU HP H3 Hk H; [discriminate|].
  cbn [insertion_loop] in H; bind_inv H; bind_inv H.
  change (cl_set_ctrl working_class) with (@store_ctrl Binary64) in E0.
  change (cl_insert working_class) with (@insert_knot_working Binary64) in H.
  destruct (single_fit_curve_any sv (mkCurve (K := Binary64) (Some p) (Some P) (Some U) 0) _ _ P eq_refl H3 E0) as (Q & -> & L1 & F1 & N1 & M1).
  cbn [c_degree c_ctrl c_kv c_dim] in H.
  assert (LQ : @len (list PrimFloat.float) Q = len P) by exact (f_equal Z.of_nat L1).
  change (@zlen (list Binary64) Q) with (@len (list PrimFloat.float) Q) in H; destruct (Z.leb_spec num (@len (list PrimFloat.float) Q)) as [HL|HL].
  - injection H as <-; exists k, U, Q; split; [reflexivity|]; split; [exact FU|]; split; [exact EU|].
    split; [exact (eq_trans LQ HP)|]; split; [exact HL|]; split; [exact Hk|]; auto.
  - unfold curve_fields in H; cbn [c_ctrl c_kv c_degree bind] in H.
    assert (Hk16 : (k <= 15)%nat).
    { destruct (Nat.le_gt_cases k 15) as [|G]; [assumption|]; exfalso.
      pose proof (Z.pow_le_mono_r 2 16 (Z.of_nat k) ltac:(lia) ltac:(lia)) as HX; change (2 ^ 16)%Z with 65536%Z in HX; lia. }
    destruct (midpoints64 p k Hp Hk16 U FU EU) as (m & Em & Hm).
    rewrite Em in H; cbn [bind] in H; pose proof (N_pos k Hk16); rewrite zlen_tab, Z2Nat.id in H by lia.
    destruct (insert_all64 p k Hp Hk16 U Q m 0 FU EU Hm (eq_trans LQ HP) F1) as (T & Q2 & E2 & FT & VT & L2 & F2 & N2' & M2).
    match type of H with bind ?x _ = _ => replace x with (Ok (mkCurve (K := Binary64) (Some p) (Some Q2) (Some T) 0)) in H by (symmetry; exact E2) end.
    cbn [bind] in H; rewrite (N2 k Hk16) in VT, L2.
    destruct (IH (S k) T Q2 c FT VT L2 F2 ltac:(right; replace (S k - 1)%nat with k by lia; lia) H) as (k' & T' & Q' & -> & R1 & R2 & R3 & R4 & R5 & R6 & R7 & R8).
    exists k', T', Q'; split; [reflexivity|]; split; [exact R1|]; split; [exact R2|]; split; [exact R3|]; split; [exact R4|]; split; [exact R5|]; split; [exact R6|].
    split; [exact (eq_trans R7 (eq_trans N2' N1))|exact (eq_trans R8 (eq_trans M2 M1))].
Qed.
Lemma adaptive_fit64 sv data p num (c c' : curve_obj Binary64) (U : list PrimFloat.float) (P : list (list PrimFloat.float)) : (1 <= p)%nat -> (num <= Z.of_nat p + 65536)%Z ->
  Forall (fun r => length r = 3%nat) P -> length P = S p -> Forall finite64 U -> values U = repeat 0 (S p) ++ repeat 1 (S p) ->
  c_degree c = Some (Z.of_nat p) -> c_ctrl c = Some P -> c_kv c = Some U ->
  fit_curve_knot_insertion working_class sv c data num = Ok c' ->
  exists k (T : list PrimFloat.float) (Q : list (list PrimFloat.float)),
    c' = mkCurve (K := Binary64) (Some (Z.of_nat p)) (Some Q) (Some T) 0 /\
    (len Q = Z.of_nat p + 2 ^ Z.of_nat k)%Z /\ (num <= len Q)%Z /\ (k = 0%nat \/ (Z.of_nat p + 2 ^ Z.of_nat (k - 1) < num)%Z) /\
    nth 0 Q [] = nth 0 P [] /\ last Q [] = last P [] /\ Forall (fun r => length r = 3%nat) Q /\
    Forall finite64 T /\ (len T = len Q + Z.of_nat p + 1)%Z /\
    (forall i, (0 <= i < len T)%Z ->
       kn (values T) i = if (i <=? Z.of_nat p)%Z then 0 else if (len Q <=? i)%Z then 1 else IZR (i - Z.of_nat p) / IZR (2 ^ Z.of_nat k)).
Proof.
  intros Hp Hnum H3 HP FU EU Hd Hc Hk H; rewrite (repeat_uniform p Hp) in EU.
  unfold fit_curve_knot_insertion, fit_curve_knot_insertion_fuel in H.
  assert (LP : len P = (Z.of_nat p + 1)%Z) by (unfold len; lia).
  assert (EC : copy_curve working_class c = Ok (mkCurve (K := Binary64) (Some (Z.of_nat p)) (Some P) (Some U) 0)).
  { unfold copy_curve; rewrite Hd, Hc, Hk; unfold set_degree; destruct (Z.ltb_spec (Z.of_nat p) 1); [lia|]; cbn [bind].
    change (cl_set_ctrl working_class) with (@store_ctrl Binary64); unfold store_ctrl; cbn [bind].
    unfold set_knot_vector; cbn [c_degree c_ctrl c_kv c_dim].
    assert (CK : check_knot_vector (Z.of_nat p) (NdArray (U : list Binary64)) (zlen P) = Ok true).
    { assert (CL : clamped (Z.of_nat p) (Z.of_nat p + 1) (values U)) by (rewrite EU; apply uniform_clamped; lia).
      assert (EN : (Z.of_nat p + 2 ^ Z.of_nat 0 = Z.of_nat p + 1)%Z) by (cbn; lia).
      assert (P1000 : 1 <= 2 ^ 1000) by (apply pow_R1_Rle; lra).
      rewrite <- EN, <- half_start in EU by lia.
      apply (check_clamped_b64 (Z.of_nat p) (len P) U FU); [rewrite LP; exact CL| |].
      - pose proof (half_within (Z.of_nat p) 0 ltac:(lia) 0 U ltac:(lia) FU EU) as WT; eapply Forall_impl; [|exact WT]; intros y (_ & B); rewrite Rabs_right; lra.
      - rewrite EU, LP; change (2 ^ Z.of_nat 0)%Z with 1%Z; replace (Z.of_nat p + 1)%Z with (1 + Z.of_nat p + 0)%Z by lia; rewrite half_kn_end by lia.
        rewrite half_kn by lia; unfold gz; destruct (Z.leb_spec 0 (Z.of_nat p)); [|lia]; rewrite frac_0.
        assert (/ 2 ^ 1000 <= / 1) by (apply Rinv_le_contravar; lra); lra. }
    match goal with |- bind ?m _ = _ => replace m with (Ok true : res bool) by (symmetry; exact CK) end; reflexivity. }
  rewrite EC in H; cbn [bind] in H.
  destruct (insertion_loop64 sv data (Z.of_nat p) num ltac:(lia) Hnum _ 0 U P c' FU EU LP H3 (or_introl eq_refl) H)
    as (k & T & Q & -> & FT & VT & L & G1 & G2 & F & A & B).
  exists k, T, Q; split; [reflexivity|]; split; [exact L|]; split; [exact G1|]; split; [exact G2|]; split; [exact A|]; split; [exact B|]; split; [exact F|].
  split; [exact FT|].
  assert (0 < 2 ^ Z.of_nat k)%Z by (apply Z.pow_pos_nonneg; lia).
  assert (LU : (len T = len Q + Z.of_nat p + 1)%Z).
  { rewrite <- len_values, VT; unfold uniform, len at 1; rewrite tab_length; lia. }
  split; [exact LU|]; intros i Hi; rewrite LU in Hi; rewrite VT, uniform_eq, kn_tab by lia; rewrite L.
  replace (Z.of_nat p + 2 ^ Z.of_nat k - Z.of_nat p)%Z with (2 ^ Z.of_nat k)%Z by lia; reflexivity.
Qed.
