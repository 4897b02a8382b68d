(** Fits of interior problems on binary64 numbers, for any least-squares solver. *)
From Coq Require Import Reals Lra Lia ZArith List Floats Permutation Sorted.
From Flocq Require Import Core.Core IEEE754.BinarySingleNaN IEEE754.PrimFloat.
From Verif Require Import Py PyLemmas Num ModelKnots ModelBasis ModelCurve ModelSurface ModelInit ModelParam ModelFit ModelIO ModelData Spec SpecFit SpecParam SpecData SpecB64
  MathCox MathKnots ProofNum ProofKnots ProofCurve ProofSurface ProofFit ProofFit5 ProofFit6 ProofFit7 ProofData5 ProofB64 ProofB64Basis ProofB64Knots ProofB64Span ProofB64Curve ProofB64Surface
  ProofB64Param ProofB64Sort ProofB64Guess ProofB64Insert ProofB64Insert2 ProofB64Uniform ProofB64Init2 ProofB64Init3 ProofB64Ends ProofB64Fit ProofB64Edges ProofB64Unity2.
Import ListNotations.
Open Scope R_scope.

(** ** The border of the net, over any numbers *)
Section Any.
Context {K : Num}.
Lemma single_fit_surface_any sv (s s' : surf K) rows nu nv : s_nu s = Z.of_nat nu -> s_nv s = Z.of_nat nv -> (1 <= nu)%nat -> (1 <= nv)%nat ->
  length (s_ctrl s) = (nu * nv)%nat -> Forall (fun r => length r = 3%nat) (s_ctrl s) -> single_fit_surface sv s rows = Ok s' ->
  exists Q, s' = mkSurf (s_pu s) (s_pv s) (s_nu s) (s_nv s) Q (s_ku s) (s_kv s) /\ length Q = (nu * nv)%nat /\ Forall (fun r => length r = 3%nat) Q /\
    forall i j, (i < nu)%nat -> (j < nv)%nat -> on_edge nu nv i j -> nth (i * nv + j) Q [] = nth (i * nv + j) (s_ctrl s) [].
Proof.
  intros Eu Ev Hu Hv HL H3 H; unfold single_fit_surface in H.
  apply bind_Ok in H; destruct H as (us & _ & H); apply bind_Ok in H; destruct H as (vs & _ & H).
  apply bind_Ok in H; destruct H as (N & _ & H); apply bind_Ok in H; destruct H as (_u & _ & H).
  apply bind_Ok in H; destruct H as (mask & HM & H); apply bind_Ok in H; destruct H as (Q & HQ & H); injection H as <-.
  destruct (surf_mask_tab nu nv Hu Hv) as (m & Em & Lm & Hm).
  unfold zlen in HM; rewrite HL, Eu, Ev, Em in HM; injection HM as <-.
  destruct (fit_coordinates_any sv N rows (s_ctrl s) Q m ltac:(congruence) H3 HQ) as (LQ & F & E).
  exists Q; split; [reflexivity|]; split; [congruence|]; split; [exact F|].
  intros i j Hi Hj O; apply E, Hm; assumption.
Qed.
Lemma fit_surface_any sv (s s' : surf K) data top bottom nu nv : s_nu s = Z.of_nat nu -> s_nv s = Z.of_nat nv -> (1 <= nu)%nat -> (1 <= nv)%nat ->
  length (s_ctrl s) = (nu * nv)%nat -> Forall (fun r => length r = 3%nat) (s_ctrl s) -> fit_surface sv s data top bottom = Ok s' ->
  (exists out, parameterize_surface (beh_of_surf s) data = Ok out) /\
  (exists t b, top = Some t /\ bottom = Some b /\ dt_cols t = (dt_cols data + 1)%Z /\ dt_cols b = (dt_cols data + 1)%Z) /\
  exists Q, s' = mkSurf (s_pu s) (s_pv s) (s_nu s) (s_nv s) Q (s_ku s) (s_kv s) /\ length Q = (nu * nv)%nat /\ Forall (fun r => length r = 3%nat) Q /\
    forall i j, (i < nu)%nat -> (j < nv)%nat -> on_edge nu nv i j -> nth (i * nv + j) Q [] = nth (i * nv + j) (s_ctrl s) [].
Proof.
  intros Eu Ev Hu Hv HL H3 H.
  assert (EP : exists out, parameterize_surface (beh_of_surf s) data = Ok out).
  { unfold fit_surface in H; apply bind_Ok in H; destruct H as (out & E & _); exists out; exact E. }
  split; [exact EP|]; destruct EP as (out & EP).
  destruct top as [t|]; [|exfalso; exact (fit_surface_no_boundary _ _ _ _ _ _ _ (or_introl eq_refl) H)].
  destruct bottom as [b|]; [|exfalso; exact (fit_surface_no_boundary _ _ _ _ _ _ _ (or_intror eq_refl) H)].
  split.
  - exists t, b; do 2 (split; [reflexivity|]).
    destruct (Z.eq_dec (dt_cols t) (dt_cols data + 1)) as [A|A]; [destruct (Z.eq_dec (dt_cols b) (dt_cols data + 1)) as [C|C]; [auto|]|];
      rewrite (fit_surface_bad_width _ sv s data t b out EP) in H; try discriminate; [right|left]; assumption.
  - unfold fit_surface in H; rewrite EP in H; cbn [bind] in H.
    apply bind_Ok in H; destruct H as (_v & _ & H); apply bind_Ok in H; destruct H as (ord & _ & H).
    exact (single_fit_surface_any sv s s' ord nu nv Eu Ev Hu Hv HL H3 H).
Qed.
End Any.

(** ** Exact widths *)
Lemma pow2_undoes (w : PrimFloat.float) k : (k <= 1000)%nat -> finite64 w -> value w = / 2 ^ k -> undoes64 w.
Proof.
  intros Hk F E; pose proof (pow2_good k Hk) as G.
  split; [rewrite E; exact (proj1 (proj1 G))|].
  assert (X : exactly 1 (w * (1 / w))%float).
  { apply (back 1%float w (/ 2 ^ k) w); [apply (conj finite_1 value_1)|split; assumption|split; assumption|exact G]. }
  destruct X as (F1 & V1); pose proof finite_1 as F2; pose proof value_1 as V2.
  destruct (same_values _ _ F1 F2 ltac:(congruence)) as [S|((_ & S) & _)]; [exact S|exfalso; lra].
Qed.
Lemma pow2_widths q nv k (V : list PrimFloat.float) : (1 <= q)%nat -> (k <= 49)%nat -> (Z.of_nat nv = Z.of_nat q + 2 ^ Z.of_nat k)%Z ->
  generate_uniform (Z.of_nat q) (Z.of_nat nv) = Ok (V : list Binary64) ->
  undoes64 (nth (S q) V 0%float) /\ undoes64 (1 - nth (nv - 1) V 0)%float.
Proof.
  intros Hq Hk Hn E; destruct (generate_uniform_pow2 (Z.of_nat q) (Z.of_nat nv) k V ltac:(lia) Hn Hk E) as (F & L & H).
  assert (HN : (1 <= 2 ^ Z.of_nat k)%Z) by (pose proof (Z.pow_pos_nonneg 2 (Z.of_nat k)); lia).
  set (N := (2 ^ Z.of_nat k)%Z) in *; assert (NR : 0 < IZR N) by (apply IZR_lt; lia).
  assert (NP : IZR N = 2 ^ k) by (unfold N; rewrite <- (pow_IZR 2 k); reflexivity).
  assert (A : forall i, (Z.of_nat i < len V)%Z -> finite64 (nth i V 0%float) /\ value (nth i V 0%float) = kn (values V) (Z.of_nat i)).
  { intros i Hi; split; [rewrite Forall_forall in F; apply F, nth_In; unfold len in Hi; lia|].
    rewrite (kn_values V (Z.of_nat i) 0%float) by lia; rewrite Nat2Z.id; reflexivity. }
  split.
  - destruct (A (S q) ltac:(lia)) as (F1 & V1).
    assert (W : value (nth (S q) V 0%float) = / 2 ^ k).
    { rewrite V1, H by lia; destruct (Z.leb_spec (Z.of_nat (S q)) (Z.of_nat q)); [lia|].
      destruct (Z.leb_spec (Z.of_nat nv) (Z.of_nat (S q))) as [G|G].
      - assert (N = 1%Z) by lia; rewrite <- NP; replace (IZR N) with 1 by (rewrite H1; reflexivity); field.
      - rewrite <- NP; replace (Z.of_nat (S q) - Z.of_nat q)%Z with 1%Z by lia; unfold Rdiv; ring. }
    apply (pow2_undoes _ k); [lia|exact F1|exact W].
  - destruct (A (nv - 1)%nat ltac:(lia)) as (F1 & V1).
    assert (W : 1 - value (nth (nv - 1) V 0%float) = / 2 ^ k).
    { rewrite V1, H by lia; rewrite <- NP; replace (Z.of_nat (nv - 1)) with (Z.of_nat nv - 1)%Z by lia.
      destruct (Z.leb_spec (Z.of_nat nv - 1) (Z.of_nat q)) as [G|G].
      - assert (N = 1%Z) by lia; replace (IZR N) with 1 by (rewrite H0; reflexivity); field.
      - destruct (Z.leb_spec (Z.of_nat nv) (Z.of_nat nv - 1)); [lia|].
        replace (Z.of_nat nv - 1 - Z.of_nat q)%Z with (N - 1)%Z by lia; rewrite minus_IZR; field; lra. }
    assert (FM : rnd (/ 2 ^ k) = / 2 ^ k).
    { apply rnd_fmt; replace (/ 2 ^ k) with (bpow radix2 (- Z.of_nat k)) by (rewrite bpow_opp, bpow_powerRZ, <- pow_powerRZ; reflexivity); apply fmt_bpow; lia. }
    assert (G1 : finite64 1%float) by exact finite_1; assert (G2 : value 1%float = 1) by exact value_1.
    destruct (sub64 1%float (nth (nv - 1) V 0%float) G1 F1) as (F2 & V2).
    { rewrite G2, W, FM, Rabs_right by (left; apply Rinv_0_lt_compat, pow_lt; lra).
      replace (/ 2 ^ k) with (bpow radix2 (- Z.of_nat k)) by (rewrite bpow_opp, bpow_powerRZ, <- pow_powerRZ; reflexivity); apply bpow_lt; lia. }
    apply (pow2_undoes _ k); [lia|exact F2|]; rewrite V2, G2, W; exact FM.
Qed.

(** ** Equal doubles *)
Lemma eqb_same x y : (x =? y)%float = true -> same x y.
Proof.
  rewrite FloatAxioms.eqb_spec; unfold SpecFloat.SFeqb; intros H.
  assert (G : FloatOps.Prim2SF x = FloatOps.Prim2SF y \/ exists s s', FloatOps.Prim2SF x = SpecFloat.S754_zero s /\ FloatOps.Prim2SF y = SpecFloat.S754_zero s').
  { destruct (FloatOps.Prim2SF x) as [s|[|]| |[|] m e]; destruct (FloatOps.Prim2SF y) as [s'|[|]| |[|] m' e']; cbn in H; try discriminate H; eauto.
    - destruct (Z.compare_spec e e') as [->| |]; cbn in H; try discriminate H.
      left; f_equal; change (Pos.compare_cont Eq m m') with (Pos.compare m m') in H; destruct (Pos.compare_spec m m') as [->| |]; cbn in H; try discriminate H; reflexivity.
    - destruct (Z.compare_spec e e') as [->| |]; cbn in H; try discriminate H.
      left; f_equal; change (Pos.compare_cont Eq m m') with (Pos.compare m m') in H; destruct (Pos.compare_spec m m') as [->| |]; cbn in H; try discriminate H; reflexivity. }
  destruct G as [G|(s & s' & A & B)]; [left; apply FloatAxioms.Prim2SF_inj; exact G|right].
  assert (Z : forall z b, FloatOps.Prim2SF z = SpecFloat.S754_zero b -> exactly 0 z).
  { intros z b E; rewrite <- B2SF_Prim2B in E; unfold exactly; rewrite finite_B, value_B.
    destruct (Prim2B z); cbn in E; try discriminate E; split; reflexivity. }
  split; eauto.
Qed.
Lemma same_trans x y z : same x y -> same y z -> same x z.
Proof.
  intros [->|(A & B)] H; [exact H|]; destruct H as [<-|(C & D)]; right; split; assumption.
Qed.
Lemma equal_same x y : equal64 x y -> Forall2 same x y.
Proof. induction 1 as [|a b l l' H]; constructor; [apply eqb_same; exact H|assumption]. Qed.
Lemma Forall2_same_trans x y z : Forall2 same x y -> Forall2 same y z -> Forall2 same x z.
Proof.
  intros H; revert z; induction H as [|a b l l' H1 H IH]; intros z H2; inversion H2; subst; constructor; [eapply same_trans; eassumption|auto].
Qed.
Lemma near_same e x y r : Forall2 same x y -> near64 e y r -> near64 e x r.
Proof.
  intros H; revert r; induction H as [|a b l l' H1 H IH]; intros r N; inversion N as [|? b' ? r' (F & B) N']; subst; constructor; [|apply IH; exact N'].
  destruct (same_finite b a (same_sym _ _ H1) F) as (Fa & E); split; [exact Fa|rewrite <- E; exact B].
Qed.
Lemma near_finite e y r : near64 e y r -> Forall finite64 y.
Proof. induction 1 as [|a b l l' (F & _)]; constructor; assumption. Qed.

(** Control points equal up to the sign of their zeros give equal points. *)
Lemma same_curve p (U : list PrimFloat.float) (P P' : list (list PrimFloat.float)) x s b d d' y y' : found64 p (len P) U x s b -> length P' = length P ->
  Forall (fun r => length r = 3%nat) P -> Forall (fun r => length r = 3%nat) P' ->
  (forall i c, (i < length P)%nat -> (c < 3)%nat -> same (nth c (nth i P []) 0%float) (nth c (nth i P' []) 0%float)) ->
  single_point (mkCurve (K := Binary64) (Some (Z.of_nat p)) (Some P) (Some U) d) x = Ok y ->
  single_point (mkCurve (K := Binary64) (Some (Z.of_nat p)) (Some P') (Some U) d') x = Ok y' -> Forall2 same y y'.
Proof.
  intros Fo HL H3 H3' HS E E'.
  assert (Fo' : found64 p (len P') U x s b) by (unfold len in *; rewrite HL; exact Fo).
  rewrite (found_point p U P x s b d Fo H3) in E; rewrite (found_point p U P' x s b d' Fo' H3') in E'.
  injection E as <-; injection E' as <-; destruct Fo as (_ & _ & _ & Hs & _).
  assert (G : forall c, (c < 3)%nat -> same (vdot b (tab (S p) (fun i => entry P c (s - Z.of_nat p + i)))) (vdot b (tab (S p) (fun i => entry P' c (s - Z.of_nat p + i))))).
  { intros c Hc; rewrite !(vdot_comm b); apply same_dot, Forall2_tab; intros i Hi; unfold entry; apply HS; [unfold len in Hs; lia|exact Hc]. }
  cbn [map]; repeat (apply Forall2_cons; [apply G; lia|]); apply Forall2_nil.
Qed.

(** ** The fitted surface meets its boundary curves *)
Section Meets.
Variables (p q nu nv : nat) (U V : list PrimFloat.float) (Q T B : list (list PrimFloat.float)) (M M' : R) (d : Z).
Hypothesis WU : within 0 1 U.
Hypothesis WV : within 0 1 V.
Hypothesis CU : clamped (Z.of_nat p) (Z.of_nat nu) (values U).
Hypothesis CV : clamped (Z.of_nat q) (Z.of_nat nv) (values V).
Hypothesis Hp1 : (1 <= p)%nat.
Hypothesis Hq1 : (1 <= q)%nat.
Hypothesis Hp : INR p <= 2 ^ 40.
Hypothesis Hq : INR q <= 2 ^ 40.
Hypothesis U0 : kn (values U) (Z.of_nat p) = 0.
Hypothesis U1 : kn (values U) (Z.of_nat nu) = 1.
Hypothesis V0 : kn (values V) (Z.of_nat q) = 0.
Hypothesis V1 : kn (values V) (Z.of_nat nv) = 1.
Hypothesis GU : forall i, (Z.of_nat p <= i < Z.of_nat nu)%Z -> / 2 ^ 1000 <= kn (values U) (i + 1) - kn (values U) i.
Hypothesis GV : forall i, (Z.of_nat q <= i < Z.of_nat nv)%Z -> / 2 ^ 1000 <= kn (values V) (i + 1) - kn (values V) i.
Hypothesis HL : length Q = (nu * nv)%nat.
Hypothesis HQ : Forall (fun row => length row = 3%nat /\ within (- M') M' row) Q.
Hypothesis HM' : 0 <= M' <= 2 ^ 890.
Hypothesis HT : Forall (fun row => length row = 3%nat /\ within (- M) M row) T.
Hypothesis HB : Forall (fun row => length row = 3%nat /\ within (- M) M row) B.
Hypothesis LT : length T = nu.
Hypothesis LB : length B = nu.
Hypothesis HM : 0 <= M <= 2 ^ 889.
Notation S64 := (mkSurf (K := Binary64) (Z.of_nat p) (Z.of_nat q) (Z.of_nat nu) (Z.of_nat nv) Q U V).
Notation err := (8 * ulp64 * M + 2 * tiny64).
Variables (x : Binary64).
Hypothesis Fx : finite64 x.
Hypothesis Bx : 0 <= value x <= 1.
Hypothesis Tx : 1 - value x <= 102 / 100000000 -> kn (values U) (Z.of_nat nu - 1) <= value x.

Lemma meets_bottom : undoes64 (nth (S q) V 0%float) -> (forall i, (i < nu)%nat -> values (nth (i * nv) Q []) = values (nth i B [])) ->
  exists z w, surf_point S64 x 0%float = Ok z /\ single_point (mkCurve (K := Binary64) (Some (Z.of_nat p)) (Some B) (Some U) d) x = Ok w /\ equal64 z w.
Proof.
  intros A E; assert (P2 : 2 ^ 889 <= 2 ^ 900) by (apply Rle_pow; [lra|lia]).
  destruct (surface_edges64 p q nu nv U V Q WU WV CU CV Hp1 Hq1 U0 U1 V0 V1 HL M' d HQ HM' Hp Hq GU GV) as (_ & H).
  destruct (H x Fx Bx Tx) as (H1 & _); destruct (H1 A) as (z & w & Ez & Ew & Eq); clear H H1.
  assert (LB' : len B = Z.of_nat nu) by (unfold len; lia).
  destruct (single_point_b64 p U B d x M WU) as (w' & Ew' & Nw); rewrite ?LB'; try assumption; try lra.
  exists z, w'; split; [exact Ez|]; split; [exact Ew'|].
  apply same_equal; [|exact (near_finite _ _ _ Nw)].
  apply (Forall2_same_trans _ w); [apply equal_same; exact Eq|].
  assert (H3 : Forall (fun r => length r = 3%nat) Q) by (eapply Forall_impl; [|exact HQ]; intros r (L & _); exact L).
  assert (B3 : Forall (fun r => length r = 3%nat) B) by (eapply Forall_impl; [|exact HB]; intros r (L & _); exact L).
  assert (Hv : (1 <= nv)%nat) by (destruct (clamped_facts _ _ _ CV) as (_ & Hn & _); lia).
  destruct (net_col_shape nu nv Q 0 H3 HL ltac:(lia)) as (R3 & RL).
  destruct (found_weights p _ U x WU CU Hp U0 U1 GU Fx Bx Tx) as (s & b & Fo & _).
  assert (Fo' : found64 p (len (net_col nu nv Q 0)) U x s b) by (rewrite RL; exact Fo).
  refine (same_curve p U (net_col nu nv Q 0) B x s b d d w w' Fo' _ R3 B3 _ Ew Ew'); [unfold len in RL; lia|].
  intros i c Hi Hc; unfold len in RL; assert (Hi' : (i < nu)%nat) by lia.
  assert (EN : nth i (net_col nu nv Q 0) [] = nth (i * nv) Q []).
  { unfold net_col; rewrite (nth_indep _ _ (nth (0 * nv + 0) Q [])) by (rewrite map_length, seq_length; lia).
    rewrite (map_nth (fun i => nth (i * nv + 0) Q []) (seq 0 nu) 0%nat), seq_nth, !Nat.add_0_r by lia; reflexivity. }
  rewrite EN; specialize (E i Hi').
  assert (I1 : In (nth (i * nv) Q []) Q) by (apply nth_In; rewrite HL; nia).
  assert (I2 : In (nth i B []) B) by (apply nth_In; lia).
  rewrite Forall_forall in HQ, HB; destruct (HQ _ I1) as (LQ & WQ); destruct (HB _ I2) as (LBi & WB).
  apply same_values.
  - apply within_finite in WQ; rewrite Forall_forall in WQ; apply WQ, nth_In; lia.
  - apply within_finite in WB; rewrite Forall_forall in WB; apply WB, nth_In; lia.
  - rewrite <- !nth_values; rewrite E; reflexivity.
Qed.

Lemma meets_top : undoes64 (1 - nth (nv - 1) V 0)%float ->
  (forall i, (i < nu)%nat -> near64 err (nth (i * nv + (nv - 1)) Q []) (lerp (values (nth i B [])) (values (nth i T [])) (INR (nv - 1) / INR (nv - 1)))) ->
  exists z, surf_point S64 x 1%float = Ok z /\
    near64 (15 * INR (p + 1) * (ulp64 * M + tiny64)) z (curve_xyz (values U) p (map values T) (value x)).
Proof.
  intros A E; assert (P2 : 2 ^ 889 <= 2 ^ 900) by (apply Rle_pow; [lra|lia]).
  assert (P3 : 1 <= 2 ^ 889) by (apply pow_R1_Rle; lra).
  assert (P9 : 2 * 2 ^ 889 = 2 ^ 890) by (change (2 ^ 890) with (2 ^ (1 + 889)); rewrite pow_add, pow_1; reflexivity).
  assert (P4 : 2 ^ 890 <= 2 ^ 900) by (apply Rle_pow; [lra|lia]).
  destruct (surface_edges64 p q nu nv U V Q WU WV CU CV Hp1 Hq1 U0 U1 V0 V1 HL M' d HQ HM' Hp Hq GU GV) as (_ & H).
  destruct (H x Fx Bx Tx) as (_ & H1); destruct (H1 A) as (z & w & Ez & Ew & Eq); clear H H1.
  assert (H3 : Forall (fun r => length r = 3%nat) Q) by (eapply Forall_impl; [|exact HQ]; intros r (L & _); exact L).
  assert (Hv : (2 <= nv)%nat) by (destruct (clamped_facts _ _ _ CV) as (_ & Hn & _); lia).
  destruct (net_col_shape nu nv Q (nv - 1) H3 HL ltac:(lia)) as (R3 & RL).
  pose proof ulp64_small as Hul; pose proof tiny_small as Ht.
  assert (uM : 0 <= ulp64 * M <= / 1000 * M) by (split; [apply Rmult_le_pos; lra|apply Rmult_le_compat_r; lra]).
  assert (EN : forall i, (i < nu)%nat -> nth i (net_col nu nv Q (nv - 1)) [] = nth (i * nv + (nv - 1)) Q []).
  { intros i Hi; unfold net_col; rewrite (nth_indep _ _ (nth (0 * nv + (nv - 1)) Q [])) by (rewrite map_length, seq_length; lia).
    rewrite (map_nth (fun i => nth (i * nv + (nv - 1)) Q []) (seq 0 nu) 0%nat), seq_nth by lia; reflexivity. }
  assert (RN : forall i, (i < nu)%nat -> near64 err (nth (i * nv + (nv - 1)) Q []) (values (nth i T []))).
  { intros i Hi; pose proof (E i Hi) as N.
    assert (I1 : In (nth i T []) T) by (apply nth_In; lia); rewrite Forall_forall in HT; destruct (HT _ I1) as (LTi & _).
    replace (INR (nv - 1) / INR (nv - 1)) with 1 in N by (field; apply not_0_INR; lia).
    replace (values (nth i T [])) with (lerp (values (nth i B [])) (values (nth i T [])) 1); [exact N|].
    unfold lerp; cbn [map]; destruct (nth i T []) as [|t0 [|t1 [|t2 [|]]]]; try discriminate LTi; cbn [values map nth]; repeat f_equal; ring. }
  assert (WC : Forall (fun row => length row = 3%nat /\ within (- (M + err)) (M + err) row) (net_col nu nv Q (nv - 1))).
  { apply Forall_forall; intros row HR; split; [rewrite Forall_forall in R3; exact (R3 _ HR)|].
    destruct (In_nth _ _ [] HR) as (i & Hi & <-); unfold len in RL; assert (Hi' : (i < nu)%nat) by lia.
    rewrite EN by exact Hi'; apply near64_within with (1 := RN i Hi').
    assert (I1 : In (nth i T []) T) by (apply nth_In; lia); rewrite Forall_forall in HT; destruct (HT _ I1) as (_ & WT).
    unfold values; rewrite Forall_map; eapply Forall_impl; [|exact WT]; intros a (_ & Ba); exact Ba. }
  destruct (single_point_b64 p U (net_col nu nv Q (nv - 1)) d x (M + err) WU) as (w' & Ew' & Nw); rewrite ?RL; try assumption; try lra.
  rewrite Ew in Ew'; injection Ew' as <-.
  exists z; split; [exact Ez|]; apply (near_same _ z w); [apply equal_same; exact Eq|].
  assert (CL : Forall2 (fun a b => Rabs (a - b) <= err) (curve_xyz (values U) p (map values (net_col nu nv Q (nv - 1))) (value x)) (curve_xyz (values U) p (map values T) (value x))).
  { apply (curve_xyz_close (values U) p nu); try assumption; rewrite ?map_length; try (unfold len in RL; lia); [lra|].
    intros i c Hi Hc; change (@nil R) with (values []); rewrite !(map_nth values), EN by exact Hi.
    apply near64_nth; [apply RN; exact Hi|].
    assert (I1 : In (nth i T []) T) by (apply nth_In; lia); rewrite Forall_forall in HT; destruct (HT _ I1) as (LTi & _).
    unfold values; rewrite map_length; lia. }
  apply near64_le with (1 := near64_trans _ _ _ _ _ Nw CL).
  assert (I2 : 2 <= INR (S p)) by (replace 2 with (INR 2) by (cbn; lra); apply le_INR; lia).
  replace (p + 1)%nat with (S p) by lia.
  assert (ue : ulp64 * err <= / 100 * (ulp64 * M) + / 100 * tiny64).
  { assert (ulp64 * (ulp64 * M) <= / 1000 * (ulp64 * M)) by (apply Rmult_le_compat_r; lra).
    assert (ulp64 * tiny64 <= / 1000 * tiny64) by (apply Rmult_le_compat_r; lra); lra. }
  assert (J1 : 2 * (ulp64 * M) <= INR (S p) * (ulp64 * M)) by (apply Rmult_le_compat_r; lra).
  assert (J2 : 2 * tiny64 <= INR (S p) * tiny64) by (apply Rmult_le_compat_r; lra).
  assert (J3 : INR (S p) * (ulp64 * err) <= INR (S p) * (/ 100 * (ulp64 * M) + / 100 * tiny64)) by (apply Rmult_le_compat_l; lra).
  lra.
Qed.
End Meets.

Lemma interior_fit64 sv (ip ip' : iproblem Binary64) (t b : bproblem Binary64) ct cb p q nu nv (T B : list (list PrimFloat.float)) (U : list PrimFloat.float) M (data : list (list PrimFloat.float)) :
  ip_init ip = None -> ip_top ip = Some t -> ip_bottom ip = Some b ->
  ip_degree ip = Some (Z.of_nat q) -> ip_num ip = Some (Z.of_nat nv) -> ip_data ip = Some (mkData (K := Binary64) 3 data) ->
  Forall (fun r => length r = 3%nat /\ Forall finite64 r) data ->
  bp_degree t = Some (Z.of_nat p) -> bp_degree b = Some (Z.of_nat p) ->
  bp_num t = Some (Z.of_nat nu) -> bp_num b = Some (Z.of_nat nu) ->
  bp_fit t = Some ct -> bp_fit b = Some cb -> c_ctrl ct = Some T -> c_ctrl cb = Some B -> c_kv cb = Some U ->
  Forall (fun row => length row = 3%nat /\ within (- M) M row) T -> Forall (fun row => length row = 3%nat /\ within (- M) M row) B ->
  length T = nu -> length B = nu -> (Z.of_nat nu <= 2 ^ 48)%Z -> 0 <= M <= 2 ^ 889 ->
  (1 <= p)%nat -> INR p <= 2 ^ 40 -> (1 <= q)%nat -> INR q <= 2 ^ 40 -> (q + 1 <= nv)%nat -> (Z.of_nat nv - Z.of_nat q <= 490000)%Z ->
  within 0 1 U -> clamped (Z.of_nat p) (Z.of_nat nu) (values U) ->
  kn (values U) (Z.of_nat p) = 0 -> kn (values U) (Z.of_nat nu) = 1 ->
  (forall i, (Z.of_nat p <= i < Z.of_nat nu)%Z -> / 2 ^ 1000 <= kn (values U) (i + 1) - kn (values U) i) ->
  ip_fit_run working_surface sv ip = (ip', Ok tt) ->
  exists (V : list PrimFloat.float) (P Q : list (list PrimFloat.float)) (rows : list (list PrimFloat.float)) (uvs : list (PrimFloat.float * PrimFloat.float)),
  let S0 := mkSurf (K := Binary64) (Z.of_nat p) (Z.of_nat q) (Z.of_nat nu) (Z.of_nat nv) P U V in
  let S1 := mkSurf (K := Binary64) (Z.of_nat p) (Z.of_nat q) (Z.of_nat nu) (Z.of_nat nv) Q U V in
    init_surface working_surface (Some t) (Some b) (Some (Z.of_nat q)) (Some (Z.of_nat nv)) = Ok S0 /\
    generate_uniform (Z.of_nat q) (Z.of_nat nv) = Ok (V : list Binary64) /\
    ip_init ip' = Some S0 /\ ip_fit ip' = Some S1 /\ length Q = (nu * nv)%nat /\ Forall (fun r => length r = 3%nat) Q /\
    (exists top bottom, bp_param t = Some top /\ bp_param b = Some bottom /\ dt_cols top = 4%Z /\ dt_cols bottom = 4%Z) /\
    (forall i j, (i < nu)%nat -> (j < nv)%nat -> on_edge nu nv i j ->
       nth (i * nv + j) Q [] = nth (i * nv + j) P [] /\
       near64 (8 * ulp64 * M + 2 * tiny64) (nth (i * nv + j) Q []) (lerp (values (nth i B [])) (values (nth i T [])) (INR j / INR (nv - 1)))) /\
    (forall i, (i < nu)%nat -> values (nth (i * nv) Q []) = values (nth i B [])) /\
    ip_param ip' = Some (mkData (K := Binary64) 5 rows) /\
    Forall2 (fun (r : list PrimFloat.float) (uv : PrimFloat.float * PrimFloat.float) =>
      surface_inversion (beh_of_surf S1) (r : list Binary64) lit_1em5 lit_1em5 100 = Ok (uv : Binary64 * Binary64) /\ unit64 (fst uv) /\ unit64 (snd uv)) data uvs /\
    Permutation rows (map (fun t => fst t ++ [fst (snd t); snd (snd t)]) (combine data uvs)) /\
    StronglySorted (fun a b => lex_le [3%nat; 4%nat; 0%nat; 1%nat; 2%nat] (values a) (values b)) rows /\
    (forall k, (Z.of_nat nv = Z.of_nat q + 2 ^ Z.of_nat k)%Z -> undoes64 (nth (S q) V 0%float) /\ undoes64 (1 - nth (nv - 1) V 0)%float) /\
    forall M' d, Forall (within (- M') M') Q -> 0 <= M' <= 2 ^ 890 ->
    forall x : Binary64, finite64 x -> 0 <= value x <= 1 -> (1 - value x <= 102 / 100000000 -> kn (values U) (Z.of_nat nu - 1) <= value x) ->
      (undoes64 (nth (S q) V 0%float) -> exists z w, surf_point S1 x 0%float = Ok z /\
         single_point (mkCurve (K := Binary64) (Some (Z.of_nat p)) (Some B) (Some U) d) x = Ok w /\ equal64 z w) /\
      (undoes64 (1 - nth (nv - 1) V 0)%float -> exists z, surf_point S1 x 1%float = Ok z /\
         near64 (15 * INR (p + 1) * (ulp64 * M + tiny64)) z (curve_xyz (values U) p (map values T) (value x))).
Proof.
  intros I0 It Ib Id In Ia FD Dt Db Nt Nb Ft Fb Ct Cb Kb HT HB LT LB Hnu HM Hp1 Hp Hq1 Hq Hv Hb WU CU U0 U1 GU HR.
  destruct (ruled_surface_b64 t b ct cb p q nu nv T B U M) as (V & P & phi & HX); try assumption; cbv zeta in HX.
  destruct HX as (EI & EV & LP & NP & BP & _).
  set (S0 := mkSurf (K := Binary64) (Z.of_nat p) (Z.of_nat q) (Z.of_nat nu) (Z.of_nat nv) P U V) in *.
  assert (Hu : (p + 1 <= nu)%nat) by (destruct (clamped_facts _ _ _ CU) as (_ & Hn & _); lia).
  assert (P3 : Forall (fun r => length r = 3%nat) P).
  { apply Forall_forall; intros row HRw; destruct (In_nth _ _ [] HRw) as (k & Hk & <-); rewrite LP in Hk.
    assert (D : k = ((k / nv) * nv + k mod nv)%nat) by (pose proof (Nat.div_mod k nv); lia).
    assert (D1 : (k / nv < nu)%nat) by (apply Nat.div_lt_upper_bound; lia); assert (D2 : (k mod nv < nv)%nat) by (apply Nat.mod_upper_bound; lia).
    rewrite D; exact (Forall2_len _ _ _ (NP _ _ D1 D2)). }
  revert HR; unfold ip_fit_run; rewrite I0; unfold ip_set_init; rewrite It, Ib, Id, In.
  match goal with |- context [init_surface ?w ?a ?b' ?c ?d'] => replace (init_surface w a b' c d') with (Ok S0) by (symmetry; exact EI) end.
  cbn [bind finish andthen ip_init ip_data ip_top ip_bottom ip_degree ip_num ip_param ip_fit]; rewrite Ia.
  destruct (fit_surface sv S0 (mkData (K := Binary64) 3 data) (bp_param t) (bp_param b)) as [S1|e|] eqn:EF; try discriminate.
  destruct (fit_surface_any (K := Binary64) sv S0 S1 (mkData (K := Binary64) 3 data) (bp_param t) (bp_param b) nu nv eq_refl eq_refl ltac:(lia) ltac:(lia) LP P3 EF)
    as (_ & (top & bot & Et & Eb & Ct4 & Cb4) & Q & ES & LQ & Q3 & HE).
  cbn [s_pu s_pv s_nu s_nv s_ctrl s_ku s_kv S0] in ES, HE; subst S1.
  set (S1 := mkSurf (K := Binary64) (Z.of_nat p) (Z.of_nat q) (Z.of_nat nu) (Z.of_nat nv) Q U V) in *.
  unfold ip_parameterize; cbn [ip_init ip_fit ip_data ip_top ip_bottom ip_degree ip_num ip_param parameterize_surface_opt].
  destruct (parameterize_surface (beh_of_surf S1) (mkData (K := Binary64) 3 data)) as [rows|e|] eqn:EQ; try discriminate.
  intros HR; injection HR as <-.
  assert (Hq40 : (Z.of_nat q <= 2 ^ 40)%Z).
  { apply le_IZR; rewrite <- INR_IZR_INZ; replace (IZR (2 ^ 40)) with (2 ^ 40) by (cbn; lra); exact Hq. }
  destruct (surface_sorted64 (beh_of_surf S1) data rows) as (uvs & R1 & R2 & R3); try exact EQ; try assumption.
  { change (sb_nu (beh_of_surf S1)) with (Z.of_nat nu); lia. }
  { change (sb_nv (beh_of_surf S1)) with (Z.of_nat nv); lia. }
  { intros a c z Ea; destruct (surf_unit64 S1 a c z Ea); split; apply unit_number; assumption. }
  { intros a c m; apply surf_derivatives_width. }
  exists V, P, Q, rows, uvs; cbv zeta; fold S0 S1.
  split; [reflexivity|]; split; [exact EV|]; split; [reflexivity|]; split; [reflexivity|]; split; [exact LQ|]; split; [exact Q3|].
  split; [exists top, bot; auto|].
  assert (HE' : forall i j, (i < nu)%nat -> (j < nv)%nat -> on_edge nu nv i j -> nth (i * nv + j) Q [] = nth (i * nv + j) P []) by exact HE.
  assert (HN : forall i j, (i < nu)%nat -> (j < nv)%nat -> on_edge nu nv i j ->
    near64 (8 * ulp64 * M + 2 * tiny64) (nth (i * nv + j) Q []) (lerp (values (nth i B [])) (values (nth i T [])) (INR j / INR (nv - 1)))).
  { intros i j Hi Hj O; rewrite HE' by assumption; apply NP; assumption. }
  assert (HB0 : forall i, (i < nu)%nat -> values (nth (i * nv) Q []) = values (nth i B [])).
  { intros i Hi; pose proof (HE' i 0%nat Hi ltac:(lia) (or_intror (or_intror (or_introl eq_refl)))) as E; rewrite Nat.add_0_r in E; rewrite E; apply BP; exact Hi. }
  split; [intros i j Hi Hj O; split; [apply HE'; assumption|apply HN; assumption]|].
  split; [exact HB0|]; split; [reflexivity|]; split; [exact R1|]; split; [exact R2|]; split; [exact R3|]; split.
  { intros k Hk; apply (pow2_widths q nv k V Hq1); try assumption.
    destruct (Nat.le_gt_cases k 49) as [|G]; [assumption|]; exfalso.
    pose proof (Z.pow_lt_mono_r 2 49 (Z.of_nat k) ltac:(lia) ltac:(lia) ltac:(lia)); lia. }
  intros M' d WQ HM' x Fx Bx Tx.
  assert (HQ : Forall (fun row => length row = 3%nat /\ within (- M') M' row) Q).
  { rewrite Forall_forall in *; intros r Hr; split; [exact (Q3 r Hr)|exact (WQ r Hr)]. }
  destruct (uniform_good (Z.of_nat q) (Z.of_nat nv) ltac:(lia) ltac:(lia) Hb) as (V' & EV' & WV & CV & V0 & V1 & GV & _).
  assert (V' = V) as -> by (rewrite EV in EV'; injection EV' as EV'; exact (eq_sym EV')).
  split; intros A.
  - apply (meets_bottom p q nu nv U V Q T B M M' d); assumption.
  - apply (meets_top p q nu nv U V Q T B M M' d); try assumption; intros i Hi; apply HN; try lia; right; right; right; reflexivity.
Qed.
