(** Surfaces (model: ModelDot.v) on binary64 numbers with dot products in any order. *)
From Coq Require Import Reals Lra Lia ZArith List Floats Bool.
From Flocq Require Import Core.Core.
From Verif Require Import Py PyLemmas Num ModelKnots ModelBasis ModelCurve ModelSurface ModelParam ModelDot Spec SpecParam SpecB64 SpecDot
  MathCox MathKnots MathJoin MathDeriv
  ProofNum ProofCurve ProofCurve2 ProofBasis ProofSpan ProofDers ProofDersAny ProofSurface ProofSurface2 ProofParam5 ProofB64 ProofB64Basis ProofB64Span
  ProofB64Curve ProofB64Surface ProofB64Knots ProofB64Uniform ProofB64Ders ProofB64Ders2 ProofB64Ders3 ProofB64Ders4 ProofDot ProofDot2.
Import ListNotations.
Open Scope R_scope.

Section B64.
Variable dot : list Z -> list PrimFloat.float -> list PrimFloat.float -> PrimFloat.float.
Hypothesis HD : dots64 dot.

Lemma dot2_dot_error site M p q (bu bv : list PrimFloat.float) wu wv (f : Z -> Z -> PrimFloat.float) :
  0 <= M <= 2 ^ 890 -> INR p <= 2 ^ 40 -> INR q <= 2 ^ 40 ->
  length bu = S p -> length bv = S q -> length wu = S p -> length wv = S q ->
  Forall (fun x => finite64 x /\ 0 <= value x) bu -> Forall (fun x => finite64 x /\ 0 <= value x) bv ->
  Forall (Rle 0) wu -> Forall (Rle 0) wv -> sumR wu = 1 -> sumR wv = 1 ->
  error1 (values bu) wu <= 8 * INR p * ulp64 -> error1 (values bv) wv <= 8 * INR q * ulp64 ->
  (forall i j, (0 <= i < Z.of_nat (S p))%Z -> (0 <= j < Z.of_nat (S q))%Z -> finite64 (f i j) /\ Rabs (value (f i j)) <= M) ->
  let y := dot site (tab (S q) (fun j => dot (site ++ [j]) bu (tab (S p) (fun i => f i j)))) bv in
  finite64 y /\
  Rabs (value y - rdot wv (tab (S q) (fun j => rdot wu (tab (S p) (fun i => value (f i j)))))) <=
    11 * INR (p + q + 1) * (ulp64 * M + tiny64).
Proof.
  intros HM Hp Hq Lu Lv Lwu Lwv Fu Fv Nu Nv Su Sv Eu Ev Hf; cbv zeta.
  pose proof ulp64_pos as Hu; pose proof ulp64_tiny as Ht; pose proof eta64_pos as He; rewrite tiny_eta.
  pose proof (pos_INR p) as P0; pose proof (pos_INR q) as Q0.
  assert (P890 : 1 <= 2 ^ 890) by (apply pow_R1_Rle; lra).
  assert (P900 : 4 * 2 ^ 890 <= 2 ^ 900).
  { replace (2 ^ 900) with (2 ^ 890 * 2 ^ 10) by (rewrite <- pow_add; reflexivity); cbn [pow] in *; lra. }
  set (E0 := ulp64 * M + eta64).
  assert (HE0 : 0 <= E0) by (unfold E0; pose proof (Rmult_le_pos ulp64 M); lra).
  set (tj := fun j => dot (site ++ [j]) bu (tab (S p) (fun i => f i j))).
  set (mj := fun j => rdot wu (tab (S p) (fun i => value (f i j)))).
  set (E1 := (10 * INR p + 4) * E0).
  assert (HE1 : 0 <= E1) by (apply Rmult_le_pos; lra).
  assert (B4 : 2 ^ 44 * ulp64 <= / 512).
  { replace (2 ^ 53) with (2 ^ 44 * 512) in Ht by (cbn [pow]; ring).
    apply Rmult_le_reg_r with 512; [lra|]; rewrite Rinv_l by lra; lra. }
  assert (Bk : forall k, 0 <= k <= 2 ^ 40 -> (10 * k + 4) * ulp64 <= / 512).
  { intros k Hk; apply Rle_trans with (2 ^ 44 * ulp64); [|exact B4]; apply Rmult_le_compat_r; [lra|].
    apply Rle_trans with (10 * 2 ^ 40 + 4); [lra|cbn [pow]; lra]. }
  assert (Bp := Bk (INR p) (conj P0 Hp)); assert (Bq := Bk (INR q) (conj Q0 Hq)).
  assert (Tj : forall j, (0 <= j < Z.of_nat (S q))%Z -> finite64 (tj j) /\ Rabs (value (tj j) - mj j) <= E1 /\ Rabs (mj j) <= M).
  { intros j Hj.
    assert (WB : within (- M) M (tab (S p) (fun i => f i j))).
    { apply Forall_tab; intros i Hi; destruct (Hf i j Hi Hj) as (F & A); split; [exact F|apply Rabs_le_inv; exact A]. }
    destruct (dotted_mean M bu (tab (S p) (fun i => f i j)) wu (8 * INR p) (tj j)) as (F & E); try assumption.
    - apply HD; rewrite Lu, tab_length; reflexivity.
    - lra.
    - rewrite Lu, S_INR; apply Rle_trans with (2 ^ 40 + 1); [lra|cbn [pow]; lra].
    - rewrite Lu, tab_length; reflexivity.
    - rewrite Lu, Lwu; reflexivity.
    - split; [lra|]; apply Rle_trans with (8 * 2 ^ 40); [lra|cbn [pow]; lra].
    - split; [exact F|]; split.
      + unfold mj, E1; unfold values in E at 1; rewrite map_tab in E.
        eapply Rle_trans; [exact E|]; apply Req_le; rewrite Lu, S_INR; unfold E0; ring.
      + unfold mj; rewrite <- (Rmult_1_l M), <- Su; apply rdot_abs; [exact Nu|rewrite tab_length; exact Lwu|].
        apply Forall_tab; intros i Hi; apply Hf; assumption. }
  set (M' := M + E1).
  assert (HE1M : E1 <= / 512 * M + / 512).
  { unfold E1, E0; rewrite Rmult_plus_distr_l, <- Rmult_assoc.
    apply Rplus_le_compat; [apply Rmult_le_compat_r; lra|].
    eapply Rle_trans; [|exact Bp]; apply Rmult_le_compat_l; [lra|].
    pose proof eta_ulp as EU; assert (1 <= 2 ^ 100) by (apply pow_R1_Rle; lra).
    apply Rle_trans with (eta64 * 2 ^ 100); [|exact EU]; rewrite <- (Rmult_1_r eta64) at 1; apply Rmult_le_compat_l; lra. }
  assert (WT : within (- M') M' (tab (S q) tj)).
  { apply Forall_tab; intros j Hj; destruct (Tj j Hj) as (F & A & B); split; [exact F|].
    apply Rabs_le_inv in A; apply Rabs_le_inv in B; unfold M'; lra. }
  destruct (dotted_mean M' bv (tab (S q) tj) wv (8 * INR q) (dot site (tab (S q) tj) bv)) as (F & E); try assumption.
  - apply (dot_swap dot HD); rewrite Lv, tab_length; reflexivity.
  - unfold M'; lra.
  - rewrite Lv, S_INR; apply Rle_trans with (2 ^ 40 + 1); [lra|cbn [pow]; lra].
  - rewrite Lv, tab_length; reflexivity.
  - rewrite Lv, Lwv; reflexivity.
  - split; [lra|]; apply Rle_trans with (8 * 2 ^ 40); [lra|cbn [pow]; lra].
  - split; [exact F|].
    assert (E2 : Rabs (rdot wv (values (tab (S q) tj)) - rdot wv (tab (S q) mj)) <= E1).
    { rewrite <- (Rmult_1_l E1), <- Sv; unfold values; rewrite map_tab; apply rdot_diff; [exact Nv|rewrite tab_length; exact Lwv|].
      apply Forall2_tab; intros j Hj; apply Tj; exact Hj. }
    match goal with |- Rabs (?a - ?c) <= _ =>
      replace (a - c) with ((a - rdot wv (values (tab (S q) tj))) + (rdot wv (values (tab (S q) tj)) - c)) by ring end.
    eapply Rle_trans; [apply Rabs_triang|].
    apply Rle_trans with ((2 * INR (length bv) + 8 * INR q + 2) * (ulp64 * M' + eta64) + E1);
      [apply Rplus_le_compat; [exact E|exact E2]|].
    rewrite Lv, S_INR; rewrite !plus_INR; cbn [INR].
    replace ((2 * (INR q + 1) + 8 * INR q + 2) * (ulp64 * M' + eta64))
      with ((10 * INR q + 4) * E0 + (10 * INR q + 4) * ulp64 * E1) by (unfold M', E0; ring).
    assert (Z1 : (10 * INR q + 4) * ulp64 * E1 <= / 512 * E1) by (apply Rmult_le_compat_r; lra).
    assert (Z2 : (10 * INR q + 4) * E0 + (1 + / 512) * E1 <= 11 * (INR p + INR q + 1) * E0); [|lra].
    unfold E1; rewrite <- Rmult_assoc, <- Rmult_plus_distr_r; apply Rmult_le_compat_r; lra.
Qed.

(** ** Points *)
Section Point.
Variables (p q nu nv : nat) (U V : list PrimFloat.float) (P : list (list PrimFloat.float)) (x y : Binary64) (s t : Z) (M : R).
Hypothesis WU : within 0 1 U.
Hypothesis WV : within 0 1 V.
Hypothesis HU : knots_for (Z.of_nat p) (Z.of_nat nu) (values U).
Hypothesis HV : knots_for (Z.of_nat q) (Z.of_nat nv) (values V).
Hypothesis HL : length P = (nu * nv)%nat.
Hypothesis HP : Forall (fun row => length row = 3%nat /\ within (- M) M row) P.
Hypothesis HM : 0 <= M <= 2 ^ 890.
Hypothesis Fx : finite64 x.
Hypothesis Fy : finite64 y.
Hypothesis Dx : 0 <= value x <= 1.
Hypothesis Dy : 0 <= value y <= 1.
Hypothesis Es : find_span (Z.of_nat nu) (Z.of_nat p) x U = Ok s.
Hypothesis Et : find_span (Z.of_nat nv) (Z.of_nat q) y V = Ok t.
Hypothesis Hs : (Z.of_nat p <= s < Z.of_nat nu)%Z.
Hypothesis Ht : (Z.of_nat q <= t < Z.of_nat nv)%Z.
Hypothesis Hx : kn (values U) s <= value x <= kn (values U) (s + 1).
Hypothesis Hy : kn (values V) t <= value y <= kn (values V) (t + 1).
Hypothesis Gu : / 2 ^ 1000 <= kn (values U) (s + 1) - kn (values U) s.
Hypothesis Gv : / 2 ^ 1000 <= kn (values V) (t + 1) - kn (values V) t.
Hypothesis Hp : INR p <= 2 ^ 40.
Hypothesis Hq : INR q <= 2 ^ 40.

Lemma surf_point_dot_b64_span : exists z,
  surf_point_dot (K := Binary64) dot (mkSurf (K := Binary64) (Z.of_nat p) (Z.of_nat q) (Z.of_nat nu) (Z.of_nat nv) P U V) x y = Ok z /\
  near64 (11 * INR (p + q + 1) * (ulp64 * M + tiny64)) z
    (span2_xyz (values U) (values V) s t p q nv (map values P) (value x) (value y)).
Proof.
  assert (H3 : Forall (fun row => length row = 3%nat) P) by (eapply Forall_impl; [|exact HP]; intros r (L & _); exact L).
  assert (Hpos : 0 < / 2 ^ 1000) by (apply Rinv_0_lt_compat, pow_lt; lra).
  destruct HU as (_ & _ & LU & NU); destruct HV as (_ & _ & LV & NV); rewrite len_values in LU, LV.
  destruct (basis_functions_b64 U s x p WU NU Fx Hx Gu) as (bu & Eu & Lu & Fu & Ru); try assumption; try lia.
  destruct (basis_functions_b64 V t y q WV NV Fy Hy Gv) as (bv & Ev & Lv & Fv & Rv); try assumption; try lia.
  eexists; split.
  { apply (surf_point_dot_any (K := Binary64) dot p q nu nv U V P x y s t bu bv); try assumption;
      apply validate64; assumption. }
  assert (G : forall c, (c < 3)%nat ->
    let v := dot2_dot (K := Binary64) dot [Z.of_nat c] bu bv p q nv s t (coordsK (0%float : Binary64) c P) in
    finite64 v /\ Rabs (value v - span2 (values U) (values V) s t p q nv (coords c (map values P)) (value x) (value y))
      <= 11 * INR (p + q + 1) * (ulp64 * M + tiny64)).
  { intros c Hc.
    set (f := fun i j => netK (0%float : Binary64) nv (coordsK (0%float : Binary64) c P) (s - Z.of_nat p + i) (t - Z.of_nat q + j)).
    assert (IX : forall i j, (0 <= i < Z.of_nat (S p))%Z -> (0 <= j < Z.of_nat (S q))%Z ->
      (0 <= (s - Z.of_nat p + i) * Z.of_nat nv + (t - Z.of_nat q + j) < len P)%Z).
    { intros i j Hi Hj; unfold len; rewrite HL, Nat2Z.inj_mul; nia. }
    destruct (dot2_dot_error [Z.of_nat c] M p q bu bv (pieces (values U) s p (value x)) (pieces (values V) t q (value y)) f) as (F & E);
      try assumption; try (apply pieces_sum; [assumption|lra]); try (apply pieces_nonneg; try assumption; lra);
      try (unfold pieces; apply tab_length).
    { intros i j Hi Hj; apply (net_within M nv P c _ _ HP Hc (IX i j Hi Hj)). }
    split; [exact F|].
    match goal with |- Rabs (_ - ?r) <= _ => replace r with
      (rdot (pieces (values V) t q (value y)) (tab (S q) (fun j => rdot (pieces (values U) s p (value x)) (tab (S p) (fun i => value (f i j)))))) end;
      [exact E|].
    unfold span2, contract, pieces; rewrite rdot_tab.
    pose proof (zsum_shift 0 (t - Z.of_nat q) (S q) (fun j =>
      zsum (s - Z.of_nat p) (S p) (fun i => piece (values U) s p i (value x) * net nv (coords c (map values P)) i j) * piece (values V) t q j (value y))) as Z0.
    rewrite Z.add_0_l in Z0; rewrite Z0; apply zsum_ext; intros j Hj; rewrite rdot_tab, Rmult_comm.
    rewrite (Z.add_comm j); f_equal.
    pose proof (zsum_shift 0 (s - Z.of_nat p) (S p) (fun i => piece (values U) s p i (value x) * net nv (coords c (map values P)) i (t - Z.of_nat q + j))) as Z1.
    rewrite Z.add_0_l in Z1; rewrite Z1; apply zsum_ext; intros i Hi.
    rewrite (Z.add_comm i); f_equal; unfold f; apply net_values; try assumption; apply IX; lia. }
  unfold near64, span2_xyz; cbn [map].
  destruct (G 0%nat ltac:(lia)) as (G1 & G2); destruct (G 1%nat ltac:(lia)) as (G3 & G4); destruct (G 2%nat ltac:(lia)) as (G5 & G6).
  apply Forall2_cons; [split; assumption|]; apply Forall2_cons; [split; assumption|].
  apply Forall2_cons; [split; assumption|apply Forall2_nil].
Qed.
End Point.

Lemma surf_point_dot_b64 p q nu nv (U V : list PrimFloat.float) P (x y : Binary64) M :
  within 0 1 U -> clamped (Z.of_nat p) (Z.of_nat nu) (values U) -> (1 <= p)%nat -> INR p <= 2 ^ 40 ->
  kn (values U) (Z.of_nat p) = 0 -> kn (values U) (Z.of_nat nu) = 1 ->
  (forall i, (Z.of_nat p <= i < Z.of_nat nu)%Z -> / 2 ^ 1000 <= kn (values U) (i + 1) - kn (values U) i) ->
  within 0 1 V -> clamped (Z.of_nat q) (Z.of_nat nv) (values V) -> (1 <= q)%nat -> INR q <= 2 ^ 40 ->
  kn (values V) (Z.of_nat q) = 0 -> kn (values V) (Z.of_nat nv) = 1 ->
  (forall i, (Z.of_nat q <= i < Z.of_nat nv)%Z -> / 2 ^ 1000 <= kn (values V) (i + 1) - kn (values V) i) ->
  length P = (nu * nv)%nat -> Forall (fun row => length row = 3%nat /\ within (- M) M row) P -> 0 <= M <= 2 ^ 890 ->
  finite64 x -> 0 <= value x <= 1 -> (1 - value x <= 102 / 100000000 -> kn (values U) (Z.of_nat nu - 1) <= value x) ->
  finite64 y -> 0 <= value y <= 1 -> (1 - value y <= 102 / 100000000 -> kn (values V) (Z.of_nat nv - 1) <= value y) ->
  exists z, surf_point_dot (K := Binary64) dot (mkSurf (K := Binary64) (Z.of_nat p) (Z.of_nat q) (Z.of_nat nu) (Z.of_nat nv) P U V) x y = Ok z /\
    near64 (11 * INR (p + q + 1) * (ulp64 * M + tiny64)) z
      (surface_xyz (values U) (values V) p q nu nv (map values P) (value x) (value y)).
Proof.
  intros WU CU Hp1 Hp U0 U1 GU WV CV Hq1 Hq V0 V1 GV HL HP HM Fx Hx Tx Fy Hy Ty.
  assert (Hpos : 0 < / 2 ^ 1000) by (apply Rinv_0_lt_compat, pow_lt; lra).
  destruct (find_span_strict64 _ _ x U WU CU U0 U1 Fx Hx Tx) as (s & Es & Hs & Bx).
  destruct (find_span_strict64 _ _ y V WV CV V0 V1 Fy Hy Ty) as (t & Et & Ht & By).
  destruct (surf_point_dot_b64_span p q nu nv U V P x y s t M WU WV (proj1 CU) (proj1 CV) HL HP HM Fx Fy Hx Hy Es Et Hs Ht Bx By
    (GU s Hs) (GV t Ht) Hp Hq) as (z & Ez & Nz).
  exists z; split; [exact Ez|].
  replace (surface_xyz (values U) (values V) p q nu nv (map values P) (value x) (value y))
    with (span2_xyz (values U) (values V) s t p q nv (map values P) (value x) (value y)); [exact Nz|].
  unfold span2_xyz, surface_xyz; apply map_ext; intros c; pose proof (GU s Hs); pose proof (GV t Ht).
  apply span2_surface; try assumption; try lra; right; apply strict_continuous; try assumption; try lia.
  - intros i Hi; pose proof (GU i Hi); lra.
  - intros i Hi; pose proof (GV i Hi); lra.
Qed.

(** ** Derivatives *)
Lemma dot2_dot_signed site M Wa Wb p q (bu bv : list PrimFloat.float) wu wv (f : Z -> Z -> PrimFloat.float) :
  0 <= M -> INR p <= 2 ^ 40 -> INR q <= 2 ^ 40 ->
  length bu = S p -> length bv = S q -> length wu = S p -> length wv = S q ->
  Forall finite64 bu -> Forall finite64 bv -> sumabs wu <= Wa -> sumabs wv <= Wb -> 1 <= Wa -> 1 <= Wb <= 2 ^ 970 -> Wa * Wb * M <= 2 ^ 970 ->
  error1 (values bu) wu <= 12 * INR p * ulp64 * Wa -> error1 (values bv) wv <= 12 * INR q * ulp64 * Wb ->
  (forall i j, (0 <= i < Z.of_nat (S p))%Z -> (0 <= j < Z.of_nat (S q))%Z -> finite64 (f i j) /\ Rabs (value (f i j)) <= M) ->
  let y := dot site (tab (S q) (fun j => dot (site ++ [j]) bu (tab (S p) (fun i => f i j)))) bv in
  finite64 y /\
  Rabs (value y - rdot wv (tab (S q) (fun j => rdot wu (tab (S p) (fun i => value (f i j)))))) <=
    15 * INR (p + q + 1) * (Wa * Wb) * (ulp64 * M + tiny64).
Proof.
  intros HM Hp Hq Lu Lv Lwu Lwv Fu Fv Su Sv HWa HWb HWM Eu Ev Hf; cbv zeta.
  pose proof ulp64_pos as Hu; pose proof ulp64_tiny as Ht; pose proof eta64_pos as He; rewrite tiny_eta.
  pose proof (pos_INR p) as P0; pose proof (pos_INR q) as Q0.
  destruct (small_deg p Hp) as (P1 & P2 & P3); destruct (small_deg q Hq) as (Q1 & Q2 & Q3).
  assert (P980 : 4 * 2 ^ 970 <= 2 ^ 980 /\ 1 <= 2 ^ 970).
  { replace (2 ^ 980) with (2 ^ 970 * 2 ^ 10) by (rewrite <- pow_add; reflexivity).
    assert (1 <= 2 ^ 970) by (apply pow_R1_Rle; lra); generalize dependent (2 ^ 970); clear; intros z _ _ H; cbn [pow]; lra. }
  set (X970 := 2 ^ 970) in *; set (X980 := 2 ^ 980) in *.
  set (tj := fun j => dot (site ++ [j]) bu (tab (S p) (fun i => f i j))).
  set (mj := fun j => rdot wu (tab (S p) (fun i => value (f i j)))).
  assert (WaM : 0 <= Wa * M) by (apply Rmult_le_pos; lra).
  assert (WaM' : Wa * M <= Wa * Wb * M).
  { replace (Wa * Wb * M) with (Wb * (Wa * M)) by ring; rewrite <- (Rmult_1_l (Wa * M)) at 1; apply Rmult_le_compat_r; lra. }
  set (E1 := (14 * INR p + 4) * (ulp64 * (Wa * M)) + 2 * INR (S p) * eta64).
  assert (UWM : 0 <= ulp64 * (Wa * M)) by (apply Rmult_le_pos; lra).
  assert (SP0 : 0 <= INR (S p)) by apply pos_INR.
  assert (HE1 : 0 <= E1) by (unfold E1; pose proof (Rmult_le_pos (14 * INR p + 4) (ulp64 * (Wa * M)) ltac:(lra) UWM); pose proof (Rmult_le_pos (INR (S p)) eta64 SP0 ltac:(lra)); lra).
  assert (Tj : forall j, (0 <= j < Z.of_nat (S q))%Z -> finite64 (tj j) /\ Rabs (value (tj j) - mj j) <= E1 /\ Rabs (mj j) <= Wa * M).
  { intros j Hj.
    assert (WB : within (- M) M (tab (S p) (fun i => f i j))).
    { apply Forall_tab; intros i Hi; destruct (Hf i j Hi Hj) as (F & A); split; [exact F|apply Rabs_le_inv; exact A]. }
    destruct (dotted_signed M Wa (12 * INR p) bu (tab (S p) (fun i => f i j)) wu (tj j)) as (F & E); try assumption.
    - apply HD; rewrite Lu, tab_length; reflexivity.
    - rewrite Lu; exact P1.
    - rewrite Lu, tab_length; reflexivity.
    - rewrite Lu, Lwu; reflexivity.
    - fold X980; lra.
    - split; [exact F|]; split.
      + unfold mj, E1; unfold values in E at 1; rewrite map_tab in E.
        eapply Rle_trans; [exact E|]; apply Req_le; rewrite Lu, S_INR; ring.
      + unfold mj; eapply Rle_trans; [apply rdot_abs_signed with (M := M); [rewrite tab_length; exact Lwu|]|apply Rmult_le_compat_r; lra].
        apply Forall_tab; intros i Hi; apply Hf; assumption. }
  set (M' := Wa * M + E1).
  assert (EtaS : 2 * INR (S p) * eta64 <= 1).
  { pose proof eta_ulp as EU; assert (1 <= 2 ^ 100) by (apply pow_R1_Rle; lra).
    assert (eta64 <= ulp64) by (apply Rle_trans with (eta64 * 2 ^ 100); [|exact EU]; rewrite <- (Rmult_1_r eta64) at 1; apply Rmult_le_compat_l; lra).
    apply Rle_trans with (2 * 2 ^ 41 * ulp64); [apply Rmult_le_compat; lra|].
    replace (2 ^ 53) with (2 * 2 ^ 41 * 2048) in Ht by (cbn [pow]; ring). lra. }
  assert (HE1M : E1 <= / 256 * (Wa * M) + 1).
  { unfold E1; apply Rplus_le_compat; [|exact EtaS]; rewrite <- Rmult_assoc; apply Rmult_le_compat_r; lra. }
  assert (WT : within (- M') M' (tab (S q) tj)).
  { apply Forall_tab; intros j Hj; destruct (Tj j Hj) as (F & A & B); split; [exact F|].
    apply Rabs_le_inv in A; apply Rabs_le_inv in B; unfold M'; lra. }
  destruct (dotted_signed M' Wb (12 * INR q) bv (tab (S q) tj) wv (dot site (tab (S q) tj) bv)) as (F & E); try assumption.
  - apply (dot_swap dot HD); rewrite Lv, tab_length; reflexivity.
  - unfold M'; lra.
  - rewrite Lv; exact Q1.
  - rewrite Lv, tab_length; reflexivity.
  - rewrite Lv, Lwv; reflexivity.
  - fold X980; apply Rle_trans with (Wb * (257 / 256 * (Wa * M) + 1)); [apply Rmult_le_compat_l; unfold M'; lra|].
    replace (Wb * (257 / 256 * (Wa * M) + 1)) with (257 / 256 * (Wa * Wb * M) + Wb) by ring; lra.
  - split; [exact F|].
    assert (E2 : Rabs (rdot wv (values (tab (S q) tj)) - rdot wv (tab (S q) mj)) <= Wb * E1).
    { eapply Rle_trans; [|apply Rmult_le_compat_r; [exact HE1|exact Sv]].
      unfold values; rewrite map_tab; apply rdot_diff_signed; [rewrite tab_length; exact Lwv|].
      apply Forall2_tab; intros j Hj; apply Tj; exact Hj. }
    match goal with |- Rabs (?a - ?c) <= _ =>
      replace (a - c) with ((a - rdot wv (values (tab (S q) tj))) + (rdot wv (values (tab (S q) tj)) - c)) by ring end.
    eapply Rle_trans; [apply Rabs_triang|].
    eapply Rle_trans; [apply Rplus_le_compat; [exact E|exact E2]|].
    rewrite Lv, S_INR; rewrite !plus_INR; change (INR 1) with 1.
    set (T := ulp64 * (Wa * Wb * M)); set (H := Wa * Wb * eta64).
    assert (WbE : 0 <= Wb * E1) by (apply Rmult_le_pos; lra).
    assert (Z1 : (12 * INR q + 2 * (INR q + 1) + 2) * (ulp64 * (Wb * M')) <= (14 * INR q + 4) * T + / 256 * (Wb * E1)).
    { replace ((12 * INR q + 2 * (INR q + 1) + 2) * (ulp64 * (Wb * M'))) with ((14 * INR q + 4) * T + (14 * INR q + 4) * ulp64 * (Wb * E1)) by (unfold T, M'; ring).
      apply Rplus_le_compat_l, Rmult_le_compat_r; lra. }
    assert (T0 : 0 <= T) by (unfold T; replace (Wa * Wb * M) with (Wb * (Wa * M)) by ring; apply Rmult_le_pos; [lra|apply Rmult_le_pos; lra]).
    assert (WW : Wb <= Wa * Wb) by (rewrite <- (Rmult_1_l Wb) at 1; apply Rmult_le_compat_r; lra).
    assert (H0 : eta64 <= H /\ Wb * eta64 <= H).
    { unfold H; split; [rewrite <- (Rmult_1_l eta64) at 1|]; apply Rmult_le_compat_r; lra. }
    assert (Z2 : Wb * E1 <= (14 * INR p + 4) * T + 2 * (INR p + 1) * H).
    { unfold E1; rewrite S_INR.
      replace (Wb * ((14 * INR p + 4) * (ulp64 * (Wa * M)) + 2 * (INR p + 1) * eta64)) with ((14 * INR p + 4) * T + 2 * (INR p + 1) * (Wb * eta64)) by (unfold T; ring).
      apply Rplus_le_compat_l, Rmult_le_compat_l; lra. }
    assert (Z3 : 2 * (INR q + 1) * eta64 <= 2 * (INR q + 1) * H) by (apply Rmult_le_compat_l; lra).
    replace (15 * (INR p + INR q + 1) * (Wa * Wb) * (ulp64 * M + eta64)) with (15 * (INR p + INR q + 1) * T + 15 * (INR p + INR q + 1) * H) by (unfold T, H; ring).
    assert (PT : 0 <= INR p * T) by (apply Rmult_le_pos; lra); assert (QT : 0 <= INR q * T) by (apply Rmult_le_pos; lra).
    assert (PH : 0 <= INR p * H) by (apply Rmult_le_pos; lra); assert (QH : 0 <= INR q * H) by (apply Rmult_le_pos; lra).
    lra.
Qed.

Section Surf.
Variables (p q nu nv : nat) (U V : list PrimFloat.float) (P : list (list PrimFloat.float)) (x y : Binary64) (s t : Z) (M : R).
Hypothesis WU : within 0 1 U.
Hypothesis WV : within 0 1 V.
Hypothesis HU : knots_for (Z.of_nat p) (Z.of_nat nu) (values U).
Hypothesis HV : knots_for (Z.of_nat q) (Z.of_nat nv) (values V).
Hypothesis HL : length P = (nu * nv)%nat.
Hypothesis HP : Forall (fun row => length row = 3%nat /\ within (- M) M row) P.
Hypothesis HM : 0 <= M.
Hypothesis Fx : finite64 x.
Hypothesis Fy : finite64 y.
Hypothesis Ix : 0 <= value x <= 1.
Hypothesis Iy : 0 <= value y <= 1.
Hypothesis Es : find_span (Z.of_nat nu) (Z.of_nat p) x U = Ok s.
Hypothesis Et : find_span (Z.of_nat nv) (Z.of_nat q) y V = Ok t.
Hypothesis Hs : (Z.of_nat p <= s < Z.of_nat nu)%Z.
Hypothesis Ht : (Z.of_nat q <= t < Z.of_nat nv)%Z.
Hypothesis Hx : kn (values U) s <= value x <= kn (values U) (s + 1).
Hypothesis Hy : kn (values V) t <= value y <= kn (values V) (t + 1).
Let g := kn (values U) (s + 1) - kn (values U) s.
Let h := kn (values V) (t + 1) - kn (values V) t.
Hypothesis Gu : / 2 ^ 1000 <= g.
Hypothesis Gv : / 2 ^ 1000 <= h.
Hypothesis Hp : INR p <= 2 ^ 40.
Hypothesis Hq : INR q <= 2 ^ 40.

Lemma dot2_dot_b64 site a b c : (a <= p)%nat -> (b <= q)%nat -> (c < 3)%nat ->
  let Wa := INR (fact p) / INR (fact (p - a)) * (2 / g) ^ a in
  let Wb := INR (fact q) / INR (fact (q - b)) * (2 / h) ^ b in
  (2 / g) ^ a <= 2 ^ 900 -> INR (fact p) / INR (fact (p - a)) < 2 ^ 53 ->
  (2 / h) ^ b <= 2 ^ 900 -> INR (fact q) / INR (fact (q - b)) < 2 ^ 53 -> Wa * Wb * M <= 2 ^ 970 ->
  let v := dot2_dot (K := Binary64) dot site (dcol (U : list Binary64) s x p (Z.of_nat a))
    (dcol (V : list Binary64) t y q (Z.of_nat b)) p q nv s t (coordsK (0%float : Binary64) c P) in
  finite64 v /\
  Rabs (value v - surface_ders (values U) (values V) s t p q nu nv a b (coords c (map values P)) (value x) (value y))
    <= 15 * INR (p + q + 1) * (Wa * Wb) * (ulp64 * M + tiny64).
Proof.
  intros Ha Hb Hc Wa Wb B1 B2 B3 B4 B5; cbv zeta.
  assert (H3 : Forall (fun row => length row = 3%nat) P) by (eapply Forall_impl; [|exact HP]; intros r (L & _); exact L).
  assert (Hpos : 0 < / 2 ^ 1000) by (apply Rinv_0_lt_compat, pow_lt; lra).
  destruct HU as (_ & _ & LU & NU); destruct HV as (_ & _ & LV & NV); rewrite len_values in LU, LV.
  destruct (col_b64 U s x p a WU NU Fx Hx Gu) as (F1 & E1 & D1 & W1); try assumption; try lia.
  destruct (col_b64 V t y q b WV NV Fy Hy Gv) as (F2 & E2 & D2 & W2); try assumption; try lia.
  fold g in E1, D1, W1; fold h in E2, D2, W2; fold Wa in E1, D1, W1; fold Wb in E2, D2, W2.
  assert (W3 : Wb <= 2 ^ 970) by (apply ffact_size; try assumption; lra).
  set (f := fun i j => netK (0%float : Binary64) nv (coordsK (0%float : Binary64) c P) (s - Z.of_nat p + i) (t - Z.of_nat q + j)).
  assert (IX : forall i j, (0 <= i < Z.of_nat (S p))%Z -> (0 <= j < Z.of_nat (S q))%Z ->
    (0 <= (s - Z.of_nat p + i) * Z.of_nat nv + (t - Z.of_nat q + j) < len P)%Z).
  { intros i j Hi Hj; unfold len; rewrite HL, Nat2Z.inj_mul; nia. }
  set (wu := tab (S p) (fun r => Dx (delta s) (kn (values U)) a p (s - Z.of_nat p + r) (value x))).
  set (wv := tab (S q) (fun r => Dx (delta t) (kn (values V)) b q (t - Z.of_nat q + r) (value y))).
  destruct (dot2_dot_signed site M Wa Wb p q (dcol (U : list Binary64) s x p (Z.of_nat a)) (dcol (V : list Binary64) t y q (Z.of_nat b)) wu wv f) as (F & E);
    try assumption; try (unfold dcol, wu, wv; apply tab_length).
  - unfold dcol; apply Forall_tab; intros r Hr; apply F1; lia.
  - unfold dcol; apply Forall_tab; intros r Hr; apply F2; lia.
  - unfold wu; rewrite sumabs_tab; exact D1.
  - unfold wv; rewrite sumabs_tab; exact D2.
  - split; assumption.
  - unfold dcol, wu, values; rewrite map_tab, error1_tab; exact E1.
  - unfold dcol, wv, values; rewrite map_tab, error1_tab; exact E2.
  - intros i j Hi Hj; apply (net_within M nv P c _ _ HP Hc (IX i j Hi Hj)).
  - split; [exact F|].
    match goal with |- Rabs (_ - ?r) <= _ => replace r with
      (rdot wv (tab (S q) (fun j => rdot wu (tab (S p) (fun i => value (f i j)))))) end;
      [exact E|].
    rewrite <- contract_ders by assumption; unfold contract, wv, wu; rewrite rdot_tab.
    pose proof (zsum_shift 0 (t - Z.of_nat q) (S q) (fun j =>
      zsum (s - Z.of_nat p) (S p) (fun i => Dx (delta s) (kn (values U)) a p i (value x) * net nv (coords c (map values P)) i j) * Dx (delta t) (kn (values V)) b q j (value y))) as Z0.
    rewrite Z.add_0_l in Z0; rewrite Z0; apply zsum_ext; intros j Hj; rewrite rdot_tab, Rmult_comm.
    rewrite (Z.add_comm j); f_equal.
    pose proof (zsum_shift 0 (s - Z.of_nat p) (S p) (fun i => Dx (delta s) (kn (values U)) a p i (value x) * net nv (coords c (map values P)) i (t - Z.of_nat q + j))) as Z1.
    rewrite Z.add_0_l in Z1; rewrite Z1; apply zsum_ext; intros i Hi.
    rewrite (Z.add_comm i); f_equal; unfold f; apply net_values; try assumption; apply IX; lia.
Qed.

Lemma surf_derivatives_dot_b64 ou ov : exists m : list (list PrimFloat.float),
  surf_derivatives_dot (K := Binary64) dot (mkSurf (K := Binary64) (Z.of_nat p) (Z.of_nat q) (Z.of_nat nu) (Z.of_nat nv) P U V) x y (Z.of_nat ou) (Z.of_nat ov) = Ok m /\
  length m = ((Nat.min ou p + 1) * (Nat.min ov q + 1))%nat /\ Forall (fun row => length row = 3%nat) m /\
  (forall a b c, (a <= ou)%nat -> (a <= p)%nat -> (b <= ov)%nat -> (b <= q)%nat -> (c < 3)%nat ->
    let Wa := INR (fact p) / INR (fact (p - a)) * (2 / g) ^ a in
    let Wb := INR (fact q) / INR (fact (q - b)) * (2 / h) ^ b in
    (2 / g) ^ a <= 2 ^ 900 -> INR (fact p) / INR (fact (p - a)) < 2 ^ 53 ->
    (2 / h) ^ b <= 2 ^ 900 -> INR (fact q) / INR (fact (q - b)) < 2 ^ 53 -> Wa * Wb * M <= 2 ^ 970 ->
    let e := nth c (nth (a * (Nat.min ov q + 1) + b) m []) 0%float in
    exists G, mixed_partial a b (surface_piece (values U) (values V) s t p q nu nv (coords c (map values P))) G /\
      finite64 e /\ Rabs (value e - G (value x) (value y)) <= 15 * INR (p + q + 1) * (Wa * Wb) * (ulp64 * M + tiny64)).
Proof.
  assert (H3 : Forall (fun row => length row = 3%nat) P) by (eapply Forall_impl; [|exact HP]; intros r (L & _); exact L).
  destruct HU as (_ & _ & LU & NU); destruct HV as (_ & _ & LV & NV); rewrite len_values in LU, LV.
  assert (Vx : validate_knot x = true) by (apply validate64; assumption).
  assert (Vy : validate_knot y = true) by (apply validate64; assumption).
  assert (L1 : (s + Z.of_nat p < zlen (U : list Binary64))%Z) by (change (zlen U) with (len U); lia).
  assert (L2 : (t + Z.of_nat q < zlen (V : list Binary64))%Z) by (change (zlen V) with (len V); lia).
  pose proof (surf_derivatives_dot_any (K := Binary64) dot p q nu nv U V P x y s t (Nat.min ou p) (Nat.min ov q) (Z.of_nat ou) (Z.of_nat ov)
    Vx Vy H3 HL Es Et Hs Ht L1 L2 ltac:(lia) ltac:(lia)) as Em.
  eexists; split; [exact Em|]; split; [apply tab_length|]; split; [apply Forall_tab; intros; reflexivity|].
  intros a b c Hao Hap Hbo Hbq Hc Wa Wb B1 B2 B3 B4 B5.
  set (W := (Z.of_nat (Nat.min ov q) + 1)%Z).
  assert (Ek : Z.of_nat (a * (Nat.min ov q + 1) + b) = (Z.of_nat a * W + Z.of_nat b)%Z) by (unfold W; lia).
  rewrite nth_tab by nia; unfold srow_dot; rewrite (nth_map3 _ c 0%float) by exact Hc; rewrite Ek.
  assert (EQ : ((Z.of_nat a * W + Z.of_nat b) / W = Z.of_nat a)%Z) by (unfold W; rewrite Z.div_add_l, Z.div_small by lia; lia).
  assert (ER : ((Z.of_nat a * W + Z.of_nat b) mod W = Z.of_nat b)%Z) by (rewrite Z.add_comm; unfold W; rewrite Z.mod_add, Z.mod_small by lia; reflexivity).
  rewrite EQ, ER.
  exists (surface_ders (values U) (values V) s t p q nu nv a b (coords c (map values P))); split; [apply surface_ders_partial; assumption|].
  apply dot2_dot_b64; assumption.
Qed.
End Surf.

End B64.
