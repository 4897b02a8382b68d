(** Inversion with dot products of any kind (model: ModelDotParam.v): first guesses
    on curves and surfaces of the library, ranges, and dot products that keep NaN. *)
From Coq Require Import Reals Lra Lia ZArith List Bool Permutation Sorted Floats.
From Flocq Require Import Core.Core IEEE754.BinarySingleNaN IEEE754.PrimFloat.
From Verif Require Import Py PyLemmas Num ModelKnots ModelBasis ModelCurve ModelSurface ModelParam ModelDot ModelDotParam Spec SpecParam SpecB64 SpecDot SpecDotParam
  ProofNum ProofBasis ProofCurve ProofCurve2 ProofParam ProofParam2 ProofParam3 ProofParam4 ProofFit7 ProofB64 ProofB64Basis ProofB64Span ProofB64Curve ProofB64Knots ProofB64Surface ProofB64Uniform ProofB64Norm ProofB64Param ProofB64Guess ProofB64Sort
  ProofDot ProofDot2 ProofDot3 ProofDot4 ProofDot5 ProofDotParam ProofDotParam2 ProofDotParam3.
Import ListNotations.
Open Scope R_scope.

(** ** NaN *)
Lemma nan_fold l : forall a, isnan64 a \/ Exists isnan64 l -> isnan64 (fold_left PrimFloat.add l a).
Proof.
  induction l as [|x l IH]; intros a H; cbn [fold_left].
  - destruct H as [H|H]; [exact H|inversion H].
  - apply IH; destruct H as [H|H]; [left; apply nan_add; left; exact H|].
    inversion H as [? ? Hx|? ? Hx]; subst; [left; apply nan_add; right; exact Hx|right; exact Hx].
Qed.
Lemma nan_products (a : list PrimFloat.float) : forall b, length a = length b -> ~ Forall number64 a ->
  Exists isnan64 (map (fun xy => PrimFloat.mul (fst xy) (snd xy)) (combine a b)).
Proof.
  induction a as [|x a IH]; intros [|y b] L H; try discriminate L; [exfalso; apply H; constructor|].
  cbn [combine map fst snd]; destruct (nan_or_number x) as [N|N]; [constructor; apply nan_mul; exact N|].
  apply Exists_cons_tl, IH; [injection L; auto|]; intros G; apply H; constructor; assumption.
Qed.
Lemma nan_left : nan_dots64 (fun _ => vdot (K := Binary64)).
Proof. intros site a b L H; apply nan_not; apply nan_fold; right; apply nan_products; assumption. Qed.
Lemma nan_reversed : nan_dots64 dot_reversed.
Proof.
  intros site a b L H; apply nan_not; apply nan_fold; right.
  pose proof (nan_products a b L H) as E; apply Exists_exists in E; destruct E as (x & Hx & N).
  apply Exists_exists; exists x; split; [apply in_rev in Hx; exact Hx|exact N].
Qed.
Lemma nan_B x : isnan64 x <-> Prim2B x = B754_nan.
Proof.
  unfold isnan64; rewrite <- B2SF_Prim2B; destruct (Prim2B x); cbn; split; intros H; try discriminate H; reflexivity.
Qed.
Lemma nan_fma x y a : isnan64 x \/ isnan64 a -> isnan64 (fma64 x y a).
Proof.
  intros H; apply nan_B; unfold fma64; rewrite Prim2B_B2Prim.
  destruct H as [H|H]; apply nan_B in H; rewrite H; [reflexivity|].
  destruct (Prim2B x), (Prim2B y); reflexivity.
Qed.
Lemma nan_fused : nan_dots64 dot_fused.
Proof.
  intros site a b L H; apply nan_not; unfold dot_fused; revert b L H.
  induction a as [|x a IH]; intros [|y b] L H; try discriminate L; [exfalso; apply H; constructor|].
  cbn [combine fold_right fst snd]; apply nan_fma; destruct (nan_or_number x) as [N|N]; [left; exact N|right].
  apply IH; [injection L; auto|]; intros G; apply H; constructor; assumption.
Qed.

(** ** Samples *)
Section Dots.
Variable dot : list Z -> list PrimFloat.float -> list PrimFloat.float -> PrimFloat.float.
Hypothesis DOT : dots64 dot.
Lemma uniform_guess64_dot p P Q d (c : curve_beh Binary64) M :
  (1 <= p)%nat -> INR p <= 2 ^ 40 -> (Z.of_nat p + 1 <= len P)%Z -> (len P - Z.of_nat p <= 490000)%Z -> (len P <= 2 ^ 48)%Z ->
  Forall (fun row => length row = 3%nat /\ within (- M) M row) P -> 0 <= M <= 2 ^ 390 ->
  length Q = 3%nat -> within (- 2 ^ 399) (2 ^ 399) Q ->
  exists U : list PrimFloat.float, generate_uniform (Z.of_nat p) (len P) = Ok (U : list Binary64) /\
  (cb_count c = len P ->
   (forall x, exists e, dots64 e /\ cb_point c x = single_point_dot (K := Binary64) e (mkCurve (K := Binary64) (Some (Z.of_nat p)) (Some P) (Some U) d) x) ->
   exists k : Z, (0 <= k < 2 * len P)%Z /\ initial_guess_curve_dot (K := Binary64) dot c (Q : list Binary64) = Ok (sample64 (2 * len P - 1) k) /\
    let D i := distR (values Q) (curve_xyz (values U) p (map values P) (value (sample64 (2 * len P - 1) i))) in
    let E := 30 * INR (S p) * (ulp64 * M + tiny64) in
    ((exists i, (0 <= i < 2 * len P)%Z /\ D i + E <= 999999) ->
     forall i, (0 <= i < 2 * len P)%Z -> D k <= (1 + 36 * ulp64) * D i + 3 * E + / 2 ^ 518) /\
    ((forall i, (0 <= i < 2 * len P)%Z -> 1000001 + E <= D i) -> k = 0%Z)).
Proof.
  intros Hp1 Hp Hn Hb Hb2 HP HM HQ WQ.
  destruct (uniform_good (Z.of_nat p) (len P) ltac:(lia) Hn Hb) as (U & EU & W & C & K0 & K1 & G & T).
  exists U; split; [exact EU|]; intros Ec Ept.
  set (n := len P) in *; set (u := sample64 (2 * n - 1)).
  set (e := 10 * INR (S p) * (ulp64 * M + tiny64)).
  assert (Hu : forall i, (0 <= i < 2 * n)%Z -> unit64 (u i)) by (intros i Hi; apply sample_unit; lia).
  assert (M900 : 0 <= M <= 2 ^ 900) by (split; [lra|]; apply Rle_trans with (2 ^ 390); [lra|apply Rle_pow; [lra|lia]]).
  assert (He : 0 <= e <= 2 ^ 398).
  { assert (K : 0 <= INR (S p) <= 2 ^ 42).
    { split; [apply pos_INR|]; rewrite S_INR; replace (2 ^ 42) with (4 * 2 ^ 40) by (cbn [pow]; ring).
      assert (1 <= 2 ^ 40) by (apply pow_R1_Rle; lra); lra. }
    destruct (small_point_error (INR (S p)) M K HM) as (A & B); unfold e.
    assert (0 <= INR (S p) * (ulp64 * M + tiny64)) by lra; lra. }
  assert (PT : forall i, exists y : list PrimFloat.float, (0 <= i < 2 * n)%Z ->
    cb_point c (u i) = Ok (y : list Binary64) /\ near64 e y (curve_xyz (values U) p (map values P) (value (u i))) /\
    within (- 2 ^ 399) (2 ^ 399) y).
  { intros i; destruct (Z_le_dec 0 i); [|exists []; lia]; destruct (Z_lt_dec i (2 * n)); [|exists []; lia].
    destruct (Hu i ltac:(lia)) as (Fi & Vi).
    destruct (Ept (u i)) as (od & Hod & Eod).
    destruct (single_point_dot_b64 od Hod p U P d (u i) M W C Hp1 Hp K0 K1 G HP M900 Fi Vi (T _ (proj2 Vi))) as (y & Ey & Ny).
    exists y; intros _; split; [rewrite Eod; exact Ey|]; split; [exact Ny|].
    pose proof (curve_in_box p U P (u i) M W C Hp1 K0 K1 G HP Fi Vi (T _ (proj2 Vi))) as B.
    pose proof (near_within _ _ _ _ Ny B) as WY; fold e in WY.
    assert (M + e <= 2 ^ 399).
    { assert (2 ^ 390 <= 2 ^ 398) by (apply Rle_pow; [lra|lia]).
      change 399%nat with (1 + 398)%nat; rewrite pow_add; replace (2 ^ 1) with 2 by ring; lra. }
    eapply Forall_impl; [|exact WY]; intros z (Fz & Hz); split; [exact Fz|lra]. }
  assert (CH : exists q : Z -> list PrimFloat.float, forall i, (0 <= i < 2 * n)%Z ->
    cb_point c (u i) = Ok (q i : list Binary64) /\ near64 e (q i) (curve_xyz (values U) p (map values P) (value (u i))) /\
    within (- 2 ^ 399) (2 ^ 399) (q i)).
  { exists (fun i => match cb_point c (u i) with Ok y => y | _ => [] end); intros i Hi.
    destruct (PT i) as (y & Hy); destruct (Hy Hi) as (E1 & E2 & E3); rewrite E1; auto. }
  destruct CH as (q & Hq).
  destruct (guess64_dot dot DOT c Q q n Ec ltac:(lia)) as (k & Hk & Ek & R1 & R2).
  { rewrite HQ; cbn; lra. }
  { exact WQ. }
  { intros i Hi; destruct (Hq i Hi) as (A1 & A2 & A3); split; [exact A1|]; split; [|exact A3].
    destruct (near_values _ _ _ A2) as (_ & L & _); rewrite L, HQ; reflexivity. }
  exists k; split; [exact Hk|]; split; [exact Ek|]; fold u; cbv zeta.
  set (D := fun i => distR (values Q) (curve_xyz (values U) p (map values P) (value (u i)))).
  assert (DQ : forall i, (0 <= i < 2 * n)%Z -> Rabs (distR (values Q) (values (q i)) - D i) <= 3 * e).
  { intros i Hi; destruct (Hq i Hi) as (_ & A2 & _); destruct (near_values _ _ _ A2) as (N & _ & _).
    pose proof (dist_lip e (values Q) (values (q i)) (curve_xyz (values U) p (map values P) (value (u i))) (proj1 He)) as L.
    unfold values in L at 1; rewrite map_length, HQ in L; specialize (L eq_refl N); cbn [length curve_xyz map] in L.
    replace (INR 3) with 3 in L by (cbn; ring); exact L. }
  replace (30 * INR (S p) * (ulp64 * M + tiny64)) with (3 * e) by (unfold e; ring).
  rewrite HQ in R1; replace (3 * ((2 * INR 3 + 6) * ulp64)) with (36 * ulp64) in R1 by (cbn; ring).
  pose proof ulp64_pos as Hu0; pose proof ulp64_small.
  split.
  - intros (i0 & Hi0 & H0) i Hi.
    assert (X : distR (values Q) (values (q k)) <= (1 + 36 * ulp64) * distR (values Q) (values (q i)) + / 2 ^ 518).
    { apply R1; [|exact Hi]; exists i0; split; [exact Hi0|]; pose proof (Rabs_le_inv _ _ (DQ i0 Hi0)); fold (D i0) in H0; lra. }
    pose proof (Rabs_le_inv _ _ (DQ i Hi)); pose proof (Rabs_le_inv _ _ (DQ k Hk)).
    fold (D k) (D i).
    assert ((1 + 36 * ulp64) * distR (values Q) (values (q i)) <= (1 + 36 * ulp64) * (D i + 3 * e)) by (apply Rmult_le_compat_l; lra).
    assert (36 * ulp64 * (3 * e) <= 1 * (3 * e)) by (apply Rmult_le_compat_r; lra).
    lra.
  - intros H0; apply R2; intros i Hi; pose proof (Rabs_le_inv _ _ (DQ i Hi)); specialize (H0 i Hi); fold (D i) in H0; lra.
Qed.

Lemma uniform_guess_surf64_dot p q nu nv P Q (s : surf_beh Binary64) M :
  (1 <= p)%nat -> INR p <= 2 ^ 40 -> (1 <= q)%nat -> INR q <= 2 ^ 40 ->
  (p + 1 <= nu)%nat -> (Z.of_nat nu - Z.of_nat p <= 490000)%Z -> (Z.of_nat nu <= 2 ^ 48)%Z ->
  (q + 1 <= nv)%nat -> (Z.of_nat nv - Z.of_nat q <= 490000)%Z -> (Z.of_nat nv <= 2 ^ 48)%Z ->
  length P = (nu * nv)%nat -> Forall (fun row => length row = 3%nat /\ within (- M) M row) P -> 0 <= M <= 2 ^ 390 ->
  length Q = 3%nat -> within (- 2 ^ 399) (2 ^ 399) Q ->
  exists U V : list PrimFloat.float, generate_uniform (Z.of_nat p) (Z.of_nat nu) = Ok (U : list Binary64) /\
  generate_uniform (Z.of_nat q) (Z.of_nat nv) = Ok (V : list Binary64) /\
  (sb_nu s = Z.of_nat nu -> sb_nv s = Z.of_nat nv ->
   (forall x y, exists e, dots64 e /\ sb_point s x y = surf_point_dot (K := Binary64) e (mkSurf (K := Binary64) (Z.of_nat p) (Z.of_nat q) (Z.of_nat nu) (Z.of_nat nv) P U V) x y) ->
   exists k l : Z, (0 <= k < 2 * Z.of_nat nu)%Z /\ (0 <= l < 2 * Z.of_nat nv)%Z /\
    initial_guess_surf_dot (K := Binary64) dot s (Q : list Binary64) = Ok (sample64 (2 * Z.of_nat nu - 1) k, sample64 (2 * Z.of_nat nv - 1) l) /\
    let D i j := distR (values Q) (surface_xyz (values U) (values V) p q nu nv (map values P)
                   (value (sample64 (2 * Z.of_nat nu - 1) i)) (value (sample64 (2 * Z.of_nat nv - 1) j))) in
    let E := 33 * INR (p + q + 1) * (ulp64 * M + tiny64) in
    ((exists i j, (0 <= i < 2 * Z.of_nat nu)%Z /\ (0 <= j < 2 * Z.of_nat nv)%Z /\ D i j + E <= 999999) ->
     forall i j, (0 <= i < 2 * Z.of_nat nu)%Z -> (0 <= j < 2 * Z.of_nat nv)%Z ->
       D k l <= (1 + 36 * ulp64) * D i j + 3 * E + / 2 ^ 518) /\
    ((forall i j, (0 <= i < 2 * Z.of_nat nu)%Z -> (0 <= j < 2 * Z.of_nat nv)%Z -> 1000001 + E <= D i j) -> k = 0%Z /\ l = 0%Z)).
Proof.
  intros Hp1 Hp Hq1 Hq Hnu Bu Bu2 Hnv Bv Bv2 HL HP HM HQ WQ.
  destruct (uniform_good (Z.of_nat p) (Z.of_nat nu) ltac:(lia) ltac:(lia) Bu) as (U & EU & WU & CU & KU0 & KU1 & GU & TU).
  destruct (uniform_good (Z.of_nat q) (Z.of_nat nv) ltac:(lia) ltac:(lia) Bv) as (V & EV & WV & CV & KV0 & KV1 & GV & TV).
  exists U, V; split; [exact EU|]; split; [exact EV|]; intros Eu Ev Ept.
  set (u := sample64 (2 * Z.of_nat nu - 1)); set (v := sample64 (2 * Z.of_nat nv - 1)).
  set (e := 11 * INR (p + q + 1) * (ulp64 * M + tiny64)).
  assert (Hu : forall i, (0 <= i < 2 * Z.of_nat nu)%Z -> unit64 (u i)) by (intros i Hi; apply sample_unit; lia).
  assert (Hv : forall i, (0 <= i < 2 * Z.of_nat nv)%Z -> unit64 (v i)) by (intros i Hi; apply sample_unit; lia).
  assert (M890 : 0 <= M <= 2 ^ 890) by (split; [lra|]; apply Rle_trans with (2 ^ 390); [lra|apply Rle_pow; [lra|lia]]).
  assert (He : 0 <= e <= 2 ^ 398).
  { assert (K : 0 <= INR (p + q + 1) <= 2 ^ 42).
    { split; [apply pos_INR|]; rewrite !plus_INR; replace (2 ^ 42) with (4 * 2 ^ 40) by (cbn [pow]; ring).
      assert (1 <= 2 ^ 40) by (apply pow_R1_Rle; lra); change (INR 1) with 1; lra. }
    exact (small_point_error (INR (p + q + 1)) M K HM). }
  set (X := fun i j => surface_xyz (values U) (values V) p q nu nv (map values P) (value (u i)) (value (v j))).
  assert (CH : exists w : Z -> Z -> list PrimFloat.float, forall i j, (0 <= i < 2 * Z.of_nat nu)%Z -> (0 <= j < 2 * Z.of_nat nv)%Z ->
    sb_point s (u i) (v j) = Ok (w i j : list Binary64) /\ near64 e (w i j) (X i j) /\ within (- 2 ^ 399) (2 ^ 399) (w i j)).
  { exists (fun i j => match sb_point s (u i) (v j) with Ok y => y | _ => [] end); intros i j Hi Hj.
    destruct (Hu i Hi) as (Fi & Vi); destruct (Hv j Hj) as (Fj & Vj).
    destruct (Ept (u i) (v j)) as (od & Hod & Eod).
    destruct (surf_point_dot_b64 od Hod p q nu nv U V P (u i) (v j) M WU CU Hp1 Hp KU0 KU1 GU WV CV Hq1 Hq KV0 KV1 GV HL HP M890
      Fi Vi (TU _ (proj2 Vi)) Fj Vj (TV _ (proj2 Vj))) as (y & Ey & Ny).
    rewrite Eod, Ey; split; [reflexivity|]; split; [exact Ny|].
    pose proof (surface_in_box p q nu nv U V P (u i) (v j) M WU CU Hp1 KU0 KU1 GU WV CV Hq1 KV0 KV1 GV HL HP
      Fi Vi (TU _ (proj2 Vi)) Fj Vj (TV _ (proj2 Vj))) as B.
    pose proof (near_within _ _ _ _ Ny B) as WY; fold e in WY.
    assert (M + e <= 2 ^ 399).
    { assert (2 ^ 390 <= 2 ^ 398) by (apply Rle_pow; [lra|lia]).
      change 399%nat with (1 + 398)%nat; rewrite pow_add; replace (2 ^ 1) with 2 by ring; lra. }
    eapply Forall_impl; [|exact WY]; intros z (Fz & Hz); split; [exact Fz|lra]. }
  destruct CH as (w & Hw).
  destruct (guess_surf64_dot dot DOT s Q w (Z.of_nat nu) (Z.of_nat nv) Eu Ev ltac:(lia) ltac:(lia)) as (k & l & Hk & Hl & Ek & R1 & R2).
  { rewrite HQ; cbn; lra. }
  { exact WQ. }
  { intros i j Hi Hj; destruct (Hw i j Hi Hj) as (A1 & A2 & A3); split; [exact A1|]; split; [|exact A3].
    destruct (near_values _ _ _ A2) as (_ & L & _); rewrite L, HQ; reflexivity. }
  exists k, l; split; [exact Hk|]; split; [exact Hl|]; split; [exact Ek|]; fold u v; cbv zeta.
  set (D := fun i j => distR (values Q) (X i j)).
  assert (DQ : forall i j, (0 <= i < 2 * Z.of_nat nu)%Z -> (0 <= j < 2 * Z.of_nat nv)%Z -> Rabs (distR (values Q) (values (w i j)) - D i j) <= 3 * e).
  { intros i j Hi Hj; destruct (Hw i j Hi Hj) as (_ & A2 & _); destruct (near_values _ _ _ A2) as (N & _ & _).
    pose proof (dist_lip e (values Q) (values (w i j)) (X i j) (proj1 He)) as L.
    unfold values in L at 1; rewrite map_length, HQ in L; specialize (L eq_refl N); unfold X in L at 2; cbn [length surface_xyz map] in L.
    replace (INR 3) with 3 in L by (cbn; ring); exact L. }
  replace (33 * INR (p + q + 1) * (ulp64 * M + tiny64)) with (3 * e) by (unfold e; ring).
  rewrite HQ in R1; replace (3 * ((2 * INR 3 + 6) * ulp64)) with (36 * ulp64) in R1 by (cbn; ring).
  pose proof ulp64_pos as Hu0; pose proof ulp64_small.
  split.
  - intros (i0 & j0 & Hi0 & Hj0 & H0) i j Hi Hj.
    assert (Y : distR (values Q) (values (w k l)) <= (1 + 36 * ulp64) * distR (values Q) (values (w i j)) + / 2 ^ 518).
    { apply R1; [|exact Hi|exact Hj]; exists i0, j0; split; [exact Hi0|]; split; [exact Hj0|].
      pose proof (Rabs_le_inv _ _ (DQ i0 j0 Hi0 Hj0)); fold (X i0 j0) in H0; fold (D i0 j0) in H0; lra. }
    pose proof (Rabs_le_inv _ _ (DQ i j Hi Hj)); pose proof (Rabs_le_inv _ _ (DQ k l Hk Hl)).
    fold (X k l) (X i j); fold (D k l) (D i j).
    assert ((1 + 36 * ulp64) * distR (values Q) (values (w i j)) <= (1 + 36 * ulp64) * (D i j + 3 * e)) by (apply Rmult_le_compat_l; lra).
    assert (36 * ulp64 * (3 * e) <= 1 * (3 * e)) by (apply Rmult_le_compat_r; lra).
    lra.
  - intros H0; apply R2; intros i j Hi Hj; pose proof (Rabs_le_inv _ _ (DQ i j Hi Hj)); specialize (H0 i j Hi Hj); fold (X i j) in H0; fold (D i j) in H0; lra.
Qed.
Lemma guess_spread_dot n : (1 <= n)%Z -> (2 * n - 1 <= 2 ^ 49)%Z -> exists t : Z -> PrimFloat.float, spread64 (2 * n - 1) t /\
  forall (c : curve_beh Binary64) (P : list PrimFloat.float) (q : Z -> list PrimFloat.float),
  cb_count c = n -> INR (length P) <= 1000 -> within (- 2 ^ 399) (2 ^ 399) P ->
  (forall i, (0 <= i < 2 * n)%Z -> cb_point c (t i : Binary64) = Ok (q i : list Binary64) /\ length (q i) = length P /\
     within (- 2 ^ 399) (2 ^ 399) (q i)) ->
  exists k, (0 <= k < 2 * n)%Z /\ initial_guess_curve_dot (K := Binary64) dot c (P : list Binary64) = Ok (t k : Binary64) /\
    ((exists i, (0 <= i < 2 * n)%Z /\ distR (values P) (values (q i)) <= 999999) ->
     forall i, (0 <= i < 2 * n)%Z -> distR (values P) (values (q k)) <=
       (1 + 3 * ((2 * INR (length P) + 6) * ulp64)) * distR (values P) (values (q i)) + / 2 ^ 518) /\
    ((forall i, (0 <= i < 2 * n)%Z -> 1000001 <= distR (values P) (values (q i))) -> k = 0%Z).
Proof.
  intros Hn Hn2; exists (sample64 (2 * n - 1)); split; [apply spread; lia|].
  intros c P q Ec; apply (guess64_dot dot DOT); assumption.
Qed.

Lemma guess_spread_surf_dot nu nv : (1 <= nu)%Z -> (2 * nu - 1 <= 2 ^ 49)%Z -> (1 <= nv)%Z -> (2 * nv - 1 <= 2 ^ 49)%Z ->
  exists s t : Z -> PrimFloat.float, spread64 (2 * nu - 1) s /\ spread64 (2 * nv - 1) t /\
  forall (f : surf_beh Binary64) (P : list PrimFloat.float) (q : Z -> Z -> list PrimFloat.float),
  sb_nu f = nu -> sb_nv f = nv -> INR (length P) <= 1000 -> within (- 2 ^ 399) (2 ^ 399) P ->
  (forall i j, (0 <= i < 2 * nu)%Z -> (0 <= j < 2 * nv)%Z ->
     sb_point f (s i : Binary64) (t j : Binary64) = Ok (q i j : list Binary64) /\ length (q i j) = length P /\
     within (- 2 ^ 399) (2 ^ 399) (q i j)) ->
  exists k l, (0 <= k < 2 * nu)%Z /\ (0 <= l < 2 * nv)%Z /\
    initial_guess_surf_dot (K := Binary64) dot f (P : list Binary64) = Ok (s k : Binary64, t l : Binary64) /\
    ((exists i j, (0 <= i < 2 * nu)%Z /\ (0 <= j < 2 * nv)%Z /\ distR (values P) (values (q i j)) <= 999999) ->
     forall i j, (0 <= i < 2 * nu)%Z -> (0 <= j < 2 * nv)%Z -> distR (values P) (values (q k l)) <=
       (1 + 3 * ((2 * INR (length P) + 6) * ulp64)) * distR (values P) (values (q i j)) + / 2 ^ 518) /\
    ((forall i j, (0 <= i < 2 * nu)%Z -> (0 <= j < 2 * nv)%Z -> 1000001 <= distR (values P) (values (q i j))) -> k = 0%Z /\ l = 0%Z).
Proof.
  intros Hu Hu2 Hv Hv2; exists (sample64 (2 * nu - 1)), (sample64 (2 * nv - 1)).
  split; [apply spread; lia|]; split; [apply spread; lia|].
  intros f P q Eu Ev; apply (guess_surf64_dot dot DOT); assumption.
Qed.

Lemma library_guess_dot (pd dd : Binary64 -> list Z -> list Binary64 -> list Binary64 -> Binary64) p P d Q M : (forall x, dots64 (pd x)) ->
  (1 <= p)%nat -> INR p <= 2 ^ 40 -> (Z.of_nat p + 1 <= len P)%Z -> (len P - Z.of_nat p <= 490000)%Z -> (len P <= 2 ^ 48)%Z ->
  Forall (fun row => length row = 3%nat /\ within (- M) M row) P -> 0 <= M <= 2 ^ 390 ->
  length Q = 3%nat -> within (- 2 ^ 399) (2 ^ 399) Q ->
  exists (U : list PrimFloat.float) (t : Z -> PrimFloat.float), generate_uniform (Z.of_nat p) (len P) = Ok (U : list Binary64) /\
  spread64 (2 * len P - 1) t /\
  let c := mkCurve (K := Binary64) (Some (Z.of_nat p)) (Some P) (Some U) d in
  exists k : Z, (0 <= k < 2 * len P)%Z /\ initial_guess_curve_dot (K := Binary64) dot (beh_of_curve_dot pd dd c) (Q : list Binary64) = Ok (t k : Binary64) /\
    let D i := distR (values Q) (curve_xyz (values U) p (map values P) (value (t i))) in
    let E := 30 * INR (S p) * (ulp64 * M + tiny64) in
    ((exists i, (0 <= i < 2 * len P)%Z /\ D i + E <= 999999) ->
     forall i, (0 <= i < 2 * len P)%Z -> D k <= (1 + 36 * ulp64) * D i + 3 * E + / 2 ^ 518) /\
    ((forall i, (0 <= i < 2 * len P)%Z -> 1000001 + E <= D i) -> k = 0%Z).
Proof.
  intros PD Hp1 Hp Hn Hb Hb2 HP HM HQ WQ.
  destruct (uniform_guess64_dot p P Q d (mkBeh (K := Binary64) 0 (fun _ => Diverge) (fun _ => Diverge)) M Hp1 Hp Hn Hb Hb2 HP HM HQ WQ) as (U & EU & _).
  exists U, (sample64 (2 * len P - 1)); split; [exact EU|]; split; [apply spread; lia|]; cbv zeta.
  set (c := mkCurve (K := Binary64) (Some (Z.of_nat p)) (Some P) (Some U) d).
  destruct (uniform_guess64_dot p P Q d (beh_of_curve_dot pd dd c) M Hp1 Hp Hn Hb Hb2 HP HM HQ WQ) as (U' & EU' & H).
  assert (U' = U) by (injection (eq_trans (eq_sym EU') EU); intros G; exact G); subst U'.
  destruct (H eq_refl (fun x => ex_intro _ _ (conj (PD x) eq_refl))) as (k & Hk & Ek & R); exists k; split; [exact Hk|]; split; [exact Ek|exact R].
Qed.

Lemma library_guess_surf_dot (pd dd : Binary64 -> Binary64 -> list Z -> list Binary64 -> list Binary64 -> Binary64) p q nu nv P Q M : (forall x y, dots64 (pd x y)) ->
  (1 <= p)%nat -> INR p <= 2 ^ 40 -> (1 <= q)%nat -> INR q <= 2 ^ 40 ->
  (p + 1 <= nu)%nat -> (Z.of_nat nu - Z.of_nat p <= 490000)%Z -> (Z.of_nat nu <= 2 ^ 48)%Z ->
  (q + 1 <= nv)%nat -> (Z.of_nat nv - Z.of_nat q <= 490000)%Z -> (Z.of_nat nv <= 2 ^ 48)%Z ->
  length P = (nu * nv)%nat -> Forall (fun row => length row = 3%nat /\ within (- M) M row) P -> 0 <= M <= 2 ^ 390 ->
  length Q = 3%nat -> within (- 2 ^ 399) (2 ^ 399) Q ->
  exists (U V : list PrimFloat.float) (s t : Z -> PrimFloat.float),
  generate_uniform (Z.of_nat p) (Z.of_nat nu) = Ok (U : list Binary64) /\
  generate_uniform (Z.of_nat q) (Z.of_nat nv) = Ok (V : list Binary64) /\
  spread64 (2 * Z.of_nat nu - 1) s /\ spread64 (2 * Z.of_nat nv - 1) t /\
  exists k l : Z, (0 <= k < 2 * Z.of_nat nu)%Z /\ (0 <= l < 2 * Z.of_nat nv)%Z /\
    initial_guess_surf_dot (K := Binary64) dot (beh_of_surf_dot pd dd (mkSurf (K := Binary64) (Z.of_nat p) (Z.of_nat q) (Z.of_nat nu) (Z.of_nat nv) P U V)) (Q : list Binary64)
      = Ok (s k : Binary64, t l : Binary64) /\
    let D i j := distR (values Q) (surface_xyz (values U) (values V) p q nu nv (map values P) (value (s i)) (value (t j))) in
    let E := 33 * INR (p + q + 1) * (ulp64 * M + tiny64) in
    ((exists i j, (0 <= i < 2 * Z.of_nat nu)%Z /\ (0 <= j < 2 * Z.of_nat nv)%Z /\ D i j + E <= 999999) ->
     forall i j, (0 <= i < 2 * Z.of_nat nu)%Z -> (0 <= j < 2 * Z.of_nat nv)%Z ->
       D k l <= (1 + 36 * ulp64) * D i j + 3 * E + / 2 ^ 518) /\
    ((forall i j, (0 <= i < 2 * Z.of_nat nu)%Z -> (0 <= j < 2 * Z.of_nat nv)%Z -> 1000001 + E <= D i j) -> k = 0%Z /\ l = 0%Z).
Proof.
  intros PD Hp1 Hp Hq1 Hq Hnu Bu Bu2 Hnv Bv Bv2 HL HP HM HQ WQ.
  destruct (uniform_guess_surf64_dot p q nu nv P Q (mkSBeh (K := Binary64) 0 0 (fun _ _ => Diverge) (fun _ _ => Diverge)) M
    Hp1 Hp Hq1 Hq Hnu Bu Bu2 Hnv Bv Bv2 HL HP HM HQ WQ) as (U & V & EU & EV & _).
  exists U, V, (sample64 (2 * Z.of_nat nu - 1)), (sample64 (2 * Z.of_nat nv - 1)).
  split; [exact EU|]; split; [exact EV|]; split; [apply spread; lia|]; split; [apply spread; lia|].
  set (s := mkSurf (K := Binary64) (Z.of_nat p) (Z.of_nat q) (Z.of_nat nu) (Z.of_nat nv) P U V).
  destruct (uniform_guess_surf64_dot p q nu nv P Q (beh_of_surf_dot pd dd s) M
    Hp1 Hp Hq1 Hq Hnu Bu Bu2 Hnv Bv Bv2 HL HP HM HQ WQ) as (U' & V' & EU' & EV' & H).
  assert (U' = U) by (injection (eq_trans (eq_sym EU') EU); intros G; exact G); subst U'.
  assert (V' = V) by (injection (eq_trans (eq_sym EV') EV); intros G; exact G); subst V'.
  exact (H eq_refl eq_refl (fun x y => ex_intro _ _ (conj (PD x y) eq_refl))).
Qed.

End Dots.

(** ** Ranges *)
Section Range.
Variable dot : list Z -> list PrimFloat.float -> list PrimFloat.float -> PrimFloat.float.
Variable solve : Binary64 -> Binary64 -> Binary64 -> Binary64 -> Binary64 -> Binary64 -> res (Binary64 * Binary64).
Lemma curve_unit64_dot pd dd (c : curve_obj Binary64) u m : cb_ders (beh_of_curve_dot pd dd c) u = Ok m -> unit64 u.
Proof.
  cbn [beh_of_curve_dot cb_ders]; unfold derivatives_dot; destruct (validate_knot u) eqn:E; [|discriminate]; intros _; exact (validate_unit64 _ E).
Qed.
Lemma surf_unit64_dot pd dd (s : surf Binary64) u v q : sb_point (beh_of_surf_dot pd dd s) u v = Ok q -> number64 u /\ number64 v.
Proof.
  cbn [beh_of_surf_dot sb_point]; unfold surf_point_dot; destruct (validate_knot u) eqn:E1; [|discriminate]; destruct (validate_knot v) eqn:E2; [|discriminate].
  intros _; split; apply unit_number, validate_unit64; assumption.
Qed.
Lemma surf_ders_width_dot pd dd (s : surf Binary64) u v m : sb_ders (beh_of_surf_dot pd dd s) u v = Ok m -> Forall (fun r => length r = 3%nat) m.
Proof.
  cbn [beh_of_surf_dot sb_ders]; unfold surf_derivatives_dot; destruct (negb _); [discriminate|]; destruct (negb _); [discriminate|]; cbv zeta; intros H.
  repeat bind_inv H; injection H as <-.
  match goal with E : np_full2 _ _ _ = Ok ?d |- _ => assert (H0 : Forall (fun r => length r = 3%nat) d) end.
  { unfold np_full2 in E4; destruct ((_ <? 0) || _)%Z; [discriminate|]; injection E4 as <-.
    apply Forall_forall; intros r Hr; apply repeat_spec in Hr; subst r; reflexivity. }
  refine (for_range_pres (fun st : Z * list (list Binary64) => Forall (fun r => length r = 3%nat) (snd st)) _ _ _ _ _ _ E5 H0).
  intros i st1 st2 E6 HS.
  refine (for_range_pres (fun st : Z * list (list Binary64) => Forall (fun r => length r = 3%nat) (snd st)) _ _ _ _ _ _ E6 HS).
  intros j st3 st4 E7 HS3; unfold surf_deriv_entry_dot in E7; repeat bind_inv E7; injection E7 as <-; cbn [snd].
  eapply aset_row_width; [exact HS3|]; eassumption.
Qed.
Lemma library_curve_range_dot pd dd (c : curve_obj Binary64) P e1 e2 mi u :
  curve_inversion_dot (K := Binary64) dot (beh_of_curve_dot pd dd c) P e1 e2 mi = Ok u -> unit64 u.
Proof.
  intros E; destruct (curve_result_evaluated_dot _ _ _ _ _ _ _ E) as (m & Em); exact (curve_unit64_dot _ _ _ _ _ Em).
Qed.
Lemma library_surface_range_dot pd dd (s : surf Binary64) P e1 e2 mi u v : nan_dots64 dot -> (2 * s_nu s - 1 <= 2 ^ 49)%Z -> (2 * s_nv s - 1 <= 2 ^ 49)%Z ->
  surface_inversion_dot (K := Binary64) dot solve (beh_of_surf_dot pd dd s) P e1 e2 mi = Ok (u, v) -> unit64 u /\ unit64 v.
Proof.
  intros HN Hu Hv E; refine (proj2 (surf_range64_dot dot solve (beh_of_surf_dot pd dd s) P e1 e2 mi u v Hu Hv E) HN _ _).
  - intros a b q; apply surf_unit64_dot.
  - intros a b m; apply surf_ders_width_dot.
Qed.
End Range.

Lemma left_to_right (K : Num) (c : curve_beh K) (s : surf_beh K) P e1 e2 mi d :
  initial_guess_curve_dot (fun _ => vdot) c P = initial_guess_curve c P /\
  curve_inversion_dot (fun _ => vdot) c P e1 e2 mi = curve_inversion c P e1 e2 mi /\
  parameterize_curve_dot (fun _ => vdot) c d = parameterize_curve c d /\
  initial_guess_surf_dot (fun _ => vdot) s P = initial_guess_surf s P /\
  surface_inversion_dot (fun _ => vdot) solve_lu s P e1 e2 mi = surface_inversion s P e1 e2 mi /\
  parameterize_surface_dot (fun _ => vdot) solve_lu s d = parameterize_surface s d.
Proof.
  split; [apply initial_guess_left|]; split; [apply curve_inversion_left|]; split; [apply parameterize_curve_left|].
  split; [reflexivity|]; split; [apply surface_inversion_left|apply parameterize_surface_left].
Qed.

Lemma left_objects (K : Num) (c : curve_obj K) (s : surf K) u v :
  let cd := beh_of_curve_dot (fun _ _ => vdot) (fun _ _ => vdot) c in
  let sd := beh_of_surf_dot (fun _ _ _ => vdot) (fun _ _ _ => vdot) s in
  cb_count cd = cb_count (beh_of_curve3 c) /\ cb_point cd u = cb_point (beh_of_curve3 c) u /\ cb_ders cd u = cb_ders (beh_of_curve3 c) u /\
  sb_nu sd = sb_nu (beh_of_surf s) /\ sb_nv sd = sb_nv (beh_of_surf s) /\
  sb_point sd u v = sb_point (beh_of_surf s) u v /\ sb_ders sd u v = sb_ders (beh_of_surf s) u v.
Proof.
  cbv zeta; cbn [beh_of_curve_dot beh_of_curve3 beh_of_surf_dot beh_of_surf cb_count cb_point cb_ders sb_nu sb_nv sb_point sb_ders].
  split; [reflexivity|]; split; [exact (single_point_dot_model K c u)|]; split; [exact (derivatives_dot_model K c u 2)|].
  split; [reflexivity|]; split; [reflexivity|]; split; [exact (surf_point_dot_model K s u v)|exact (surf_derivatives_dot_model K s u v 2 2)].
Qed.
