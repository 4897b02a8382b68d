(** [find_span] and [np.isclose] (models: Num.v, ModelKnots.v) on binary64 numbers. *)
From Coq Require Import Reals Lra Lia ZArith List Floats Uint63.
From Flocq Require Import Core.Core IEEE754.BinarySingleNaN IEEE754.PrimFloat.
From Verif Require Import Py PyLemmas Num ModelKnots Spec SpecB64 MathKnots ProofNum ProofSpan ProofSpan2 ProofB64 ProofB64Basis.
Import ListNotations.
Open Scope R_scope.

(** ** Integers *)
Lemma of_Z_to_Z z : (0 <= z < 2 ^ 53)%Z -> to_Z (of_Z z) = z.
Proof.
  intros H; rewrite of_Z_spec; apply Z.mod_small; split; [lia|].
  apply Z.lt_trans with (2 ^ 53)%Z; [lia|reflexivity].
Qed.
Lemma IZR_fmt z : (Z.abs z < 2 ^ 53)%Z -> fmt (IZR z).
Proof.
  intros H; replace (IZR z) with (F2R (Float radix2 z 0)) by (unfold F2R; cbn; ring).
  apply generic_format_FLT; exists (Float radix2 z 0); [reflexivity|exact H|cbn; lia].
Qed.
Lemma IZR_bound z : (Z.abs z < 2 ^ 53)%Z -> Rabs (IZR z) <= bpow radix2 53.
Proof.
  intros H; rewrite <- abs_IZR; change (bpow radix2 53) with (IZR (2 ^ 53)); apply IZR_le; lia.
Qed.
Lemma ofZ64_nonneg z : (0 <= z < 2 ^ 53)%Z ->
  finite64 (ofZ z : Binary64) /\ value (ofZ z : Binary64) = IZR z.
Proof.
  intros H; destruct z as [|z|z]; [split; [exact I|reflexivity]| |lia].
  change (ofZ (Z.pos z) : Binary64) with (PrimFloat.of_uint63 (of_Z (Z.pos z))).
  rewrite finite_B, value_B.
  pose proof (of_int63_equiv (of_Z (Z.pos z))) as E; rewrite of_Z_to_Z in E by exact H.
  change (Prim2B (PrimFloat.of_uint63 (of_Z (Z.pos z))) = binary_normalize prec emax Hprec Hmax mode_NE (Z.pos z) 0 false) in E; rewrite E.
  pose proof (binary_normalize_correct prec emax Hprec Hmax mode_NE (Z.pos z) 0 false) as C; cbn zeta in C.
  rewrite fexp_FLT in C; cbn [round_mode] in C.
  replace (F2R (Float radix2 (Z.pos z) 0)) with (IZR (Z.pos z)) in C by (unfold F2R; cbn; ring).
  rewrite (rnd_fmt (IZR (Z.pos z))) in C by (apply IZR_fmt; lia).
  rewrite Rlt_bool_true in C.
  - destruct C as (C1 & C2 & _); split; assumption.
  - apply Rle_lt_trans with (bpow radix2 53); [apply IZR_bound; lia|apply bpow_lt; reflexivity].
Qed.
Lemma ofZ_neg z : (ofZ (Z.neg z) : Binary64) = PrimFloat.opp (ofZ (Z.pos z) : Binary64).
Proof. cbn [ofZ Binary64 b64_ofZ]; reflexivity. Qed.
Lemma ofZ64 z : (Z.abs z < 2 ^ 53)%Z -> finite64 (ofZ z : Binary64) /\ value (ofZ z : Binary64) = IZR z.
Proof.
  intros H; destruct (Z_le_dec 0 z); [apply ofZ64_nonneg; lia|].
  destruct z as [|z|z]; try lia.
  rewrite ofZ_neg.
  destruct (ofZ64_nonneg (Z.pos z) ltac:(lia)) as (F & V); destruct (opp64 _ F) as (F' & V').
  split; [exact F'|rewrite V', V, <- opp_IZR; reflexivity].
Qed.

(** ** Decimal literals *)
Lemma lit64 z : (1 <= z < 2 ^ 53)%Z ->
  finite64 (ndiv (ofZ 1) (ofZ z) : Binary64) /\
  Rabs (value (ndiv (ofZ 1) (ofZ z) : Binary64) - 1 / IZR z) <= (11/10) * ulp64 * (1 / IZR z).
Proof.
  intros Hz; destruct (ofZ64 1 ltac:(lia)) as (F1 & V1); destruct (ofZ64 z ltac:(lia)) as (Fz & Vz).
  assert (Z1 : 1 <= IZR z) by (apply IZR_le; lia).
  assert (Zb : IZR z <= bpow radix2 53) by (apply Rle_trans with (1 := Rle_abs _); apply IZR_bound; lia).
  change (ndiv (ofZ 1) (ofZ z) : Binary64) with (PrimFloat.div (ofZ 1 : Binary64) (ofZ z : Binary64)).
  assert (Q : 0 < 1 / IZR z <= 1).
  { split; [apply Rdiv_lt_0_compat; lra|]; apply (Rmult_le_reg_r (IZR z)); [lra|].
    unfold Rdiv; rewrite Rmult_assoc, Rinv_l; lra. }
  destruct (div64 (ofZ 1 : Binary64) (ofZ z : Binary64) F1 Fz) as (F & V).
  { rewrite Vz; lra. }
  { rewrite V1, Vz; apply rnd_safe with 0%Z; [lia|]; change (bpow radix2 0) with 1; apply Rabs_le; lra. }
  split; [exact F|]; rewrite V, V1, Vz.
  destruct (rnd_err (1 / IZR z)) as (e & h & He & Hh & E); rewrite E.
  replace (1 / IZR z * (1 + e) + h - 1 / IZR z) with (1 / IZR z * e + h) by ring.
  apply Rle_trans with (1 := Rabs_triang _ _); rewrite Rabs_mult, (Rabs_right (1 / IZR z)) by lra.
  assert (B : bpow radix2 (-53) <= 1 / IZR z).
  { change (bpow radix2 (-53)) with (/ bpow radix2 53); unfold Rdiv; rewrite Rmult_1_l; apply Rinv_le_contravar; lra. }
  rewrite <- ulp64_bpow in B; pose proof eta_ulp; pose proof ulp64_pos; pose proof eta64_pos.
  assert (K1 : eta64 <= / 10 * (ulp64 * ulp64)).
  { rewrite !ulp64_bpow; unfold eta64; rewrite <- bpow_plus.
    apply Rle_trans with (bpow radix2 (-4) * bpow radix2 (-53 + -53)).
    - rewrite <- bpow_plus; apply bpow_le; lia.
    - apply Rmult_le_compat_r; [apply bpow_ge_0|]; change (bpow radix2 (-4)) with (/ 16); lra. }
  assert (K2 : ulp64 * ulp64 <= ulp64 * (1 / IZR z)) by nra.
  assert (K3 : 1 / IZR z * Rabs e <= 1 / IZR z * ulp64) by nra.
  lra.
Qed.

(** ** np.isclose *)
Lemma finite_flag x : finite64 x -> nfinite (x : Binary64) = true.
Proof.
  intros F; change (nfinite (x : Binary64)) with (PrimFloat.eqb (PrimFloat.sub x x) PrimFloat.zero).
  destruct (sub64 x x F F) as (F' & V).
  { replace (value x - value x) with 0 by ring; rewrite rnd_0, Rabs_R0; apply bpow_gt_0. }
  rewrite eqb64 by (exact F' || exact I); rewrite V.
  replace (value x - value x) with 0 by ring; rewrite rnd_0; apply Req_bool_true; reflexivity.
Qed.

Lemma isclose64 (rt a b : Binary64) r : finite64 rt -> 0 < r <= 1 -> Rabs (value rt - r) <= (11/10) * ulp64 * r ->
  finite64 a -> finite64 b -> Rabs (value a) <= bpow radix2 1000 -> Rabs (value b) <= bpow radix2 1000 ->
  let T := 1 / 100000000 + r * Rabs (value b) in
  (Rabs (value a - value b) <= T - 8 * ulp64 * T -> isclose_tol rt lit_1em8 a b = true) /\
  (T + 8 * ulp64 * T < Rabs (value a - value b) -> isclose_tol rt lit_1em8 a b = false).
Proof.
  intros Frt Hr Hrt Fa Fb Ba Bb T.
  pose proof ulp64_small as Hu; pose proof eta64_pos as Hh; pose proof eta_ulp as Hhu.
  unfold isclose_tol; rewrite (finite_flag a Fa), (finite_flag b Fb); cbn [andb].
  (* the difference *)
  change (nsub a b) with (PrimFloat.sub a b).
  assert (P2 : 2 * bpow radix2 1000 = bpow radix2 1001) by apply two_bpow.
  destruct (sub64 a b Fa Fb) as (Fd & Vd).
  { apply rnd_safe with 1001%Z; [lia|]; rewrite <- P2; unfold Rminus; apply Rle_trans with (1 := Rabs_triang _ _); rewrite Rabs_Ropp; lra. }
  destruct (abs64 _ Fd) as (Fad & Vad).
  destruct (rnd_sub_err (value a) (value b) (value_fmt _) (value_fmt _)) as (e0 & He0 & E0).
  rewrite <- Vd in E0.
  (* the product *)
  destruct (abs64 b Fb) as (Fab & Vab).
  change (nabs b) with (PrimFloat.abs b).
  set (y := Rabs (value b)) in *; assert (Hy : 0 <= y) by apply Rabs_pos.
  assert (Rt : 0 < value rt <= 2).
  { apply Rabs_le_inv in Hrt; assert (ulp64 * r <= / 1000 * r) by (apply Rmult_le_compat_r; lra); nra. }
  assert (Bp : 0 <= value rt * y <= bpow radix2 1001) by (rewrite <- P2; nra).
  change (nmul rt (PrimFloat.abs b)) with (PrimFloat.mul rt (PrimFloat.abs b)).
  destruct (mul64 rt (PrimFloat.abs b) Frt Fab) as (Fm & Vm).
  { rewrite Vab; fold y; apply rnd_safe with 1001%Z; [lia|]; apply Rabs_le; lra. }
  rewrite Vab in Vm; fold y in Vm.
  destruct (rnd_err (value rt * y)) as (e1 & h1 & He1 & Hh1 & E1); rewrite <- Vm in E1.
  assert (Bm : 0 <= value (PrimFloat.mul rt (PrimFloat.abs b)) <= bpow radix2 1001).
  { rewrite Vm; split; [apply rnd_nonneg; lra|]; apply Rle_trans with (1 := Rle_abs _); apply rnd_bound; [lia|apply Rabs_le; lra]. }
  (* the sum *)
  destruct (lit64 100000000 ltac:(lia)) as (F8 & V8).
  change (ndiv (ofZ 1) (ofZ 100000000) : Binary64) with (lit_1em8 : Binary64) in F8, V8.
  set (l8 := value (lit_1em8 : Binary64)) in *.
  assert (B8 : 0 < l8 <= 1).
  { apply Rabs_le_inv in V8; assert (ulp64 * (1 / 100000000) <= / 1000 * (1 / 100000000)) by (apply Rmult_le_compat_r; lra); lra. }
  set (m := PrimFloat.mul rt (PrimFloat.abs b)) in *.
  change (nadd (lit_1em8 : Binary64) m) with (PrimFloat.add (lit_1em8 : Binary64) m).
  destruct (add64 (lit_1em8 : Binary64) m F8 Fm) as (Fs & Vs).
  { fold l8; apply rnd_safe with 1002%Z; [lia|]; replace 1002%Z with (1 + 1001)%Z by lia; rewrite <- two_bpow.
    assert (1 <= bpow radix2 1001) by (change 1 with (bpow radix2 0); apply bpow_le; lia). apply Rabs_le; lra. }
  destruct (rnd_add_err (value (lit_1em8 : Binary64)) (value m) (value_fmt _) (value_fmt _)) as (e2 & He2 & E2).
  rewrite <- Vs in E2; fold l8 in E2.
  change (nleb ?p ?q) with (PrimFloat.leb p q); change (nabs ?p) with (PrimFloat.abs p).
  rewrite leb64 by assumption; rewrite Vad, E0, E2, Rabs_mult.
  (* arithmetic *)
  set (D := Rabs (value a - value b)) in *; assert (HD : 0 <= D) by apply Rabs_pos.
  assert (HT0 : 1/100000000 <= T) by (unfold T; nra).
  assert (A1 : Rabs (value m - r * y) <= (23/10) * ulp64 * (r * y) + eta64).
  { rewrite E1.
    replace (value rt * y * (1 + e1) + h1 - r * y) with (y * (value rt - r) * (1 + e1) + (r * y) * e1 + h1) by ring.
    apply Rle_trans with (1 := Rabs_triang _ _); apply Rplus_le_compat; [|exact Hh1].
    apply Rle_trans with (1 := Rabs_triang _ _).
    rewrite !Rabs_mult, (Rabs_right y), (Rabs_right r) by lra.
    assert (X1 : Rabs (1 + e1) <= 1001/1000) by (apply Rabs_le_inv in He1; apply Rabs_le; lra).
    assert (X2 : y * Rabs (value rt - r) <= y * (11 / 10 * ulp64 * r)) by (apply Rmult_le_compat_l; lra).
    assert (X3 : y * Rabs (value rt - r) * Rabs (1 + e1) <= y * (11 / 10 * ulp64 * r) * (1001/1000)).
    { apply Rmult_le_compat; [apply Rmult_le_pos; [lra|apply Rabs_pos]|apply Rabs_pos|exact X2|exact X1]. }
    assert (X4 : r * y * Rabs e1 <= r * y * ulp64) by (apply Rmult_le_compat_l; [nra|lra]).
    assert (0 <= ulp64 * (r * y)) by (apply Rmult_le_pos; [lra|nra]).
    replace (y * (11 / 10 * ulp64 * r) * (1001 / 1000)) with ((11011/10000) * (ulp64 * (r * y))) in X3 by field.
    replace (r * y * ulp64) with (ulp64 * (r * y)) in X4 by ring.
    replace (23 / 10 * ulp64 * (r * y)) with (23/10 * (ulp64 * (r * y))) by ring; lra. }
  assert (A2 : Rabs (l8 + value m - T) <= (24/10) * ulp64 * T).
  { assert (E : l8 + value m - T = (l8 - 1/100000000) + (value m - r * y)) by (unfold T; ring).
    rewrite E; apply Rle_trans with (1 := Rabs_triang _ _).
    assert (1000000000 <= 2 ^ 100) by lra.
    assert (eta64 * 1000000000 <= eta64 * 2 ^ 100) by (apply Rmult_le_compat_l; lra).
    assert (eta64 <= / 10 * ulp64 * (1/100000000)) by lra.
    assert (0 <= ulp64 * (r * y)) by (apply Rmult_le_pos; [lra|nra]).
    replace (24 / 10 * ulp64 * T) with (24/10 * (1/100000000 * ulp64) + 24/10 * (ulp64 * (r * y))) by (unfold T; ring).
    replace (11 / 10 * ulp64 * (1 / 100000000)) with (11/10 * (1/100000000 * ulp64)) in V8 by ring.
    replace (23 / 10 * ulp64 * (r * y)) with (23/10 * (ulp64 * (r * y))) in A1 by ring; lra. }
  assert (A3 : Rabs ((l8 + value m) * (1 + e2) - T) <= (35/10) * ulp64 * T).
  { replace ((l8 + value m) * (1 + e2) - T) with ((l8 + value m - T) * (1 + e2) + e2 * T) by ring.
    apply Rle_trans with (1 := Rabs_triang _ _); rewrite !Rabs_mult, (Rabs_right T) by lra.
    assert (X1 : Rabs (1 + e2) <= 1001/1000) by (apply Rabs_le_inv in He2; apply Rabs_le; lra).
    assert (X2 : Rabs (l8 + value m - T) * Rabs (1 + e2) <= (24/10 * ulp64 * T) * (1001/1000)) by (apply Rmult_le_compat; try apply Rabs_pos; assumption).
    assert (X3 : Rabs e2 * T <= ulp64 * T) by (apply Rmult_le_compat_r; lra).
    assert (0 <= ulp64 * T) by (apply Rmult_le_pos; lra). lra. }
  apply Rabs_le_inv in A3.
  assert (X0 : 1 - ulp64 <= Rabs (1 + e0) <= 1 + ulp64).
  { apply Rabs_le_inv in He0; rewrite Rabs_right by lra; lra. }
  assert (UT : 0 <= ulp64 * T) by (apply Rmult_le_pos; lra).
  assert (UUT : ulp64 * (ulp64 * T) <= / 1000 * (ulp64 * T)) by (apply Rmult_le_compat_r; lra).
  split; intros H.
  - apply Rle_bool_true.
    apply Rle_trans with ((T - 8 * ulp64 * T) * (1 + ulp64)).
    + apply Rmult_le_compat; try lra.
    + nra.
  - apply Rle_bool_false.
    apply Rlt_le_trans with ((T + 8 * ulp64 * T) * (1 - ulp64)).
    + nra.
    + apply Rmult_le_compat; try lra; nra.
Qed.

(** ** The span search *)
Lemma aget_map {A B} (f : A -> B) (l : list A) i :
  aget (map f l) i = match aget l i with Ok a => Ok (f a) | Err e => Err e | Diverge => Diverge end.
Proof.
  unfold aget, zlen; rewrite map_length; destruct (_ && _); [|reflexivity].
  rewrite nth_error_map; destruct (nth_error l _); reflexivity.
Qed.
Lemma aget_In {A} (l : list A) i a : aget l i = Ok a -> In a l.
Proof.
  unfold aget; destruct (_ && _); [|discriminate]; destruct (nth_error l _) eqn:E; [|discriminate].
  intros H; injection H as <-; eapply nth_error_In; exact E.
Qed.
Lemma fin_values (U : list Binary64) : fin (values U) = map (fun x : Binary64 => Fin (value x) : Exact) U.
Proof. unfold fin, values; rewrite map_map; reflexivity. Qed.
Lemma ltb_value (x y : Binary64) : finite64 x -> finite64 y -> nltb x y = nltb (Fin (value x) : Exact) (Fin (value y)).
Proof.
  intros Fx Fy; rewrite E_ltb; change (nltb x y) with (PrimFloat.ltb x y); rewrite ltb64 by assumption.
  unfold Rltb; destruct (Rlt_dec _ _); [apply Rlt_bool_true|apply Rlt_bool_false]; lra.
Qed.

Lemma span_loop_values (x : Binary64) (U : list Binary64) : finite64 x -> Forall finite64 U -> forall fuel low high mid,
  span_loop fuel x U low high mid = span_loop fuel (Fin (value x) : Exact) (fin (values U)) low high mid.
Proof.
  intros Fx FU; rewrite Forall_forall in FU; induction fuel as [|f IH]; intros low high mid; [reflexivity|].
  cbn [span_loop]; rewrite fin_values, !aget_map, <- fin_values.
  destruct (aget U mid) as [um|e|] eqn:E; [|reflexivity|reflexivity]; cbn [bind].
  rewrite (ltb_value x um) by (try assumption; apply FU; eapply aget_In; exact E).
  destruct (nltb (Fin (value x) : Exact) (Fin (value um))); cbn [bind]; [apply IH|].
  destruct (aget U (mid + 1)) as [um1|e|] eqn:E1; [|reflexivity|reflexivity]; cbn [bind].
  rewrite (ltb_value um1 x) by (try assumption; apply FU; eapply aget_In; exact E1).
  destruct (nltb (Fin (value um1) : Exact) (Fin (value x))); [apply IH|reflexivity].
Qed.

Lemma lit6_ok : finite64 (lit_1em6 : Binary64) /\
  Rabs (value (lit_1em6 : Binary64) - 1 / 1000000) <= 11/10 * ulp64 * (1 / 1000000).
Proof. apply (lit64 1000000); lia. Qed.

Lemma within_finite a b U : within a b U -> Forall finite64 U.
Proof. intros H; eapply Forall_impl; [|exact H]; intros y (F & _); exact F. Qed.

(** Away from the edge of the tolerance the answer is that of exact arithmetic. *)
Lemma find_span_values n p (x : Binary64) (U : list Binary64) : finite64 x -> Forall finite64 U -> (0 <= n < len U)%Z ->
  Rabs (value x) <= 2 ^ 1000 -> Rabs (kn (values U) n) <= 2 ^ 1000 ->
  let T := 1 / 100000000 + 1 / 1000000 * Rabs (kn (values U) n) in
  (Rabs (value x - kn (values U) n) <= T - 8 * ulp64 * T \/ T + 8 * ulp64 * T < Rabs (value x - kn (values U) n)) ->
  find_span n p x U = find_span n p (Fin (value x) : Exact) (fin (values U)).
Proof.
  intros Fx FU Hn Bx Bn T HT; unfold find_span, find_span_rtol.
  rewrite (aget_nth U n (0%num : Binary64)) by exact Hn; rewrite aget_fin by (rewrite len_values; exact Hn); cbn [bind].
  rewrite <- (span_loop_values x U Fx FU).
  set (b := nth (Z.to_nat n) U (0%num : Binary64)).
  assert (Eb : kn (values U) n = value b) by (apply kn_values; exact Hn).
  assert (Fb : finite64 b) by (rewrite Forall_forall in FU; apply FU, nth_In; unfold len in Hn; lia).
  destruct lit6_ok as (F6 & V6).
  assert (P : bpow radix2 1000 = 2 ^ 1000) by (rewrite bpow_powerRZ; reflexivity).
  destruct (isclose64 (lit_1em6 : Binary64) x b (1 / 1000000) F6 ltac:(lra) V6 Fx Fb) as (C1 & C2);
    [rewrite P; exact Bx|rewrite P, <- Eb; exact Bn|].
  rewrite <- Eb in C1, C2; fold T in C1, C2.
  pose proof ulp64_small as Hu.
  assert (HT0 : 0 < T) by (unfold T; pose proof (Rabs_pos (kn (values U) n)); lra).
  assert (0 < ulp64 * T) by (apply Rmult_lt_0_compat; lra).
  rewrite E_1em6; destruct (isclose_dec (1/1000000) (value x) (kn (values U) n)) as [(E & C)|(E & C)]; rewrite E.
  - destruct HT as [HT|HT]; [rewrite (C1 HT); reflexivity|].
    unfold close in C; fold T in C; lra.
  - destruct HT as [HT|HT]; [|rewrite (C2 HT); reflexivity].
    exfalso; apply C; unfold close; fold T; lra.
Qed.

Lemma ltb_lt (x y : Binary64) a b : finite64 x -> finite64 y -> value x = a -> value y = b -> a < b -> nltb x y = true.
Proof. intros Fx Fy <- <- L; rewrite ltb_value, E_ltb by assumption; apply Rltb_true; exact L. Qed.
Lemma ltb_ge (x y : Binary64) a b : finite64 x -> finite64 y -> value x = a -> value y = b -> b <= a -> nltb x y = false.
Proof. intros Fx Fy <- <- L; rewrite ltb_value, E_ltb by assumption; apply Rltb_false; lra. Qed.
Lemma ge_ltb (x y : Binary64) a b : finite64 x -> finite64 y -> value x = a -> value y = b -> nltb x y = false -> b <= a.
Proof. intros Fx Fy <- <- L; rewrite ltb_value, E_ltb in L by assumption; apply Rltb_false in L; lra. Qed.
Lemma nth_finite (U : list PrimFloat.float) i (d : PrimFloat.float) : Forall finite64 U -> (0 <= i < len U)%Z ->
  finite64 (nth (Z.to_nat i) U d).
Proof. intros FU Hi; rewrite Forall_forall in FU; apply FU, nth_In; unfold len in Hi; lia. Qed.
(** On the domain, whatever the distance to its end. *)
Lemma finite_weak_order : weak_order Binary64 finite64.
Proof.
  split; intros.
  all: rewrite !ltb_value, ?E_ltb in * by assumption.
  all: rewrite ?Rltb_true, ?Rltb_false in *; try lra.
Qed.
Lemma find_span_b64 p n (x : Binary64) (U : list PrimFloat.float) : finite64 x -> Forall finite64 U -> knots_for p n (values U) ->
  kn (values U) p <= value x <= kn (values U) n ->
  Rabs (value x) <= 2 ^ 1000 -> Rabs (kn (values U) n) <= 2 ^ 1000 ->
  let T := 1 / 100000000 + 1 / 1000000 * Rabs (kn (values U) n) in
  exists s, find_span n p x U = Ok s /\ (p <= s <= n - 1)%Z /\
    (s = (n - 1)%Z /\ kn (values U) n - value x <= T + 8 * ulp64 * T \/
     kn (values U) s <= value x <= kn (values U) (s + 1) /\ T - 8 * ulp64 * T < kn (values U) n - value x).
Proof.
  intros Fx FU HK Hx Bx Bn T; pose proof HK as (Hp & Hn & HL & HU); rewrite len_values in HL.
  pose proof ulp64_small as Hu.
  assert (HT0 : 0 < T) by (unfold T; pose proof (Rabs_pos (kn (values U) n)); lra).
  assert (0 < ulp64 * T) by (apply Rmult_lt_0_compat; lra).
  assert (UT2 : ulp64 * T <= / 1000 * T) by (apply Rmult_le_compat_r; lra).
  assert (HnU : (0 <= n < len U)%Z) by lia.
  assert (VK : forall i, (0 <= i < len U)%Z -> value (nth (Z.to_nat i) U (0%num : Binary64)) = kn (values U) i /\
    finite64 (nth (Z.to_nat i) U (0%num : Binary64))).
  { intros i Hi; split; [symmetry; apply kn_values; exact Hi|].
    exact (nth_finite U i _ FU Hi). }
  set (b := nth (Z.to_nat n) U (0%num : Binary64)).
  destruct (VK n HnU) as (Eb & Fb); fold b in Eb, Fb; symmetry in Eb.
  destruct lit6_ok as (F6 & V6).
  assert (P : bpow radix2 1000 = 2 ^ 1000) by (rewrite bpow_powerRZ; reflexivity).
  destruct (isclose64 (lit_1em6 : Binary64) x b (1 / 1000000) F6 ltac:(lra) V6 Fx Fb) as (C1 & C2);
    [rewrite P; exact Bx|rewrite P, <- Eb; exact Bn|].
  rewrite <- Eb in C1, C2; fold T in C1, C2.
  assert (AB : Rabs (value x - kn (values U) n) = kn (values U) n - value x).
  { rewrite Rabs_minus_sym; apply Rabs_right; lra. }
  rewrite AB in C1, C2.
  assert (HF : isclose_tol (lit_1em6 : Binary64) lit_1em8 x b = false -> T - 8 * ulp64 * T < kn (values U) n - value x).
  { intros E; destruct (Rle_dec (kn (values U) n - value x) (T - 8 * ulp64 * T)) as [L|L]; [|lra].
    rewrite (C1 L) in E; discriminate E. }
  destruct (find_span_generic Binary64 finite64 (lit_1em6 : Binary64) x n p U (0%num : Binary64) finite_weak_order Fx FU)
    as (s & Es & Hs & R0); [lia|change (zlen U) with (len U); lia| | |].
  - destruct (VK p ltac:(lia)) as (Vp & Fp); exact (ltb_ge x _ _ _ Fx Fp eq_refl Vp (proj1 Hx)).
  - fold b; intros E; specialize (HF E); apply (ltb_lt x _ _ _ Fx Fb eq_refl (eq_sym Eb)); lra.
  - exists s; split; [exact Es|]; split; [lia|]; fold b in R0; destruct R0 as [(E & ->)|(E & R1 & R2)].
    + left; split; [reflexivity|].
      destruct (Rle_dec (kn (values U) n - value x) (T + 8 * ulp64 * T)) as [L|L]; [exact L|].
      assert (true = false) as B by (rewrite <- E; apply C2; lra); discriminate B.
    + right; destruct (VK s ltac:(lia)) as (V1 & F1); destruct (VK (s + 1)%Z ltac:(lia)) as (V2 & F2).
      pose proof (ge_ltb x _ _ _ Fx F1 eq_refl V1 R1); pose proof (ge_ltb _ x _ _ F2 Fx V2 eq_refl R2).
      split; [lra|apply HF; exact E].
Qed.
