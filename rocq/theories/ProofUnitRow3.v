(** The square root of the square is the absolute value on binary64 numbers, and
    a vector's computed length is at least every component. *)
From Coq Require Import Reals Lra Lia ZArith List Floats.
From Flocq Require Import Core.Core Relative.
From Verif Require Import Py PyLemmas Num ModelKnots ModelBasis ModelSurface Spec SpecB64 ProofNum ProofParam ProofSmooth2
  ProofB64 ProofB64Basis ProofB64Span ProofB64Curve ProofB64Knots ProofB64Norm ProofUnitRow ProofUnitRow2.
Import ListNotations.
Open Scope R_scope.

(** ** Roots of squares *)
Section Root.
Variable x : R.
Hypothesis Fx : fmt x.
Hypothesis Hx : bpow radix2 (-400) <= x.
Lemma root_pos : 0 < x.
Proof. pose proof (bpow_gt_0 radix2 (-400)); lra. Qed.
(** Away from the powers of 2: the binade, and the rounded square. *)
Lemma root_frame : exists B, 0 < B /\ B / 2 <= x /\ x <= B - ulp64 * B /\
  ulp radix2 (FLT_exp (-1074) 53) x = ulp64 * B /\
  (B / 2 = x -> rnd (x * x) = x * x) /\
  (B / 2 < x -> pred radix2 (FLT_exp (-1074) 53) x = x - ulp64 * B) /\
  Rabs (rnd (x * x) - x * x) <= ulp64 * (x * x).
Proof.
  pose proof root_pos as P.
  set (e := mag radix2 x : Z).
  assert (M : bpow radix2 (e - 1) <= x < bpow radix2 e).
  { pose proof (bpow_mag_le radix2 x ltac:(lra)) as A; pose proof (bpow_mag_gt radix2 x) as A'; rewrite Rabs_right in A, A' by lra; split; assumption. }
  assert (He : (-400 < e)%Z) by (apply (lt_bpow radix2); lra).
  assert (U : ulp radix2 (FLT_exp (-1074) 53) x = bpow radix2 (e - 53)).
  { rewrite ulp_neq_0 by lra; unfold cexp; fold e; unfold FLT_exp; f_equal; lia. }
  assert (UB : ulp64 * bpow radix2 e = bpow radix2 (e - 53)).
  { rewrite ulp64_bpow, <- bpow_plus; f_equal; lia. }
  assert (HB : bpow radix2 e / 2 = bpow radix2 (e - 1)).
  { unfold Zminus; rewrite bpow_plus; reflexivity. }
  exists (bpow radix2 e); split; [apply bpow_gt_0|]; rewrite HB, UB; split; [apply M|].
  split; [|split; [exact U|split; [|split]]].
  - pose proof (id_p_ulp_le_bpow radix2 (FLT_exp (-1074) 53) x e P Fx (proj2 M)) as Q; rewrite U in Q; lra.
  - intros E; apply rnd_fmt; rewrite <- E, <- bpow_plus; apply fmt_bpow; lia.
  - intros E; rewrite pred_eq_pos by lra; unfold pred_pos; fold e; rewrite Req_bool_false by lra; rewrite U; reflexivity.
  - assert (XX : bpow radix2 (-1074 + 53 - 1) <= Rabs (x * x)).
    { rewrite Rabs_right by (apply Rle_ge, Rle_0_sqr); apply Rle_trans with (bpow radix2 (-400) * bpow radix2 (-400)).
      - rewrite <- bpow_plus; apply bpow_le; lia.
      - apply Rmult_le_compat; try apply bpow_ge_0; exact Hx. }
    pose proof (relative_error_N_FLT radix2 (-1074) 53 ltac:(reflexivity) (fun n => negb (Z.even n)) (x * x) XX) as Q.
    rewrite (Rabs_right (x * x)) in Q by (apply Rle_ge, Rle_0_sqr).
    rewrite ulp64_half; exact Q.
Qed.
Lemma root_ge s y : Rabs (y - x * x) <= Rabs (rnd (x * x) - x * x) -> y <= s -> x <= rnd (sqrt s).
Proof.
  intros Hy Hs; pose proof root_pos as P; pose proof ulp64_small as Hu.
  destruct root_frame as (B & HB & B1 & B2 & U & EP & EN & ER).
  destruct (Rle_lt_or_eq_dec _ _ B1) as [B1'|B1'].
  - apply round_N_ge_midp; [apply FLT_exp_valid; reflexivity|exact Fx|].
    rewrite (EN B1'); replace ((x - ulp64 * B + x) / 2) with (x - ulp64 * B / 2) by field.
    apply Rsqr_incrst_0.
    2: { assert (ulp64 * B <= / 1000 * B) by (apply Rmult_le_compat_r; lra); lra. }
    2: apply sqrt_pos.
    assert (S0 : 0 <= s).
    { apply Rle_trans with (2 := Hs); pose proof (Rabs_le_inv _ _ (Rle_trans _ _ _ Hy ER)) as Q.
      assert (0 <= x * x) by apply Rle_0_sqr; assert (ulp64 * (x * x) <= / 1000 * (x * x)) by (apply Rmult_le_compat_r; lra); lra. }
    rewrite Rsqr_sqrt by exact S0; unfold Rsqr; pose proof (Rabs_le_inv _ _ (Rle_trans _ _ _ Hy ER)) as ER'; clear ER; rename ER' into ER.
    apply Rlt_le_trans with (x * x - ulp64 * (x * x)); [|lra].
    assert (Q : ulp64 * B * (B / 2) <= x * (B - x)).
    { rewrite Rmult_comm; apply Rmult_le_compat; try lra; apply Rmult_le_pos; lra. }
    assert (Q2 : ulp64 * (ulp64 * B * (B / 2)) <= ulp64 * (x * (B - x))) by (apply Rmult_le_compat_l; lra).
    assert (Q3 : 0 < ulp64 * (ulp64 * B * (B / 2))) by (repeat apply Rmult_lt_0_compat; lra).
    replace ((x - ulp64 * B / 2) * (x - ulp64 * B / 2)) with (x * x - ulp64 * (x * x) - ulp64 * (x * (B - x)) + ulp64 * (ulp64 * B * (B / 2)) / 2) by field.
    lra.
  - rewrite (EP B1'), (Rminus_diag_eq (x * x) (x * x) eq_refl), Rabs_R0 in Hy; apply Rabs_le_inv in Hy.
    rewrite <- (rnd_fmt x Fx) at 1; apply rnd_le.
    rewrite <- (sqrt_square x) by lra; apply sqrt_le_1_alt; lra.
Qed.
Lemma root_le s : Rabs (s - x * x) <= Rabs (rnd (x * x) - x * x) -> rnd (sqrt s) <= x.
Proof.
  intros Hy; pose proof root_pos as P; pose proof ulp64_small as Hu.
  destruct root_frame as (B & HB & B1 & B2 & U & EP & EN & ER).
  apply round_N_le_midp; [apply FLT_exp_valid; reflexivity|exact Fx|].
  rewrite succ_eq_pos, U by lra; replace ((x + (x + ulp64 * B)) / 2) with (x + ulp64 * B / 2) by field.
  assert (UB : 0 < ulp64 * B) by (apply Rmult_lt_0_compat; lra).
  apply Rsqr_incrst_0; [|apply sqrt_pos|lra].
  pose proof (Rabs_le_inv _ _ (Rle_trans _ _ _ Hy ER)) as ER'; clear ER; rename ER' into ER.
  assert (S0 : 0 <= s).
  { assert (0 <= x * x) by apply Rle_0_sqr; assert (ulp64 * (x * x) <= / 1000 * (x * x)) by (apply Rmult_le_compat_r; lra); lra. }
  rewrite Rsqr_sqrt by exact S0; unfold Rsqr.
  apply Rle_lt_trans with (x * x + ulp64 * (x * x)); [lra|].
  assert (x * x < x * B) by (apply Rmult_lt_compat_l; lra).
  assert (ulp64 * (x * x) < ulp64 * (x * B)) by (apply Rmult_lt_compat_l; lra).
  assert (0 < ulp64 * B / 2 * (ulp64 * B / 2)) by (apply Rmult_lt_0_compat; lra).
  replace ((x + ulp64 * B / 2) * (x + ulp64 * B / 2)) with (x * x + ulp64 * (x * B) + ulp64 * B / 2 * (ulp64 * B / 2)) by field.
  lra.
Qed.
End Root.

(** ** The length is at least every component *)
Lemma add_grows (a b : PrimFloat.float) e : (0 <= e < 1000)%Z -> finite64 a -> finite64 b ->
  0 <= value a <= bpow radix2 e -> 0 <= value b <= bpow radix2 e ->
  finite64 (a + b)%float /\ value a <= value (a + b)%float <= bpow radix2 (1 + e) /\ value b <= value (a + b)%float /\
  (value a = 0 -> value (a + b)%float = value b) /\ (value b = 0 -> value (a + b)%float = value a).
Proof.
  intros He Fa Fb Ha Hb.
  assert (S : Rabs (value a + value b) <= bpow radix2 (1 + e)) by (rewrite <- two_bpow, Rabs_right by lra; lra).
  destruct (add64 a b Fa Fb) as (F & V); [apply rnd_safe with (1 + e)%Z; [lia|exact S]|].
  split; [exact F|]; rewrite V; split; [split|split; [|split]].
  - rewrite <- (rnd_fmt (value a) (value_fmt a)) at 1; apply rnd_le; lra.
  - apply Rle_trans with (1 := Rle_abs _); apply rnd_bound; [lia|exact S].
  - rewrite <- (rnd_fmt (value b) (value_fmt b)) at 1; apply rnd_le; lra.
  - intros ->; rewrite Rplus_0_l; apply rnd_fmt, value_fmt.
  - intros ->; rewrite Rplus_0_r; apply rnd_fmt, value_fmt.
Qed.
Lemma square_bounds (x : PrimFloat.float) : finite64 x -> - 2 ^ 400 <= value x <= 2 ^ 400 ->
  finite64 (x * x)%float /\ 0 <= value (x * x)%float <= bpow radix2 800 /\ value (x * x)%float = rnd (value x * value x).
Proof.
  intros Fx Bx.
  assert (XX : Rabs (value x * value x) <= bpow radix2 800).
  { replace (bpow radix2 800) with (2 ^ 400 * 2 ^ 400) by (rewrite <- pow_add, (pow_bpow (400 + 400)); reflexivity).
    rewrite Rabs_mult; apply Rmult_le_compat; try apply Rabs_pos; apply Rabs_le; exact Bx. }
  destruct (mul64 x x Fx Fx) as (F & V); [apply rnd_safe with 800%Z; [lia|exact XX]|].
  split; [exact F|]; rewrite V; split; [|reflexivity]; split; [apply rnd_nonneg, Rle_0_sqr|].
  apply Rle_trans with (1 := Rle_abs _); apply rnd_bound; [lia|exact XX].
Qed.
Lemma abs_square a : Rabs a * Rabs a = a * a.
Proof. rewrite <- Rabs_mult; apply Rabs_right, Rle_ge, Rle_0_sqr. Qed.
Lemma rnd_abs_square a : rnd (Rabs a * Rabs a) = rnd (a * a).
Proof. rewrite <- Rabs_mult, (Rabs_right (a * a)) by (apply Rle_ge, Rle_0_sqr); reflexivity. Qed.
Lemma fmt_abs a : fmt a -> fmt (Rabs a).
Proof. apply generic_format_abs. Qed.

(** The sum of the squares under the root. *)
Lemma sum3 (a b c : PrimFloat.float) : within (- 2 ^ 400) (2 ^ 400) [a; b; c] ->
  let s := (((0%num : Binary64) + a * a) + b * b + c * c)%float in
  finite64 s /\ rnd (value a * value a) <= value s /\ rnd (value b * value b) <= value s /\ rnd (value c * value c) <= value s /\
  (value b = 0 -> value c = 0 -> value s = rnd (value a * value a)) /\
  (value a = 0 -> value c = 0 -> value s = rnd (value b * value b)) /\
  (value a = 0 -> value b = 0 -> value s = rnd (value c * value c)).
Proof.
  intros W; pose proof (Forall_inv W) as (Fa & Ba); pose proof (Forall_inv_tail W) as W1; pose proof (Forall_inv W1) as (Fb & Bb);
  pose proof (Forall_inv (Forall_inv_tail W1)) as (Fc & Bc); intros s.
  destruct (square_bounds a Fa Ba) as (F1 & B1 & V1); destruct (square_bounds b Fb Bb) as (F2 & B2 & V2); destruct (square_bounds c Fc Bc) as (F3 & B3 & V3).
  assert (M1 : bpow radix2 800 <= bpow radix2 801) by (apply bpow_le; lia); assert (M2 : bpow radix2 800 <= bpow radix2 802) by (apply bpow_le; lia).
  destruct (add_grows (0%num : Binary64) (a * a)%float 800 ltac:(lia) finite_0 F1 ltac:(rewrite value_0; pose proof (bpow_ge_0 radix2 800); lra) B1) as (G1 & H1 & I1 & J1 & _).
  set (s1 := ((0%num : Binary64) + a * a)%float) in *; specialize (J1 value_0); change (1 + 800)%Z with 801%Z in H1; rewrite value_0 in H1.
  destruct (add_grows s1 (b * b)%float 801 ltac:(lia) G1 F2 ltac:(lra) ltac:(lra)) as (G2 & H2 & I2 & J2 & K2).
  set (s2 := (s1 + b * b)%float) in *; change (1 + 801)%Z with 802%Z in H2.
  destruct (add_grows s2 (c * c)%float 802 ltac:(lia) G2 F3 ltac:(lra) ltac:(lra)) as (G3 & H3 & I3 & J3 & K3).
  fold s in G3, H3, I3, J3, K3.
  assert (Zr : forall y, y = 0 -> rnd (y * y) = 0) by (intros y ->; rewrite Rmult_0_l; apply rnd_0).
  split; [exact G3|]; rewrite <- V1, <- V2, <- V3; split; [lra|]; split; [lra|]; split; [lra|].
  split; [|split].
  - intros E1 E2; rewrite K3, K2 by (rewrite ?V3, ?V2; apply Zr; assumption); exact J1.
  - intros E1 E2; rewrite K3 by (rewrite V3; apply Zr; assumption); apply J2; rewrite J1, V1; apply Zr; exact E1.
  - intros E1 E2; apply J3; rewrite K2 by (rewrite V2; apply Zr; assumption); rewrite J1, V1; apply Zr; exact E1.
Qed.
(** [w] is the root of a sum of squares that is at least one of the doubles nearest
    to each square, and one of the nearest if there is one square only. *)
Definition near (p y : R) : Prop := Rabs (y - p) <= Rabs (rnd p - p).
Definition sums (r : list PrimFloat.float) (w : PrimFloat.float) : Prop :=
  exists s : PrimFloat.float, w = PrimFloat.sqrt s /\ finite64 s /\ 0 <= value s /\
  (forall c, (c < 3)%nat -> exists y, near (value (nth c r 0%float) * value (nth c r 0%float)) y /\ y <= value s) /\
  (forall c, (c < 3)%nat -> (forall d, (d < 3)%nat -> d <> c -> value (nth d r 0%float) = 0) ->
     near (value (nth c r 0%float) * value (nth c r 0%float)) (value s)).
Lemma norm_sum (r : list PrimFloat.float) : length r = 3%nat -> within (- 2 ^ 400) (2 ^ 400) r -> sums r (vnorm (r : list Binary64)).
Proof.
  intros L W; destruct r as [|a [|b [|c [|]]]]; try discriminate L.
  destruct (sum3 a b c W) as (F & A & B & C & A' & B' & C').
  eexists; split; [reflexivity|]; split; [exact F|]; split; [|split].
  - eapply Rle_trans; [|exact A]; apply rnd_nonneg, Rle_0_sqr.
  - intros d Hd; eexists; split; [apply Rle_refl|]; destruct d as [|[|[|d]]]; [exact A|exact B|exact C|lia].
  - assert (N : forall p v, v = rnd p -> near p v) by (intros p v ->; apply Rle_refl).
    intros [|[|[|d]]] Hd HZ; [apply N, A'|apply N, B'|apply N, C'|lia].
    + apply (HZ 1%nat); lia. + apply (HZ 2%nat); lia. + apply (HZ 0%nat); lia. + apply (HZ 2%nat); lia. + apply (HZ 0%nat); lia. + apply (HZ 1%nat); lia.
Qed.
Section Range.
Variable r : list PrimFloat.float.
Variable w : PrimFloat.float.
Hypothesis L : length r = 3%nat.
Hypothesis W : within (- 2 ^ 400) (2 ^ 400) r.
Hypothesis NO : norm_ok r w.
Hypothesis NS : sums r w.
Hypothesis HN : 101/10000000000 <= normR (values r).
Lemma norm_ge c : (c < 3)%nat -> Rabs (value (nth c r 0%float)) <= value w.
Proof.
  intros Hc; set (x := nth c r 0%float).
  destruct (Rle_lt_dec (bpow radix2 (-400)) (Rabs (value x))) as [G|G].
  - destruct NS as (s & E & F & S0 & A & _); destruct (A c Hc) as (y & Ny & Ay); fold x in Ny; unfold near in Ny.
    rewrite E, (proj2 (sqrt64 s F S0)); apply root_ge with y; [apply fmt_abs, value_fmt|exact G| |exact Ay].
    rewrite rnd_abs_square, abs_square; exact Ny.
  - pose proof (norm_rel r w NO HN) as E; apply Rabs_le_inv in E; pose proof ulp64_small as Hu.
    assert (ulp64 * normR (values r) <= / 1000 * normR (values r)) by (apply Rmult_le_compat_r; lra).
    assert (bpow radix2 (-400) <= / 1000000000).
    { replace (bpow radix2 (-400)) with (/ bpow radix2 400) by (rewrite <- bpow_opp; reflexivity).
      apply Rinv_le_contravar; [lra|]; rewrite bpow400; replace (2 ^ 400) with (2 ^ 30 * 2 ^ 370) by (rewrite <- pow_add; reflexivity).
      assert (1 <= 2 ^ 370) by (apply pow_R1_Rle; lra); cbn [pow] in *; lra. }
    lra.
Qed.
Lemma nth_divided c : (c < 3)%nat -> nth c (divided r w) 0%float = (nth c r 0%float / w)%float.
Proof.
  intros Hc; unfold divided; rewrite (nth_indep _ 0%float (0 / w)%float) by (rewrite map_length; lia).
  exact (map_nth (fun x => (x / w)%float) r 0%float c).
Qed.
Lemma divided_value c : (c < 3)%nat -> 0 < value w /\
  value (nth c (divided r w) 0%float) = rnd (value (nth c r 0%float) / value w).
Proof.
  intros Hc; destruct (NO) as (F & _ & _).
  destruct (proj1 (Forall_forall _ _) W (nth c r 0%float) ltac:(apply nth_In; lia)) as (Fx & _).
  destruct (div_unit (nth c r 0%float) w (normR (values r)) Fx F ltac:(lra) (norm_rel r w NO HN)) as (_ & V & P & _).
  { pose proof (comp_le (values r) c ltac:(unfold values; rewrite map_length; exact L) Hc) as C.
    rewrite (map_nth value r 0%float c : nth c (values r) 0 = _) in C; exact C. }
  rewrite nth_divided by exact Hc; split; [exact P|exact V].
Qed.
Lemma divided_range c : (c < 3)%nat -> -1 <= value (nth c (divided r w) 0%float) <= 1.
Proof.
  intros Hc; destruct (divided_value c Hc) as (P & V); pose proof (norm_ge c Hc) as G.
  apply Rabs_le_inv; rewrite V; change 1 with (bpow radix2 0); apply rnd_bound; [lia|]; cbn [bpow].
  unfold Rdiv; rewrite Rabs_mult, (Rabs_right (/ _)) by (apply Rle_ge, Rlt_le, Rinv_0_lt_compat; exact P).
  apply Rmult_le_reg_r with (1 := P); rewrite Rmult_assoc, Rinv_l by lra; lra.
Qed.
(** Along an axis: exactly 1 or -1 there and 0 elsewhere. *)
Lemma divided_axis c : (c < 3)%nat -> (forall d, (d < 3)%nat -> d <> c -> value (nth d r 0%float) = 0) ->
  (0 < value (nth c r 0%float) -> value (nth c (divided r w) 0%float) = 1) /\
  (value (nth c r 0%float) < 0 -> value (nth c (divided r w) 0%float) = -1) /\
  forall d, (d < 3)%nat -> d <> c -> value (nth d (divided r w) 0%float) = 0.
Proof.
  intros Hc HZ; set (x := nth c r 0%float) in *.
  assert (NX : normR (values r) = Rabs (value x)).
  { rewrite norm3R by (unfold values; rewrite map_length; exact L).
    assert (VN : forall d, nth d (values r) 0 = value (nth d r 0%float)) by (intros d; exact (map_nth value r 0%float d)).
    rewrite !VN, <- sqrt_Rsqr_abs; f_equal; unfold Rsqr, x.
    destruct c as [|[|[|]]]; [| | |lia]; rewrite ?(HZ 0%nat), ?(HZ 1%nat), ?(HZ 2%nat) by lia; ring. }
  assert (G : bpow radix2 (-400) <= Rabs (value x)).
  { rewrite <- NX; apply Rle_trans with (2 := HN); replace (bpow radix2 (-400)) with (/ bpow radix2 400) by (rewrite <- bpow_opp; reflexivity).
    replace (101/10000000000) with (/ (10000000000 / 101)) by field; apply Rinv_le_contravar; [lra|]; rewrite bpow400; replace (2 ^ 400) with (2 ^ 30 * 2 ^ 370) by (rewrite <- pow_add; reflexivity).
    assert (1 <= 2 ^ 370) by (apply pow_R1_Rle; lra); cbn [pow] in *; lra. }
  assert (VN : value w = Rabs (value x)).
  { destruct NS as (s & E & F & S0 & _ & A); specialize (A c Hc HZ); fold x in A; unfold near in A.
    rewrite <- rnd_abs_square, <- abs_square in A.
    rewrite E, (proj2 (sqrt64 s F S0)); apply Rle_antisym.
    - apply root_le; [apply fmt_abs, value_fmt|exact G|exact A].
    - apply root_ge with (value s); [apply fmt_abs, value_fmt|exact G|exact A|apply Rle_refl]. }
  assert (P : 0 < Rabs (value x)) by (pose proof (bpow_gt_0 radix2 (-400)); lra).
  destruct (divided_value c Hc) as (_ & V); fold x in V; rewrite VN in V.
  split; [|split].
  - intros H; rewrite V, Rabs_right by lra; unfold Rdiv; rewrite Rinv_r by lra; change 1 with (bpow radix2 0); apply rnd_fmt, fmt_bpow; lia.
  - intros H; rewrite V, Rabs_left by lra; replace (value x / - value x) with (-1) by (field; lra).
    apply rnd_fmt; change (-1) with (- bpow radix2 0); apply generic_format_opp, fmt_bpow; lia.
  - intros d Hd E; destruct (divided_value d Hd) as (_ & Vd); rewrite Vd, (HZ d Hd E); unfold Rdiv; rewrite Rmult_0_l; apply rnd_0.
Qed.
End Range.
