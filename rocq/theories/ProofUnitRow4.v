(** Normalised derivative vectors of surfaces on binary64 numbers. *)
From Coq Require Import Reals Lra Lia ZArith List Floats.
From Flocq Require Import Core.Core.
From Verif Require Import Py PyLemmas Num ModelKnots ModelBasis ModelCurve ModelSurface Spec SpecB64 MathCox MathKnots ProofNum ProofParam ProofSmooth2 ProofFit7
  ProofB64 ProofB64Basis ProofB64Curve ProofB64Ders4 ProofUnitRow ProofUnitRow2 ProofUnitRow3.
Import ListNotations.
Open Scope R_scope.

(** [w] is the length of [r]. *)
Definition len_ok (r : list PrimFloat.float) (w : PrimFloat.float) : Prop :=
  length r = 3%nat -> within (- 2 ^ 400) (2 ^ 400) r -> norm_ok r w /\ sums r w.
Lemma vnorm_len (r : list PrimFloat.float) : len_ok r (vnorm (r : list Binary64)).
Proof. intros L W; split; [apply norm_bounds|apply norm_sum]; assumption. Qed.
Lemma row_unit64 (r r' : list PrimFloat.float) (w w' : PrimFloat.float) : len_ok r w -> len_ok r w' ->
  r' = (if isclose (w : Binary64) (0%num : Binary64) then r else divided r w') -> length r = 3%nat -> within (- 2 ^ 400) (2 ^ 400) r ->
  (normR (values r) <= 99/10000000000 -> r' = r) /\
  (101/10000000000 <= normR (values r) -> length r' = 3%nat /\ Rabs (normR (values r') - 1) <= 14 * ulp64 /\ within (- 1) 1 r' /\
     forall c, (c < 3)%nat ->
       Rabs (value (nth c r' 0%float) - value (nth c r 0%float) / normR (values r)) <= 13 * ulp64 * Rabs (value (nth c r 0%float) / normR (values r)) + tiny64).
Proof.
  intros N1 N2 HR LR W; destruct (N1 LR W) as (O1 & _); destruct (N2 LR W) as (O2 & S2); split.
  - intros HN; rewrite HR, (small_row r w O1 HN); reflexivity.
  - intros HN; rewrite (large_row r w O1 HN) in HR; rewrite HR.
    split; [apply divided_len; assumption|]; split; [apply divided_unit; assumption|]; split.
    + apply Forall_forall; intros y Hy; destruct (In_nth _ _ 0%float Hy) as (c & Hc & <-); rewrite divided_len in Hc by assumption.
      split; [apply divided_close; assumption|apply divided_range; assumption].
    + intros c Hc; apply divided_close; assumption.
Qed.
Lemma row_axis64 (r r' : list PrimFloat.float) (w w' : PrimFloat.float) c : len_ok r w -> len_ok r w' ->
  r' = (if isclose (w : Binary64) (0%num : Binary64) then r else divided r w') -> length r = 3%nat -> within (- 2 ^ 400) (2 ^ 400) r -> (c < 3)%nat ->
  101/10000000000 <= Rabs (value (nth c r 0%float)) ->
  (forall d, (d < 3)%nat -> d <> c -> value (nth d r 0%float) = 0) ->
  (0 < value (nth c r 0%float) -> value (nth c r' 0%float) = 1) /\ (value (nth c r 0%float) < 0 -> value (nth c r' 0%float) = -1) /\
  forall d, (d < 3)%nat -> d <> c -> value (nth d r' 0%float) = 0.
Proof.
  intros N1 N2 HR LR W Hc HX HZ; destruct (N1 LR W) as (O1 & _); destruct (N2 LR W) as (O2 & S2).
  assert (HN : 101/10000000000 <= normR (values r)).
  { apply Rle_trans with (1 := HX); pose proof (comp_le (values r) c ltac:(unfold values; rewrite map_length; exact LR) Hc) as C.
    rewrite (map_nth value r 0%float c : nth c (values r) 0 = _) in C; exact C. }
  rewrite (large_row r w O1 HN) in HR; rewrite HR; apply divided_axis; assumption.
Qed.
Lemma surf_unit64 (s : surf Binary64) (u v : Binary64) ou ov : (0 <= ou)%Z -> (0 <= ov)%Z -> (0 <= s_pu s)%Z -> (0 <= s_pv s)%Z ->
  forall m : list (list PrimFloat.float), surf_derivatives s u v ou ov false = Ok (m : list (list Binary64)) ->
  exists m' : list (list PrimFloat.float), surf_derivatives s u v ou ov true = Ok (m' : list (list Binary64)) /\
    length m' = length m /\ nth 0 m' [] = nth 0 m [] /\
    forall k, (0 < k < length m)%nat -> let r := nth k m [] in let r' := nth k m' [] in let N := normR (values r) in
      within (- 2 ^ 400) (2 ^ 400) r ->
      (N <= 99/10000000000 -> r' = r) /\
      (101/10000000000 <= N -> length r' = 3%nat /\ Rabs (normR (values r') - 1) <= 14 * ulp64 /\ within (- 1) 1 r' /\
         forall c, (c < 3)%nat -> let x := value (nth c r 0%float) in
           Rabs (value (nth c r' 0%float) - x / N) <= 13 * ulp64 * Rabs (x / N) + tiny64).
Proof.
  intros H1 H2 H3 H4 m EM; destruct (proj1 (surf_unit s u v ou ov H1 H2 H3 H4) m EM) as (m' & EM' & L & Z & HR).
  exists m'; split; [exact EM'|]; split; [exact L|]; split; [exact Z|].
  intros k Hk; cbv zeta; specialize (HR k Hk); intros W.
  pose proof (surf_derivatives_width s u v ou ov false m EM) as HW.
  assert (LR : length (nth k m []) = 3%nat) by (apply (proj1 (Forall_forall _ _) HW); apply nth_In; apply Hk).
  exact (row_unit64 _ _ _ _ (vnorm_len _) (vnorm_len _) HR LR W).
Qed.
Lemma surf_axis64 (s : surf Binary64) (u v : Binary64) ou ov : (0 <= ou)%Z -> (0 <= ov)%Z -> (0 <= s_pu s)%Z -> (0 <= s_pv s)%Z ->
  forall m m' : list (list PrimFloat.float), surf_derivatives s u v ou ov false = Ok (m : list (list Binary64)) ->
  surf_derivatives s u v ou ov true = Ok (m' : list (list Binary64)) ->
  forall k c, (0 < k < length m)%nat -> (c < 3)%nat -> let r := nth k m [] in let r' := nth k m' [] in
    within (- 2 ^ 400) (2 ^ 400) r -> 101/10000000000 <= Rabs (value (nth c r 0%float)) ->
    (forall d, (d < 3)%nat -> d <> c -> value (nth d r 0%float) = 0) ->
    (0 < value (nth c r 0%float) -> value (nth c r' 0%float) = 1) /\ (value (nth c r 0%float) < 0 -> value (nth c r' 0%float) = -1) /\
    forall d, (d < 3)%nat -> d <> c -> value (nth d r' 0%float) = 0.
Proof.
  intros H1 H2 H3 H4 m m' EM EM' k c Hk Hc; cbv zeta; intros W HX HZ.
  destruct (proj1 (surf_unit s u v ou ov H1 H2 H3 H4) m EM) as (m1 & EM1 & L & _ & HR).
  assert (EQ : m1 = m') by congruence; subst m1; specialize (HR k Hk).
  pose proof (surf_derivatives_width s u v ou ov false m EM) as HW.
  assert (LR : length (nth k m []) = 3%nat) by (apply (proj1 (Forall_forall _ _) HW); apply nth_In; apply Hk).
  exact (row_axis64 _ _ _ _ c (vnorm_len _) (vnorm_len _) HR LR W Hc HX HZ).
Qed.

(** ** Against the true unit vectors *)
Lemma unit_diff (x y : list R) E c : length x = 3%nat -> length y = 3%nat -> 0 <= E -> (forall d, (d < 3)%nat -> Rabs (nth d x 0 - nth d y 0) <= E) ->
  0 < normR x -> 0 < normR y -> (c < 3)%nat ->
  Rabs (normR x - normR y) <= 2 * E /\ Rabs (nth c x 0 / normR x - nth c y 0 / normR y) <= 3 * E / normR y.
Proof.
  intros Lx Ly HE0 HE Nx Ny Hc.
  assert (D : forall a b : list R, length a = 3%nat -> length b = 3%nat -> (forall d, (d < 3)%nat -> Rabs (nth d a 0 - nth d b 0) <= E) -> normR a - normR b <= 2 * E).
  { clear; intros a b La Lb HE.
    assert (E0 : 0 <= E) by (eapply Rle_trans; [apply Rabs_pos|apply (HE 0%nat); lia]).
    pose proof (norm3_triang (nth 0 b 0) (nth 1 b 0) (nth 2 b 0) (nth 0 a 0 - nth 0 b 0) (nth 1 a 0 - nth 1 b 0) (nth 2 a 0 - nth 2 b 0)) as T.
    replace (nth 0 b 0 + (nth 0 a 0 - nth 0 b 0)) with (nth 0 a 0) in T by ring; replace (nth 1 b 0 + (nth 1 a 0 - nth 1 b 0)) with (nth 1 a 0) in T by ring;
    replace (nth 2 b 0 + (nth 2 a 0 - nth 2 b 0)) with (nth 2 a 0) in T by ring; rewrite <- !norm3R in T by assumption.
    enough (sqrt ((nth 0 a 0 - nth 0 b 0) * (nth 0 a 0 - nth 0 b 0) + (nth 1 a 0 - nth 1 b 0) * (nth 1 a 0 - nth 1 b 0) + (nth 2 a 0 - nth 2 b 0) * (nth 2 a 0 - nth 2 b 0)) <= 2 * E) by lra.
    rewrite <- (sqrt_square (2 * E)) by lra; apply sqrt_le_1_alt.
    assert (S : forall d, (d < 3)%nat -> (nth d a 0 - nth d b 0) * (nth d a 0 - nth d b 0) <= E * E).
    { intros d Hd; specialize (HE d Hd); set (z := nth d a 0 - nth d b 0) in *.
      replace (z * z) with (Rabs z * Rabs z) by (rewrite <- Rabs_mult; apply Rabs_right, Rle_ge, Rle_0_sqr).
      apply Rmult_le_compat; auto using Rabs_pos. }
    pose proof (S 0%nat ltac:(lia)); pose proof (S 1%nat ltac:(lia)); pose proof (S 2%nat ltac:(lia)).
    assert (0 <= E * E) by (apply Rmult_le_pos; exact E0); lra. }
  assert (DN : Rabs (normR x - normR y) <= 2 * E).
  { pose proof (D x y Lx Ly HE); pose proof (D y x Ly Lx ltac:(intros d Hd; rewrite Rabs_minus_sym; apply HE; exact Hd)); apply Rabs_le; lra. }
  split; [exact DN|].
  replace (nth c x 0 / normR x - nth c y 0 / normR y) with (((nth c x 0 - nth c y 0) + nth c x 0 / normR x * (normR y - normR x)) / normR y) by (field; lra).
  unfold Rdiv at 1; rewrite Rabs_mult, (Rabs_right (/ normR y)) by (apply Rle_ge, Rlt_le, Rinv_0_lt_compat; exact Ny).
  apply Rmult_le_compat_r; [apply Rlt_le, Rinv_0_lt_compat; exact Ny|].
  eapply Rle_trans; [apply Rabs_triang|]; specialize (HE c Hc).
  assert (B : Rabs (nth c x 0 / normR x) <= 1).
  { unfold Rdiv; rewrite Rabs_mult, (Rabs_right (/ normR x)) by (apply Rle_ge, Rlt_le, Rinv_0_lt_compat; exact Nx).
    apply Rmult_le_reg_r with (1 := Nx); rewrite Rmult_assoc, Rinv_l by lra; pose proof (comp_le x c Lx Hc); lra. }
  assert (Rabs (nth c x 0 / normR x * (normR y - normR x)) <= 1 * (2 * E)); [|lra].
  rewrite Rabs_mult, (Rabs_minus_sym (normR y)); apply Rmult_le_compat; auto using Rabs_pos.
Qed.
Lemma row_direction (r : list PrimFloat.float) (w : PrimFloat.float) (G : list R) E c : len_ok r w -> length r = 3%nat -> length G = 3%nat -> 0 <= E ->
  (forall d, (d < 3)%nat -> finite64 (nth d r 0%float) /\ Rabs (value (nth d r 0%float) - nth d G 0) <= E) ->
  203/10000000000 <= normR G <= 2 ^ 399 -> 4 * E <= normR G -> (c < 3)%nat ->
  within (- 2 ^ 400) (2 ^ 400) r /\ 101/10000000000 <= normR (values r) /\
  Rabs (value (nth c (divided r w) 0%float) - nth c G 0 / normR G) <= 14 * ulp64 + 3 * E / normR G.
Proof.
  intros NW L LG E0 HE HG H4 Hc.
  assert (VN : forall d, nth d (values r) 0 = value (nth d r 0%float)) by (intros d; exact (map_nth value r 0%float d)).
  assert (LV : length (values r) = 3%nat) by (unfold values; rewrite map_length; exact L).
  assert (HD : forall d, (d < 3)%nat -> Rabs (nth d (values r) 0 - nth d G 0) <= E) by (intros d Hd; rewrite VN; apply HE; exact Hd).
  assert (P : 2 ^ 400 = 2 * 2 ^ 399) by reflexivity.
  assert (W : within (- 2 ^ 400) (2 ^ 400) r).
  { apply Forall_forall; intros y Hy; destruct (In_nth _ _ 0%float Hy) as (d & Hd & <-); rewrite L in Hd.
    destruct (HE d Hd) as (F & B); split; [exact F|]; pose proof (comp_le G d LG Hd) as C.
    apply Rabs_le_inv in B; apply Rabs_le_inv in C; lra. }
  assert (NN : normR (values r) > 0).
  { destruct (Req_dec (normR (values r)) 0) as [Z|Z]; [|pose proof (normR_nonneg (values r)); lra].
    assert (CZ : forall d, (d < 3)%nat -> Rabs (nth d G 0) <= E).
    { intros d Hd; specialize (HD d Hd); pose proof (comp_le (values r) d LV Hd) as C; rewrite Z in C; apply Rabs_le_inv in C.
      replace (nth d (values r) 0) with 0 in HD by lra; rewrite Rminus_0_l, Rabs_Ropp in HD; exact HD. }
    exfalso; assert (NE : normR G <= 2 * E); [|lra].
    rewrite norm3R by exact LG; rewrite <- (sqrt_square (2 * E)) by lra; apply sqrt_le_1_alt.
    assert (S : forall d, (d < 3)%nat -> nth d G 0 * nth d G 0 <= E * E).
    { intros d Hd; specialize (CZ d Hd); set (z := nth d G 0) in *.
      replace (z * z) with (Rabs z * Rabs z) by (rewrite <- Rabs_mult; apply Rabs_right, Rle_ge, Rle_0_sqr).
      apply Rmult_le_compat; auto using Rabs_pos. }
    pose proof (S 0%nat ltac:(lia)); pose proof (S 1%nat ltac:(lia)); pose proof (S 2%nat ltac:(lia)).
    assert (0 <= E * E) by (apply Rmult_le_pos; exact E0); lra. }
  destruct (unit_diff (values r) G E c LV LG E0 HD NN ltac:(lra) Hc) as (DN & DU).
  assert (HN : 101/10000000000 <= normR (values r)) by (apply Rabs_le_inv in DN; lra).
  split; [exact W|]; split; [exact HN|]; rewrite VN in DU.
  destruct (divided_close r w L W (proj1 (NW L W)) HN c Hc) as (_ & DC).
  set (N := normR (values r)) in *; set (b := value (nth c r 0%float) / N) in *.
  assert (B : Rabs b <= 1).
  { unfold b, Rdiv; rewrite Rabs_mult, (Rabs_right (/ N)) by (apply Rle_ge, Rlt_le, Rinv_0_lt_compat; exact NN).
    apply Rmult_le_reg_r with (1 := NN); rewrite Rmult_assoc, Rinv_l by lra; pose proof (comp_le (values r) c LV Hc) as C; rewrite VN in C; fold N in C; lra. }
  pose proof ulp64_pos as Hu; pose proof eta64_pos as He; pose proof eta_ulp as EU; rewrite <- tiny_eta in He, EU.
  assert (T1 : tiny64 <= ulp64).
  { assert (1 <= 2 ^ 100) by (apply pow_R1_Rle; lra); assert (tiny64 * 1 <= tiny64 * 2 ^ 100) by (apply Rmult_le_compat_l; lra); lra. }
  replace (value (nth c (divided r w) 0%float) - nth c G 0 / normR G) with ((value (nth c (divided r w) 0%float) - b) + (b - nth c G 0 / normR G)) by ring.
  eapply Rle_trans; [apply Rabs_triang|].
  assert (13 * ulp64 * Rabs b <= 13 * ulp64 * 1) by (apply Rmult_le_compat_l; lra); lra.
Qed.

Lemma row_direction' (r r' : list PrimFloat.float) (w w' : PrimFloat.float) (G : list R) E c : len_ok r w -> len_ok r w' ->
  r' = (if isclose (w : Binary64) (0%num : Binary64) then r else divided r w') -> length r = 3%nat -> length G = 3%nat -> 0 <= E ->
  (forall d, (d < 3)%nat -> finite64 (nth d r 0%float) /\ Rabs (value (nth d r 0%float) - nth d G 0) <= E) ->
  203/10000000000 <= normR G <= 2 ^ 399 -> 4 * E <= normR G -> (c < 3)%nat ->
  Rabs (value (nth c r' 0%float) - nth c G 0 / normR G) <= 14 * ulp64 + 3 * E / normR G.
Proof.
  intros N1 N2 HR L LG E0 HE HG H4 Hc; destruct (row_direction r w' G E c N2 L LG E0 HE HG H4 Hc) as (W & HN & B).
  rewrite (large_row r w (proj1 (N1 L W)) HN) in HR; rewrite HR; exact B.
Qed.
Lemma surf_direction64 : forall p q nu nv (U V : list PrimFloat.float) P (x y : Binary64) s t M,
  within 0 1 U -> within 0 1 V -> knots_for (Z.of_nat p) (Z.of_nat nu) (values U) -> knots_for (Z.of_nat q) (Z.of_nat nv) (values V) ->
  length P = (nu * nv)%nat -> Forall (fun row => length row = 3%nat /\ within (- M) M row) P -> 0 <= M ->
  finite64 x -> finite64 y -> 0 <= value x <= 1 -> 0 <= value y <= 1 ->
  find_span (Z.of_nat nu) (Z.of_nat p) x U = Ok s -> find_span (Z.of_nat nv) (Z.of_nat q) y V = Ok t ->
  (Z.of_nat p <= s < Z.of_nat nu)%Z -> (Z.of_nat q <= t < Z.of_nat nv)%Z ->
  kn (values U) s <= value x <= kn (values U) (s + 1) -> kn (values V) t <= value y <= kn (values V) (t + 1) ->
  let g := kn (values U) (s + 1) - kn (values U) s in let h := kn (values V) (t + 1) - kn (values V) t in
  / 2 ^ 1000 <= g -> / 2 ^ 1000 <= h -> INR p <= 2 ^ 40 -> INR q <= 2 ^ 40 ->
  forall ou ov, exists m0 m : list (list PrimFloat.float),
  surf_derivatives (mkSurf (K := Binary64) (Z.of_nat p) (Z.of_nat q) (Z.of_nat nu) (Z.of_nat nv) P U V) x y (Z.of_nat ou) (Z.of_nat ov) false = Ok m0 /\
  surf_derivatives (mkSurf (K := Binary64) (Z.of_nat p) (Z.of_nat q) (Z.of_nat nu) (Z.of_nat nv) P U V) x y (Z.of_nat ou) (Z.of_nat ov) true = Ok m /\
  forall a b, (a <= ou)%nat -> (a <= p)%nat -> (b <= ov)%nat -> (b <= q)%nat -> (0 < a + b)%nat ->
    let Wa := INR (fact p) / INR (fact (p - a)) * (2 / g) ^ a in
    let Wb := INR (fact q) / INR (fact (q - b)) * (2 / h) ^ b in
    (2 / g) ^ a <= 2 ^ 900 -> INR (fact p) / INR (fact (p - a)) < 2 ^ 53 ->
    (2 / h) ^ b <= 2 ^ 900 -> INR (fact q) / INR (fact (q - b)) < 2 ^ 53 -> Wa * Wb * M <= 2 ^ 970 ->
    let k := (a * (Nat.min ov q + 1) + b)%nat in
    let E := 15 * INR (p + q + 1) * (Wa * Wb) * (ulp64 * M + tiny64) in
    exists G : list R, length G = 3%nat /\
      (forall c, (c < 3)%nat -> exists D, mixed_partial a b (surface_piece (values U) (values V) s t p q nu nv (coords c (map values P))) D /\ nth c G 0 = D (value x) (value y) /\
         Rabs (value (nth c (nth k m0 []) 0%float) - nth c G 0) <= E) /\
      (203/10000000000 <= normR G <= 2 ^ 399 -> 4 * E <= normR G -> forall c, (c < 3)%nat ->
        Rabs (value (nth c (nth k m []) 0%float) - nth c G 0 / normR G) <= 14 * ulp64 + 3 * E / normR G).
Proof.
  intros p q nu nv U V P x y s t M WU WV KU KV HL HF HM Fx Fy Hx Hy Es Et Hs Ht Bx By g h Hg Hh Hp Hq ou ov.
  destruct (surf_derivatives_b64 p q nu nv U V P x y s t M WU WV KU KV HL HF HM Fx Fy Hx Hy Es Et Hs Ht Bx By Hg Hh Hp Hq ou ov false) as (m & EM & LM & FM & _ & HD).
  destruct (proj1 (surf_unit (mkSurf (K := Binary64) (Z.of_nat p) (Z.of_nat q) (Z.of_nat nu) (Z.of_nat nv) P U V) x y (Z.of_nat ou) (Z.of_nat ov) ltac:(lia) ltac:(lia) ltac:(cbn; lia) ltac:(cbn; lia)) m EM) as (m' & EM' & _ & _ & HR).
  exists m, m'; split; [exact EM|]; split; [exact EM'|].
  intros a b Ha Ha' Hb Hb' Hab Wa Wb C1 C2 C3 C4 C5 k E.
  assert (Hk : (0 < k < length m)%nat).
  { rewrite LM; unfold k; split; [destruct a; nia|].
    apply Nat.lt_le_trans with ((a + 1) * (Nat.min ov q + 1))%nat; [lia|apply Nat.mul_le_mono_r; lia]. }
  specialize (HR k Hk).
  assert (LR : length (nth k m []) = 3%nat) by (apply (proj1 (Forall_forall _ _) FM); apply nth_In; lia).
  destruct (HD eq_refl a b 0%nat Ha Ha' Hb Hb' ltac:(lia) C1 C2 C3 C4 C5) as (D0 & P0 & F0 & B0).
  destruct (HD eq_refl a b 1%nat Ha Ha' Hb Hb' ltac:(lia) C1 C2 C3 C4 C5) as (D1 & P1 & F1 & B1).
  destruct (HD eq_refl a b 2%nat Ha Ha' Hb Hb' ltac:(lia) C1 C2 C3 C4 C5) as (D2 & P2 & F2 & B2).
  fold k in F0, B0, F1, B1, F2, B2.
  exists [D0 (value x) (value y); D1 (value x) (value y); D2 (value x) (value y)]; split; [reflexivity|]; split.
  - intros [|[|[|c]]] Hc; [exists D0|exists D1|exists D2|lia]; (split; [assumption|split; [reflexivity|assumption]]).
  - intros HG H4 c Hc.
    assert (E0 : 0 <= E) by (eapply Rle_trans; [apply Rabs_pos|exact B0]).
    refine (row_direction' (nth k m []) _ _ _ [D0 (value x) (value y); D1 (value x) (value y); D2 (value x) (value y)] E c (vnorm_len _) (vnorm_len _) HR LR eq_refl E0 _ HG H4 Hc).
    intros [|[|[|d]]] Hd; [split; [exact F0|exact B0]|split; [exact F1|exact B1]|split; [exact F2|exact B2]|lia].
Qed.
