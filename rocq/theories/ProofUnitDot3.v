(** Normalised derivative vectors of surfaces on binary64 numbers with dot products
    of any kind (SpecDot.v). *)
From Coq Require Import Reals Lra Lia ZArith List Floats.
From Flocq Require Import Core.Core.
From Verif Require Import Py PyLemmas Num ModelKnots ModelBasis ModelCurve ModelSurface ModelDot ModelDotParam ModelDotUnit Spec SpecB64 SpecDot MathCox MathKnots
  ProofNum ProofParam ProofB64 ProofB64Basis ProofB64Curve ProofDot ProofDot3 ProofUnitRow ProofUnitRow2 ProofUnitRow3 ProofUnitRow4 ProofUnitDot ProofUnitDot2.
Import ListNotations.
Open Scope R_scope.

Section Dots.
Variable dot : list Z -> list PrimFloat.float -> list PrimFloat.float -> PrimFloat.float.
Hypothesis DOT : dots64 dot.
Lemma surf_unit64_dot (s : surf Binary64) (u v : Binary64) ou ov : (0 <= ou)%Z -> (0 <= ov)%Z -> (0 <= s_pu s)%Z -> (0 <= s_pv s)%Z ->
  forall m : list (list PrimFloat.float), surf_derivatives_dot (K := Binary64) dot s u v ou ov = Ok (m : list (list Binary64)) ->
  exists m' : list (list PrimFloat.float), surf_derivatives_unit (K := Binary64) dot s u v ou ov true = Ok (m' : list (list Binary64)) /\
    length m' = length m /\ nth 0 m' [] = nth 0 m [] /\
    forall k, (0 < k < length m)%nat -> let r := nth k m [] in let r' := nth k m' [] in let N := normR (values r) in
      within (- 2 ^ 400) (2 ^ 400) r ->
      (N <= 99/10000000000 -> r' = r) /\
      (101/10000000000 <= N -> length r' = 3%nat /\ Rabs (normR (values r') - 1) <= 14 * ulp64 /\ within (- 1) 1 r' /\
         forall c, (c < 3)%nat -> let x := value (nth c r 0%float) in
           Rabs (value (nth c r' 0%float) - x / N) <= 13 * ulp64 * Rabs (x / N) + tiny64).
Proof.
  intros H1 H2 H3 H4 m EM; destruct (proj1 (surf_unit_dot (K := Binary64) dot s u v ou ov H1 H2 H3 H4) m EM) as (m' & EM' & L & HW & Z & HR).
  exists m'; split; [exact EM'|]; split; [exact L|]; split; [exact Z|].
  intros k Hk; cbv zeta; specialize (HR k Hk); intros W.
  assert (LR : length (nth k m []) = 3%nat) by (apply (proj1 (Forall_forall _ _) HW); apply nth_In; apply Hk).
  exact (row_unit64 _ _ _ _ (norm_len dot DOT _ _) (norm_len dot DOT _ _) HR LR W).
Qed.
Lemma surf_axis64_dot (s : surf Binary64) (u v : Binary64) ou ov : (0 <= ou)%Z -> (0 <= ov)%Z -> (0 <= s_pu s)%Z -> (0 <= s_pv s)%Z ->
  forall m m' : list (list PrimFloat.float), surf_derivatives_dot (K := Binary64) dot s u v ou ov = Ok (m : list (list Binary64)) ->
  surf_derivatives_unit (K := Binary64) dot s u v ou ov true = Ok (m' : list (list Binary64)) ->
  forall k c, (0 < k < length m)%nat -> (c < 3)%nat -> let r := nth k m [] in let r' := nth k m' [] in
    within (- 2 ^ 400) (2 ^ 400) r -> 101/10000000000 <= Rabs (value (nth c r 0%float)) ->
    (forall d, (d < 3)%nat -> d <> c -> value (nth d r 0%float) = 0) ->
    (0 < value (nth c r 0%float) -> value (nth c r' 0%float) = 1) /\ (value (nth c r 0%float) < 0 -> value (nth c r' 0%float) = -1) /\
    forall d, (d < 3)%nat -> d <> c -> value (nth d r' 0%float) = 0.
Proof.
  intros H1 H2 H3 H4 m m' EM EM' k c Hk Hc; cbv zeta; intros W HX HZ.
  destruct (proj1 (surf_unit_dot (K := Binary64) dot s u v ou ov H1 H2 H3 H4) m EM) as (m1 & EM1 & L & HW & _ & HR).
  assert (EQ : m1 = m') by congruence; subst m1; specialize (HR k Hk).
  assert (LR : length (nth k m []) = 3%nat) by (apply (proj1 (Forall_forall _ _) HW); apply nth_In; apply Hk).
  exact (row_axis64 _ _ _ _ c (norm_len dot DOT _ _) (norm_len dot DOT _ _) HR LR W Hc HX HZ).
Qed.

Lemma surf_direction64_dot : forall p q nu nv (U V : list PrimFloat.float) P (x y : Binary64) s t M,
  within 0 1 U -> within 0 1 V -> knots_for (Z.of_nat p) (Z.of_nat nu) (values U) -> knots_for (Z.of_nat q) (Z.of_nat nv) (values V) ->
  length P = (nu * nv)%nat -> Forall (fun row => length row = 3%nat /\ within (- M) M row) P -> 0 <= M ->
  finite64 x -> finite64 y -> 0 <= value x <= 1 -> 0 <= value y <= 1 ->
  find_span (Z.of_nat nu) (Z.of_nat p) x U = Ok s -> find_span (Z.of_nat nv) (Z.of_nat q) y V = Ok t ->
  (Z.of_nat p <= s < Z.of_nat nu)%Z -> (Z.of_nat q <= t < Z.of_nat nv)%Z ->
  kn (values U) s <= value x <= kn (values U) (s + 1) -> kn (values V) t <= value y <= kn (values V) (t + 1) ->
  let g := kn (values U) (s + 1) - kn (values U) s in let h := kn (values V) (t + 1) - kn (values V) t in
  / 2 ^ 1000 <= g -> / 2 ^ 1000 <= h -> INR p <= 2 ^ 40 -> INR q <= 2 ^ 40 ->
  forall ou ov, exists m0 m : list (list PrimFloat.float),
  surf_derivatives_dot (K := Binary64) dot (mkSurf (K := Binary64) (Z.of_nat p) (Z.of_nat q) (Z.of_nat nu) (Z.of_nat nv) P U V) x y (Z.of_nat ou) (Z.of_nat ov) = Ok m0 /\
  surf_derivatives_unit (K := Binary64) dot (mkSurf (K := Binary64) (Z.of_nat p) (Z.of_nat q) (Z.of_nat nu) (Z.of_nat nv) P U V) x y (Z.of_nat ou) (Z.of_nat ov) true = Ok m /\
  forall a b, (a <= ou)%nat -> (a <= p)%nat -> (b <= ov)%nat -> (b <= q)%nat -> (0 < a + b)%nat ->
    let Wa := INR (fact p) / INR (fact (p - a)) * (2 / g) ^ a in
    let Wb := INR (fact q) / INR (fact (q - b)) * (2 / h) ^ b in
    (2 / g) ^ a <= 2 ^ 900 -> INR (fact p) / INR (fact (p - a)) < 2 ^ 53 ->
    (2 / h) ^ b <= 2 ^ 900 -> INR (fact q) / INR (fact (q - b)) < 2 ^ 53 -> Wa * Wb * M <= 2 ^ 970 ->
    let k := (a * (Nat.min ov q + 1) + b)%nat in
    let E := 15 * INR (p + q + 1) * (Wa * Wb) * (ulp64 * M + tiny64) in
    exists G : list R, length G = 3%nat /\
      (forall c, (c < 3)%nat -> exists D, mixed_partial a b (surface_piece (values U) (values V) s t p q nu nv (coords c (map values P))) D /\ nth c G 0 = D (value x) (value y) /\
         Rabs (value (nth c (nth k m0 []) 0%float) - nth c G 0) <= E) /\
      (203/10000000000 <= normR G <= 2 ^ 399 -> 4 * E <= normR G -> forall c, (c < 3)%nat ->
        Rabs (value (nth c (nth k m []) 0%float) - nth c G 0 / normR G) <= 14 * ulp64 + 3 * E / normR G).
Proof.
  intros p q nu nv U V P x y s t M WU WV KU KV HL HF HM Fx Fy Hx Hy Es Et Hs Ht Bx By g h Hg Hh Hp Hq ou ov.
  destruct (surf_derivatives_dot_b64 dot DOT p q nu nv U V P x y s t M WU WV KU KV HL HF HM Fx Fy Hx Hy Es Et Hs Ht Bx By Hg Hh Hp Hq ou ov) as (m & EM & LM & FM & HD).
  destruct (proj1 (surf_unit_dot (K := Binary64) dot (mkSurf (K := Binary64) (Z.of_nat p) (Z.of_nat q) (Z.of_nat nu) (Z.of_nat nv) P U V) x y (Z.of_nat ou) (Z.of_nat ov) ltac:(lia) ltac:(lia) ltac:(cbn; lia) ltac:(cbn; lia)) m EM) as (m' & EM' & _ & _ & _ & HR).
  exists m, m'; split; [exact EM|]; split; [exact EM'|].
  intros a b Ha Ha' Hb Hb' Hab Wa Wb C1 C2 C3 C4 C5 k E.
  assert (Hk : (0 < k < length m)%nat).
  { rewrite LM; unfold k; split; [destruct a; nia|].
    apply Nat.lt_le_trans with ((a + 1) * (Nat.min ov q + 1))%nat; [lia|apply Nat.mul_le_mono_r; lia]. }
  specialize (HR k Hk).
  assert (LR : length (nth k m []) = 3%nat) by (apply (proj1 (Forall_forall _ _) FM); apply nth_In; lia).
  destruct (HD a b 0%nat Ha Ha' Hb Hb' ltac:(lia) C1 C2 C3 C4 C5) as (D0 & P0 & F0 & B0).
  destruct (HD a b 1%nat Ha Ha' Hb Hb' ltac:(lia) C1 C2 C3 C4 C5) as (D1 & P1 & F1 & B1).
  destruct (HD a b 2%nat Ha Ha' Hb Hb' ltac:(lia) C1 C2 C3 C4 C5) as (D2 & P2 & F2 & B2).
  fold k in F0, B0, F1, B1, F2, B2.
  exists [D0 (value x) (value y); D1 (value x) (value y); D2 (value x) (value y)]; split; [reflexivity|]; split.
  - intros [|[|[|c]]] Hc; [exists D0|exists D1|exists D2|lia]; (split; [assumption|split; [reflexivity|assumption]]).
  - intros HG H4 c Hc.
    assert (E0 : 0 <= E) by (eapply Rle_trans; [apply Rabs_pos|exact B0]).
    refine (row_direction' (nth k m []) _ _ _ [D0 (value x) (value y); D1 (value x) (value y); D2 (value x) (value y)] E c (norm_len dot DOT _ _) (norm_len dot DOT _ _) HR LR eq_refl E0 _ HG H4 Hc).
    intros [|[|[|d]]] Hd; [split; [exact F0|exact B0]|split; [exact F1|exact B1]|split; [exact F2|exact B2]|lia].
Qed.
End Dots.
