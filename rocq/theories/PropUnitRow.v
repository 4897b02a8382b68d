(** C125: normalised derivative vectors of surfaces on IEEE 754 doubles. *)
From Coq Require Import Reals Lra Lia ZArith List Floats.
From Flocq Require Import Core.Raux.
From Verif Require Import Py PyLemmas Num ModelKnots ModelBasis ModelCurve ModelSurface Spec SpecB64 MathKnots
  ProofB64 ProofB64Basis ProofB64Curve ProofUnitRow ProofUnitRow2 ProofUnitRow4 Examples PropB64.
Import ListNotations.
Open Scope R_scope.

(** On any numbers: [normalize] changes no row but rows 1, 2, ... that are not
    close to 0, and no error. *)
Theorem C125_rows : forall (K : Num) (s : surf K) (u v : K) ou ov, (0 <= ou)%Z -> (0 <= ov)%Z -> (0 <= s_pu s)%Z -> (0 <= s_pv s)%Z ->
  (forall m, surf_derivatives s u v ou ov false = Ok m -> exists m', surf_derivatives s u v ou ov true = Ok m' /\
     length m' = length m /\ nth 0 m' [] = nth 0 m [] /\
     forall k, (0 < k < length m)%nat ->
       nth k m' [] = if isclose (vnorm (nth k m [])) (0%num : K) then nth k m [] else map (fun x => (x / vnorm (nth k m []))%num) (nth k m [])) /\
  (forall m', surf_derivatives s u v ou ov true = Ok m' -> exists m, surf_derivatives s u v ou ov false = Ok m) /\
  (forall e, surf_derivatives s u v ou ov false = Err e <-> surf_derivatives s u v ou ov true = Err e).
Proof. exact @surf_unit. Qed.
Print Assumptions C125_rows.
(** On doubles: rows longer than 1.01e-8 become unit vectors up to rounding, with
    no component outside [-1,1]; rows shorter than 0.99e-8 stay as they are. *)
Theorem C125_unit : forall (s : surf Binary64) (u v : Binary64) ou ov, (0 <= ou)%Z -> (0 <= ov)%Z -> (0 <= s_pu s)%Z -> (0 <= s_pv s)%Z ->
  forall m : list (list PrimFloat.float), surf_derivatives s u v ou ov false = Ok (m : list (list Binary64)) ->
  exists m' : list (list PrimFloat.float), surf_derivatives s u v ou ov true = Ok (m' : list (list Binary64)) /\
    length m' = length m /\ nth 0 m' [] = nth 0 m [] /\
    forall k, (0 < k < length m)%nat -> let r := nth k m [] in let r' := nth k m' [] in let N := normR (values r) in
      within (- 2 ^ 400) (2 ^ 400) r ->
      (N <= 99/10000000000 -> r' = r) /\
      (101/10000000000 <= N -> length r' = 3%nat /\ Rabs (normR (values r') - 1) <= 14 * ulp64 /\ within (- 1) 1 r' /\
         forall c, (c < 3)%nat -> let x := value (nth c r 0%float) in
           Rabs (value (nth c r' 0%float) - x / N) <= 13 * ulp64 * Rabs (x / N) + tiny64).
Proof. exact surf_unit64. Qed.
Print Assumptions C125_unit.
(** Rows along an axis become exactly 1 or -1 there and 0 elsewhere. *)
Theorem C125_axis : forall (s : surf Binary64) (u v : Binary64) ou ov, (0 <= ou)%Z -> (0 <= ov)%Z -> (0 <= s_pu s)%Z -> (0 <= s_pv s)%Z ->
  forall m m' : list (list PrimFloat.float), surf_derivatives s u v ou ov false = Ok (m : list (list Binary64)) ->
  surf_derivatives s u v ou ov true = Ok (m' : list (list Binary64)) ->
  forall k c, (0 < k < length m)%nat -> (c < 3)%nat -> let r := nth k m [] in let r' := nth k m' [] in
    within (- 2 ^ 400) (2 ^ 400) r -> 101/10000000000 <= Rabs (value (nth c r 0%float)) ->
    (forall d, (d < 3)%nat -> d <> c -> value (nth d r 0%float) = 0) ->
    (0 < value (nth c r 0%float) -> value (nth c r' 0%float) = 1) /\ (value (nth c r 0%float) < 0 -> value (nth c r' 0%float) = -1) /\
    forall d, (d < 3)%nat -> d <> c -> value (nth d r' 0%float) = 0.
Proof. exact surf_axis64. Qed.
Print Assumptions C125_axis.
(** Against the true partial derivatives [G] of the surface: the normalised row is
    the unit vector of [G] up to the errors of C100. *)
Theorem C125_direction : forall p q nu nv (U V : list PrimFloat.float) P (x y : Binary64) s t M,
  within 0 1 U -> within 0 1 V -> knots_for (Z.of_nat p) (Z.of_nat nu) (values U) -> knots_for (Z.of_nat q) (Z.of_nat nv) (values V) ->
  length P = (nu * nv)%nat -> Forall (fun row => length row = 3%nat /\ within (- M) M row) P -> 0 <= M ->
  finite64 x -> finite64 y -> 0 <= value x <= 1 -> 0 <= value y <= 1 ->
  find_span (Z.of_nat nu) (Z.of_nat p) x U = Ok s -> find_span (Z.of_nat nv) (Z.of_nat q) y V = Ok t ->
  (Z.of_nat p <= s < Z.of_nat nu)%Z -> (Z.of_nat q <= t < Z.of_nat nv)%Z ->
  kn (values U) s <= value x <= kn (values U) (s + 1) -> kn (values V) t <= value y <= kn (values V) (t + 1) ->
  let g := kn (values U) (s + 1) - kn (values U) s in let h := kn (values V) (t + 1) - kn (values V) t in
  / 2 ^ 1000 <= g -> / 2 ^ 1000 <= h -> INR p <= 2 ^ 40 -> INR q <= 2 ^ 40 ->
  forall ou ov, exists m0 m : list (list PrimFloat.float),
  surf_derivatives (mkSurf (K := Binary64) (Z.of_nat p) (Z.of_nat q) (Z.of_nat nu) (Z.of_nat nv) P U V) x y (Z.of_nat ou) (Z.of_nat ov) false = Ok m0 /\
  surf_derivatives (mkSurf (K := Binary64) (Z.of_nat p) (Z.of_nat q) (Z.of_nat nu) (Z.of_nat nv) P U V) x y (Z.of_nat ou) (Z.of_nat ov) true = Ok m /\
  forall a b, (a <= ou)%nat -> (a <= p)%nat -> (b <= ov)%nat -> (b <= q)%nat -> (0 < a + b)%nat ->
    let Wa := INR (fact p) / INR (fact (p - a)) * (2 / g) ^ a in
    let Wb := INR (fact q) / INR (fact (q - b)) * (2 / h) ^ b in
    (2 / g) ^ a <= 2 ^ 900 -> INR (fact p) / INR (fact (p - a)) < 2 ^ 53 ->
    (2 / h) ^ b <= 2 ^ 900 -> INR (fact q) / INR (fact (q - b)) < 2 ^ 53 -> Wa * Wb * M <= 2 ^ 970 ->
    let k := (a * (Nat.min ov q + 1) + b)%nat in
    let E := 15 * INR (p + q + 1) * (Wa * Wb) * (ulp64 * M + tiny64) in
    exists G : list R, length G = 3%nat /\
      (forall c, (c < 3)%nat -> exists D, mixed_partial a b (surface_piece (values U) (values V) s t p q nu nv (coords c (map values P))) D /\ nth c G 0 = D (value x) (value y) /\
         Rabs (value (nth c (nth k m0 []) 0%float) - nth c G 0) <= E) /\
      (203/10000000000 <= normR G <= 2 ^ 399 -> 4 * E <= normR G -> forall c, (c < 3)%nat ->
        Rabs (value (nth c (nth k m []) 0%float) - nth c G 0 / normR G) <= 14 * ulp64 + 3 * E / normR G).
Proof. exact surf_direction64. Qed.
Print Assumptions C125_direction.

(** A bilinear patch. *)
Definition patch64 (P : list (list PrimFloat.float)) : surf Binary64 :=
  mkSurf (K := Binary64) 1 1 2 2 P [0; 0; 1; 1]%float [0; 0; 1; 1]%float.
Definition twisted : list (list PrimFloat.float) := [[0; 0; 0]; [0; 3; 0]; [2; 0; 0]; [2; 3; 1]]%float.
Example C125_example :
  surf_derivatives (patch64 twisted) (0.5%float : Binary64) (0.25%float : Binary64) 1 1 false
  = Ok [[1; 0.75; 0.125]; [0; 3; 0.5]; [2; 0; 0.25]; [0; 0; 1]]%float /\
  surf_derivatives (patch64 twisted) (0.5%float : Binary64) (0.25%float : Binary64) 1 1 true
  = Ok [[1; 0.75; 0.125]; [0; 0x1.f9089fd7aa128p-1; 0x1.50b06a8fc6b70p-3]; [0x1.fc0bd88a0f1dap-1; 0; 0x1.fc0bd88a0f1dap-4]; [0; 0; 1]]%float /\
  within (- 2 ^ 400) (2 ^ 400) [0; 3; 0.5]%float /\ 101/10000000000 <= normR (values [0; 3; 0.5]%float) /\
  within (- 2 ^ 400) (2 ^ 400) [0; 0; 1]%float /\ 101/10000000000 <= Rabs (value 1%float).
Proof.
  assert (P : 8 <= 2 ^ 400) by (replace (2 ^ 400) with (2 ^ 3 * 2 ^ 397) by (rewrite <- pow_add; reflexivity); assert (1 <= 2 ^ 397) by (apply pow_R1_Rle; lra); cbn [pow] in *; lra).
  split; [vm_compute; reflexivity|]; split; [vm_compute; reflexivity|].
  split; [repeat (apply Forall_cons; [split; [exact I|val_eval; lra]|]); apply Forall_nil|].
  split; [|split; [repeat (apply Forall_cons; [split; [exact I|val_eval; lra]|]); apply Forall_nil|val_eval; rewrite Rabs_right; lra]].
  pose proof (comp_le (values [0; 3; 0.5]%float) 1 eq_refl ltac:(lia)) as C; eapply Rle_trans; [|exact C].
  cbn [nth values map]; val_eval; rewrite Rabs_right; lra.
Qed.
(** The hypotheses of [C125_direction] hold for it; its conclusion. *)
Example C125_direction_example : exists (m : list (list PrimFloat.float)) (G : list R),
  surf_derivatives (patch64 twisted) (0.5%float : Binary64) (0.25%float : Binary64) 1 1 true = Ok (m : list (list Binary64)) /\ length G = 3%nat /\
  (forall c, (c < 3)%nat -> exists D, mixed_partial 1 0 (surface_piece (values [0; 0; 1; 1]%float) (values [0; 0; 1; 1]%float) 1 1 1 1 2 2 (coords c (map values twisted))) D /\
     nth c G 0 = D (value 0.5%float) (value 0.25%float)) /\
  forall c, (c < 3)%nat -> Rabs (value (nth c (nth 2 m []) 0%float) - nth c G 0 / normR G) <= 1100 * ulp64.
Proof.
  assert (KN : values [0; 0; 1; 1]%float = [0; 0; 1; 1]) by (unfold values; cbn [map]; repeat f_equal; val_eval; lra).
  assert (WU : within 0 1 [0; 0; 1; 1]%float) by within_eval.
  assert (KF : clamped 1 2 (values [0; 0; 1; 1]%float)) by (rewrite KN; solve_clamped).
  assert (G1 : kn (values [0; 0; 1; 1]%float) (1 + 1) - kn (values [0; 0; 1; 1]%float) 1 = 1) by (rewrite KN; kn_eval; lra).
  assert (GO : / 2 ^ 1000 <= kn (values [0; 0; 1; 1]%float) (1 + 1) - kn (values [0; 0; 1; 1]%float) 1) by (rewrite G1; apply gap_ok; lra).
  assert (P40 : INR 1 <= 2 ^ 40) by (cbn [INR]; apply pow_R1_Rle; lra).
  assert (FP : Forall (fun row => length row = 3%nat /\ within (- 3) 3 row) twisted)
    by (repeat (apply Forall_cons; [split; [reflexivity|within_eval]|]); apply Forall_nil).
  assert (BX : kn (values [0; 0; 1; 1]%float) 1 <= value 0.5%float <= kn (values [0; 0; 1; 1]%float) (1 + 1)) by (rewrite KN; kn_eval; val_eval; lra).
  assert (BY : kn (values [0; 0; 1; 1]%float) 1 <= value 0.25%float <= kn (values [0; 0; 1; 1]%float) (1 + 1)) by (rewrite KN; kn_eval; val_eval; lra).
  destruct (C125_direction 1 1 2 2 [0; 0; 1; 1]%float [0; 0; 1; 1]%float twisted (0.5%float : Binary64) (0.25%float : Binary64) 1 1 3
    WU WU (proj1 KF) (proj1 KF) eq_refl FP ltac:(lra) I I ltac:(val_eval; lra) ltac:(val_eval; lra) ltac:(vm_compute; reflexivity) ltac:(vm_compute; reflexivity)
    ltac:(lia) ltac:(lia) BX BY GO GO P40 P40 1%nat 1%nat) as (m0 & m & E0 & E & H).
  specialize (H 1%nat 0%nat ltac:(lia) ltac:(lia) ltac:(lia) ltac:(lia) ltac:(lia)); rewrite G1 in H; cbv zeta in H.
  change (1 - 1)%nat with 0%nat in H; change (1 - 0)%nat with 1%nat in H; cbn [fact Nat.add Nat.mul INR] in H.
  replace (1 / 1 * (2 / 1) ^ 1) with 2 in H by (cbn [pow]; field); replace (1 / 1 * (2 / 1) ^ 0) with 1 in H by (cbn [pow]; field).
  assert (B53 : 1 < 2 ^ 53) by (apply Rlt_pow_R1; [lra|lia]).
  assert (B9 : 1 <= 2 ^ 900) by (apply pow_R1_Rle; lra).
  assert (B97 : 8 <= 2 ^ 970) by (replace (2 ^ 970) with (2 ^ 3 * 2 ^ 967) by (rewrite <- pow_add; reflexivity); assert (1 <= 2 ^ 967) by (apply pow_R1_Rle; lra); cbn [pow] in *; lra).
  destruct H as (G & LG & HD & HC); [apply small_pow; cbn [pow]; lra|lra|cbn [pow]; lra|lra|lra|].
  assert (EM : Ok m0 = Ok [[1; 0.75; 0.125]; [0; 3; 0.5]; [2; 0; 0.25]; [0; 0; 1]]%float).
  { rewrite <- E0; exact (proj1 C125_example). }
  injection EM as ->; change (0 + 1)%nat with 1%nat in *.
  pose proof ulp64_small as Hu; pose proof eta64_pos as He; pose proof eta_ulp as EU; rewrite <- tiny_eta in He, EU.
  assert (T1 : tiny64 <= ulp64).
  { assert (1 <= 2 ^ 100) by (apply pow_R1_Rle; lra); assert (tiny64 * 1 <= tiny64 * 2 ^ 100) by (apply Rmult_le_compat_l; lra); lra. }
  set (B := 15 * (1 + 1 + 1) * (2 * 1) * (ulp64 * 3 + tiny64)) in *.
  assert (HB : 0 <= B <= 360 * ulp64) by (unfold B; lra).
  destruct (HD 0%nat ltac:(lia)) as (_ & _ & _ & Q0); destruct (HD 1%nat ltac:(lia)) as (_ & _ & _ & Q1); destruct (HD 2%nat ltac:(lia)) as (_ & _ & _ & Q2).
  assert (Q0' : Rabs (2 - nth 0 G 0) <= B) by (replace 2 with (value 2%float) by (val_eval; lra); exact Q0).
  assert (Q1' : Rabs (0 - nth 1 G 0) <= B) by exact Q1.
  assert (Q2' : Rabs (1/4 - nth 2 G 0) <= B) by (replace (1/4) with (value 0.25%float) by (val_eval; lra); exact Q2).
  apply Rabs_le_inv in Q0'; apply Rabs_le_inv in Q1'; apply Rabs_le_inv in Q2'.
  assert (TL : 16/10 <= normR G).
  { pose proof (comp_le G 0 LG ltac:(lia)) as C; rewrite Rabs_right in C by lra; lra. }
  assert (TU : normR G <= 4).
  { rewrite norm3R by exact LG; rewrite <- (sqrt_square 4) by lra; apply sqrt_le_1_alt; nra. }
  assert (B399 : 4 <= 2 ^ 399) by (replace (2 ^ 399) with (2 ^ 2 * 2 ^ 397) by (rewrite <- pow_add; reflexivity); assert (1 <= 2 ^ 397) by (apply pow_R1_Rle; lra); cbn [pow] in *; lra).
  exists m, G; split; [exact E|]; split; [exact LG|]; split.
  - intros c Hc; destruct (HD c Hc) as (D & D1 & D2 & _); exists D; split; assumption.
  - intros c Hc; eapply Rle_trans; [exact (HC ltac:(lra) ltac:(lra) c Hc)|].
    assert (3 * B / normR G <= 3 * B); [|lra].
    apply Rmult_le_reg_r with (normR G); [lra|]; unfold Rdiv; rewrite Rmult_assoc, Rinv_l, Rmult_1_r by lra.
    rewrite <- (Rmult_1_r (3 * B)) at 1; apply Rmult_le_compat_l; lra.
Qed.

(** The length is not exactly 1. *)
Theorem C125_exact_refuted : exists (P : list (list PrimFloat.float)) (m m' : list (list PrimFloat.float)),
  surf_derivatives (patch64 P) (0.5%float : Binary64) (0.25%float : Binary64) 1 1 false = Ok (m : list (list Binary64)) /\
  surf_derivatives (patch64 P) (0.5%float : Binary64) (0.25%float : Binary64) 1 1 true = Ok (m' : list (list Binary64)) /\
  within (- 2 ^ 400) (2 ^ 400) (nth 1 m []) /\ 101/10000000000 <= normR (values (nth 1 m [])) /\ normR (values (nth 1 m' [])) <> 1.
Proof.
  destruct C125_example as (E & E' & W & N & _); exists twisted; eexists; eexists; split; [exact E|]; split; [exact E'|]; cbn [nth].
  split; [exact W|]; split; [exact N|].
  rewrite norm3R by reflexivity; intros H; apply sqrt_lem_0 in H; [| |lra].
  - revert H; cbn [nth values map]; val_eval; lra.
  - pose proof (fun y => Rle_0_sqr y) as Q; unfold Rsqr in Q; repeat apply Rplus_le_le_0_compat; apply Q.
Qed.
Print Assumptions C125_exact_refuted.
(** Beyond the range of C125 the squares overflow: finite rows become zero
    vectors. *)
Theorem C125_large_refuted : exists (P : list (list PrimFloat.float)) (m m' : list (list PrimFloat.float)),
  surf_derivatives (patch64 P) (0.5%float : Binary64) (0.25%float : Binary64) 1 1 false = Ok (m : list (list Binary64)) /\
  surf_derivatives (patch64 P) (0.5%float : Binary64) (0.25%float : Binary64) 1 1 true = Ok (m' : list (list Binary64)) /\
  Forall (fun r => Forall finite64 r) P /\ Forall (fun r => Forall finite64 r) m /\ 1 <= value (nth 1 (nth 1 m []) 0%float) /\
  nth 1 m' [] = [0; 0; 0]%float.
Proof.
  exists [[0; 0; 0]; [0; 0x1p600; 0]; [0x1p600; 0; 0]; [0x1p600; 0x1p600; 1]]%float,
    [[0x1p599; 0x1p598; 0.125]; [0; 0x1p600; 0.5]; [0x1p600; 0; 0.25]; [0; 0; 1]]%float,
    [[0x1p599; 0x1p598; 0.125]; [0; 0; 0]; [0; 0; 0]; [0; 0; 1]]%float.
  split; [vm_compute; reflexivity|]; split; [vm_compute; reflexivity|].
  split; [repeat constructor|]; split; [repeat constructor|]; split; [|reflexivity].
  cbn [nth]; val_eval.
  assert (1 <= 2 ^ 548) by (apply pow_R1_Rle; lra); try lra.
Qed.
Print Assumptions C125_large_refuted.
