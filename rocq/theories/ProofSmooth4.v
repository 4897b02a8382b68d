(** Nets that are bilinear in the averaged knots give bilinear surfaces
    (model: ModelSurface.v), in exact arithmetic. *)
From Verif Require Import Py PyLemmas Num ModelKnots ModelBasis ModelCurve ModelSurface ModelParam Spec SpecParam SpecSmooth MathCox MathKnots MathDeriv MathLinear
  ProofNum ProofCurve ProofCurve2 ProofSurface ProofSurface2 ProofFit4 ProofParam5 ProofParam6 ProofLinear ProofSmooth3.
Open Scope R_scope.

Lemma nd_line k : forall f A D G, (forall x, f x = A + x * D) -> nth_derivative k f G ->
  forall x, G x = match k with O => A + x * D | 1%nat => D | _ => 0 end.
Proof.
  destruct k as [|[|k]]; intros f A D G Hf HG x; [rewrite HG; apply Hf|exact (nd_line_1 f A D G Hf HG x)|].
  revert G HG x; induction k as [|k IH]; intros G HG x; [exact (nd_line_2 f A D G Hf HG x)|].
  destruct HG as (h & Hh & HG); eapply uniqueness_limite; [apply HG|].
  apply (derivable_pt_lim_ext (fun _ => 0)); [intros t; symmetry; apply IH; exact Hh|apply derivable_pt_lim_const].
Qed.
Lemma surface_piece_rows U V s t p q nu nv c u v : surface_piece U V s t p q nu nv c u v
  = curve_piece U s p (map (fun i => curve_piece V t q (map (fun j => nth (i * nv + j) c 0) (seq 0 nv)) v) (seq 0 nu)) u.
Proof.
  unfold surface_piece, curve_piece at 1; rewrite map_length, seq_length; apply zsum_ext; intros i Hi.
  rewrite nth_map_seq0 by lia; unfold curve_piece; rewrite map_length, seq_length, <- zsum_scal; apply zsum_ext; intros j Hj.
  rewrite nth_map_seq0 by lia; replace (Z.to_nat (i * Z.of_nat nv + j)) with (Z.to_nat i * nv + Z.to_nat j)%nat by nia; ring.
Qed.
Lemma piece_bilinear U V s t p q nu nv c A D E F u v : nondecreasing U -> nondecreasing V -> kn U s < kn U (s + 1) -> kn V t < kn V (t + 1) ->
  (Z.of_nat p <= s < Z.of_nat nu)%Z -> (Z.of_nat q <= t < Z.of_nat nv)%Z -> (1 <= p)%nat -> (1 <= q)%nat ->
  (forall i j, (i < nu)%nat -> (j < nv)%nat ->
     nth (i * nv + j) c 0 = A + average p U i * D + average q V j * E + average p U i * average q V j * F) ->
  surface_piece U V s t p q nu nv c u v = A + u * D + v * E + u * v * F.
Proof.
  intros HU HV Hs Ht Hps Hqt Hp Hq HC; rewrite surface_piece_rows.
  rewrite (piece_linear U s p _ (A + v * E) (D + v * F) u HU Hs); [ring|unfold len; rewrite map_length, seq_length; exact Hps|exact Hp|].
  unfold len at 1; rewrite map_length, seq_length; intros i Hi; rewrite nth_map_seq0 by lia.
  change (knot_sum (kn U) p i / INR p) with (zsum (i + 1) p (kn U) / INR p).
  rewrite (piece_linear V t q _ (A + average p U (Z.to_nat i) * D) (E + average p U (Z.to_nat i) * F) v HV Ht).
  - unfold average; rewrite Z2Nat.id by lia; ring.
  - unfold len; rewrite map_length, seq_length; exact Hqt.
  - exact Hq.
  - unfold len; rewrite map_length, seq_length; intros j Hj; rewrite nth_map_seq0 by lia; rewrite HC by lia.
    change (knot_sum (kn V) q j / INR q) with (zsum (j + 1) q (kn V) / INR q); unfold average; rewrite !Z2Nat.id by lia; ring.
Qed.
Lemma mixed_bilinear F a b k A D E G : (forall u v, F u v = A + u * D + v * E + u * v * k) -> mixed_partial a b F G ->
  forall u v, G u v = bilinear_row a b A D E k u v.
Proof.
  intros HF (H & H1 & H2) u v.
  assert (HH : forall u v, H u v = match a with O => (A + u * D) + v * (E + u * k) | 1%nat => D + v * k | _ => 0 end).
  { intros x y; rewrite (nd_line a (fun u => F u y) (A + y * E) (D + y * k) (fun u => H u y)); [destruct a as [|[|a]]; ring|intros; rewrite HF; ring|apply H1]. }
  destruct a as [|[|a]].
  - rewrite (nd_line b (H u) (A + u * D) (E + u * k) (G u)); [destruct b as [|[|b]]; cbn [bilinear_row]; ring|intros; apply HH|apply H2].
  - rewrite (nd_line b (H u) D k (G u)); [destruct b as [|[|b]]; cbn [bilinear_row]; ring|intros; apply HH|apply H2].
  - rewrite (nd_line b (H u) 0 0 (G u)); [destruct b as [|[|b]]; cbn [bilinear_row]; ring|intros; rewrite HH; ring|apply H2].
Qed.
Lemma bilinear_surface p q nu nv U V P A D E F u v ou ov : clamped (Z.of_nat p) (Z.of_nat nu) U -> clamped (Z.of_nat q) (Z.of_nat nv) V ->
  strict (Z.of_nat p) (Z.of_nat nu) U -> strict (Z.of_nat q) (Z.of_nat nv) V ->
  kn U (Z.of_nat p) = 0 -> kn U (Z.of_nat nu) = 1 -> kn V (Z.of_nat q) = 0 -> kn V (Z.of_nat nv) = 1 -> (1 <= p)%nat -> (1 <= q)%nat ->
  Forall (fun row => length row = 3%nat) P -> length P = (nu * nv)%nat -> 0 <= u <= 1 -> 0 <= v <= 1 ->
  (forall i j c, (i < nu)%nat -> (j < nv)%nat -> (c < 3)%nat ->
     nth c (nth (i * nv + j) P []) 0 = nth c A 0 + average p U i * nth c D 0 + average q V j * nth c E 0 + average p U i * average q V j * nth c F 0) ->
  let at_ a b := map (fun c => bilinear_row a b (nth c A 0) (nth c D 0) (nth c E 0) (nth c F 0) u v) [0%nat; 1%nat; 2%nat] in
  surf_point (surf_of p q nu nv U V P) (Fin u : Exact) (Fin v : Exact) = Ok (fin (at_ 0%nat 0%nat)) /\
  exists m, surf_derivatives (surf_of p q nu nv U V P) (Fin u : Exact) (Fin v : Exact) (Z.of_nat ou) (Z.of_nat ov) false = Ok (fin2 m) /\
    length m = ((Nat.min ou p + 1) * (Nat.min ov q + 1))%nat /\
    forall a b, (a <= Nat.min ou p)%nat -> (b <= Nat.min ov q)%nat -> nth (a * (Nat.min ov q + 1) + b) m [] = at_ a b.
Proof.
  intros CU CV SU SV U0 U1 V0 V1 Hp Hq HF HL Hu Hv HP at_.
  destruct (span_of_ok _ _ U u CU SU U0 U1 Hu) as (FU & Hs & Hlu), (span_of_ok _ _ V v CV SV V0 V1 Hv) as (FV & Ht & Hlv).
  destruct (surf_derivatives_true p q nu nv U V P u v _ _ ou ov (proj1 CU) (proj1 CV) HF HL Hu Hv FU FV Hs Ht Hlu Hlv) as (m & Em & Lm & F3 & Ep & Hm & _).
  assert (R : forall a b, (a <= Nat.min ou p)%nat -> (b <= Nat.min ov q)%nat -> nth (a * (Nat.min ov q + 1) + b) m [] = at_ a b).
  { intros a b Ha Hb; apply row3_ext; [apply (proj1 (Forall_forall _ _) F3), nth_In; rewrite Lm; nia|reflexivity|].
    intros c Hc; destruct (Hm a b c ltac:(lia) ltac:(lia) ltac:(lia) ltac:(lia) Hc) as (G & HG & ->).
    unfold at_; rewrite nth_map3 by exact Hc.
    refine (mixed_bilinear _ a b _ _ _ _ G _ HG u v); intros x y; apply piece_bilinear; try assumption.
    - exact (proj2 (proj2 (proj2 (proj1 CU)))).
    - exact (proj2 (proj2 (proj2 (proj1 CV)))).
    - intros i j Hi Hj; rewrite nth_coords; apply HP; assumption. }
  split; [rewrite Ep; do 2 f_equal; apply (R 0%nat 0%nat); lia|].
  exists m; split; [exact Em|]; split; [exact Lm|exact R].
Qed.
