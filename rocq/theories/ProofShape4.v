(** Smoothness of surfaces. *)
From Coq Require Import Sorted.
From Verif Require Import Py PyLemmas Num ModelKnots ModelBasis ModelCurve ModelSurface ModelParam Spec SpecParam SpecSmooth SpecShape
  MathCox MathKnots MathDeriv MathJoin MathSmooth MathShape ProofNum ProofSpan2 ProofCurve ProofCurve2 ProofSurface ProofSurface2 ProofParam5 ProofParam6
  ProofSmooth ProofSmooth2 ProofSmooth3 ProofSmooth4 ProofSmooth9 ProofShape ProofShape2.
Open Scope R_scope.

Lemma surface_ders_rows U V s t p q nu nv a b c u v : surface_ders U V s t p q nu nv a b c u v
  = curve_ders U s p a (map (fun i => curve_ders V t q b (map (fun j => nth (i * nv + j) c 0) (seq 0 nv)) v) (seq 0 nu)) u.
Proof.
  unfold surface_ders, curve_ders at 1; rewrite map_length, seq_length; apply zsum_ext; intros i Hi.
  rewrite nth_map_seq0 by lia; unfold curve_ders; rewrite map_length, seq_length, <- zsum_scal; apply zsum_ext; intros j Hj.
  rewrite nth_map_seq0 by lia; replace (Z.to_nat (i * Z.of_nat nv + j)) with (Z.to_nat i * nv + Z.to_nat j)%nat by nia; ring.
Qed.
Lemma surface_ders_cols U V s t p q nu nv a b c u v : surface_ders U V s t p q nu nv a b c u v
  = curve_ders V t q b (map (fun j => curve_ders U s p a (map (fun i => nth (i * nv + j) c 0) (seq 0 nu)) u) (seq 0 nv)) v.
Proof.
  unfold surface_ders, curve_ders at 1; rewrite zsum_swap, map_length, seq_length; apply zsum_ext; intros j Hj.
  rewrite nth_map_seq0 by lia; unfold curve_ders; rewrite map_length, seq_length, <- zsum_scal; apply zsum_ext; intros i Hi.
  rewrite nth_map_seq0 by lia; replace (Z.to_nat (i * Z.of_nat nv + j)) with (Z.to_nat i * nv + Z.to_nat j)%nat by nia; ring.
Qed.

(** What surf_derivatives returns, with the spans that find_span chooses. *)
Definition surf_row p q nu nv U V (P : list (list R)) (a b : nat) (u v : R) : list R :=
  map (fun c => surface_ders U V (span_of (Z.of_nat nu) (Z.of_nat p) U u) (span_of (Z.of_nat nv) (Z.of_nat q) V v) p q nu nv a b (coords c P) u v) [0%nat; 1%nat; 2%nat].
Lemma surf_rows_all p q nu nv U V P u v : clamped (Z.of_nat p) (Z.of_nat nu) U -> strict (Z.of_nat p) (Z.of_nat nu) U -> kn U (Z.of_nat p) = 0 -> kn U (Z.of_nat nu) = 1 ->
  clamped (Z.of_nat q) (Z.of_nat nv) V -> strict (Z.of_nat q) (Z.of_nat nv) V -> kn V (Z.of_nat q) = 0 -> kn V (Z.of_nat nv) = 1 ->
  Forall (fun row => length row = 3%nat) P -> length P = (nu * nv)%nat -> 0 <= u <= 1 -> 0 <= v <= 1 ->
  surf_point (surf_of p q nu nv U V P) (Fin u : Exact) (Fin v : Exact) = Ok (fin (surf_row p q nu nv U V P 0 0 u v)) /\
  forall ou ov, exists m, surf_derivatives (surf_of p q nu nv U V P) (Fin u : Exact) (Fin v : Exact) (Z.of_nat ou) (Z.of_nat ov) false = Ok (fin2 m) /\
    length m = ((Nat.min ou p + 1) * (Nat.min ov q + 1))%nat /\
    forall a b, (a <= Nat.min ou p)%nat -> (b <= Nat.min ov q)%nat -> nth (a * (Nat.min ov q + 1) + b) m [] = surf_row p q nu nv U V P a b u v.
Proof.
  intros CU SU U0 U1 CV SV V0 V1 HF HL Hu Hv.
  destruct (span_of_ok _ _ U u CU SU U0 U1 Hu) as (FU & Hs & Hlu), (span_of_ok _ _ V v CV SV V0 V1 Hv) as (FV & Ht & Hlv).
  assert (A : forall ou ov, exists m, surf_derivatives (surf_of p q nu nv U V P) (Fin u : Exact) (Fin v : Exact) (Z.of_nat ou) (Z.of_nat ov) false = Ok (fin2 m) /\
    length m = ((Nat.min ou p + 1) * (Nat.min ov q + 1))%nat /\
    forall a b, (a <= Nat.min ou p)%nat -> (b <= Nat.min ov q)%nat -> nth (a * (Nat.min ov q + 1) + b) m [] = surf_row p q nu nv U V P a b u v).
  { intros ou ov; eexists; split; [apply (surf_derivatives_ok p q nu nv U V P u v (span_of (Z.of_nat nu) (Z.of_nat p) U u) (span_of (Z.of_nat nv) (Z.of_nat q) V v) (Nat.min ou p) (Nat.min ov q) false);
      try assumption; try lia; [apply CU|apply CV]|].
    split; [apply tab_length|]; intros a b Ha Hb; rewrite nth_finish_row by lia; reflexivity. }
  split; [|exact A].
  destruct (surf_derivatives_true p q nu nv U V P u v _ _ 0 0 (proj1 CU) (proj1 CV) HF HL Hu Hv FU FV Hs Ht Hlu Hlv) as (m & Em & Lm & F3 & Ep & _).
  destruct (A 0%nat 0%nat) as (m' & Em' & _ & R); rewrite Em in Em'.
  assert (E : m = m') by (apply fin2_inj; congruence); rewrite Ep; do 2 f_equal; rewrite E; apply (R 0%nat 0%nat); lia.
Qed.

(** ** Continuity in two variables *)
Definition continuous2 (f : R -> R -> R) (u v : R) : Prop :=
  forall eps, 0 < eps -> exists d, 0 < d /\ forall x y, Rabs (x - u) < d -> Rabs (y - v) < d -> Rabs (f x y - f u v) < eps.
Lemma continuous2_const k u v : continuous2 (fun _ _ => k) u v.
Proof. intros e He; exists 1; split; [lra|]; intros; rewrite Rminus_eq_0, Rabs_R0; exact He. Qed.
Lemma continuous2_plus f g u v : continuous2 f u v -> continuous2 g u v -> continuous2 (fun x y => f x y + g x y) u v.
Proof.
  intros Hf Hg e He; destruct (Hf (e/2) ltac:(lra)) as (d & Hd & F), (Hg (e/2) ltac:(lra)) as (d' & Hd' & G); exists (Rmin d d'); split; [apply Rmin_pos; assumption|].
  intros x y Hx Hy; pose proof (Rmin_l d d'); pose proof (Rmin_r d d').
  specialize (F x y ltac:(lra) ltac:(lra)); specialize (G x y ltac:(lra) ltac:(lra)).
  replace (f x y + g x y - (f u v + g u v)) with ((f x y - f u v) + (g x y - g u v)) by ring; pose proof (Rabs_triang (f x y - f u v) (g x y - g u v)); lra.
Qed.
Lemma continuous2_mult (f g : R -> R) u v : continuity_pt f u -> continuity_pt g v -> continuous2 (fun x y => f x * g y) u v.
Proof.
  intros Hf Hg e He.
  assert (C : forall h w, continuity_pt h w -> forall e, 0 < e -> exists d, 0 < d /\ forall x, Rabs (x - w) < d -> Rabs (h x - h w) < e).
  { intros h w H e' He'; destruct (H e' He') as (d & Hd & B); exists d; split; [exact Hd|]; intros x Hx; destruct (Req_dec w x) as [<-|N]; [rewrite Rminus_eq_0, Rabs_R0; exact He'|].
    apply (B x); split; [split; [exact I|exact N]|exact Hx]. }
  set (M := Rabs (f u) + Rabs (g v) + 1); assert (HM : 0 < M) by (unfold M; pose proof (Rabs_pos (f u)); pose proof (Rabs_pos (g v)); lra).
  set (e' := Rmin 1 (e / (2 * M))); assert (He' : 0 < e') by (apply Rmin_pos; [lra|apply Rdiv_lt_0_compat; lra]).
  assert (E1 : e' <= 1) by apply Rmin_l; assert (E2 : e' * M <= e / 2).
  { apply Rle_trans with (e / (2 * M) * M); [apply Rmult_le_compat_r; [lra|apply Rmin_r]|right; field; lra]. }
  destruct (C f u Hf e' He') as (d & Hd & F), (C g v Hg e' He') as (d' & Hd' & G); exists (Rmin d d'); split; [apply Rmin_pos; assumption|].
  intros x y Hx Hy; pose proof (Rmin_l d d'); pose proof (Rmin_r d d'); specialize (F x ltac:(lra)); specialize (G y ltac:(lra)).
  replace (f x * g y - f u * g v) with ((f x - f u) * (g y - g v) + (f x - f u) * g v + f u * (g y - g v)) by ring.
  pose proof (Rabs_triang ((f x - f u) * (g y - g v) + (f x - f u) * g v) (f u * (g y - g v))) as T1; pose proof (Rabs_triang ((f x - f u) * (g y - g v)) ((f x - f u) * g v)) as T2.
  rewrite !Rabs_mult in *.
  assert (Rabs (f x - f u) * Rabs (g y - g v) <= e' * 1) by (apply Rmult_le_compat; try apply Rabs_pos; lra).
  assert (Rabs (f x - f u) * Rabs (g v) <= e' * Rabs (g v)) by (apply Rmult_le_compat_r; [apply Rabs_pos|lra]).
  assert (Rabs (f u) * Rabs (g y - g v) <= e' * Rabs (f u)) by (rewrite (Rmult_comm e'); apply Rmult_le_compat_l; [apply Rabs_pos|lra]).
  unfold M in E2; lra.
Qed.

(** The k-th derivative of the i-th basis function, in the span find_span chooses. *)
Lemma basis_at_continuous p n U k i u : clamped (Z.of_nat p) n U -> strict (Z.of_nat p) n U -> kn U (Z.of_nat p) = 0 -> kn U n = 1 -> wide_end n U -> (k < p)%nat -> 0 < u < 1 ->
  continuity_pt (fun x => Dx (delta (span_of n (Z.of_nat p) U x)) (kn U) k p (Z.of_nat i) x) u.
Proof.
  intros HC HS H0 H1 HW Hk Hu.
  pose proof (row_at_continuous p n U HC HS H0 H1 HW k (repeat 0 i ++ [1]) u Hk Hu) as H.
  assert (E : forall x, row_at p n U k (repeat 0 i ++ [1]) x = Dx (delta (span_of n (Z.of_nat p) U x)) (kn U) k p (Z.of_nat i) x).
  { intros x; unfold row_at, curve_ders; rewrite app_length, repeat_length, Nat.add_1_r; cbn [zsum].
    rewrite zsum_0.
    - rewrite Z.add_0_l, Nat2Z.id, app_nth2, repeat_length, Nat.sub_diag by (rewrite repeat_length; lia); cbn [nth]; ring.
    - intros j Hj; rewrite app_nth1 by (rewrite repeat_length; lia); rewrite nth_repeat; ring. }
  intros e He; destruct (H e He) as (d & Hd & B); exists d; split; [exact Hd|]; intros x Hx; rewrite <- !E; apply B; exact Hx.
Qed.

Lemma smooth_rows p q nu nv U V P : clamped (Z.of_nat p) (Z.of_nat nu) U -> strict (Z.of_nat p) (Z.of_nat nu) U -> kn U (Z.of_nat p) = 0 -> kn U (Z.of_nat nu) = 1 -> wide_end (Z.of_nat nu) U ->
  clamped (Z.of_nat q) (Z.of_nat nv) V -> strict (Z.of_nat q) (Z.of_nat nv) V -> kn V (Z.of_nat q) = 0 -> kn V (Z.of_nat nv) = 1 -> wide_end (Z.of_nat nv) V ->
  Forall (fun row => length row = 3%nat) P -> length P = (nu * nv)%nat ->
  let D := surf_row p q nu nv U V P in
    (forall a b c u v, (S a < p)%nat -> (c < 3)%nat -> 0 < u < 1 -> derivable_pt_lim (fun x => nth c (D a b x v) 0) u (nth c (D (S a) b u v) 0)) /\
    (forall a b c u v, (S b < q)%nat -> (c < 3)%nat -> 0 < v < 1 -> derivable_pt_lim (fun y => nth c (D a b u y) 0) v (nth c (D a (S b) u v) 0)) /\
    (forall a b c u v, (a < p)%nat -> (b < q)%nat -> (c < 3)%nat -> 0 < u < 1 -> 0 < v < 1 -> continuous2 (fun x y => nth c (D a b x y) 0) u v).
Proof.
  intros CU SU U0 U1 WU CV SV V0 V1 WV HF HL D.
  assert (N : forall a b c u v, (c < 3)%nat -> nth c (surf_row p q nu nv U V P a b u v) 0 =
    surface_ders U V (span_of (Z.of_nat nu) (Z.of_nat p) U u) (span_of (Z.of_nat nv) (Z.of_nat q) V v) p q nu nv a b (coords c P) u v)
    by (intros a b c u v Hc; unfold surf_row; rewrite nth_map3 by exact Hc; reflexivity).
  unfold D; clear D; split; [|split].
  - intros a b c u v Ha Hc Hu; rewrite N, surface_ders_rows by exact Hc.
    eapply derivable_pt_lim_ext; [intros x; symmetry; rewrite N, surface_ders_rows by exact Hc; reflexivity|].
    apply (row_at_derivable p (Z.of_nat nu) U CU SU U0 U1 WU a _ u Ha Hu).
  - intros a b c u v Hb Hc Hv; rewrite N, surface_ders_cols by exact Hc.
    eapply derivable_pt_lim_ext; [intros y; symmetry; rewrite N, surface_ders_cols by exact Hc; reflexivity|].
    apply (row_at_derivable q (Z.of_nat nv) V CV SV V0 V1 WV b _ v Hb Hv).
  - intros a b c u v Ha Hb Hc Hu Hv.
    assert (G : continuous2 (fun x y => surface_ders U V (span_of (Z.of_nat nu) (Z.of_nat p) U x) (span_of (Z.of_nat nv) (Z.of_nat q) V y) p q nu nv a b (coords c P) x y) u v).
    { unfold surface_ders.
      assert (Z1 : forall n (f : Z -> R -> R -> R), (forall i, (0 <= i)%Z -> continuous2 (f i) u v) -> continuous2 (fun x y => zsum 0 n (fun i => f i x y)) u v).
      { intros n f H; induction n as [|n IH]; cbn [zsum]; [apply continuous2_const|apply continuous2_plus; [exact IH|apply H; lia]]. }
      apply (Z1 nu (fun i x y => zsum 0 nv (fun j => Dx (delta (span_of (Z.of_nat nu) (Z.of_nat p) U x)) (kn U) a p i x * Dx (delta (span_of (Z.of_nat nv) (Z.of_nat q) V y)) (kn V) b q j y * nth (Z.to_nat (i * Z.of_nat nv + j)) (coords c P) 0))).
      intros i Hi.
      apply (Z1 nv (fun j x y => Dx (delta (span_of (Z.of_nat nu) (Z.of_nat p) U x)) (kn U) a p i x * Dx (delta (span_of (Z.of_nat nv) (Z.of_nat q) V y)) (kn V) b q j y * nth (Z.to_nat (i * Z.of_nat nv + j)) (coords c P) 0)).
      intros j Hj; rewrite <- (Z2Nat.id i Hi), <- (Z2Nat.id j Hj).
      set (k := nth _ (coords c P) 0).
      intros e He.
      destruct (continuous2_mult _ _ u v (basis_at_continuous p (Z.of_nat nu) U a (Z.to_nat i) u CU SU U0 U1 WU Ha Hu) (basis_at_continuous q (Z.of_nat nv) V b (Z.to_nat j) v CV SV V0 V1 WV Hb Hv) (e / (Rabs k + 1))) as (d & Hd & B).
      { apply Rdiv_lt_0_compat; [exact He|pose proof (Rabs_pos k); lra]. }
      exists d; split; [exact Hd|]; intros x y Hx Hy; specialize (B x y Hx Hy); rewrite <- Rmult_minus_distr_r, Rabs_mult.
      apply Rle_lt_trans with (e / (Rabs k + 1) * Rabs k); [apply Rmult_le_compat_r; [apply Rabs_pos|lra]|].
      pose proof (Rabs_pos k); apply Rmult_lt_reg_r with (Rabs k + 1); [lra|]; replace (e / (Rabs k + 1) * Rabs k * (Rabs k + 1)) with (e * Rabs k) by (field; lra); nra. }
    intros e He; destruct (G e He) as (d & Hd & B); exists d; split; [exact Hd|]; intros x y Hx Hy; rewrite !N by exact Hc; apply B; assumption.
Qed.
Lemma smooth_surface p q nu nv U V P : clamped (Z.of_nat p) (Z.of_nat nu) U -> strict (Z.of_nat p) (Z.of_nat nu) U -> kn U (Z.of_nat p) = 0 -> kn U (Z.of_nat nu) = 1 -> wide_end (Z.of_nat nu) U ->
  clamped (Z.of_nat q) (Z.of_nat nv) V -> strict (Z.of_nat q) (Z.of_nat nv) V -> kn V (Z.of_nat q) = 0 -> kn V (Z.of_nat nv) = 1 -> wide_end (Z.of_nat nv) V ->
  Forall (fun row => length row = 3%nat) P -> length P = (nu * nv)%nat ->
  exists D : nat -> nat -> R -> R -> list R,
    (forall u v, 0 <= u <= 1 -> 0 <= v <= 1 -> surf_point (surf_of p q nu nv U V P) (Fin u : Exact) (Fin v : Exact) = Ok (fin (D 0%nat 0%nat u v))) /\
    (forall u v ou ov, 0 <= u <= 1 -> 0 <= v <= 1 -> exists m,
       surf_derivatives (surf_of p q nu nv U V P) (Fin u : Exact) (Fin v : Exact) (Z.of_nat ou) (Z.of_nat ov) false = Ok (fin2 m) /\
       length m = ((Nat.min ou p + 1) * (Nat.min ov q + 1))%nat /\
       forall a b, (a <= Nat.min ou p)%nat -> (b <= Nat.min ov q)%nat -> nth (a * (Nat.min ov q + 1) + b) m [] = D a b u v) /\
    (forall a b c u v, (S a < p)%nat -> (c < 3)%nat -> 0 < u < 1 -> derivable_pt_lim (fun x => nth c (D a b x v) 0) u (nth c (D (S a) b u v) 0)) /\
    (forall a b c u v, (S b < q)%nat -> (c < 3)%nat -> 0 < v < 1 -> derivable_pt_lim (fun y => nth c (D a b u y) 0) v (nth c (D a (S b) u v) 0)) /\
    (forall a b c u v, (a < p)%nat -> (b < q)%nat -> (c < 3)%nat -> 0 < u < 1 -> 0 < v < 1 -> forall eps, 0 < eps ->
       exists d, 0 < d /\ forall x y, Rabs (x - u) < d -> Rabs (y - v) < d -> Rabs (nth c (D a b x y) 0 - nth c (D a b u v) 0) < eps).
Proof.
  intros CU SU U0 U1 WU CV SV V0 V1 WV HF HL; exists (surf_row p q nu nv U V P).
  split; [|split; [|exact (smooth_rows p q nu nv U V P CU SU U0 U1 WU CV SV V0 V1 WV HF HL)]].
  - intros u v Hu Hv; apply surf_rows_all; assumption.
  - intros u v ou ov Hu Hv; apply surf_rows_all; assumption.
Qed.
