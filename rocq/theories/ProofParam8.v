(** Newton's step of the inversion is Newton's method for the derivative of half
    the squared distance (models: ModelParam.v, ModelCurve.v, ModelSurface.v). *)
From Verif Require Import Py PyLemmas Num ModelKnots ModelBasis ModelCurve ModelSurface ModelParam Spec SpecParam SpecNewton MathCox MathKnots MathDeriv
  ProofNum ProofSpan ProofBasis ProofSpan2 ProofKnots ProofInsert2 ProofDers ProofDers2 ProofCurve ProofCurve2 ProofSurface ProofSurface2 ProofInit
  ProofParam ProofParam5 ProofParam6.
Open Scope R_scope.

Lemma dl_ext (f g : R -> R) x l : (forall y, f y = g y) -> derivable_pt_lim f x l -> derivable_pt_lim g x l.
Proof. intros E H eps He; destruct (H eps He) as (d & Hd); exists d; intros h Hh Hl; rewrite <- !E; apply Hd; assumption. Qed.
Lemma nd_unique k : forall f g h, nth_derivative k f g -> nth_derivative k f h -> forall x, g x = h x.
Proof.
  induction k as [|k IH]; intros f g h Hg Hh x; [rewrite Hg, Hh; reflexivity|].
  destruct Hg as (g' & G1 & G2), Hh as (h' & H1 & H2).
  apply (uniqueness_limite g' x); [apply G2|]; apply (dl_ext h'); [|apply H2]; intros y; apply (IH f h' g'); assumption.
Qed.
Lemma nd_one f g : nth_derivative 1 f g -> forall x, derivable_pt_lim f x (g x).
Proof. intros (h & Hh & Hg) x; cbn in Hh; apply (dl_ext h); [exact Hh|apply Hg]. Qed.
Lemma one_nd f g : (forall x, derivable_pt_lim f x (g x)) -> nth_derivative 1 f g.
Proof. intros H; exists f; split; [intros x; reflexivity|exact H]. Qed.
Lemma nd_two f f1 f2 : nth_derivative 1 f f1 -> nth_derivative 2 f f2 -> forall x, derivable_pt_lim f1 x (f2 x).
Proof. intros H1 (h & Hh & Hg) x; apply (dl_ext h); [|apply Hg]; intros y; apply (nd_unique 1 f); assumption. Qed.

(** Derivative of a sum of three products. *)
Lemma dl_dot3 (a b a' b' : nat -> R -> R) x : (forall c, derivable_pt_lim (a c) x (a' c x)) -> (forall c, derivable_pt_lim (b c) x (b' c x)) ->
  derivable_pt_lim (fun y => a 0%nat y * b 0%nat y + a 1%nat y * b 1%nat y + a 2%nat y * b 2%nat y) x
    ((a' 0%nat x * b 0%nat x + a 0%nat x * b' 0%nat x) + (a' 1%nat x * b 1%nat x + a 1%nat x * b' 1%nat x) + (a' 2%nat x * b 2%nat x + a 2%nat x * b' 2%nat x)).
Proof.
  intros Ha Hb.
  apply (derivable_pt_lim_plus (fun y => a 0%nat y * b 0%nat y + a 1%nat y * b 1%nat y) (fun y => a 2%nat y * b 2%nat y));
    [apply (derivable_pt_lim_plus (fun y => a 0%nat y * b 0%nat y) (fun y => a 1%nat y * b 1%nat y))|];
    (apply derivable_pt_lim_mult; [apply Ha|apply Hb]).
Qed.
Lemma dl_minus_const f q x l : derivable_pt_lim f x l -> derivable_pt_lim (fun y => f y - q) x l.
Proof.
  intros H; pose proof (derivable_pt_lim_minus f (fct_cte q) x l 0 H (derivable_pt_lim_const q x)) as E.
  rewrite Rminus_0_r in E; exact E.
Qed.
Definition g_one (F F1 : nat -> R -> R) (Q : list R) (x : R) : R :=
  F1 0%nat x * (F 0%nat x - nth 0 Q 0) + F1 1%nat x * (F 1%nat x - nth 1 Q 0) + F1 2%nat x * (F 2%nat x - nth 2 Q 0).
Definition g_two (F F1 F2 : nat -> R -> R) (Q : list R) (x : R) : R :=
  (F2 0%nat x * (F 0%nat x - nth 0 Q 0) + F1 0%nat x * F1 0%nat x) + (F2 1%nat x * (F 1%nat x - nth 1 Q 0) + F1 1%nat x * F1 1%nat x)
  + (F2 2%nat x * (F 2%nat x - nth 2 Q 0) + F1 2%nat x * F1 2%nat x).
Lemma half_sq_one F F1 Q : (forall c, nth_derivative 1 (F c) (F1 c)) -> nth_derivative 1 (half_sq F Q) (g_one F F1 Q).
Proof.
  intros H; apply one_nd; intros x.
  apply (dl_ext (fun y => (F 0%nat y - nth 0 Q 0) * ((F 0%nat y - nth 0 Q 0) * / 2) + (F 1%nat y - nth 1 Q 0) * ((F 1%nat y - nth 1 Q 0) * / 2)
                   + (F 2%nat y - nth 2 Q 0) * ((F 2%nat y - nth 2 Q 0) * / 2))); [intros y; unfold half_sq; field|].
  set (A := fun c y => F c y - nth c Q 0).
  pose proof (dl_dot3 A (fun c y => A c y * / 2) F1 (fun c y => F1 c y * / 2) x) as E.
  match type of E with _ -> _ -> derivable_pt_lim _ _ ?l => replace (g_one F F1 Q x) with l by (unfold g_one, A; field) end.
  apply E.
  - intros c; apply dl_minus_const, nd_one, H.
  - intros c; pose proof (derivable_pt_lim_mult (A c) (fct_cte (/ 2)) x _ 0 (dl_minus_const _ (nth c Q 0) x _ (nd_one _ _ (H c) x)) (derivable_pt_lim_const _ x)) as E2.
    unfold fct_cte in E2; rewrite Rmult_0_r, Rplus_0_r in E2; exact E2.
Qed.
Lemma g_one_dl F F1 F2 Q x : (forall c, derivable_pt_lim (F c) x (F1 c x)) -> (forall c, derivable_pt_lim (F1 c) x (F2 c x)) ->
  derivable_pt_lim (g_one F F1 Q) x (g_two F F1 F2 Q x).
Proof.
  intros H1 H2; exact (dl_dot3 F1 (fun c y => F c y - nth c Q 0) F2 F1 x H2 (fun c => dl_minus_const _ _ x _ (H1 c))).
Qed.
Lemma half_sq_two F F1 F2 Q : (forall c, nth_derivative 1 (F c) (F1 c)) -> (forall c, nth_derivative 2 (F c) (F2 c)) ->
  nth_derivative 2 (half_sq F Q) (g_two F F1 F2 Q).
Proof.
  intros H1 H2; exists (g_one F F1 Q); split; [apply half_sq_one; exact H1|]; intros x.
  apply g_one_dl; intros c; [apply nd_one, H1|apply (nd_two (F c)); auto].
Qed.

(** ** Curves *)
Lemma curve_row_pieces p U P k u : curve_row p U P k u =
  map (fun c => curve_ders U (span_of (len P) (Z.of_nat p) U u) p (Z.to_nat k) (coords c P) u) [0%nat; 1%nat; 2%nat].
Proof. reflexivity. Qed.
Lemma dot3 a0 a1 a2 b0 b1 b2 : dotR [a0; a1; a2] [b0; b1; b2] = a0 * b0 + a1 * b1 + a2 * b2.
Proof. unfold dotR; cbn; ring. Qed.
Lemma curve_newton_true p U P d : clamped (Z.of_nat p) (len P) U -> strict (Z.of_nat p) (len P) U ->
  kn U (Z.of_nat p) = 0 -> kn U (len P) = 1 -> (2 <= p)%nat -> Forall (fun row => length row = 3%nat) P ->
  exists pt d1 d2, proper_curve (beh_of_curve3 (curve_of (Z.of_nat p) U P d)) pt d1 d2 /\
    forall u s Q, 0 <= u <= 1 -> find_span (len P) (Z.of_nat p) (Fin u : Exact) (fin U) = Ok s -> length Q = 3%nat ->
    exists g1 g2, nth_derivative 1 (half_sq (fun c => curve_piece U s p (coords c P)) Q) g1 /\
      nth_derivative 2 (half_sq (fun c => curve_piece U s p (coords c P)) Q) g2 /\
      slope pt d1 Q u = g1 u /\ curvature pt d1 d2 Q u = g2 u.
Proof.
  intros HC HS H0 H1 Hp HF; exists (curve_row p U P 0), (curve_row p U P 1), (curve_row p U P 2).
  split; [apply curve_proper; assumption|]; intros u s Q Hu Es LQ.
  assert (ES : span_of (len P) (Z.of_nat p) U u = s) by (unfold span_of; rewrite Es; reflexivity).
  destruct Q as [|q0 [|q1 [|q2 [|]]]]; try discriminate LQ.
  assert (T : forall k c, nth_derivative k (curve_piece U s p (coords c P)) (curve_ders U s p k (coords c P))) by (intros; apply curve_ders_true; apply HC).
  set (F := fun c => curve_piece U s p (coords c P)); set (F1 := fun c => curve_ders U s p 1 (coords c P)); set (F2 := fun c => curve_ders U s p 2 (coords c P)).
  exists (g_one F F1 [q0; q1; q2]), (g_two F F1 F2 [q0; q1; q2]).
  split; [apply half_sq_one; intros c; apply T|]; split; [apply half_sq_two; intros c; apply T|].
  assert (Z0 : forall c x, curve_ders U s p 0 (coords c P) x = F c x) by (intros c x; apply (T O c)).
  unfold slope, curvature; rewrite !curve_row_pieces, ES; change (Z.to_nat 0) with O; change (Z.to_nat 1) with 1%nat; change (Z.to_nat 2) with 2%nat.
  cbn [map]; rewrite !Z0; unfold subR; cbn [combine map fst snd]; rewrite !dot3; unfold g_one, g_two, F1, F2; cbn [nth]; split; ring.
Qed.

(** ** Surfaces *)
Section Surf.
Variables (p q nu nv : nat) (U V : list R) (P : list (list R)).
Hypotheses (CU : clamped (Z.of_nat p) (Z.of_nat nu) U) (CV : clamped (Z.of_nat q) (Z.of_nat nv) V)
  (SU : strict (Z.of_nat p) (Z.of_nat nu) U) (SV : strict (Z.of_nat q) (Z.of_nat nv) V)
  (U0 : kn U (Z.of_nat p) = 0) (U1 : kn U (Z.of_nat nu) = 1) (V0 : kn V (Z.of_nat q) = 0) (V1 : kn V (Z.of_nat nv) = 1)
  (Hp : (2 <= p)%nat) (Hq : (2 <= q)%nat) (HF : Forall (fun row => length row = 3%nat) P) (HL : length P = (nu * nv)%nat).
Let row := surf_row p q nu nv U V P.
Lemma surf_newton_true :
  exists pt du dv duu dvv duv, proper_surface (beh_of_surf (surf_of p q nu nv U V P)) pt du dv duu dvv duv /\
    forall u v s t Q, 0 <= u <= 1 -> 0 <= v <= 1 -> find_span (Z.of_nat nu) (Z.of_nat p) (Fin u : Exact) (fin U) = Ok s ->
      find_span (Z.of_nat nv) (Z.of_nat q) (Fin v : Exact) (fin V) = Ok t -> length Q = 3%nat ->
    let E := half_sq2 (fun c => surface_piece U V s t p q nu nv (coords c P)) Q in
    exists gu gv guu gvv guv, mixed_partial 1 0 E gu /\ mixed_partial 0 1 E gv /\ mixed_partial 2 0 E guu /\ mixed_partial 0 2 E gvv /\ mixed_partial 1 1 E guv /\
      dotR (subR (pt u v) Q) (du u v) = gu u v /\ dotR (subR (pt u v) Q) (dv u v) = gv u v /\
      m_uu pt du duu Q (u, v) (u, v) = guu u v /\ m_vv pt dv dvv Q (u, v) (u, v) = gvv u v /\ m_uv pt du dv duv Q (u, v) (u, v) = guv u v.
Proof.
  exists (row 0%Z), (row 3%Z), (row 1%Z), (row 6%Z), (row 2%Z), (row 4%Z); split; [apply surf_proper; assumption|].
  intros u v s t Q Hu Hv Es Et LQ.
  assert (ES : span_of (Z.of_nat nu) (Z.of_nat p) U u = s) by (unfold span_of; rewrite Es; reflexivity).
  assert (ET : span_of (Z.of_nat nv) (Z.of_nat q) V v = t) by (unfold span_of; rewrite Et; reflexivity).
  destruct Q as [|q0 [|q1 [|q2 [|]]]]; try discriminate LQ; cbv zeta; set (Q := [q0; q1; q2]).
  set (F := fun c => surface_piece U V s t p q nu nv (coords c P)).
  set (D := fun a b c => surface_ders U V s t p q nu nv a b (coords c P)).
  assert (T : forall a b c, mixed_partial a b (F c) (D a b c)) by (intros; apply surface_ders_partial; [apply CU|apply CV]).
  assert (Tu : forall a c v, nth_derivative a (fun u => F c u v) (fun u => D a 0%nat c u v)).
  { intros a c y; destruct (T a O c) as (H & H1 & H2); cbn in H2.
    apply (nd_ext a (fun u => F c u y) _ (fun u => H u y)); [reflexivity|intros x; symmetry; apply H2|apply H1]. }
  assert (Tv : forall b c u, nth_derivative b (F c u) (D 0%nat b c u)).
  { intros b c x; destruct (T O b c) as (H & H1 & H2); cbn in H1.
    apply (nd_ext b (H x) _ (D O b c x)); [intros y; apply H1|reflexivity|apply H2]. }
  assert (Tuv : forall c u y, derivable_pt_lim (D 1%nat 0%nat c u) y (D 1%nat 1%nat c u y)).
  { intros c x y; destruct (T 1%nat 1%nat c) as (H & H1 & H2); apply (dl_ext (H x)); [|apply nd_one, H2].
    intros z; exact (nd_unique 1 _ _ _ (H1 z) (Tu 1%nat c z) x). }
  assert (Z0 : forall c x y, D 0%nat 0%nat c x y = F c x y) by (intros c x y; apply (Tv O c x)).
  exists (fun x y => g_one (fun c x => F c x y) (fun c x => D 1%nat 0%nat c x y) Q x),
    (fun x => g_one (fun c => F c x) (fun c => D 0%nat 1%nat c x) Q),
    (fun x y => g_two (fun c x => F c x y) (fun c x => D 1%nat 0%nat c x y) (fun c x => D 2%nat 0%nat c x y) Q x),
    (fun x => g_two (fun c => F c x) (fun c => D 0%nat 1%nat c x) (fun c => D 0%nat 2%nat c x) Q),
    (fun x y => (D 1%nat 1%nat 0%nat x y * (F 0%nat x y - q0) + D 1%nat 0%nat 0%nat x y * D 0%nat 1%nat 0%nat x y)
       + (D 1%nat 1%nat 1%nat x y * (F 1%nat x y - q1) + D 1%nat 0%nat 1%nat x y * D 0%nat 1%nat 1%nat x y)
       + (D 1%nat 1%nat 2%nat x y * (F 2%nat x y - q2) + D 1%nat 0%nat 2%nat x y * D 0%nat 1%nat 2%nat x y)).
  split; [|split; [|split; [|split; [|split]]]].
  - eexists; split; [|intros x y; reflexivity]; intros y.
    apply (half_sq_one (fun c x => F c x y) (fun c x => D 1%nat 0%nat c x y) Q); intros c; apply Tu.
  - eexists; split; [intros y x; reflexivity|]; intros x.
    apply (half_sq_one (fun c => F c x) (fun c => D 0%nat 1%nat c x) Q); intros c; apply Tv.
  - eexists; split; [|intros x y; reflexivity]; intros y.
    apply (half_sq_two (fun c x => F c x y) (fun c x => D 1%nat 0%nat c x y) (fun c x => D 2%nat 0%nat c x y) Q); intros c; apply Tu.
  - eexists; split; [intros y x; reflexivity|]; intros x.
    apply (half_sq_two (fun c => F c x) (fun c => D 0%nat 1%nat c x) (fun c => D 0%nat 2%nat c x) Q); intros c; apply Tv.
  - exists (fun x y => g_one (fun c x => F c x y) (fun c x => D 1%nat 0%nat c x y) Q x); split.
    + intros y; apply (half_sq_one (fun c x => F c x y) (fun c x => D 1%nat 0%nat c x y) Q); intros c; apply Tu.
    + intros x; apply one_nd; intros y.
      exact (dl_dot3 (fun c => D 1%nat 0%nat c x) (fun c y => F c x y - nth c Q 0) (fun c => D 1%nat 1%nat c x) (fun c => D 0%nat 1%nat c x) y
        (fun c => Tuv c x y) (fun c => dl_minus_const _ _ y _ (nd_one _ _ (Tv 1%nat c x) y))).
  - assert (R : forall k, row k u v = map (fun c => D (Z.to_nat (k / 3)) (Z.to_nat (k mod 3)) c u v) [0%nat; 1%nat; 2%nat]).
    { intros k; unfold row, surf_row; rewrite ES, ET; reflexivity. }
    unfold m_uu, m_vv, m_uv, at2; cbn [fst snd]; rewrite !R.
    change (Z.to_nat (0 / 3)) with 0%nat; change (Z.to_nat (0 mod 3)) with 0%nat; change (Z.to_nat (3 / 3)) with 1%nat; change (Z.to_nat (3 mod 3)) with 0%nat;
    change (Z.to_nat (1 / 3)) with 0%nat; change (Z.to_nat (1 mod 3)) with 1%nat; change (Z.to_nat (6 / 3)) with 2%nat; change (Z.to_nat (6 mod 3)) with 0%nat;
    change (Z.to_nat (2 / 3)) with 0%nat; change (Z.to_nat (2 mod 3)) with 2%nat; change (Z.to_nat (4 / 3)) with 1%nat; change (Z.to_nat (4 mod 3)) with 1%nat.
    cbn [map]; rewrite (Z0 0%nat u v), (Z0 1%nat u v), (Z0 2%nat u v); unfold Q, subR; cbn [combine map fst snd]; rewrite !dot3; unfold g_one, g_two; cbn [nth].
    repeat split; ring.
Qed.
End Surf.
