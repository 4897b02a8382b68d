(** Smoothness, Lipschitz bound and uniqueness of curves (models: ModelBasis.v,
    ModelCurve.v). *)
From Coq Require Import Sorted.
From Verif Require Import Py PyLemmas Num ModelKnots ModelBasis ModelCurve ModelParam Spec SpecParam SpecSmooth MathCox MathKnots MathDeriv MathJoin MathSmooth
  ProofNum ProofSpan ProofBasis ProofSpan2 ProofKnots ProofInsert2 ProofDers ProofDers2 ProofCurve ProofCurve2 ProofSurface ProofSurface2
  ProofParam4 ProofParam5 ProofParam6.
Open Scope R_scope.

(** ** Tables computed in the spans on both sides of a knot *)
Lemma table_entry U s u p nd r k : (k <= nd)%nat ->
  entry p (ders_table U s u p nd) r k = Dx (delta s) (kn U) k p (s - Z.of_nat p + r) u.
Proof.
  intros Hk; unfold entry; destruct (Z.leb_spec 0 r), (Z.leb_spec r (Z.of_nat p)); try (rewrite Dx_support by lia; reflexivity).
  rewrite ders_entry by lia; f_equal; lia.
Qed.
Lemma ders_join U s m t p nd : nondecreasing U -> kn U s < t -> (forall j, (s < j <= s + Z.of_nat m)%Z -> kn U j = t) -> t < kn U (s + Z.of_nat m + 1) ->
  (1 <= m)%nat -> (Z.of_nat p - 1 <= s)%Z -> (s + Z.of_nat m + Z.of_nat p < len U)%Z ->
  exists a b, basis_function_ders s (Fin t : Exact) (Z.of_nat p) (fin U) (Z.of_nat nd) = Ok (fin2 a) /\
    basis_function_ders (s + Z.of_nat m) (Fin t : Exact) (Z.of_nat p) (fin U) (Z.of_nat nd) = Ok (fin2 b) /\
    forall i k, (k <= nd)%nat -> (k + m <= p)%nat -> entry p a (i - (s - Z.of_nat p)) k = entry p b (i - (s + Z.of_nat m - Z.of_nat p)) k.
Proof.
  intros HU Hs Hm Ht M1 H1 H2; exists (ders_table U s t p nd), (ders_table U (s + Z.of_nat m) t p nd).
  split; [apply basis_function_ders_table; try assumption; try lia; rewrite (Hm (s + 1)%Z) by lia; exact Hs|].
  split; [apply basis_function_ders_table; try assumption; try lia; rewrite (Hm (s + Z.of_nat m)%Z) by lia; exact Ht|].
  intros i k Hk Hkp; rewrite !table_entry by exact Hk.
  replace (s - Z.of_nat p + (i - (s - Z.of_nat p)))%Z with i by lia; replace (s + Z.of_nat m - Z.of_nat p + (i - (s + Z.of_nat m - Z.of_nat p)))%Z with i by lia.
  apply Dx_join; try lia; try lra; exact Hm.
Qed.

(** ** Curves with distinct interior knots *)
Lemma curve_ders_derivable U s p k c u : nondecreasing U -> derivable_pt_lim (curve_ders U s p k c) u (curve_ders U s p (S k) c u).
Proof.
  intros HU; unfold curve_ders.
  apply (derivable_zsum 0 (length c) (fun i u => Dx (delta s) (kn U) k p i u * nth (Z.to_nat i) c 0) (fun i => Dx (delta s) (kn U) (S k) p i u * nth (Z.to_nat i) c 0)); intros i.
  pose proof (derivable_pt_lim_mult (fun u => Dx (delta s) (kn U) k p i u) (fun _ => nth (Z.to_nat i) c 0) u _ _
    (Dx_derivable (delta s) (kn U) (kn_mono U HU) k p i u) (derivable_pt_lim_const (nth (Z.to_nat i) c 0) u)) as H.
  replace (Dx (delta s) (kn U) (S k) p i u * nth (Z.to_nat i) c 0) with (Dx (delta s) (kn U) (S k) p i u * nth (Z.to_nat i) c 0 + Dx (delta s) (kn U) k p i u * 0) by ring.
  exact H.
Qed.

Section Strict.
Variables (p : nat) (n : Z) (U : list R).
Hypothesis HC : clamped (Z.of_nat p) n U.
Hypothesis HS : strict (Z.of_nat p) n U.
Hypothesis H0 : kn U (Z.of_nat p) = 0.
Hypothesis H1 : kn U n = 1.
Hypothesis HW : wide_end n U.
Local Notation closed s u := (kn U s <= u <= kn U (s + 1)).
Local Notation sp u := (span_of n (Z.of_nat p) U u).

Lemma wide_close u : close (1/1000000) (1/100000000) u 1 -> kn U (n - 1) <= u.
Proof. unfold close; intros C; rewrite (Rabs_right 1) in C by lra; unfold wide_end in HW; revert C; unfold Rabs; destruct (Rcase_abs _); lra. Qed.
Lemma span_closed u : 0 <= u <= 1 -> (Z.of_nat p <= sp u < n)%Z /\ closed (sp u) u.
Proof.
  intros Hu; destruct (find_span_strict (Z.of_nat p) n U u HC HS) as (s & E & Hs & C & _); [lra|rewrite H1; apply wide_close|].
  unfold span_of; rewrite E; auto.
Qed.
(** In which of two spans a derivative of order below the degree is computed does not matter. *)
Lemma spans_agree k c s t u : (k < p)%nat -> (Z.of_nat p <= s < n)%Z -> (Z.of_nat p <= t < n)%Z -> closed s u -> closed t u ->
  curve_ders U s p k c u = curve_ders U t p k c u.
Proof.
  intros Hk; assert (HU : nondecreasing U) by apply HC.
  assert (W : forall s t, (s <= t)%Z -> (Z.of_nat p <= s < n)%Z -> (Z.of_nat p <= t < n)%Z -> closed s u -> closed t u ->
    curve_ders U s p k c u = curve_ders U t p k c u).
  { clear s t; intros s t Hst Is It Cs Ct; destruct (Z.eq_dec s t) as [->|N]; [reflexivity|].
    pose proof (kn_mono U HU (s + 1) t ltac:(lia)) as M.
    assert (Et : t = (s + 1)%Z).
    { destruct (Z.eq_dec t (s + 1)); [assumption|]; pose proof (HS (s + 1)%Z ltac:(lia)); pose proof (kn_mono U HU (s + 1 + 1) t ltac:(lia)); lra. }
    subst t; unfold curve_ders; apply zsum_ext; intros i _; f_equal.
    pose proof (HS s Is); pose proof (HS (s + 1)%Z It).
    apply Dx_join; try lia; try lra; intros j Hj; replace j with (s + 1)%Z by lia; lra. }
  intros Is It Cs Ct; destruct (Z_le_dec s t); [apply W; assumption|symmetry; apply W; try assumption; lia].
Qed.
(** The spans to the left and to the right of an inner parameter. *)
Lemma two_spans u : 0 < u < 1 -> exists s t, (Z.of_nat p <= s < n)%Z /\ (Z.of_nat p <= t < n)%Z /\ kn U s < u <= kn U (s + 1) /\ kn U t <= u < kn U (t + 1).
Proof.
  intros Hu; destruct (clamped_facts _ _ U HC) as (_ & Hn & HL & HU & Hl & Hr & HE & _).
  destruct (clamped_in_span (Z.of_nat p) n U u HC ltac:(lra)) as (t & Ht & I).
  destruct I as [I|(_ & _ & E)]; [|rewrite HE, H1 in E; lra].
  destruct (Rlt_dec (kn U t) u) as [L|L].
  - exists t, t; repeat split; try lia; lra.
  - assert (Et : kn U t = u) by lra.
    assert (Z.of_nat p < t)%Z by (destruct (Z.eq_dec t (Z.of_nat p)) as [->|]; [lra|lia]).
    exists (t - 1)%Z, t; pose proof (HS (t - 1)%Z ltac:(lia)) as S1; replace (t - 1 + 1)%Z with t in * by lia; repeat split; try lia; lra.
Qed.
Definition row_at (k : nat) (c : list R) (u : R) : R := curve_ders U (sp u) p k c u.
Lemma row_at_span k c s u : (k < p)%nat -> (Z.of_nat p <= s < n)%Z -> closed s u -> row_at k c u = curve_ders U s p k c u.
Proof.
  intros Hk Hs Cs; destruct (clamped_facts _ _ U HC) as (_ & Hn & HL & HU & Hl & Hr & _).
  destruct (span_closed u) as [I C]; [|apply spans_agree; assumption].
  pose proof (kn_mono U HU (Z.of_nat p) s ltac:(lia)); pose proof (kn_mono U HU (s + 1) n ltac:(lia)); lra.
Qed.
Lemma row_at_derivable k c u : (S k < p)%nat -> 0 < u < 1 -> derivable_pt_lim (row_at k c) u (row_at (S k) c u).
Proof.
  intros Hk Hu; assert (HU : nondecreasing U) by apply HC; destruct (two_spans u Hu) as (s & t & Is & It & Cs & Ct).
  apply (glue_derivable (row_at k c) (curve_ders U s p k c) (curve_ders U t p k c) (kn U s) u (kn U (t + 1))); try lra.
  - intros x Hx; apply row_at_span; try assumption; try lia; lra.
  - intros x Hx; apply row_at_span; try assumption; try lia; lra.
  - rewrite (row_at_span (S k) c s) by (try assumption; lra); apply curve_ders_derivable; exact HU.
  - rewrite (row_at_span (S k) c t) by (try assumption; lra); apply curve_ders_derivable; exact HU.
Qed.
Lemma row_at_continuous k c u : (k < p)%nat -> 0 < u < 1 -> continuity_pt (row_at k c) u.
Proof.
  intros Hk Hu; assert (HU : nondecreasing U) by apply HC; destruct (two_spans u Hu) as (s & t & Is & It & Cs & Ct).
  apply (glue_continuous (row_at k c) (curve_ders U s p k c) (curve_ders U t p k c) (kn U s) u (kn U (t + 1))); try lra.
  - intros x Hx; apply row_at_span; try assumption; try lia; lra.
  - intros x Hx; apply row_at_span; try assumption; try lia; lra.
  - apply derivable_continuous_pt; eexists; apply curve_ders_derivable; exact HU.
  - apply derivable_continuous_pt; eexists; apply curve_ders_derivable; exact HU.
Qed.
End Strict.

Lemma smooth_curve p U P d : clamped (Z.of_nat p) (len P) U -> strict (Z.of_nat p) (len P) U -> kn U (Z.of_nat p) = 0 -> kn U (len P) = 1 -> wide_end (len P) U ->
  Forall (fun row => length row = 3%nat) P ->
  exists D : nat -> R -> list R,
    (forall u, 0 <= u <= 1 -> single_point (curve_of (Z.of_nat p) U P d) (Fin u : Exact) = Ok (fin (D 0%nat u))) /\
    (forall u o, 0 <= u <= 1 -> (2 <= o)%nat -> exists m, derivatives3 (curve_of (Z.of_nat p) U P d) (Fin u : Exact) (Z.of_nat o) = Ok (fin2 m) /\
       length m = S (Nat.min o p) /\ forall k, (k <= Nat.min o p)%nat -> nth k m [] = D k u) /\
    (forall k c u, (S k < p)%nat -> (c < 3)%nat -> 0 < u < 1 -> derivable_pt_lim (fun x => nth c (D k x) 0) u (nth c (D (S k) u) 0)) /\
    (forall k c u, (k < p)%nat -> (c < 3)%nat -> 0 < u < 1 -> continuity_pt (fun x => nth c (D k x) 0) u).
Proof.
  intros HC HS H0 H1 HW HF; exists (fun k u => curve_row p U P (Z.of_nat k) u).
  assert (HK : knots_for (Z.of_nat p) (len P) U) by apply HC.
  assert (N : forall k c u, (c < 3)%nat -> nth c (curve_row p U P (Z.of_nat k) u) 0 = row_at p (len P) U k (coords c P) u).
  { intros k c u Hc; unfold curve_row, ders_row; rewrite nth_map3, Nat2Z.id by exact Hc; reflexivity. }
  split; [|split; [|split]].
  - intros u Hu; destruct (span_of_ok _ _ U u HC HS H0 H1 Hu) as (E & Hs & Hlt).
    destruct (derivatives3_true p U P d u _ 2 HK HF Hu E Hs Hlt ltac:(lia)) as (m & E1 & _ & _ & E2 & _).
    rewrite (derivatives3_ok p U P d u _ 2 HK HF Hu E Hs Hlt ltac:(lia)) in E1.
    rewrite E2; do 2 f_equal.
    assert (Em : m = tab (S (Nat.min 2 p)) (ders_row U (span_of (len P) (Z.of_nat p) U u) p P u)) by (apply fin2_inj; congruence).
    rewrite Em, nth_tab by lia; reflexivity.
  - intros u o Hu Ho; destruct (span_of_ok _ _ U u HC HS H0 H1 Hu) as (E & Hs & Hlt).
    eexists; split; [apply derivatives3_ok; eassumption|]; split; [apply tab_length|]; intros k Hk; rewrite nth_tab by lia; reflexivity.
  - intros k c u Hk Hc Hu; rewrite N by exact Hc.
    apply (derivable_pt_lim_ext (row_at p (len P) U k (coords c P))); [intros x; symmetry; apply N; exact Hc|].
    apply row_at_derivable; assumption.
  - intros k c u Hk Hc Hu eps He; destruct (row_at_continuous p (len P) U HC HS H0 H1 HW k (coords c P) u Hk Hu eps He) as (e & He' & E).
    exists e; split; [exact He'|]; intros x Hx; rewrite !N by exact Hc; apply E; exact Hx.
Qed.
