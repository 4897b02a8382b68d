(** Facts about knot vectors and B-splines (specification level). *)
From Verif Require Import Spec MathCox.
Open Scope R_scope.

Lemma last_nth {A} (l : list A) d : last l d = nth (length l - 1) l d.
Proof.
  induction l as [|x t IH]; [reflexivity|].
  destruct t as [|y t]; [reflexivity|].
  change (last (x :: y :: t) d) with (last (y :: t) d); rewrite IH; cbn [length].
  replace (S (S (length t)) - 1)%nat with (S (S (length t) - 1)) by lia; reflexivity.
Qed.

Lemma kn_nth U i : (0 <= i < len U)%Z -> kn U i = nth (Z.to_nat i) U 0.
Proof. intros H; unfold kn, len in *; apply nth_indep; lia. Qed.
Lemma kn_neg U i : (i <= 0)%Z -> kn U i = kn U 0.
Proof. intros H; unfold kn; f_equal; lia. Qed.
Lemma kn_big U i : (len U - 1 <= i)%Z -> kn U i = last U 0.
Proof.
  intros H; unfold kn, len in *.
  destruct U as [|x t]; [destruct (Z.to_nat i); reflexivity|].
  destruct (le_lt_dec (length (x :: t)) (Z.to_nat i)) as [L|L].
  - apply nth_overflow; exact L.
  - replace (Z.to_nat i) with (length (x :: t) - 1)%nat by (cbn [length] in *; lia).
    rewrite (nth_indep _ _ 0) by (cbn [length]; lia); rewrite last_nth; reflexivity.
Qed.
Lemma kn_last U : kn U (len U - 1) = last U 0.
Proof. apply kn_big; lia. Qed.

Lemma kn_mono U : nondecreasing U -> forall i j, (i <= j)%Z -> kn U i <= kn U j.
Proof.
  intros H i j Hij.
  destruct (Z_le_dec (len U) 0) as [E|E].
  - destruct U; [|unfold len in E; cbn in E; lia].
    unfold kn; destruct (Z.to_nat i), (Z.to_nat j); cbn; lra.
  - set (i' := Z.min (Z.max 0 i) (len U - 1)); set (j' := Z.min (Z.max 0 j) (len U - 1)).
    assert (C : forall m, kn U m = kn U (Z.min (Z.max 0 m) (len U - 1))).
    { intros m; destruct (Z_lt_dec m 0); [rewrite kn_neg by lia; f_equal; lia|].
      destruct (Z_le_dec m (len U - 1)); [f_equal; lia|].
      rewrite kn_big by lia; replace (Z.min _ _) with (len U - 1)%Z by lia.
      symmetry; apply kn_last. }
    rewrite (C i), (C j); apply H; lia.
Qed.

Lemma in_span_width U s u : in_span U s u -> kn U s < kn U (s + 1).
Proof. intros [H|H]; [lra|tauto]. Qed.
Lemma in_span_closed U s u : in_span U s u -> kn U s <= u <= kn U (s + 1).
Proof. intros [H|(H & E & _)]; [lra|lra]. Qed.

Lemma in_span_unique U s s' u : nondecreasing U -> in_span U s u -> in_span U s' u -> s = s'.
Proof.
  intros HU.
  assert (G : forall a b, (a < b)%Z -> in_span U a u -> in_span U b u -> False).
  { intros a b Hab Ha Hb.
    pose proof (kn_mono U HU (a + 1) b ltac:(lia)) as M.
    destruct Hb as [Hb|(Hb & E & L)].
    - destruct Ha as [Ha|(Ha & E & L)]; [lra|].
      assert (kn U (b + 1) <= last U 0).
      { destruct (Z_le_dec (b + 1) (len U - 1)).
        - rewrite <- kn_last; apply kn_mono; [exact HU|lia].
        - rewrite kn_big by lia; lra. }
      lra.
    - destruct Ha as [Ha|(Ha & E' & _)]; lra. }
  intros H1 H2; destruct (Z.lt_trichotomy s s') as [L|[E|L]]; [|exact E|]; exfalso; eauto.
Qed.

Lemma base_in_span U u i : base U u i = 1 /\ in_span U i u \/ base U u i = 0 /\ ~ in_span U i u.
Proof.
  unfold base, in_span.
  destruct (Rle_dec (kn U i) u); [|right; split; [reflexivity|lra]].
  destruct (Rlt_dec u (kn U (i + 1))); [left; split; [reflexivity|lra]|].
  destruct (Rlt_dec (kn U i) (kn U (i + 1))); [|right; split; [reflexivity|lra]].
  destruct (Req_EM_T u (kn U (i + 1))); [|right; split; [reflexivity|lra]].
  destruct (Req_EM_T u (last U 0)); [left; split; [reflexivity|right; lra]|].
  right; split; [reflexivity|lra].
Qed.

Lemma base_delta U s u : nondecreasing U -> in_span U s u -> forall i, base U u i = delta s i.
Proof.
  intros HU H i; unfold delta.
  destruct (base_in_span U u i) as [[-> Hi]|[-> Hi]].
  - rewrite (in_span_unique U i s u HU Hi H), Z.eqb_refl; reflexivity.
  - destruct (Z.eqb_spec i s) as [->|]; [contradiction|reflexivity].
Qed.

(** On a span the B-spline is its polynomial piece. *)
Lemma bspline_piece U s u : nondecreasing U -> in_span U s u ->
  forall p i, bspline U p i u = piece U s p i u.
Proof.
  intros HU H p i; apply cox_ext; [|reflexivity].
  intros j _; apply base_delta; assumption.
Qed.

Lemma base_outside U u : nondecreasing U -> (u < kn U 0 \/ last U 0 < u) ->
  forall i, base U u i = 0.
Proof.
  intros HU H i; destruct (base_in_span U u i) as [[_ Hi]|[E _]]; [|exact E]; exfalso.
  apply in_span_closed in Hi.
  assert (L : kn U (i + 1) <= last U 0).
  { destruct (Z_le_dec (i + 1) (len U - 1)).
    - rewrite <- kn_last; apply kn_mono; [exact HU|lia].
    - rewrite kn_big by lia; lra. }
  assert (kn U 0 <= kn U i).
  { destruct (Z_le_dec 0 i); [apply kn_mono; [exact HU|lia]|rewrite (kn_neg U i) by lia; lra]. }
  lra.
Qed.

Lemma bspline_outside_domain U u p i : nondecreasing U -> (u < kn U 0 \/ last U 0 < u) ->
  bspline U p i u = 0.
Proof. intros HU H; apply cox_zero; intros j _; apply base_outside; assumption. Qed.

(** Every parameter of the range lies in a non-empty span. *)
Lemma in_span_exists U u : nondecreasing U -> kn U 0 <= u <= last U 0 -> kn U 0 < last U 0 ->
  exists s, (0 <= s < len U - 1)%Z /\ in_span U s u.
Proof.
  intros HU Hu Hlt.
  assert (Hlen : (1 < len U)%Z).
  { destruct (Z_lt_dec 1 (len U)); [assumption|].
    rewrite (kn_big U 0) in Hlt by lia; lra. }
  destruct (Req_EM_T u (last U 0)) as [E|E].
  - (* the last strict increase *)
    assert (G : forall m, (0 <= Z.of_nat m <= len U - 1)%Z -> kn U (Z.of_nat m) = last U 0 ->
      exists s, (0 <= s < len U - 1)%Z /\ in_span U s u).
    { induction m as [|m IH]; intros Hm Em; [cbn in Em; lra|].
      destruct (Req_EM_T (kn U (Z.of_nat m)) (last U 0)) as [E1|E1]; [apply IH; [lia|exact E1]|].
      exists (Z.of_nat m); split; [lia|].
      pose proof (kn_mono U HU (Z.of_nat m) (Z.of_nat (S m)) ltac:(lia)).
      right; replace (Z.of_nat m + 1)%Z with (Z.of_nat (S m)) by lia; lra. }
    apply (G (Z.to_nat (len U - 1))); [lia|].
    rewrite Z2Nat.id by lia; apply kn_last.
  - assert (G : forall m, (0 <= Z.of_nat m <= len U - 1)%Z -> u < kn U (Z.of_nat m) ->
      exists s, (0 <= s < len U - 1)%Z /\ in_span U s u).
    { induction m as [|m IH]; intros Hm Em; [cbn in Em; lra|].
      destruct (Rlt_dec u (kn U (Z.of_nat m))) as [E1|E1]; [apply IH; [lia|exact E1]|].
      exists (Z.of_nat m); split; [lia|].
      left; replace (Z.of_nat m + 1)%Z with (Z.of_nat (S m)) by lia; lra. }
    apply (G (Z.to_nat (len U - 1))); [lia|].
    rewrite Z2Nat.id by lia; rewrite kn_last; lra.
Qed.

Lemma clamped_facts p n U : clamped p n U ->
  (0 <= p)%Z /\ (p + 1 <= n)%Z /\ len U = (n + p + 1)%Z /\ nondecreasing U /\
  (forall i, (i <= p)%Z -> kn U i = kn U p) /\ (forall i, (n <= i)%Z -> kn U i = kn U n) /\
  last U 0 = kn U n /\ kn U 0 = kn U p /\ kn U p < kn U n.
Proof.
  intros ((H1 & H2 & H3 & H4) & H5 & H6 & H7); pose proof (kn_mono U H4) as M.
  assert (last U 0 = kn U n) by (rewrite <- kn_last, H6; f_equal; lia).
  repeat split; auto.
  - intros i Hi; destruct (Z_le_dec 0 i); [|rewrite kn_neg by lia; exact H5].
    pose proof (M 0%Z i ltac:(lia)); pose proof (M i p ltac:(lia)); lra.
  - intros i Hi; destruct (Z_le_dec i (n + p)); [|rewrite kn_big by lia; assumption].
    pose proof (M n i ltac:(lia)); pose proof (M i (n + p)%Z ltac:(lia)); lra.
Qed.

(** For a clamped vector the span index is in p .. n-1. *)
Lemma clamped_span_range p n U s u : clamped p n U -> in_span U s u -> (p <= s < n)%Z.
Proof.
  intros HC HS; destruct (clamped_facts p n U HC) as (_ & _ & _ & _ & Hl & Hr & _).
  apply in_span_width in HS; split.
  - destruct (Z_le_dec p s); [assumption|]; rewrite (Hl s), (Hl (s + 1)%Z) in HS by lia; lra.
  - destruct (Z_lt_dec s n); [assumption|]; rewrite (Hr s), (Hr (s + 1)%Z) in HS by lia; lra.
Qed.

Lemma clamped_in_span p n U u : clamped p n U -> kn U p <= u <= kn U n ->
  exists s, (p <= s < n)%Z /\ in_span U s u.
Proof.
  intros HC Hu; destruct (clamped_facts p n U HC) as (_ & _ & _ & HU & _ & _ & HL & H0 & Hlt).
  destruct (in_span_exists U u HU) as (s & _ & Hs); [rewrite HL, H0; exact Hu|rewrite HL, H0; exact Hlt|].
  exists s; split; [eapply clamped_span_range; eassumption|exact Hs].
Qed.

Lemma piece_support U s p i u : (i < s - Z.of_nat p \/ s < i)%Z -> piece U s p i u = 0.
Proof. intros H; apply (cox_support s (kn U) p i u H). Qed.

Lemma piece_unity U s p u : nondecreasing U -> kn U s < kn U (s + 1) ->
  zsum (s - Z.of_nat p) (S p) (fun i => piece U s p i u) = 1.
Proof.
  intros HU Hs; apply (cox_unity (kn U) s p Hs); [|lia].
  intros i j Hij Hj; apply kn_mono; [exact HU|lia].
Qed.
Lemma piece_nonneg U s p u i : nondecreasing U -> kn U s < kn U (s + 1) ->
  kn U s <= u <= kn U (s + 1) -> 0 <= piece U s p i u.
Proof.
  intros HU Hs Hu; apply (cox_nonneg (kn U) s p Hs); [|exact Hu|lia].
  intros a j Hij Hj; apply kn_mono; [exact HU|lia].
Qed.
Lemma piece_le_1 U s p u i : nondecreasing U -> kn U s < kn U (s + 1) ->
  kn U s <= u <= kn U (s + 1) -> piece U s p i u <= 1.
Proof.
  intros HU Hs Hu; apply (cox_le_1 (kn U) s p Hs); [|exact Hu].
  intros a j Hij Hj; apply kn_mono; [exact HU|lia].
Qed.

(** Partition of unity of the whole basis of a clamped vector. *)
Lemma bspline_unity p n U u : clamped (Z.of_nat p) (Z.of_nat n) U ->
  kn U (Z.of_nat p) <= u <= kn U (Z.of_nat n) ->
  zsum 0 n (fun i => bspline U p i u) = 1.
Proof.
  intros HC Hu; destruct (clamped_in_span _ _ U u HC Hu) as (s & Hs & HI).
  destruct (clamped_facts _ _ U HC) as (_ & _ & _ & HU & _).
  rewrite (zsum_ext _ _ _ (fun i => piece U s p i u)) by (intros; apply bspline_piece; assumption).
  rewrite (zsum_window 0 n (s - Z.of_nat p) (S p)); [|lia|lia|].
  - apply piece_unity; [exact HU|eapply in_span_width; exact HI].
  - intros i _ Hi; apply piece_support; lia.
Qed.

Lemma bspline_nonneg U p i u : nondecreasing U -> 0 <= bspline U p i u.
Proof.
  intros HU.
  destruct (Rlt_dec u (kn U 0)); [rewrite bspline_outside_domain by auto; lra|].
  destruct (Rlt_dec (last U 0) u); [rewrite bspline_outside_domain by auto; lra|].
  destruct (Rlt_dec (kn U 0) (last U 0)) as [L|L].
  - destruct (in_span_exists U u HU) as (s & _ & Hs); [lra|exact L|].
    rewrite (bspline_piece U s u HU Hs); apply piece_nonneg;
      [exact HU|eapply in_span_width; eassumption|apply in_span_closed; exact Hs].
  - unfold bspline; rewrite cox_zero; [lra|].
    intros j _; destruct (base_in_span U u j) as [[_ Hi]|[E _]]; [|exact E]; exfalso.
    apply in_span_width in Hi.
    assert (kn U 0 <= kn U j).
    { destruct (Z_le_dec 0 j); [apply kn_mono; [exact HU|lia]|rewrite (kn_neg U j) by lia; lra]. }
    assert (kn U (j + 1) <= last U 0).
    { destruct (Z_le_dec (j + 1) (len U - 1)).
      - rewrite <- kn_last; apply kn_mono; [exact HU|lia].
      - rewrite kn_big by lia; lra. }
    lra.
Qed.

(** Local support of the B-spline itself. *)
Lemma bspline_support U p i u : nondecreasing U ->
  (u < kn U i \/ kn U (i + Z.of_nat p + 1) < u) -> bspline U p i u = 0.
Proof.
  intros HU H; apply cox_zero; intros j Hj.
  destruct (base_in_span U u j) as [[_ Hi]|[E _]]; [|exact E]; exfalso.
  apply in_span_closed in Hi.
  pose proof (kn_mono U HU i j ltac:(lia)); pose proof (kn_mono U HU (j + 1) (i + Z.of_nat p + 1) ltac:(lia)).
  lra.
Qed.

(** Ends: at the start of span [s] preceded by [p] equal knots, and at its end
    followed by [p] equal knots. *)
Lemma piece_start U s p u : kn U s < kn U (s + 1) ->
  (forall j, (s - Z.of_nat p + 1 <= j <= s)%Z -> kn U j = kn U s) -> u = kn U s ->
  forall i, piece U s p i u = delta (s - Z.of_nat p) i.
Proof.
  intros Hs Ht -> i.
  apply (cox_right_start (kn U) s p (kn U s) Hs Ht p i); lia.
Qed.
Lemma piece_end U s p u : kn U s < kn U (s + 1) ->
  (forall j, (s + 1 <= j <= s + Z.of_nat p)%Z -> kn U j = kn U (s + 1)) -> u = kn U (s + 1) ->
  forall i, piece U s p i u = delta s i.
Proof.
  intros Hs Ht -> i.
  apply (cox_left_end (kn U) s p (kn U (s + 1)) Hs Ht p i); lia.
Qed.
