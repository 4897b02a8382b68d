(** Monotone and convex combinations of B-splines, and B-splines over mirrored knots. *)
From Verif Require Import Spec SpecShape MathCox MathKnots MathDeriv MathJoin MathSmooth.
Open Scope R_scope.

Section Span.
Variables (U : Z -> R) (s : Z).
Hypothesis Umono : forall i j, (i <= j)%Z -> U i <= U j.
Hypothesis Hs : U s < U (s + 1)%Z.

Lemma comb_between q c u l L : U s <= u <= U (s + 1)%Z -> (forall i, (s - Z.of_nat q <= i <= s)%Z -> l <= c i <= L) -> l <= comb U s q c u <= L.
Proof.
  intros Hu H.
  assert (N : forall i, 0 <= cox (delta s) U q i u) by (intros i; apply (cox_nonneg U s q); [exact Hs|intros; apply Umono; lia|exact Hu|lia]).
  rewrite <- (comb_const U s Umono Hs q (fun _ => l) u l) at 1 by reflexivity; rewrite <- (comb_const U s Umono Hs q (fun _ => L) u L) by reflexivity.
  unfold comb; split; apply zsum_le; intros i Hi; apply Rmult_le_compat_l; try apply N; apply H; lia.
Qed.

Lemma dcoef_between q c i l L : (s - Z.of_nat q <= i <= s)%Z ->
  l * (U (i + Z.of_nat (S q))%Z - U i) <= INR (S q) * (c i - c (i - 1)%Z) <= L * (U (i + Z.of_nat (S q))%Z - U i) -> l <= dcoef U q c i <= L.
Proof.
  intros Hi H; pose proof (width_pos U s Umono Hs q i Hi) as W; replace (i + Z.of_nat (S q))%Z with (i + Z.of_nat q + 1)%Z in H by lia.
  unfold dcoef; replace (INR (S q) * ((c i - c (i - 1)%Z) / (U (i + Z.of_nat q + 1)%Z - U i))) with (INR (S q) * (c i - c (i - 1)%Z) / (U (i + Z.of_nat q + 1)%Z - U i)) by (field; lra).
  split; apply (Rmult_le_reg_r (U (i + Z.of_nat q + 1)%Z - U i)); try exact W;
    (replace (INR (S q) * (c i - c (i - 1)%Z) / (U (i + Z.of_nat q + 1)%Z - U i) * (U (i + Z.of_nat q + 1)%Z - U i)) with (INR (S q) * (c i - c (i - 1)%Z)) by (field; lra)); lra.
Qed.

Lemma comb_rates p c l L : (1 <= p)%nat ->
  (forall i, (s - Z.of_nat p < i <= s)%Z -> l * (U (i + Z.of_nat p)%Z - U i) <= INR p * (c i - c (i - 1)%Z) <= L * (U (i + Z.of_nat p)%Z - U i)) ->
  forall u v, U s <= u -> u <= v -> v <= U (s + 1)%Z -> l * (v - u) <= comb U s p c v - comb U s p c u <= L * (v - u).
Proof.
  intros Hp H u v Hu Huv Hv; destruct p as [|q]; [lia|].
  destruct (Req_dec u v) as [->|N]; [lra|].
  destruct (MVT_cor2 (comb U s (S q) c) (comb U s q (dcoef U q c)) u v ltac:(lra) (fun x _ => comb_derivative U s Umono Hs q c x)) as (x & E & Hx).
  rewrite E; pose proof (comb_between q (dcoef U q c) x l L ltac:(lra)
    (fun i Hi => dcoef_between q c i l L Hi (H i ltac:(lia)))) as B; split; apply Rmult_le_compat_r; lra.
Qed.

(** Increasing slopes: the derivative increases, and lies between the slopes of chords. *)
Lemma comb_convex q c : (forall i, (s - Z.of_nat q <= i < s)%Z -> dcoef U q c i <= dcoef U q c (i + 1)%Z) ->
  forall u v, U s <= u -> u <= v -> v <= U (s + 1)%Z ->
  comb U s q (dcoef U q c) u <= comb U s q (dcoef U q c) v /\
  comb U s q (dcoef U q c) u * (v - u) <= comb U s (S q) c v - comb U s (S q) c u <= comb U s q (dcoef U q c) v * (v - u).
Proof.
  intros H.
  assert (M : forall u v, U s <= u -> u <= v -> v <= U (s + 1)%Z -> comb U s q (dcoef U q c) u <= comb U s q (dcoef U q c) v).
  { intros u v Hu Huv Hv; destruct (Req_dec u v) as [->|N]; [lra|]; destruct q as [|r].
    - rewrite !(comb_const U s Umono Hs 0 _ _ (dcoef U 0 c s)); [lra| |]; intros i Hi; f_equal; lia.
    - destruct (MVT_cor2 (comb U s (S r) (dcoef U (S r) c)) (comb U s r (dcoef U r (dcoef U (S r) c))) u v ltac:(lra) (fun x _ => comb_derivative U s Umono Hs r _ x)) as (x & E & Hx).
      assert (B : 0 <= comb U s r (dcoef U r (dcoef U (S r) c)) x).
      { rewrite <- (comb_const U s Umono Hs r (fun _ => 0) x 0) by reflexivity; unfold comb; apply zsum_le; intros i Hi; apply Rmult_le_compat_l.
        - apply (cox_nonneg U s r); [exact Hs|intros; apply Umono; lia|lra|lia].
        - unfold dcoef at 1; apply Rmult_le_pos; [apply pos_INR|]; pose proof (width_pos U s Umono Hs r i ltac:(lia)) as W.
          apply Rmult_le_pos; [|left; apply Rinv_0_lt_compat; exact W].
          specialize (H (i - 1)%Z ltac:(lia)); replace (i - 1 + 1)%Z with i in H by lia; lra. }
      assert (0 <= comb U s r (dcoef U r (dcoef U (S r) c)) x * (v - u)) by (apply Rmult_le_pos; lra); lra. }
  intros u v Hu Huv Hv; split; [apply M; assumption|].
  destruct (Req_dec u v) as [->|N]; [lra|].
  destruct (MVT_cor2 (comb U s (S q) c) (comb U s q (dcoef U q c)) u v ltac:(lra) (fun x _ => comb_derivative U s Umono Hs q c x)) as (x & E & Hx).
  rewrite E; pose proof (M u x ltac:(lra) ltac:(lra) ltac:(lra)); pose proof (M x v ltac:(lra) ltac:(lra) ltac:(lra)); split; apply Rmult_le_compat_r; lra.
Qed.
End Span.

(** From spans to the whole domain. *)
Lemma chain_spans p n U (Q : R -> R -> Prop) : clamped p n U ->
  (forall u w v, u <= w -> w <= v -> Q u w -> Q w v -> Q u v) ->
  (forall s u v, (p <= s < n)%Z -> kn U s < kn U (s + 1) -> kn U s <= u -> u <= v -> v <= kn U (s + 1) -> Q u v) ->
  forall u v, kn U p <= u -> u <= v -> v <= kn U n -> Q u v.
Proof.
  intros HC T S; destruct (clamped_facts _ _ U HC) as (_ & Hpn & _ & HU & _ & Hr & HE & _).
  assert (G : forall m s u v, (p <= s < n)%Z -> (n - s <= Z.of_nat m)%Z -> kn U s < kn U (s + 1) -> kn U s <= u <= kn U (s + 1) -> u <= v -> v <= kn U n -> Q u v).
  { induction m as [|m IH]; intros s u v Hs Hm Hlt Hu Huv Hv; [lia|].
    destruct (Rle_dec v (kn U (s + 1))) as [V|V]; [apply (S s); try assumption; lra|].
    pose proof (kn_mono U HU p s ltac:(lia)) as M.
    destruct (clamped_in_span p n U (kn U (s + 1)) HC ltac:(lra)) as (s' & Hs' & I).
    assert (I' : kn U s' <= kn U (s + 1) < kn U (s' + 1)) by (destruct I as [I|(_ & _ & E)]; [exact I|rewrite HE in E; lra]).
    assert (Lss : (s < s')%Z).
    { destruct (Z_lt_dec s s'); [assumption|]; pose proof (kn_mono U HU (s' + 1) (s + 1) ltac:(lia)); lra. }
    apply (T u (kn U (s + 1)) v); [lra|lra| |].
    - apply (S s); try assumption; lra.
    - apply (IH s'); try assumption; try lia; lra. }
  intros u v Hu Huv Hv; destruct (clamped_in_span p n U u HC ltac:(lra)) as (s & Hs & I).
  pose proof (in_span_width _ _ _ I); pose proof (in_span_closed _ _ _ I); apply (G (Z.to_nat (n - s)) s); try assumption; lia.
Qed.

(** Mirrored knots. *)
Lemma cox_mirror (U V : Z -> R) m a s u : (forall k, (0 <= k <= m)%Z -> V k = a - U (m - k)%Z) ->
  forall q i, (0 <= i)%Z -> (i + Z.of_nat q + 1 <= m)%Z ->
  cox (delta (m - 1 - s)) V q (m - 1 - Z.of_nat q - i) (a - u) = cox (delta s) U q i u.
Proof.
  intros HV; induction q as [|q IH]; intros i Hi Hm.
  - cbn [cox]; unfold delta; destruct (Z.eqb_spec (m - 1 - Z.of_nat 0 - i) (m - 1 - s)), (Z.eqb_spec i s); try reflexivity; lia.
  - cbn [cox].
    rewrite !HV by lia.
    replace (m - (m - 1 - Z.of_nat (S q) - i))%Z with (i + Z.of_nat q + 2)%Z by lia.
    replace (m - (m - 1 - Z.of_nat (S q) - i + Z.of_nat q + 1))%Z with (i + 1)%Z by lia.
    replace (m - (m - 1 - Z.of_nat (S q) - i + Z.of_nat q + 2))%Z with i by lia.
    replace (m - (m - 1 - Z.of_nat (S q) - i + 1))%Z with (i + Z.of_nat q + 1)%Z by lia.
    rewrite <- (IH i) by lia; rewrite <- (IH (i + 1)%Z) by lia.
    replace (m - 1 - Z.of_nat q - (i + 1))%Z with (m - 1 - Z.of_nat (S q) - i)%Z by lia.
    replace (m - 1 - Z.of_nat (S q) - i + 1)%Z with (m - 1 - Z.of_nat q - i)%Z by lia.
    replace (a - u - (a - U (i + Z.of_nat q + 2)%Z)) with (U (i + Z.of_nat q + 2)%Z - u) by ring.
    replace (a - U (i + 1)%Z - (a - U (i + Z.of_nat q + 2)%Z)) with (U (i + Z.of_nat q + 2)%Z - U (i + 1)%Z) by ring.
    replace (a - U i - (a - u)) with (u - U i) by ring.
    replace (a - U i - (a - U (i + Z.of_nat q + 1)%Z)) with (U (i + Z.of_nat q + 1)%Z - U i) by ring.
    ring.
Qed.
