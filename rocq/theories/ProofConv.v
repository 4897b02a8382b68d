(** Proofs for C118: convergence of the inversion of points on curves, in exact
    arithmetic. *)
From Verif Require Import Py Num ModelKnots ModelCurve ModelParam Spec SpecParam SpecNewton ProofNum ProofInit ProofCurve ProofDers ProofParam3 ProofParam5 ProofParam6 ProofParam7 ProofParam8 ProofSmooth ProofParam.
From Coq Require Import Lra Lia.
Open Scope R_scope.

(** ** Newton's iteration for a zero of [g] with derivative [h] *)
Lemma clamp_toward x r : 0 <= r <= 1 -> Rabs (clampR x - r) <= Rabs (x - r).
Proof.
  intros H; unfold clampR, Rmax, Rmin; destruct (Rle_dec 1 x); destruct (Rle_dec 0 _); try (apply Rle_refl); unfold Rabs; repeat destruct Rcase_abs; lra.
Qed.
Lemma mean_value (g h : R -> R) u r : (forall v, Rabs (v - r) <= Rabs (u - r) -> Rmin u r <= v <= Rmax u r -> derivable_pt_lim g v (h v)) ->
  exists v, Rmin u r <= v <= Rmax u r /\ g u - g r = h v * (u - r).
Proof.
  intros H; destruct (Rtotal_order u r) as [L|[E|L]].
  - destruct (MVT_cor2 g h u r L) as (v & E & Hv).
    + intros v Hv; apply H; [unfold Rabs; repeat destruct Rcase_abs; lra|rewrite Rmin_left, Rmax_right by lra; lra].
    + exists v; rewrite Rmin_left, Rmax_right by lra; split; [lra|]; lra.
  - exists u; subst r; rewrite Rmin_left, Rmax_left by lra; split; [lra|ring].
  - destruct (MVT_cor2 g h r u L) as (v & E & Hv).
    + intros v Hv; apply H; [unfold Rabs; repeat destruct Rcase_abs; lra|rewrite Rmin_right, Rmax_left by lra; lra].
    + exists v; rewrite Rmin_right, Rmax_left by lra; split; [lra|]; lra.
Qed.
Lemma between u v r : Rmin u r <= v <= Rmax u r -> Rabs (v - r) <= Rabs (u - r) /\ Rabs (u - v) <= Rabs (u - r).
Proof. unfold Rmin, Rmax; destruct (Rle_dec u r); intros H; split; unfold Rabs; repeat destruct Rcase_abs; lra. Qed.
Lemma between_unit u v r : 0 <= u <= 1 -> 0 <= r <= 1 -> Rmin u r <= v <= Rmax u r -> 0 <= v <= 1.
Proof. unfold Rmin, Rmax; destruct (Rle_dec u r); lra. Qed.

Section Newton.
Variables (g h : R -> R) (r del m : R).
Hypotheses (Hr : 0 <= r <= 1) (Hg : g r = 0) (Hm : 0 < m)
  (Hd : forall u, 0 <= u <= 1 -> Rabs (u - r) <= del -> derivable_pt_lim g u (h u) /\ m <= Rabs (h u)).
Let next (u : R) : R := clampR (u - g u / h u).
Lemma newton_error u : 0 <= u <= 1 -> Rabs (u - r) <= del ->
  exists v, 0 <= v <= 1 /\ Rabs (v - r) <= Rabs (u - r) /\ Rabs (u - v) <= Rabs (u - r) /\
    g u = h v * (u - r) /\ Rabs (next u - r) * m <= Rabs (u - r) * Rabs (h u - h v).
Proof.
  intros Hu Hb; destruct (mean_value g h u r) as (v & Hv & E).
  { intros v H1 H2; apply Hd; [apply (between_unit u v r); assumption|lra]. }
  destruct (between u v r Hv) as [B1 B2]; pose proof (between_unit u v r Hu Hr Hv) as B3.
  destruct (Hd u Hu Hb) as [_ Hh]; assert (NZ : h u <> 0) by (intros E0; rewrite E0, Rabs_R0 in Hh; lra).
  exists v; split; [exact B3|]; split; [exact B1|]; split; [exact B2|]; split; [rewrite Hg in E; lra|].
  assert (Eg : g u = h v * (u - r)) by (rewrite Hg in E; lra).
  apply Rle_trans with (Rabs (u - g u / h u - r) * m); [apply Rmult_le_compat_r; [lra|]; apply clamp_toward; exact Hr|].
  replace (u - g u / h u - r) with ((u - r) * (h u - h v) / h u) by (rewrite Eg; field; exact NZ).
  unfold Rdiv; rewrite !Rabs_mult, Rabs_inv.
  pose proof (Rabs_pos (u - r)); pose proof (Rabs_pos (h u - h v)).
  assert (Hi : / Rabs (h u) * m <= 1).
  { apply Rmult_le_reg_l with (Rabs (h u)); [lra|]; rewrite <- Rmult_assoc, Rinv_r by lra; lra. }
  rewrite Rmult_assoc; rewrite <- (Rmult_1_r (Rabs (u - r) * Rabs (h u - h v))) at 2.
  apply Rmult_le_compat_l; [apply Rmult_le_pos; assumption|exact Hi].
Qed.
(** With a slope that is nearly linear the error shrinks by a factor; with a
    Lipschitz derivative it is squared. *)
Lemma newton_contracts th u : 0 <= th < 1 ->
  (forall v w, 0 <= v <= 1 -> 0 <= w <= 1 -> Rabs (v - r) <= del -> Rabs (w - r) <= del -> Rabs (h v - h w) <= th * m) ->
  0 <= u <= 1 -> Rabs (u - r) <= del -> Rabs (next u - r) <= th * Rabs (u - r).
Proof.
  intros Ht HL Hu Hb; destruct (newton_error u Hu Hb) as (v & Hv & B1 & B2 & _ & E).
  apply Rmult_le_reg_r with m; [exact Hm|]; eapply Rle_trans; [exact E|].
  replace (th * Rabs (u - r) * m) with (Rabs (u - r) * (th * m)) by ring.
  apply Rmult_le_compat_l; [apply Rabs_pos|]; apply HL; try assumption; lra.
Qed.
Lemma newton_squares L u : 0 <= L ->
  (forall v w, 0 <= v <= 1 -> 0 <= w <= 1 -> Rabs (v - r) <= del -> Rabs (w - r) <= del -> Rabs (h v - h w) <= L * Rabs (v - w)) ->
  0 <= u <= 1 -> Rabs (u - r) <= del -> Rabs (next u - r) * m <= L * (Rabs (u - r) * Rabs (u - r)).
Proof.
  intros HL0 HL Hu Hb; destruct (newton_error u Hu Hb) as (v & Hv & B1 & B2 & _ & E).
  eapply Rle_trans; [exact E|]; replace (L * (Rabs (u - r) * Rabs (u - r))) with (Rabs (u - r) * (L * Rabs (u - r))) by ring.
  apply Rmult_le_compat_l; [apply Rabs_pos|]; eapply Rle_trans; [apply HL; try assumption; lra|]; apply Rmult_le_compat_l; assumption.
Qed.
Lemma slope_distance u : 0 <= u <= 1 -> Rabs (u - r) <= del -> m * Rabs (u - r) <= Rabs (g u).
Proof.
  intros Hu Hb; destruct (newton_error u Hu Hb) as (v & Hv & B1 & _ & E & _); rewrite E, Rabs_mult.
  apply Rmult_le_compat_r; [apply Rabs_pos|]; apply Hd; [exact Hv|lra].
Qed.
End Newton.

(** ** The run of the inversion *)
Lemma least_stop (A : nat -> Prop) n : (exists k, (k <= n)%nat /\ A k /\ forall i, (i < k)%nat -> ~ A i) \/ (forall i, (i <= n)%nat -> ~ A i).
Proof.
  induction n as [|n [(k & Hk & H)|IH]].
  - destruct (Classical_Prop.classic (A 0%nat)) as [H|H]; [left; exists 0%nat; split; [lia|]; split; [exact H|]; intros; lia|right; intros i Hi; replace i with 0%nat by lia; exact H].
  - left; exists k; split; [lia|exact H].
  - destruct (Classical_Prop.classic (A (S n))) as [H|H].
    + left; exists (S n); split; [lia|]; split; [exact H|]; intros i Hi; apply IH; lia.
    + right; intros i Hi; destruct (Nat.eq_dec i (S n)) as [->|]; [exact H|apply IH; lia].
Qed.
Section Run.
Variables (c : curve_beh Exact) (pt d1 d2 : R -> list R) (Q : list R) (e1 e2 : R) (mi : nat).
Hypotheses (HC : proper_curve c pt d1 d2) (LQ : length Q = 3%nat).
Let g := slope pt d1 Q.
Let h := curvature pt d1 d2 Q.
Let run := curve_inversion c (fin Q) (Fin e1 : Exact) (Fin e2 : Exact) (Z.of_nat mi).
Fixpoint newton_seq (x0 : R) (k : nat) : R := match k with O => x0 | S k' => let u := newton_seq x0 k' in clampR (u - g u / h u) end.
Lemma newton_seq_unit x0 k : 0 <= x0 <= 1 -> 0 <= newton_seq x0 k <= 1.
Proof. intros H; destruct k; [exact H|apply clampR_range]. Qed.
Lemma run_iterate x0 : 0 <= x0 <= 1 -> initial_guess_curve c (fin Q) = Ok (Fin x0 : Exact) -> (forall k, h (newton_seq x0 k) <> 0) ->
  exists k, (k <= S (S mi))%nat /\ run = Ok (Fin (newton_seq x0 k) : Exact) /\
    (k = S (S mi) \/ (k = 0%nat /\ curve_near (d1 x0) (subR (pt x0) Q) e1 e2) \/ curve_stop pt d1 Q e1 e2 (newton_seq x0 k) (newton_seq x0 (S k))).
Proof.
  intros Hx EG HN; destruct (curve_trace c pt d1 d2 Q e1 e2 HC LQ mi (newton_seq x0) Hx EG) as [T0 T]; fold run in T0, T.
  assert (St : forall k, curve_step pt d1 d2 Q (newton_seq x0 k) (newton_seq x0 (S k))) by (intros k; left; split; [apply HN|reflexivity]).
  destruct (Classical_Prop.classic (curve_near (d1 x0) (subR (pt x0) Q) e1 e2)) as [H0|H0].
  - exists 0%nat; split; [lia|]; split; [apply T0; exact H0|right; left; auto].
  - specialize (T H0).
    destruct (least_stop (fun k => curve_stop pt d1 Q e1 e2 (newton_seq x0 k) (newton_seq x0 (S k))) (S mi)) as [(k & Hk & H1 & H2)|H].
    + exists k; split; [lia|]; split; [|right; right; exact H1].
      apply (T k Hk); [intros i Hi; split; [apply St|apply H2; exact Hi]|apply St|exact H1].
    + exists (S (S mi)); split; [lia|]; split; [|left; reflexivity].
      apply (T (S mi) (le_n _)); [intros i Hi; split; [apply St|apply H; lia]|apply St|apply H; lia|reflexivity].
Qed.
Variables (r del m : R).
Hypotheses (Hr : 0 <= r <= 1) (Hg : g r = 0) (Hm : 0 < m)
  (Hd : forall u, 0 <= u <= 1 -> Rabs (u - r) <= del -> derivable_pt_lim g u (h u) /\ m <= Rabs (h u)).
Lemma h_nonzero u : 0 <= u <= 1 -> Rabs (u - r) <= del -> h u <> 0.
Proof. intros Hu Hb E; destruct (Hd u Hu Hb) as [_ H]; rewrite E, Rabs_R0 in H; lra. Qed.
(** Linear convergence. *)
Lemma seq_linear th x0 : 0 <= th < 1 ->
  (forall v w, 0 <= v <= 1 -> 0 <= w <= 1 -> Rabs (v - r) <= del -> Rabs (w - r) <= del -> Rabs (h v - h w) <= th * m) ->
  0 <= x0 <= 1 -> Rabs (x0 - r) <= del -> forall k, Rabs (newton_seq x0 k - r) <= th ^ k * Rabs (x0 - r) /\ Rabs (newton_seq x0 k - r) <= del /\
    Rabs (newton_seq x0 (S k) - r) <= th * Rabs (newton_seq x0 k - r).
Proof.
  intros Ht HL Hx Hb.
  assert (B : forall k, Rabs (newton_seq x0 k - r) <= th ^ k * Rabs (x0 - r) /\ Rabs (newton_seq x0 k - r) <= del).
  { induction k as [|k [I1 I2]]; [cbn [newton_seq pow]; lra|].
    assert (N : Rabs (newton_seq x0 (S k) - r) <= th * Rabs (newton_seq x0 k - r))
      by exact (newton_contracts g h r del m Hr Hg Hm Hd th (newton_seq x0 k) Ht HL (newton_seq_unit x0 k Hx) I2).
    pose proof (Rabs_pos (newton_seq x0 k - r)).
    split; [|nra]; eapply Rle_trans; [exact N|]; cbn [pow]; rewrite Rmult_assoc; apply Rmult_le_compat_l; lra. }
  intros k; destruct (B k) as [I1 I2]; split; [exact I1|]; split; [exact I2|].
  exact (newton_contracts g h r del m Hr Hg Hm Hd th (newton_seq x0 k) Ht HL (newton_seq_unit x0 k Hx) I2).
Qed.
Lemma inversion_linear th x0 : 0 <= th < 1 ->
  (forall v w, 0 <= v <= 1 -> 0 <= w <= 1 -> Rabs (v - r) <= del -> Rabs (w - r) <= del -> Rabs (h v - h w) <= th * m) ->
  0 <= x0 <= 1 -> Rabs (x0 - r) <= del -> initial_guess_curve c (fin Q) = Ok (Fin x0 : Exact) ->
  exists u k, run = Ok (Fin u : Exact) /\ 0 <= u <= 1 /\ (k <= S (S mi))%nat /\ Rabs (u - r) <= th ^ k * Rabs (x0 - r) /\
    (k = S (S mi) \/ curve_near (d1 u) (subR (pt u) Q) e1 e2 \/ (1 - th) * (normR (d1 u) * Rabs (u - r)) <= e1 \/
     exists u', curve_step pt d1 d2 Q u u' /\ 0 <= u' <= 1 /\ Rabs (u' - r) <= th * Rabs (u - r) /\ m * Rabs (u' - r) <= Rabs (slope pt d1 Q u') /\ curve_near (d1 u') (subR (pt u') Q) e1 e2).
Proof.
  intros Ht HL Hx Hb EG; pose proof (seq_linear th x0 Ht HL Hx Hb) as B.
  destruct (run_iterate x0 Hx EG) as (k & Hk & ER & HS); [intros k; apply h_nonzero; [apply newton_seq_unit; exact Hx|apply B]|].
  exists (newton_seq x0 k), k; split; [exact ER|]; split; [apply newton_seq_unit; exact Hx|]; split; [exact Hk|]; split; [apply B|].
  destruct HS as [HS|[[-> HS]|[HS|HS]]]; [left; exact HS|right; left; exact HS|right; right; left|right; right; right].
  - eapply Rle_trans; [|exact HS]; rewrite <- Rmult_assoc, (Rmult_comm (1 - th)), Rmult_assoc; apply Rmult_le_compat_l; [apply normR_nonneg|].
    destruct (B k) as (_ & _ & B3); pose proof (Rabs_triang_inv (newton_seq x0 k - r) (newton_seq x0 (S k) - r)) as T.
    replace (newton_seq x0 k - r - (newton_seq x0 (S k) - r)) with (- (newton_seq x0 (S k) - newton_seq x0 k)) in T by ring.
    rewrite Rabs_Ropp in T; lra.
  - exists (newton_seq x0 (S k)); split; [left; split; [apply h_nonzero; [apply newton_seq_unit; exact Hx|apply B]|reflexivity]|]; split; [apply newton_seq_unit; exact Hx|]; split; [apply B|]; split; [|exact HS].
    apply (slope_distance g h r del m Hr Hg Hm Hd); [apply newton_seq_unit; exact Hx|apply B].
Qed.
(** Quadratic convergence. *)
Lemma seq_square L x0 : 0 <= L -> L * del <= m / 2 ->
  (forall v w, 0 <= v <= 1 -> 0 <= w <= 1 -> Rabs (v - r) <= del -> Rabs (w - r) <= del -> Rabs (h v - h w) <= L * Rabs (v - w)) ->
  0 <= x0 <= 1 -> Rabs (x0 - r) <= del -> forall k, Rabs (newton_seq x0 k - r) <= (1 / 2) ^ (Nat.pow 2 k - 1) * Rabs (x0 - r) /\ Rabs (newton_seq x0 k - r) <= del /\
    Rabs (newton_seq x0 (S k) - r) <= 1 / 2 * Rabs (newton_seq x0 k - r).
Proof.
  intros HL0 HLd HL Hx Hb.
  assert (Hsq : forall u, 0 <= u <= 1 -> Rabs (u - r) <= del -> Rabs (clampR (u - g u / h u) - r) * m <= L * (Rabs (u - r) * Rabs (u - r)))
    by (intros u Hu Hub; apply (newton_squares g h r del m Hr Hg Hm Hd L u HL0 HL Hu Hub)).
  assert (Half : forall u, 0 <= u <= 1 -> Rabs (u - r) <= del -> Rabs (clampR (u - g u / h u) - r) <= 1 / 2 * Rabs (u - r)).
  { intros u Hu Hub; specialize (Hsq u Hu Hub); apply Rmult_le_reg_r with m; [exact Hm|]; eapply Rle_trans; [exact Hsq|].
    pose proof (Rabs_pos (u - r)); assert (L * Rabs (u - r) <= m / 2) by (eapply Rle_trans; [apply Rmult_le_compat_l; [exact HL0|exact Hub]|exact HLd]).
    replace (L * (Rabs (u - r) * Rabs (u - r))) with (L * Rabs (u - r) * Rabs (u - r)) by ring.
    replace (1 / 2 * Rabs (u - r) * m) with (m / 2 * Rabs (u - r)) by field; apply Rmult_le_compat_r; assumption. }
  assert (B : forall k, Rabs (newton_seq x0 k - r) <= (1 / 2) ^ (Nat.pow 2 k - 1) * Rabs (x0 - r) /\ Rabs (newton_seq x0 k - r) <= del).
  { induction k as [|k [I1 I2]]; [cbn [newton_seq Nat.pow]; change (1 - 1)%nat with 0%nat; cbn [pow]; lra|].
    set (u := newton_seq x0 k) in *; pose proof (newton_seq_unit x0 k Hx : 0 <= u <= 1) as Hu.
    specialize (Hsq u Hu I2); specialize (Half u Hu I2); change (clampR _) with (newton_seq x0 (S k)) in Hsq, Half.
    pose proof (Rabs_pos (u - r)) as Pu; pose proof (Rabs_pos (x0 - r)) as Px.
    split; [|lra].
    set (a := (1 / 2) ^ (Nat.pow 2 k - 1)) in *.
    assert (Ea : (1 / 2) ^ (Nat.pow 2 (S k) - 1) = 1 / 2 * (a * a)).
    { unfold a; replace (Nat.pow 2 (S k) - 1)%nat with (S ((Nat.pow 2 k - 1) + (Nat.pow 2 k - 1))).
      - cbn [pow]; rewrite pow_add; ring.
      - cbn [Nat.pow]; pose proof (Nat.pow_nonzero 2 k ltac:(lia)); lia. }
    rewrite Ea; assert (Pa : 0 <= a) by (apply pow_le; lra).
    apply Rmult_le_reg_r with m; [exact Hm|]; eapply Rle_trans; [exact Hsq|].
    apply Rle_trans with (L * ((a * Rabs (x0 - r)) * (a * Rabs (x0 - r)))).
    - apply Rmult_le_compat_l; [exact HL0|]; apply Rmult_le_compat; lra.
    - replace (1 / 2 * (a * a) * Rabs (x0 - r) * m) with ((m / 2) * (a * a * Rabs (x0 - r))) by field.
      replace (L * ((a * Rabs (x0 - r)) * (a * Rabs (x0 - r)))) with ((L * Rabs (x0 - r)) * (a * a * Rabs (x0 - r))) by ring.
      apply Rmult_le_compat_r; [apply Rmult_le_pos; [apply Rmult_le_pos; exact Pa|exact Px]|].
      eapply Rle_trans; [apply Rmult_le_compat_l; [exact HL0|exact Hb]|exact HLd]. }
  intros k; destruct (B k) as [I1 I2]; split; [exact I1|]; split; [exact I2|].
  exact (Half (newton_seq x0 k) (newton_seq_unit x0 k Hx) I2).
Qed.
Lemma inversion_square L x0 : 0 <= L -> L * del <= m / 2 ->
  (forall v w, 0 <= v <= 1 -> 0 <= w <= 1 -> Rabs (v - r) <= del -> Rabs (w - r) <= del -> Rabs (h v - h w) <= L * Rabs (v - w)) ->
  0 <= x0 <= 1 -> Rabs (x0 - r) <= del -> initial_guess_curve c (fin Q) = Ok (Fin x0 : Exact) ->
  exists u k, run = Ok (Fin u : Exact) /\ 0 <= u <= 1 /\ (k <= S (S mi))%nat /\ Rabs (u - r) <= (1 / 2) ^ (Nat.pow 2 k - 1) * Rabs (x0 - r) /\
    (k = S (S mi) \/ curve_near (d1 u) (subR (pt u) Q) e1 e2 \/ normR (d1 u) * Rabs (u - r) <= 2 * e1 \/
     exists u', curve_step pt d1 d2 Q u u' /\ 0 <= u' <= 1 /\ Rabs (u' - r) <= 1 / 2 * Rabs (u - r) /\ m * Rabs (u' - r) <= Rabs (slope pt d1 Q u') /\ curve_near (d1 u') (subR (pt u') Q) e1 e2).
Proof.
  intros HL0 HLd HL Hx Hb EG; pose proof (seq_square L x0 HL0 HLd HL Hx Hb) as B.
  destruct (run_iterate x0 Hx EG) as (k & Hk & ER & HS); [intros k; apply h_nonzero; [apply newton_seq_unit; exact Hx|apply B]|].
  exists (newton_seq x0 k), k; split; [exact ER|]; split; [apply newton_seq_unit; exact Hx|]; split; [exact Hk|]; split; [apply B|].
  destruct HS as [HS|[[-> HS]|[HS|HS]]]; [left; exact HS|right; left; exact HS|right; right; left|right; right; right].
  - apply Rle_trans with (2 * (normR (d1 (newton_seq x0 k)) * Rabs (newton_seq x0 (S k) - newton_seq x0 k))); [|lra].
    replace (2 * (normR (d1 (newton_seq x0 k)) * Rabs (newton_seq x0 (S k) - newton_seq x0 k))) with (normR (d1 (newton_seq x0 k)) * (2 * Rabs (newton_seq x0 (S k) - newton_seq x0 k))) by ring.
    apply Rmult_le_compat_l; [apply normR_nonneg|].
    destruct (B k) as (_ & _ & B3); pose proof (Rabs_triang_inv (newton_seq x0 k - r) (newton_seq x0 (S k) - r)) as T.
    replace (newton_seq x0 k - r - (newton_seq x0 (S k) - r)) with (- (newton_seq x0 (S k) - newton_seq x0 k)) in T by ring.
    rewrite Rabs_Ropp in T; lra.
  - exists (newton_seq x0 (S k)); split; [left; split; [apply h_nonzero; [apply newton_seq_unit; exact Hx|apply B]|reflexivity]|]; split; [apply newton_seq_unit; exact Hx|]; split; [apply B|]; split; [|exact HS].
    apply (slope_distance g h r del m Hr Hg Hm Hd); [apply newton_seq_unit; exact Hx|apply B].
Qed.
End Run.
