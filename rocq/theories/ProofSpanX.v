(** Proofs for C04 and C05: infinite and NaN parameters of [find_span]. *)
From Verif Require Import Py PyLemmas Num ModelKnots Spec ProofNum MathCox MathKnots ProofSpan.
Open Scope Z_scope.

Lemma isclose_special rt at_ (a b : Exact) : nfinite a && nfinite b = false -> isclose_tol rt at_ a b = (a =? b)%num.
Proof. intros H; unfold isclose_tol; rewrite H; reflexivity. Qed.
Lemma span_special p n U : knots_for p n U ->
  find_span n p (NInf : Exact) (fin U) = Diverge /\
  (1 <= p -> find_span n p (PInf : Exact) (fin U) = Diverge) /\
  (1 <= p -> find_span n p (NaN : Exact) (fin U) = Ok ((p + n + 1) / 2)).
Proof.
  intros (Hp & Hn & HL & HU); unfold len in HL.
  assert (FM : p <= first_mid p n <= n /\ first_mid p n = (p + n + 1) / 2).
  { pose proof (first_mid_bounds p n ltac:(lia)); split; [lia|].
    unfold first_mid; destruct (Z.eqb_spec ((p + n) mod 2) 0) as [E|E]; [|reflexivity].
    pose proof (Z.div_mod (p + n) 2 ltac:(lia)); pose proof (Z.div_mod (p + n + 1) 2 ltac:(lia)); pose proof (Z.mod_pos_bound (p + n + 1) 2 ltac:(lia)); lia. }
  destruct FM as [FM FE].
  unfold find_span, find_span_rtol; rewrite aget_fin by (unfold len; lia); cbn [bind].
  rewrite !isclose_special by reflexivity.
  change (neqb (NInf : Exact) (Fin (kn U n))) with false; change (neqb (PInf : Exact) (Fin (kn U n))) with false; change (neqb (NaN : Exact) (Fin (kn U n))) with false; cbv iota.
  rewrite fin_tab; split; [|split].
  - apply (span_loop_below (K := Exact) NInf _ _ p n); try lia; intros i Hi; reflexivity.
  - intros P1; apply (span_loop_above (K := Exact) PInf _ _ p n); try lia; intros i Hi; split; reflexivity.
  - intros P1; rewrite Nat.add_comm; cbn [Nat.add]; rewrite span_loop_step.
    + rewrite <- FE; reflexivity.
    + lia.
    + intros _; lia.
Qed.
Lemma span_infinite_end p n (U : list Exact) : 0 <= n < zlen U -> nth (Z.to_nat n) U NaN = PInf ->
  find_span n p (PInf : Exact) U = Ok (n - 1).
Proof.
  intros Hn E; unfold find_span, find_span_rtol; rewrite (aget_nth U n NaN Hn), E; cbn [bind].
  rewrite isclose_special by reflexivity; reflexivity.
Qed.
