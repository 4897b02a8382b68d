(** Computation rules for the [Exact] number system on finite values. *)
From Verif Require Import Py Num Spec.
Open Scope R_scope.

Lemma Rltb_true a b : Rltb a b = true <-> a < b.
Proof. unfold Rltb; destruct (Rlt_dec a b); split; intros; try assumption; try reflexivity; try discriminate; contradiction. Qed.
Lemma Rltb_false a b : Rltb a b = false <-> b <= a.
Proof. unfold Rltb; destruct (Rlt_dec a b); split; intros; try reflexivity; try discriminate; lra. Qed.
Lemma Rleb_true a b : Rleb a b = true <-> a <= b.
Proof. unfold Rleb; destruct (Rle_dec a b); split; intros; try assumption; try reflexivity; try discriminate; contradiction. Qed.
Lemma Rleb_false a b : Rleb a b = false <-> b < a.
Proof. unfold Rleb; destruct (Rle_dec a b); split; intros; try reflexivity; try discriminate; lra. Qed.
Lemma Reqb_true a b : Reqb a b = true <-> a = b.
Proof. unfold Reqb; destruct (Req_EM_T a b); split; intros; try assumption; try reflexivity; try discriminate; contradiction. Qed.
Lemma Reqb_false a b : Reqb a b = false <-> a <> b.
Proof. unfold Reqb; destruct (Req_EM_T a b); split; intros; try assumption; try reflexivity; try discriminate; contradiction. Qed.
Lemma Reqb_refl a : Reqb a a = true.
Proof. apply Reqb_true; reflexivity. Qed.

Section Rules.
Local Notation F x := (Fin x : Exact).
Lemma E_ofZ z : (ofZ z : Exact) = F (IZR z). Proof. reflexivity. Qed.
Lemma E_add a b : nadd (F a) (F b) = F (a + b). Proof. reflexivity. Qed.
Lemma E_sub a b : nsub (F a) (F b) = F (a - b). Proof. reflexivity. Qed.
Lemma E_mul a b : nmul (F a) (F b) = F (a * b). Proof. reflexivity. Qed.
Lemma E_opp a : nopp (F a) = F (- a). Proof. reflexivity. Qed.
Lemma E_abs a : nabs (F a) = F (Rabs a). Proof. reflexivity. Qed.
Lemma E_div a b : b <> 0 -> ndiv (F a) (F b) = F (a / b).
Proof. intros H; cbn; destruct (Req_EM_T b 0); [contradiction|reflexivity]. Qed.
Lemma E_div0 : ndiv (F 0) (F 0) = (NaN : Exact).
Proof. cbn; destruct (Req_EM_T 0 0); [reflexivity|contradiction]. Qed.
Lemma E_sqrt a : 0 <= a -> nsqrt (F a) = F (R_sqrt.sqrt a).
Proof. intros H; cbn; destruct (Rlt_dec a 0); [lra|reflexivity]. Qed.
Lemma E_ltb a b : nltb (F a) (F b) = Rltb a b. Proof. reflexivity. Qed.
Lemma E_leb a b : nleb (F a) (F b) = Rleb a b. Proof. reflexivity. Qed.
Lemma E_eqb a b : neqb (F a) (F b) = Reqb a b. Proof. reflexivity. Qed.
Lemma E_finite a : nfinite (F a) = true. Proof. reflexivity. Qed.

Lemma E_1em5 : (lit_1em5 : Exact) = F (1 / 100000).
Proof. unfold lit_1em5; rewrite !E_ofZ, E_div by lra; reflexivity. Qed.
Lemma E_1em6 : (lit_1em6 : Exact) = F (1 / 1000000).
Proof. unfold lit_1em6; rewrite !E_ofZ, E_div by lra; reflexivity. Qed.
Lemma E_1em8 : (lit_1em8 : Exact) = F (1 / 100000000).
Proof. unfold lit_1em8; rewrite !E_ofZ, E_div by lra; reflexivity. Qed.

Lemma E_isclose_tol rtol atol a b :
  isclose_tol (F rtol) (F atol) (F a) (F b) = true <-> close rtol atol a b.
Proof.
  unfold isclose_tol, close; rewrite !E_finite; cbn [andb].
  rewrite E_sub, !E_abs, E_mul, E_add, E_leb; apply Rleb_true.
Qed.
Lemma E_isclose a b : isclose (F a) (F b) = true <-> close (1/100000) (1/100000000) a b.
Proof. unfold isclose; rewrite E_1em5, E_1em8; apply E_isclose_tol. Qed.
Lemma E_isclose_false a b : isclose (F a) (F b) = false <-> ~ close (1/100000) (1/100000000) a b.
Proof.
  rewrite <- E_isclose; destruct (isclose (F a) (F b)); split; intros H; try reflexivity; try discriminate.
  exfalso; apply H; reflexivity.
Qed.

Lemma close_refl r t a : 0 <= r -> 0 <= t -> close r t a a.
Proof.
  intros Hr Ht; unfold close.
  replace (a - a) with 0 by ring; rewrite Rabs_R0.
  pose proof (Rmult_le_pos r (Rabs a) Hr (Rabs_pos a)); lra.
Qed.

Lemma E_nsum_acc l acc : fold_left nadd (fin l) (F acc) = F (fold_left Rplus l acc).
Proof. revert acc; induction l as [|x t IH]; intros acc; [reflexivity|]; apply IH. Qed.

Lemma E_vmap2 (f : Exact -> Exact -> Exact) g a b :
  (forall x y, f (F x) (F y) = F (g x y)) ->
  vmap2 f (fin a) (fin b) = fin (map (fun xy => g (fst xy) (snd xy)) (combine a b)).
Proof.
  intros H; unfold vmap2, fin; revert b; induction a as [|x a IH]; intros b; [reflexivity|].
  destruct b as [|y b]; [reflexivity|]; cbn [map combine fst snd]; rewrite H; f_equal; apply IH.
Qed.
End Rules.

(** Real dot product. *)
Definition rdot (a b : list R) : R := fold_right Rplus 0 (map (fun xy => fst xy * snd xy) (combine a b)).

Lemma fold_left_Rplus l acc : fold_left Rplus l acc = acc + fold_right Rplus 0 l.
Proof. revert acc; induction l as [|x t IH]; intros acc; cbn; [ring|rewrite IH; ring]. Qed.

Lemma E_vdot a b : vdot (fin a) (fin b) = (Fin (rdot a b) : Exact).
Proof.
  unfold vdot, nsum; rewrite (E_vmap2 nmul Rmult) by reflexivity.
  rewrite E_ofZ, E_nsum_acc, fold_left_Rplus; unfold rdot; f_equal; ring.
Qed.

Lemma zlen_fin l : zlen (fin l) = len l.
Proof. unfold zlen, len, fin; rewrite map_length; reflexivity. Qed.
Lemma zlen_fin2 l : zlen (fin2 l) = len l.
Proof. unfold zlen, len, fin2; rewrite map_length; reflexivity. Qed.
