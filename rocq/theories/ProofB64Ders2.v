(** The table of derivatives of basis functions on binary64 numbers, as a whole. *)
From Coq Require Import Reals Lra Lia ZArith List Floats.
From Flocq Require Import Core.Core.
From Verif Require Import Py PyLemmas Num ModelBasis Spec SpecB64 MathCox MathKnots MathJoin MathDeriv
  ProofNum ProofBasis ProofDers ProofDersAny ProofB64 ProofB64Basis ProofB64Span ProofB64Curve ProofB64Ders.
Import ListNotations.
Open Scope R_scope.

(** On any numbers: the first column is what [basis_functions] gives, columns of
    order above the degree are 0 times the empty product. *)
Lemma ders_any (K : Num) (U : list K) s x p nd : (Z.of_nat p - 1 <= s)%Z -> (s + Z.of_nat p < zlen U)%Z ->
  exists m B, basis_function_ders s x (Z.of_nat p) U (Z.of_nat nd) = Ok m /\ length m = S p /\
    Forall (fun row => length row = S nd) m /\
    basis_functions s x (Z.of_nat p) U = Ok B /\ map (fun row => nth 0 row 0%num) m = B.
Proof.
  intros H1 H2; exists (tab2 (S p) (S nd) (gder U s x p)), (tab (S p) (gN U s x p)).
  split; [apply basis_function_ders_any; assumption|]; split; [apply tab_length|]; split.
  - apply Forall_tab; intros i Hi; apply tab_length.
  - split; [apply basis_functions_any; assumption|].
    unfold tab2; rewrite map_tab; apply tab_ext; intros i Hi; rewrite nth_tab by lia; reflexivity.
Qed.

Lemma fact_ffact p k : (k <= p)%nat -> ffact p k = INR (fact p) / INR (fact (p - k)).
Proof.
  intros Hk; induction k as [|k IH].
  - rewrite Nat.sub_0_r; cbn [ffact]; field; apply INR_fact_neq_0.
  - cbn [ffact]; rewrite IH by lia; replace (p - k)%nat with (S (p - S k)) by lia.
    rewrite fact_simpl, mult_INR; field; split; [apply INR_fact_neq_0|apply not_0_INR; lia].
Qed.
Lemma zfact_above p k : (p < k)%nat -> zfact p k = 0%Z.
Proof.
  induction k as [|k IH]; intros H; [lia|]; cbn [zfact].
  destruct (Nat.eq_dec p k) as [->|]; [rewrite Z.sub_diag, Z.mul_0_r; reflexivity|rewrite IH by lia; reflexivity].
Qed.

(** Column [k], its error and its size. *)
Lemma col_b64 (U : list PrimFloat.float) s (x : Binary64) p k :
  within 0 1 U -> nondecreasing (values U) -> finite64 x ->
  kn (values U) s <= value x <= kn (values U) (s + 1) ->
  let g := kn (values U) (s + 1) - kn (values U) s in / 2 ^ 1000 <= g ->
  (Z.of_nat p - 1 <= s)%Z -> (0 <= s)%Z -> (s + Z.of_nat p < len U)%Z -> (s + 1 < len U)%Z -> INR p <= 2 ^ 40 ->
  (k <= p)%nat -> (2 / g) ^ k <= 2 ^ 900 -> INR (fact p) / INR (fact (p - k)) < 2 ^ 53 ->
  let W := INR (fact p) / INR (fact (p - k)) * (2 / g) ^ k in
  let D r := Dx (delta s) (kn (values U)) k p (s - Z.of_nat p + r) (value x) in
  (forall r, (0 <= r <= Z.of_nat p)%Z -> finite64 (gder (U : list Binary64) s x p r (Z.of_nat k))) /\
  zsum 0 (S p) (fun r => Rabs (value (gder (U : list Binary64) s x p r (Z.of_nat k)) - D r)) <= 12 * INR p * ulp64 * W /\
  zsum 0 (S p) (fun r => Rabs (D r)) <= W /\ 1 <= W.
Proof.
  intros HW HU Fx Hx g Hg H1 H2 H3 H4 Hp Hkp Hbig Hfact W D.
  assert (Hg' : bpow radix2 (-1000) <= kn (values U) (s + 1) - kn (values U) s) by (rewrite bpow_powerRZ; exact Hg).
  destruct (Nat.eq_dec k 0) as [->|Hk0].
  - destruct (gN_ok U s x p HW HU Fx Hx Hg' H1 H2 H3 H4 Hp p (le_n p)) as (HF & HE).
    assert (EW : W = 1) by (unfold W; rewrite Nat.sub_0_r; unfold Rdiv at 1; rewrite Rinv_r by apply INR_fact_neq_0; cbn [pow]; ring).
    rewrite EW; split; [intros r Hr; apply HF; exact Hr|]; split; [|split; [|lra]].
    + unfold err in HE; change (Z.of_nat 0) with 0%Z; unfold gder; cbn [Z.eqb].
      apply Rle_trans with (1 := HE); pose proof (pos_INR p); pose proof ulp64_pos.
      pose proof (Rmult_le_pos (INR p) ulp64 ltac:(lra) ltac:(lra)); lra.
    + assert (Hlt : kn (values U) s < kn (values U) (s + 1)) by (apply (s_lt U s Hg')).
      right; rewrite <- (piece_unity (values U) s p (value x) HU Hlt).
      pose proof (zsum_shift 0 (s - Z.of_nat p) (S p) (fun i => piece (values U) s p i (value x))) as E; rewrite Z.add_0_l in E; rewrite E.
      apply zsum_ext; intros i Hi; unfold D; cbn [Dx]; rewrite Rabs_right.
      * rewrite Z.add_comm; reflexivity.
      * apply Rle_ge, (piece_nonneg (values U) s p (value x)); assumption.
  - assert (HZ : (zfact p k < 2 ^ 53)%Z).
    { apply lt_IZR; rewrite (zfact_ffact p k Hkp), fact_ffact by exact Hkp.
      replace (IZR (2 ^ 53)) with (2 ^ 53) by (rewrite pow_IZR; reflexivity); exact Hfact. }
    destruct (column_ok U s x p HW HU Fx Hx Hg' H1 H2 H3 H4 Hp k Hkp Hbig ltac:(lia) HZ) as (HF & HE).
    pose proof (dx_sum U s x p HW HU Fx Hx Hg' H1 H2 H3 H4 Hp k Hkp Hbig ltac:(lia) HZ) as HD.
    assert (H1W : 1 <= IZR (zfact p k) * (2 / g) ^ k) by (unfold g; eapply size_ge_1; (eassumption || lia)).
    rewrite (zfact_ffact p k Hkp), fact_ffact in HE, HD, H1W by exact Hkp.
    split; [exact HF|]; split; [exact HE|]; split; [exact HD|exact H1W].
Qed.

Lemma ders_b64 (U : list PrimFloat.float) s (x : Binary64) p nd :
  within 0 1 U -> nondecreasing (values U) -> finite64 x ->
  kn (values U) s <= value x <= kn (values U) (s + 1) ->
  let g := kn (values U) (s + 1) - kn (values U) s in / 2 ^ 1000 <= g ->
  (Z.of_nat p - 1 <= s)%Z -> (0 <= s)%Z -> (s + Z.of_nat p < len U)%Z -> (s + 1 < len U)%Z -> INR p <= 2 ^ 40 ->
  exists m : list (list PrimFloat.float), basis_function_ders s x (Z.of_nat p) U (Z.of_nat nd) = Ok (m : list (list Binary64)) /\
    length m = S p /\ Forall (fun row => length row = S nd) m /\
    basis_functions s x (Z.of_nat p) U = Ok (map (fun row => nth 0 row 0%float) m : list Binary64) /\
    (forall k, (p < k <= nd)%nat -> Forall (fun row => nth k row 0%float = 0%float) m) /\
    (forall k, (k <= nd)%nat -> (k <= p)%nat -> (2 / g) ^ k <= 2 ^ 900 -> INR (fact p) / INR (fact (p - k)) < 2 ^ 53 ->
      Forall (fun row => finite64 (nth k row 0%float)) m /\
      exists G : nat -> R -> R,
        (forall r, (r <= p)%nat -> nth_derivative k (piece (values U) s p (s - Z.of_nat p + Z.of_nat r)) (G r)) /\
        error1 (values (map (fun row => nth k row 0%float) m)) (map (fun r => G r (value x)) (seq 0 (S p))) <=
          12 * INR p * ulp64 * (INR (fact p) / INR (fact (p - k)) * (2 / g) ^ k)).
Proof.
  intros HW HU Fx Hx g Hg H1 H2 H3 H4 Hp.
  assert (Hg' : bpow radix2 (-1000) <= kn (values U) (s + 1) - kn (values U) s) by (rewrite bpow_powerRZ; exact Hg).
  exists (tab2 (S p) (S nd) (gder (U : list Binary64) s x p)).
  split; [apply basis_function_ders_any; assumption|]; split; [apply tab_length|]; split.
  { apply Forall_tab; intros i Hi; apply tab_length. }
  split.
  { unfold tab2; rewrite map_tab.
    transitivity (Ok (tab (S p) (gN (U : list Binary64) s x p))); [apply basis_functions_any; assumption|].
    f_equal; apply tab_ext; intros i Hi; rewrite nth_tab by lia; reflexivity. }
  split.
  { intros k Hk; apply Forall_tab; intros i Hi; rewrite nth_tab by lia; unfold gder, graw.
    destruct (Z.eqb_spec (Z.of_nat k) 0); [lia|]; destruct (Z.leb_spec (Z.of_nat k) (Z.of_nat p)); [lia|].
    rewrite Nat2Z.id, zfact_above by lia; reflexivity. }
  intros k Hkn Hkp Hbig Hfact.
  assert (E0 : forall (f : Z -> R), map (fun r => f (Z.of_nat r)) (seq 0 (S p)) = tab (S p) f) by (intros f; reflexivity).
  assert (Em : forall f : Z -> Z -> PrimFloat.float, map (fun row => nth k row 0%float) (tab2 (S p) (S nd) f) = tab (S p) (fun r => f r (Z.of_nat k))).
  { intros f; unfold tab2; rewrite map_tab; apply tab_ext; intros i Hi; rewrite nth_tab by lia; reflexivity. }
  destruct (col_b64 U s x p k HW HU Fx Hx Hg H1 H2 H3 H4 Hp Hkp Hbig Hfact) as (HF & HE & _).
  split.
  - apply Forall_tab; intros i Hi; rewrite nth_tab by lia; apply HF; lia.
  - exists (fun r => Dx (delta s) (kn (values U)) k p (s - Z.of_nat p + Z.of_nat r)); split.
    + intros r Hr; apply (Dx_nth_derivative (delta s) (kn (values U)) (kn_mono _ HU)).
    + rewrite Em; unfold values at 1; rewrite map_tab, (E0 (fun r => Dx (delta s) (kn (values U)) k p (s - Z.of_nat p + r) (value x))), error1_tab.
      exact HE.
Qed.
