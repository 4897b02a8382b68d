(** Single basis functions and basis derivatives: forms used by the property theorems. *)
From Coq Require Import Floats.
From Verif Require Import Py PyLemmas Num ModelKnots ModelBasis Spec ProofNum MathCox MathKnots MathDeriv
  ProofSpan ProofBasis ProofBasis2 ProofOneBasis ProofDers ProofOneDers.
Open Scope R_scope.

Lemma one_basis_tight p n U i u : tight (Z.of_nat p) n U -> (0 <= i < n)%Z ->
  one_basis_function (Z.of_nat p) (fin U) i (Fin u : Exact) = Ok (Fin (bspline U p i u)).
Proof. intros (HC & H1 & H2) Hi; apply (one_basis_function_bspline U p n u HC); assumption. Qed.

Lemma one_basis_agrees p n U s u : tight (Z.of_nat p) n U -> in_span U s u ->
  exists l, basis_functions s (Fin u : Exact) (Z.of_nat p) (fin U) = Ok (fin l) /\ length l = S p /\
    (forall r, (r <= p)%nat ->
       one_basis_function (Z.of_nat p) (fin U) (s - Z.of_nat p + Z.of_nat r) (Fin u : Exact) = Ok (Fin (nth r l 0))) /\
    (forall i, (0 <= i < n)%Z -> (i < s - Z.of_nat p \/ s < i)%Z ->
       one_basis_function (Z.of_nat p) (fin U) i (Fin u : Exact) = Ok (0 : Exact)%num).
Proof.
  intros HT HI; destruct (proj1 HT) as ((_ & _ & HL & HU) & _).
  pose proof (clamped_span_range _ _ _ _ _ (proj1 HT) HI) as Hs.
  eexists; split; [apply basis_functions_bspline; [exact HU|exact HI|lia|lia]|].
  split; [rewrite map_length, seq_length; reflexivity|]; split.
  - intros r Hr; rewrite (one_basis_tight p n) by (try assumption; lia).
    rewrite (nth_tab (S p) (fun r => bspline U p (s - Z.of_nat p + r) u)) by lia; reflexivity.
  - intros i Hi Hout; rewrite (one_basis_tight p n) by assumption.
    rewrite (bspline_piece U s u HU HI), piece_support by exact Hout; reflexivity.
Qed.

Lemma one_basis_sum p n U u : tight (Z.of_nat p) (Z.of_nat n) U -> kn U 0 <= u <= last U 0 ->
  exists l, mapM (fun i => one_basis_function (Z.of_nat p) (fin U) i (Fin u : Exact)) (zrange 0 (Z.of_nat n)) = Ok (fin l) /\
    length l = n /\ Forall (fun x => 0 <= x <= 1) l /\ fold_right Rplus 0 l = 1.
Proof.
  intros HT Hu; destruct (clamped_facts _ _ _ (proj1 HT)) as (_ & _ & _ & HU & _ & _ & HE & H0 & _).
  exists (tab n (fun i => bspline U p i u)); split; [|split; [|split]].
  - rewrite zrange_tab, fin_tab_fun; apply mapM_tab.
    intros i Hi; apply (one_basis_tight p (Z.of_nat n)); [exact HT|lia].
  - apply tab_length.
  - destruct (clamped_in_span _ _ U u (proj1 HT) ltac:(lra)) as (s & Hs & HI).
    apply Forall_tab; intros i Hi; rewrite (bspline_piece U s u HU HI); split.
    + apply piece_nonneg; [exact HU|eapply in_span_width; exact HI|eapply in_span_closed; exact HI].
    + apply piece_le_1; [exact HU|eapply in_span_width; exact HI|eapply in_span_closed; exact HI].
  - rewrite fold_right_tab; apply bspline_unity; [apply HT|lra].
Qed.

(** End knots of multiplicity p+2: the two first functions are both 1 at the start. *)
Definition wO : list Binary64 := [0; 0; 0; 0; 1; 1; 1]%float.
Lemma over_clamped_witness :
  check_knot_vector 2 (NdArray wO) 4 = Ok true /\
  one_basis_function 2 wO 0 (0%float : Binary64) = Ok (1%float : Binary64) /\
  one_basis_function 2 wO 1 (0%float : Binary64) = Ok (1%float : Binary64) /\
  find_span 4 2 (0%float : Binary64) wO = Ok 3%Z /\
  basis_functions 3 (0%float : Binary64) 2 wO = Ok ([1; 0; 0]%float : list Binary64).
Proof. vm_compute; repeat split; reflexivity. Qed.

(** The derivative table. *)
Definition ders_table (U : list R) (s : Z) (u : R) (p nd : nat) : list (list R) :=
  tab2 (S p) (S nd) (fun r k => Dx (delta s) (kn U) (Z.to_nat k) p (s - Z.of_nat p + r) u).

Lemma basis_function_ders_table U s u p nd :
  nondecreasing U -> kn U s < kn U (s + 1) -> (Z.of_nat p - 1 <= s)%Z -> (s + Z.of_nat p < len U)%Z ->
  basis_function_ders s (Fin u : Exact) (Z.of_nat p) (fin U) (Z.of_nat nd) = Ok (fin2 (ders_table U s u p nd)).
Proof.
  intros HU Hs H1 H2; rewrite (basis_function_ders_eq U s u p HU Hs H1 H2 nd); f_equal.
  unfold fin2, ders_table, tab2; rewrite map_tab; apply tab_ext; intros r Hr; symmetry; apply fin_tab_fun.
Qed.
Lemma ders_entry U s u p nd r k : (r <= p)%nat -> (k <= nd)%nat ->
  nth k (nth r (ders_table U s u p nd) []) 0 = Dx (delta s) (kn U) k p (s - Z.of_nat p + Z.of_nat r) u.
Proof.
  intros Hr Hk; unfold ders_table, tab2; rewrite nth_tab by lia; rewrite nth_tab by lia; rewrite Nat2Z.id; reflexivity.
Qed.
Lemma ders_shape U s u p nd :
  length (ders_table U s u p nd) = S p /\ Forall (fun row => length row = S nd) (ders_table U s u p nd).
Proof.
  split; [apply tab_length|]; apply Forall_tab; intros; apply tab_length.
Qed.

Lemma ders_col0 U s u p nd :
  nondecreasing U -> kn U s < kn U (s + 1) -> (Z.of_nat p - 1 <= s)%Z -> (s + Z.of_nat p < len U)%Z ->
  exists m l, basis_function_ders s (Fin u : Exact) (Z.of_nat p) (fin U) (Z.of_nat nd) = Ok (fin2 m) /\
    basis_functions s (Fin u : Exact) (Z.of_nat p) (fin U) = Ok (fin l) /\
    length l = S p /\ length m = S p /\ map (fun row => nth 0 row 0) m = l.
Proof.
  intros HU Hs H1 H2; exists (ders_table U s u p nd), (pieces U s p u).
  split; [apply basis_function_ders_table; assumption|].
  split; [apply basis_functions_pieces; assumption|].
  split; [apply pieces_length|]; split; [apply tab_length|].
  unfold ders_table, tab2; rewrite map_tab; unfold pieces; apply tab_ext; intros r Hr.
  rewrite nth_tab by lia; cbn [Z.of_nat Z.to_nat Dx]; symmetry; apply piece_cox.
Qed.

Lemma ders_true U s u p nd :
  nondecreasing U -> kn U s < kn U (s + 1) -> (Z.of_nat p - 1 <= s)%Z -> (s + Z.of_nat p < len U)%Z ->
  exists m, basis_function_ders s (Fin u : Exact) (Z.of_nat p) (fin U) (Z.of_nat nd) = Ok (fin2 m) /\
    length m = S p /\ Forall (fun row => length row = S nd) m /\
    forall r k, (r <= p)%nat -> (k <= nd)%nat ->
      exists g, nth_derivative k (piece U s p (s - Z.of_nat p + Z.of_nat r)) g /\ nth k (nth r m []) 0 = g u.
Proof.
  intros HU Hs H1 H2; exists (ders_table U s u p nd).
  split; [apply basis_function_ders_table; assumption|].
  destruct (ders_shape U s u p nd) as [S1 S2]; split; [exact S1|split; [exact S2|]].
  intros r k Hr Hk; exists (Dx (delta s) (kn U) k p (s - Z.of_nat p + Z.of_nat r)); split; [|apply ders_entry; assumption].
  apply (Dx_nth_derivative (delta s) (kn U) (kn_mono U HU)).
Qed.

Lemma ders_sum U s u p nd k :
  nondecreasing U -> kn U s < kn U (s + 1) -> (Z.of_nat p - 1 <= s)%Z -> (s + Z.of_nat p < len U)%Z ->
  (1 <= k <= nd)%nat ->
  exists m, basis_function_ders s (Fin u : Exact) (Z.of_nat p) (fin U) (Z.of_nat nd) = Ok (fin2 m) /\
    length m = S p /\ fold_right Rplus 0 (map (fun row => nth k row 0) m) = 0.
Proof.
  intros HU Hs H1 H2 Hk; exists (ders_table U s u p nd).
  split; [apply basis_function_ders_table; assumption|]; split; [apply tab_length|].
  unfold ders_table, tab2; rewrite map_tab, fold_right_tab.
  rewrite <- (Dx_sum_zero (kn U) s p k u (kn_mono U HU) Hs) by lia.
  rewrite <- (Z.add_0_l (s - Z.of_nat p)), zsum_shift; apply zsum_ext; intros r Hr.
  rewrite nth_tab by lia; rewrite Nat2Z.id; f_equal; lia.
Qed.

(** At the right end the derivative version returns zeros, the value version 1. *)
Lemma one_ders_end p n U nd : tight (Z.of_nat p) n U ->
  one_basis_function (Z.of_nat p) (fin U) (n - 1) (Fin (kn U n) : Exact) = Ok (1 : Exact)%num /\
  one_basis_function_ders (Z.of_nat p) (fin U) (n - 1) (Fin (kn U n) : Exact) (Z.of_nat nd) = Ok (fin (repeat 0 (S nd))).
Proof.
  intros HT; destruct (clamped_facts _ _ _ (proj1 HT)) as (_ & Hn & HL & HU & Hl & Hr & HE & H0 & Hlt); split.
  - rewrite (one_basis_tight p n) by (try assumption; lia).
    rewrite <- HE, (bspline_end U p n (proj1 HT)) by (try lia; apply HT); rewrite delta_same; reflexivity.
  - apply obd_outside_zero; try lia; right; replace (n - 1 + Z.of_nat p + 1)%Z with (n + Z.of_nat p)%Z by lia.
    rewrite Hr by lia; lra.
Qed.
