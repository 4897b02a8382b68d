(** [find_span]: forms used by the property theorems, and witnesses. *)
From Coq Require Import Floats.
From Verif Require Import Py PyLemmas Num ModelKnots ModelBasis Spec ProofNum MathCox MathKnots ProofSpan ProofBasis.
Open Scope R_scope.

Notation tol_r := (1/1000000).
Notation tol_a := (1/100000000).

Lemma find_span_ok p n U u : knots_for p n U -> kn U p <= u <= kn U n ->
  exists s, find_span n p (Fin u : Exact) (fin U) = Ok s /\ (p <= s <= n - 1)%Z.
Proof.
  intros HK Hu; destruct (find_span_inside tol_r p n U u ltac:(lra) HK Hu) as (s & E & Hs & _).
  exists s; rewrite find_span_default; split; assumption.
Qed.
Lemma find_span_contains p n U u s : knots_for p n U -> kn U p <= u <= kn U n ->
  find_span n p (Fin u : Exact) (fin U) = Ok s ->
  close tol_r tol_a u (kn U n) /\ s = (n - 1)%Z \/ kn U s <= u <= kn U (s + 1).
Proof.
  intros HK Hu E; destruct (find_span_inside tol_r p n U u ltac:(lra) HK Hu) as (s' & E' & Hs & R).
  rewrite find_span_default in E; rewrite E in E'; injection E' as <-.
  destruct R as [R|[_ R]]; [left|right]; exact R.
Qed.
Lemma find_span_unique p n U u : knots_for p n U -> kn U p <= u <= kn U n ->
  ~ close tol_r tol_a u (kn U n) -> (forall i, (p < i < n)%Z -> u <> kn U i) ->
  exists s, find_span n p (Fin u : Exact) (fin U) = Ok s /\
    kn U s <= u < kn U (s + 1) /\ (forall s', kn U s' <= u < kn U (s' + 1) -> s' = s).
Proof.
  intros HK Hu HC Hi; destruct (find_span_half_open tol_r p n U u ltac:(lra) HK Hu HC Hi) as (s & E & _ & R).
  exists s; rewrite find_span_default; split; assumption.
Qed.
Lemma find_span_below p n U u : knots_for p n U -> ~ close tol_r tol_a u (kn U n) -> u < kn U p ->
  find_span n p (Fin u : Exact) (fin U) = Diverge.
Proof. intros; rewrite find_span_default; apply find_span_below_diverges; assumption. Qed.
Lemma find_span_over p n U u : clamped p n U -> (1 <= p)%Z -> ~ close tol_r tol_a u (kn U n) -> kn U n < u ->
  find_span n p (Fin u : Exact) (fin U) = Diverge.
Proof.
  intros HC Hp Hc Hu; rewrite find_span_default.
  destruct (clamped_facts p n U HC) as (_ & H2 & _ & _ & _ & Hr & _).
  destruct (find_span_above tol_r p n U u (proj1 HC) Hc Hu) as (A1 & A2 & _).
  destruct (Z.eq_dec n (p + 1)); [apply A2|apply A1]; try assumption; try lia.
  rewrite Hr by lia; assumption.
Qed.
Lemma find_span_genuine (K : Num) n p (u : K) kv : find_span n p u kv = Diverge ->
  forall fuel, span_loop fuel u kv p n (first_mid p n) = Diverge.
Proof. apply find_span_fuel_adequate. Qed.

Lemma find_span_end p n U u : clamped p n U -> kn U (n - 1) < kn U n -> u <= kn U n ->
  close tol_r tol_a u (kn U n) ->
  find_span n p (Fin u : Exact) (fin U) = Ok (n - 1)%Z /\
  (in_span U (n - 1) u <-> kn U (n - 1) <= u).
Proof.
  intros HC Hlt Hu Hc; rewrite find_span_default.
  destruct (find_span_end_tolerance tol_r p n U u (proj1 HC) Hc) as [E R].
  destruct (clamped_facts p n U HC) as (_ & _ & _ & _ & _ & _ & HL & _).
  split; [exact E|]; apply R; auto.
Qed.

(** Below the last span's start, a degree-1 basis function is negative. *)
Lemma degree1_negative U n u : knots_for 1 n U -> kn U (n - 1) < kn U n -> u < kn U (n - 1) ->
  exists a b, basis_functions (n - 1) (Fin u : Exact) 1 (fin U) = Ok (fin [a; b]) /\ b < 0 /\ 1 < a.
Proof.
  intros (H1 & H2 & H3 & H4) Hlt Hu.
  exists (piece U (n - 1) 1 (n - 2) u), (piece U (n - 1) 1 (n - 1) u).
  split; [|].
  - change 1%Z with (Z.of_nat 1); rewrite basis_functions_pieces; try assumption; try lia.
    + unfold pieces; cbn [tab seq map].
      replace (n - Z.of_nat 1 - Z.of_nat 1 + Z.of_nat 0)%Z with (n - 2)%Z by lia.
      replace (n - Z.of_nat 1 - Z.of_nat 1 + Z.of_nat 1)%Z with (n - Z.of_nat 1)%Z by lia; reflexivity.
    + replace (n - Z.of_nat 1 + 1)%Z with n by lia; exact Hlt.
  - unfold piece; cbn [cox Z.of_nat].
    replace (n - 2 =? n - 1)%Z with false by (symmetry; apply Z.eqb_neq; lia).
    replace (n - 2 + 1)%Z with (n - 1)%Z by lia; rewrite Z.eqb_refl.
    replace (n - 1 + 1 =? n - 1)%Z with false by (symmetry; apply Z.eqb_neq; lia).
    replace (n - 2 + 0 + 2)%Z with n by lia.
    replace (n - 1 + 0 + 1)%Z with n by lia.
    rewrite (sdiv_nz _ (kn U n - kn U (n - 1))) by lra.
    assert (I : 0 < / (kn U n - kn U (n - 1))) by (apply Rinv_0_lt_compat; lra).
    split.
    + assert (0 < (kn U (n - 1) - u) * / (kn U n - kn U (n - 1))) by (apply Rmult_lt_0_compat; lra).
      match goal with |- ?x < _ => replace x with (- ((kn U (n - 1) - u) * / (kn U n - kn U (n - 1)))); [lra|] end.
      unfold sdiv; destruct (Req_EM_T _ 0); field; lra.
    + apply Rmult_lt_reg_r with (kn U n - kn U (n - 1)); [lra|].
      match goal with |- _ < ?x => replace x with (kn U n - u); [lra|] end.
      rewrite (sdiv_nz (kn U n - u)) by lra; field; lra.
Qed.

(** ** Witnesses in binary64 *)
Definition wU : list Binary64 := [0; 0; 0; 0.25; 0.5; 0.5; 1; 1; 1]%float.
Lemma span_empty_witness :
  check_knot_vector 2 (NdArray wU) 6 = Ok true /\ validate_knot (0.5%float : Binary64) = true /\
  find_span 6 2 (0.5%float : Binary64) wU = Ok 4%Z /\
  aget wU 4 = Ok (0.5%float : Binary64) /\ aget wU (4 + 1) = Ok (0.5%float : Binary64).
Proof. vm_compute; repeat split; reflexivity. Qed.

Definition wE : list Binary64 := [0; 0; 0.9999999; 1; 1]%float.
Lemma span_end_witness :
  check_knot_vector 1 (NdArray wE) 3 = Ok true /\
  find_span 3 1 (0.9999995%float : Binary64) wE = Ok 2%Z /\
  (0.9999995 <? 0.9999999)%float = true /\
  exists a b : Binary64, basis_functions 2 (0.9999995%float : Binary64) 1 wE = Ok [a; b] /\ (b <? 0)%float = true.
Proof.
  vm_compute; repeat split; try reflexivity.
  do 2 eexists; split; reflexivity.
Qed.
