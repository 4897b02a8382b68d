(** [one_basis_function] (model: ModelBasis.v) on binary64 numbers, for every
    index and every double. *)
From Coq Require Import Reals Lra Lia ZArith List Floats.
From Flocq Require Import Core.Core IEEE754.BinarySingleNaN IEEE754.PrimFloat.
From Verif Require Import Py PyLemmas Num ModelBasis Spec SpecB64 MathCox MathKnots ProofSpan ProofBasis ProofOneBasis ProofB64 ProofB64Basis ProofB64One ProofB64One2.
Import ListNotations.
Open Scope R_scope.

Lemma pow_bpow (k : nat) : / 2 ^ k = bpow radix2 (- Z.of_nat k).
Proof.
  rewrite bpow_opp; f_equal; rewrite bpow_powerRZ, <- pow_powerRZ; reflexivity.
Qed.
Section Top.
Variables (U : list Binary64) (p : nat) (n : Z).
Hypothesis HW : within 0 1 U.
Hypothesis HT : tight (Z.of_nat p) n (values U).
Hypothesis Hgap : forall j, kn (values U) j < kn (values U) (j + 1) ->
  / 2 ^ 500 <= kn (values U) (j + 1) - kn (values U) j.
Hypothesis Hp : INR p <= 2 ^ 40.
Notation k := (kn (values U)).

Lemma eqU (x : Binary64) j : finite64 x -> (0 <= j < len U)%Z -> neqb x (fU U j) = Req_bool (value x) (k j).
Proof.
  intros Fx Hj; destruct (fU_val U HW j Hj) as (F & V & _).
  change (neqb x (fU U j)) with (PrimFloat.eqb x (fU U j)); rewrite eqb64, V by assumption; reflexivity.
Qed.
Lemma ltU1 (x : Binary64) j : finite64 x -> (0 <= j < len U)%Z -> nltb x (fU U j) = Rlt_bool (value x) (k j).
Proof.
  intros Fx Hj; destruct (fU_val U HW j Hj) as (F & V & _).
  change (nltb x (fU U j)) with (PrimFloat.ltb x (fU U j)); rewrite ltb64, V by assumption; reflexivity.
Qed.
Lemma ltU2 (x : Binary64) j : finite64 x -> (0 <= j < len U)%Z -> nltb (fU U j) x = Rlt_bool (k j) (value x).
Proof.
  intros Fx Hj; destruct (fU_val U HW j Hj) as (F & V & _).
  change (nltb (fU U j) x) with (PrimFloat.ltb (fU U j) x); rewrite ltb64, V by assumption; reflexivity.
Qed.

Lemma one_basis_b64 i (x : Binary64) : (0 <= i < n)%Z -> finite64 x ->
  let b := bspline (values U) p i (value x) in
  exists y, one_basis_function (Z.of_nat p) U i x = Ok y /\ finite64 y /\ 0 <= value y /\
    (b = 0 -> value y = 0) /\
    ((i = 0%Z /\ value x = k 0) \/ (i = (n - 1)%Z /\ value x = last (values U) 0) -> value y = 1) /\
    Rabs (value y - b) <= 7 * INR p * ulp64 * b + INR p * (INR p + 1) / 2 ^ 572.
Proof.
  intros Hi Fx b; destruct HT as (HC & Hfirst & Hlast).
  destruct (clamped_facts _ _ _ HC) as (_ & Hn & HL & HU & Hl & Hr & HE & H0 & Hlt).
  assert (HL' : len U = (n + Z.of_nat p + 1)%Z) by exact (eq_trans (eq_sym (len_values U)) HL); clear HL; rename HL' into HL.
  assert (HP : 0 <= INR p) by apply pos_INR.
  assert (HB : 0 <= b) by (apply bspline_nonneg; exact HU).
  assert (P572 : 0 < 2 ^ 572) by (apply pow_lt; lra).
  assert (HR : 0 <= 7 * INR p * ulp64 * b + INR p * (INR p + 1) / 2 ^ 572).
  { pose proof ulp64_pos; apply Rplus_le_le_0_compat.
    - repeat apply Rmult_le_pos; lra.
    - apply Rmult_le_pos; [apply Rmult_le_pos; lra|apply Rlt_le, Rinv_0_lt_compat, P572]. }
  unfold one_basis_function.
  assert (KL : kn (values U) (len U - 1) = last (values U) 0) by exact (eq_trans (f_equal (fun z => kn (values U) (z - 1)) (eq_sym (len_values U))) (kn_last (values U))).
  assert (ES : exists sp, ob_special (Z.of_nat p) U i x = Ok sp /\
     (sp = true <-> (i = 0%Z /\ value x = k 0) \/ (i = (n - 1)%Z /\ value x = last (values U) 0))).
  { unfold ob_special; change (zlen U) with (len U); rewrite HL.
    replace (n + Z.of_nat p + 1 - Z.of_nat p - 2)%Z with (n - 1)%Z by lia.
    replace (n + Z.of_nat p + 1 - 1)%Z with (len U - 1)%Z by lia.
    destruct (Z.eqb_spec i 0) as [Ei|Ei].
    - rewrite aU by lia; cbn [bind]; rewrite eqU by (assumption || lia).
      destruct (Req_bool_spec (value x) (k 0)) as [Ex|Ex]; cbn [bind].
      + exists true; split; [reflexivity|]; tauto.
      + destruct (Z.eqb_spec i (n - 1)) as [Ej|Ej].
        * rewrite aU by lia; cbn [bind]; rewrite eqU by (assumption || lia); rewrite KL.
          eexists; split; [reflexivity|]; destruct (Req_bool_spec (value x) (last (values U) 0)); intuition congruence.
        * exists false; split; [reflexivity|]; intuition congruence.
    - cbn [bind]; destruct (Z.eqb_spec i (n - 1)) as [Ej|Ej].
      + rewrite aU by lia; cbn [bind]; rewrite eqU by (assumption || lia); rewrite KL.
        eexists; split; [reflexivity|]; destruct (Req_bool_spec (value x) (last (values U) 0)); intuition congruence.
      + exists false; split; [reflexivity|]; intuition congruence. }
  destruct ES as (sp & -> & Hsp); cbn [bind].
  destruct sp.
  - assert (Eb : b = 1).
    { destruct (proj1 Hsp eq_refl) as [[-> E]|[-> E]]; unfold b; rewrite E.
      - apply (bspline_first (values U) p n HC Hfirst).
      - rewrite (bspline_end (values U) p n HC) by exact Hlast; apply delta_same. }
    exists (1%num : Binary64); rewrite value_1.
    split; [reflexivity|split; [exact finite_1|split; [lra|split; [lra|split; [reflexivity|]]]]].
    replace (1 - b) with 0 by lra; rewrite Rabs_R0; exact HR.
  - assert (NS : ~ ((i = 0%Z /\ value x = k 0) \/ (i = (n - 1)%Z /\ value x = last (values U) 0))) by (rewrite <- Hsp; discriminate).
    assert (Zero : b = 0 -> exists y : Binary64, Ok (0%num : Binary64) = Ok y /\ finite64 y /\ 0 <= value y /\
      (b = 0 -> value y = 0) /\
      ((i = 0%Z /\ value x = k 0) \/ (i = (n - 1)%Z /\ value x = last (values U) 0) -> value y = 1) /\
      Rabs (value y - b) <= 7 * INR p * ulp64 * b + INR p * (INR p + 1) / 2 ^ 572).
    { intros E; exists (0%num : Binary64); rewrite value_0.
      split; [reflexivity|split; [exact finite_0|split; [lra|split; [reflexivity|split; [contradiction|]]]]].
      replace (0 - b) with 0 by lra; rewrite Rabs_R0; exact HR. }
    unfold ob_outside; rewrite aU by lia; cbn [bind]; rewrite ltU1 by (assumption || lia).
    destruct (Rlt_bool_spec (value x) (k i)) as [E1|E1]; cbn [bind].
    { apply Zero, bspline_support; auto. }
    rewrite aU by lia; cbn [bind]; rewrite ltU2 by (assumption || lia).
    destruct (Rlt_bool_spec (k (i + Z.of_nat p + 1)) (value x)) as [E2|E2].
    { apply Zero, bspline_support; auto. }
    destruct (one_inner64 U i x p HW HU) as (y & Ey & Fy & By & Zy & Er); try assumption; try lia.
    { intros j Hj; change (bpow radix2 (-500)) with (bpow radix2 (- Z.of_nat 500)); rewrite <- (pow_bpow 500); apply Hgap; exact Hj. }
    assert (EC : cox (hbase (values U) (value x)) (kn (values U)) p i (value x) = b).
    { destruct (Rlt_dec (value x) (last (values U) 0)) as [L|L].
      - apply cox_ext; [|reflexivity]; intros j _; apply hbase_base; exact L.
      - assert (k (i + Z.of_nat p + 1) <= last (values U) 0).
        { rewrite <- KL; apply kn_mono; [exact HU|lia]. }
        assert (Eu : value x = last (values U) 0) by lra.
        rewrite cox_zero by (intros j _; apply hbase_end; [exact HU|lra]).
        unfold b; rewrite Eu, (bspline_end (values U) p n HC) by exact Hlast; symmetry; apply delta_other; intros En.
        apply NS; right; split; [exact En|exact Eu]. }
    rewrite EC in Zy, Er.
    exists y; split; [exact Ey|split; [exact Fy|split; [exact By|split; [exact Zy|split; [contradiction|]]]]].
    eapply Rle_trans; [exact Er|]; apply Rplus_le_compat_l.
    unfold Rdiv; rewrite (pow_bpow 572); unfold c64.
    replace (- Z.of_nat 572)%Z with (2 + -574)%Z by lia; rewrite bpow_plus; change (bpow radix2 2) with 4; right; ring.
Qed.

(** Infinite and NaN parameters. *)
Lemma not_finite_cases (x : PrimFloat.float) : ~ finite64 x ->
  (forall a, finite64 a -> (a <=? x)%float = false /\ (x =? a)%float = false /\ (x <? a)%float = false /\ (a <? x)%float = false) \/
  (forall a, finite64 a -> (x =? a)%float = false /\ (x <? a)%float = true) \/
  (forall a, finite64 a -> (x =? a)%float = false /\ (x <? a)%float = false /\ (a <? x)%float = true).
Proof.
  unfold finite64; destruct (Prim2SF x) as [s|s| |s m e] eqn:E; intros H; try (exfalso; apply H; exact I).
  - destruct s; [right; left|right; right]; intros a Ha; rewrite ?FloatAxioms.eqb_spec, ?FloatAxioms.ltb_spec, E;
      destruct (Prim2SF a) as [s'|s'| |s' m' e'] eqn:Ea; try contradiction; try destruct s'; split; try split; reflexivity.
  - left; intros a Ha; rewrite ?FloatAxioms.eqb_spec, ?FloatAxioms.ltb_spec, ?FloatAxioms.leb_spec, E.
    destruct (Prim2SF a) as [s'|s'| |s' m' e'] eqn:Ea; try contradiction; try destruct s'; repeat split; reflexivity.
Qed.

Lemma zero_ob_round q (N : list Binary64) x i f : (0 <= i)%Z -> (i + Z.of_nat p + 1 < len U)%Z -> (S q <= p)%nat ->
  let m := Z.to_nat (i + Z.of_nat p + 1) in
  N = tab m f -> (forall j, f j = (0%num : Binary64)) ->
  exists f', ob_round (Z.of_nat p) U i x (Z.of_nat (S q)) N = Ok (tab m f') /\ forall j, f' j = (0%num : Binary64).
Proof.
  intros Hi Hlen Hq m -> Hf; unfold ob_round.
  rewrite aget_tab by lia; cbn [bind]; rewrite Hf.
  change (neqb (0%num : Binary64) (0%num : Binary64)) with true; cbn [negb bind].
  destruct (for_range_inv (fun j st => exists h, fst st = tab m h /\ snd st = (0%num : Binary64) /\ forall r, h r = (0%num : Binary64))
    0 (Z.of_nat p - Z.of_nat (S q) + 1) (ob_inner U i x (Z.of_nat (S q)))
    (tab m f, (0%num : Binary64))) as ([N sv] & E & h & EN & _ & Hh).
  - lia.
  - exists f; auto.
  - intros j [N sv] Hj (h & EN & Es & Hh); cbn [fst snd] in *; subst N sv.
    unfold ob_inner; rewrite !aU by lia; cbn [bind fst snd].
    rewrite aget_tab by lia; cbn [bind]; rewrite Hh.
    change (neqb (0%num : Binary64) (0%num : Binary64)) with true; cbv iota.
    rewrite aset_tab by lia; cbn [bind]; eexists; split; [reflexivity|]; cbn [fst snd].
    eexists; split; [reflexivity|split; [reflexivity|]]; intros r; unfold fupd; destruct (r =? j)%Z; [reflexivity|apply Hh].
  - rewrite E; cbn [bind fst]; cbn [fst] in EN; subst N; exists h; auto.
Qed.

Lemma one_basis_special i (x : Binary64) : (0 <= i < n)%Z -> ~ finite64 x ->
  one_basis_function (Z.of_nat p) U i x = Ok (0%num : Binary64).
Proof.
  intros Hi Fx; destruct HT as (HC & _ & _).
  destruct (clamped_facts _ _ _ HC) as (_ & Hn & HL & HU & _).
  assert (HL' : len U = (n + Z.of_nat p + 1)%Z) by exact (eq_trans (eq_sym (len_values U)) HL); clear HL; rename HL' into HL.
  assert (FU : forall j, (0 <= j < len U)%Z -> finite64 (fU U j)) by (intros j Hj; apply (fU_val U HW j Hj)).
  pose proof (not_finite_cases x Fx) as Hcase.
  assert (ES : ob_special (Z.of_nat p) U i x = Ok false).
  { assert (HQ : forall a, finite64 a -> neqb x a = false).
    { intros a Ha; destruct Hcase as [H|[H|H]]; apply (H a Ha). }
    unfold ob_special; change (zlen U) with (len U).
    destruct (i =? 0)%Z; cbn [bind]; [rewrite aU by lia; cbn [bind]; rewrite HQ by (apply FU; lia)|];
    (destruct (i =? len U - Z.of_nat p - 2)%Z; [rewrite aU by lia; cbn [bind]; rewrite HQ by (apply FU; lia)|]; reflexivity). }
  unfold one_basis_function; rewrite ES; cbn [bind]; unfold ob_outside; rewrite !aU by lia; cbn [bind].
  destruct Hcase as [H|[H|H]].
  - change (nltb x (fU U i)) with (PrimFloat.ltb x (fU U i)).
    rewrite (proj1 (proj2 (proj2 (H _ (FU i ltac:(lia)))))); cbn [bind].
    change (nltb (fU U (i + Z.of_nat p + 1)) x) with (PrimFloat.ltb (fU U (i + Z.of_nat p + 1)) x).
    rewrite (proj2 (proj2 (proj2 (H _ (FU (i + Z.of_nat p + 1)%Z ltac:(lia)))))).
    set (m := Z.to_nat (i + Z.of_nat p + 1)).
    rewrite (np_full_tab' _ m) by lia; cbn [bind].
    assert (EB : for_range 0 (Z.of_nat p + 1) (fun j N =>
      let* b := in_half_open U x (i + j) in
      if b then aset N j (1%num : Binary64) else Ok N) (tab m (fun _ => (0%num : Binary64))) = Ok (tab m (fun _ => (0%num : Binary64)))).
    { destruct (for_range_inv (fun _ N => N = tab m (fun _ => (0%num : Binary64))) 0 (Z.of_nat p + 1) (fun j N =>
        let* b := in_half_open U x (i + j) in
        if b then aset N j (1%num : Binary64) else Ok N) (tab m (fun _ => (0%num : Binary64)))) as (N & E & EN).
      - lia.
      - reflexivity.
      - intros j N Hj ->; unfold in_half_open; rewrite aU by lia; cbn [bind].
        change (nleb (fU U (i + j)) x) with (PrimFloat.leb (fU U (i + j)) x).
        rewrite (proj1 (H _ (FU (i + j)%Z ltac:(lia)))); cbn [bind]; eauto.
      - rewrite E, EN; reflexivity. }
    rewrite EB; clear EB; cbn [bind].
    destruct (for_range_inv (fun _ N => exists f, N = tab m f /\ forall j, f j = (0%num : Binary64)) 1 (Z.of_nat p + 1)
      (ob_round (Z.of_nat p) U i x) (tab m (fun _ => (0%num : Binary64)))) as (N & E & f & EN & Hf).
    + lia.
    + eauto.
    + intros t N Ht (f & EN & Hf).
      destruct (zero_ob_round (Z.to_nat (t - 1)) N x i f ltac:(lia) ltac:(lia) ltac:(lia) EN Hf) as (f' & E' & Hf').
      replace (Z.of_nat (S (Z.to_nat (t - 1)))) with t in E' by lia; eauto.
    + rewrite E; cbn [bind]; rewrite EN, aget_tab by lia; rewrite Hf; reflexivity.
  - change (nltb x (fU U i)) with (PrimFloat.ltb x (fU U i)).
    rewrite (proj2 (H _ (FU i ltac:(lia)))); reflexivity.
  - change (nltb x (fU U i)) with (PrimFloat.ltb x (fU U i)).
    rewrite (proj1 (proj2 (H _ (FU i ltac:(lia))))); cbn [bind].
    change (nltb (fU U (i + Z.of_nat p + 1)) x) with (PrimFloat.ltb (fU U (i + Z.of_nat p + 1)) x).
    rewrite (proj2 (proj2 (H _ (FU (i + Z.of_nat p + 1)%Z ltac:(lia))))); reflexivity.
Qed.
End Top.
