(** [one_basis_function] (model: ModelBasis.v) on binary64 numbers: the loops. *)
From Coq Require Import Reals Lra Lia ZArith List Floats.
From Flocq Require Import Core.Core.
From Verif Require Import Py PyLemmas Num ModelBasis Spec SpecB64 MathCox MathKnots ProofBasis ProofOneBasis ProofB64 ProofB64Basis ProofB64One.
Import ListNotations.
Open Scope R_scope.

Lemma c64_small : c64 * 2 ^ 100 <= 1.
Proof.
  unfold c64; replace (2 ^ 100) with (bpow radix2 100) by (rewrite bpow_powerRZ; reflexivity).
  rewrite <- bpow_plus; apply (bpow_le radix2 _ 0); lia.
Qed.

(** The error of one new entry. *)
Lemma entry_err u q A1 A2 n1 n2 m1 m2 g1 g2 c e T :
  0 < u <= /1000 -> 0 <= q -> 43 * q * u <= /10 -> 0 <= A1 -> 0 <= A2 -> 0 <= n1 -> 0 <= n2 -> 0 <= g1 -> 0 <= g2 -> 0 <= c ->
  T = A1 * n1 + A2 * n2 ->
  Rabs (m1 - n1) <= 7 * q * u * n1 + g1 -> Rabs (m2 - n2) <= 7 * q * u * n2 + g2 ->
  e <= (1 + u) * ((A1 * ((1 + 5 * u) * Rabs (m1 - n1) + 5 * u * n1) + c) + (A2 * ((1 + 5 * u) * Rabs (m2 - n2) + 5 * u * n2) + c)) + u * T ->
  e <= 7 * (q + 1) * u * T + ((1 + 7 * u) * (A1 * g1 + A2 * g2) + 3 * c).
Proof.
  intros Hu Hq Hqu H1 H2 Hn1 Hn2 Hg1 Hg2 Hc -> B1 B2 He.
  eapply Rle_trans; [exact He|]; clear He e.
  set (w := (1 + u) * (1 + 5 * u)).
  assert (W : w <= 1 + 61/10 * u) by (unfold w; nra).
  assert (W1 : 1 <= w) by (unfold w; nra).
  assert (Hqu0 : 0 <= q * u) by nra.
  assert (K : forall A n m g, 0 <= A -> 0 <= n -> 0 <= g -> Rabs (m - n) <= 7 * q * u * n + g ->
     (1 + u) * (A * ((1 + 5 * u) * Rabs (m - n) + 5 * u * n)) + u * (A * n) <= 7 * (q + 1) * u * (A * n) + (1 + 7 * u) * (A * g)).
  { intros A n m g HA Hn Hg Hm.
    assert (HAn : 0 <= A * n) by nra; assert (HAg : 0 <= A * g) by nra.
    apply Rle_trans with (w * (7 * (q * u)) * (A * n) + w * (A * g) + (1 + u) * (5 * u) * (A * n) + u * (A * n)).
    - assert (A * Rabs (m - n) <= 7 * (q * u) * (A * n) + A * g).
      { apply Rle_trans with (A * (7 * q * u * n + g)); [apply Rmult_le_compat_l; assumption|right; ring]. }
      replace ((1 + u) * (A * ((1 + 5 * u) * Rabs (m - n) + 5 * u * n))) with (w * (A * Rabs (m - n)) + (1 + u) * (5 * u) * (A * n)) by (unfold w; ring).
      assert (w * (A * Rabs (m - n)) <= w * (7 * (q * u) * (A * n) + A * g)) by (apply Rmult_le_compat_l; lra).
      lra.
    - assert (w * (A * g) <= (1 + 7 * u) * (A * g)) by (apply Rmult_le_compat_r; lra).
      assert (w * (7 * (q * u)) + (1 + u) * (5 * u) + u <= 7 * (q + 1) * u).
      { apply Rle_trans with ((1 + 61/10 * u) * (7 * (q * u)) + (1 + u) * (5 * u) + u).
        - assert (w * (7 * (q * u)) <= (1 + 61/10 * u) * (7 * (q * u))) by (apply Rmult_le_compat_r; lra); lra.
        - replace ((1 + 61/10 * u) * (7 * (q * u)) + (1 + u) * (5 * u) + u)
            with (7 * (q * u) + (427/10 * q * u) * u + 5 * u * u + 6 * u) by field.
          assert ((427/10 * q * u) * u <= /10 * u) by (apply Rmult_le_compat_r; nra).
          assert (5 * u * u <= /100 * u) by (apply Rmult_le_compat_r; lra).
          lra. }
      assert ((w * (7 * (q * u)) + (1 + u) * (5 * u) + u) * (A * n) <= 7 * (q + 1) * u * (A * n)) by (apply Rmult_le_compat_r; assumption).
      lra. }
  pose proof (K A1 n1 m1 g1 H1 Hn1 Hg1 B1) as K1; pose proof (K A2 n2 m2 g2 H2 Hn2 Hg2 B2) as K2.
  assert ((1 + u) * c <= 3/2 * c) by (apply Rmult_le_compat_r; lra).
  lra.
Qed.

Section One.
Variables (U : list Binary64) (i : Z) (x : Binary64) (p : nat).
Hypothesis HW : within 0 1 U.
Hypothesis HU : nondecreasing (values U).
Hypothesis Hgap : forall j, kn (values U) j < kn (values U) (j + 1) ->
  bpow radix2 (-500) <= kn (values U) (j + 1) - kn (values U) j.
Hypothesis Fx : finite64 x.
Hypothesis Hi : (0 <= i)%Z.
Hypothesis Hlen : (i + Z.of_nat p + 1 < len U)%Z.
Hypothesis Hp : INR p <= 2 ^ 40.

Notation k := (kn (values U)).
Notation v := (value x).
Notation C q j := (cox (hbase (values U) v) (kn (values U)) q j v).
Notation M q j := (Mx (hbase (values U) v) (kn (values U)) q j v).
Notation m := (Z.to_nat (i + Z.of_nat p + 1)).

(** *** Exact functions *)
Lemma hbase_in r : hbase (values U) v r <> 0 -> k r <= v < k (r + 1).
Proof.
  unfold hbase; destruct (Rle_dec (k r) v); [|intros H; contradiction].
  destruct (Rlt_dec v (k (r + 1))); [lra|intros H; contradiction].
Qed.
Lemma hbase_search a n : (exists s, (a <= s < a + Z.of_nat n)%Z /\ hbase (values U) v s = 1) \/
  (forall r, (a <= r < a + Z.of_nat n)%Z -> hbase (values U) v r = 0).
Proof.
  induction n as [|n IH]; [right; intros; lia|].
  destruct IH as [(s & Hs & E)|IH]; [left; exists s; split; [lia|exact E]|].
  destruct (hbase_01 (values U) v (a + Z.of_nat n)) as [E|E].
  - right; intros r Hr; destruct (Z.eq_dec r (a + Z.of_nat n)) as [->|]; [exact E|apply IH; lia].
  - left; exists (a + Z.of_nat n)%Z; split; [lia|exact E].
Qed.
Lemma hbase_one s r : hbase (values U) v s = 1 -> hbase (values U) v r = delta s r.
Proof.
  intros Hs; destruct (Z.eq_dec r s) as [->|Hne]; [rewrite delta_same; exact Hs|rewrite delta_other by exact Hne].
  destruct (hbase_01 (values U) v r) as [E|E]; [exact E|exfalso].
  pose proof (hbase_in s ltac:(lra)); pose proof (hbase_in r ltac:(lra)).
  destruct (Z_lt_dec r s).
  - pose proof (kn_mono _ HU (r + 1) s ltac:(lia)); lra.
  - pose proof (kn_mono _ HU (s + 1) r ltac:(lia)); lra.
Qed.
Lemma C_range q j : 0 <= C q j <= 1.
Proof.
  destruct (hbase_search j (S q)) as [(s & _ & E)|E].
  - assert (EC : C q j = piece (values U) s q j v).
    { unfold piece; apply cox_ext; [|reflexivity]; intros r _; apply (hbase_one s r E). }
    pose proof (hbase_in s ltac:(lra)); rewrite EC; split; [apply piece_nonneg|apply piece_le_1]; try exact HU; lra.
  - rewrite cox_zero by (intros r Hr; apply E; lia); lra.
Qed.
Lemma C_supp q j : C q j <> 0 -> k j <= v <= k (j + Z.of_nat q + 1) /\ bpow radix2 (-500) <= k (j + Z.of_nat q + 1) - k j.
Proof.
  intros HC; destruct (hbase_search j (S q)) as [(s & Hs & E)|E].
  - pose proof (hbase_in s ltac:(lra)).
    pose proof (kn_mono _ HU j s ltac:(lia)); pose proof (kn_mono _ HU (s + 1) (j + Z.of_nat q + 1) ltac:(lia)).
    pose proof (Hgap s ltac:(lra)); lra.
  - exfalso; apply HC, cox_zero; intros r Hr; apply E; lia.
Qed.

Definition wA (q : nat) (j : Z) : R := if Req_EM_T (C q j) 0 then 0 else (v - k j) / (k (j + Z.of_nat q + 1) - k j).
Definition wB (q : nat) (j : Z) : R := if Req_EM_T (C q j) 0 then 0 else (k (j + Z.of_nat q + 1) - v) / (k (j + Z.of_nat q + 1) - k j).
Lemma w_facts q j : 0 <= wA q j /\ 0 <= wB q j /\ wA q j + wB q j <= 1 /\
  (v - k j) * M q j = wA q j * C q j /\ (k (j + Z.of_nat q + 1) - v) * M q j = wB q j * C q j.
Proof.
  unfold wA, wB; destruct (Req_EM_T (C q j) 0) as [E|E].
  - rewrite M_zero by exact E; lra.
  - rewrite (M_nz (values U) v p HU) by exact E; apply C_supp in E as (H1 & H2); pose proof (bpow_gt_0 radix2 (-500)) as P.
    set (D := k (j + Z.of_nat q + 1) - k j) in *.
    assert (HD : 0 < / D) by (apply Rinv_0_lt_compat; lra).
    repeat split.
    + apply Rmult_le_pos; lra.
    + apply Rmult_le_pos; lra.
    + right; unfold D; field; fold D; lra.
    + unfold Rdiv; ring.
    + unfold Rdiv; ring.
Qed.
Lemma C_step q j : C (S q) j = wA q j * C q j + wB q (j + 1) * C q (j + 1).
Proof.
  destruct (w_facts q j) as (_ & _ & _ & E1 & _); destruct (w_facts q (j + 1)) as (_ & _ & _ & _ & E2).
  rewrite cox_S, <- E1, <- E2; do 3 f_equal; f_equal; lia.
Qed.

(** *** The computed entries *)
Lemma aU j : (0 <= j < len U)%Z -> aget U j = Ok (fU U j).
Proof.
  intros Hj; rewrite (aget_nth U j (0%num : Binary64)) by exact Hj; reflexivity.
Qed.
Definition lev (q : nat) (f : Z -> Binary64) (g : Z -> R) : Prop :=
  (forall j, (0 <= j <= Z.of_nat p - Z.of_nat q)%Z ->
     finite64 (f j) /\ 0 <= value (f j) /\ (C q (i + j) = 0 -> value (f j) = 0) /\
     Rabs (value (f j) - C q (i + j)) <= 7 * INR q * ulp64 * C q (i + j) + g j /\ 0 <= g j) /\
  zsum 0 (S (p - q)) g <= 4 * INR q * (INR p + 1) * c64.

Definition ok_lev (q : nat) (N : list Binary64) : Prop := exists f g, N = tab m f /\ lev q f g.

Lemma half_open64 j : (0 <= j)%Z -> (j + 1 < len U)%Z ->
  in_half_open U x j = Ok (if Req_EM_T (hbase (values U) v j) 1 then true else false).
Proof.
  intros H1 H2; unfold in_half_open.
  destruct (fU_val U HW j ltac:(lia)) as (F & V & _); destruct (fU_val U HW (j + 1) ltac:(lia)) as (F' & V' & _).
  rewrite (aU j) by lia; cbn [bind].
  change (nleb (fU U j) x) with (PrimFloat.leb (fU U j) x); rewrite leb64, V by assumption.
  unfold hbase; destruct (Rle_bool_spec (k j) v) as [A|A].
  - destruct (Rle_dec (k j) v); [|lra].
    rewrite (aU (j + 1)) by lia; cbn [bind].
    change (nltb x (fU U (j + 1))) with (PrimFloat.ltb x (fU U (j + 1))); rewrite ltb64, V' by assumption.
    destruct (Rlt_bool_spec v (k (j + 1))); destruct (Rlt_dec v (k (j + 1))); try lra;
      destruct (Req_EM_T _ _); try reflexivity; lra.
  - destruct (Rle_dec (k j) v); [lra|]; destruct (Req_EM_T 0 1); [lra|reflexivity].
Qed.

Lemma ob_base64 :
  exists N, for_range 0 (Z.of_nat p + 1) (fun j N =>
      let* b := in_half_open U x (i + j) in
      if b then aset N j (1%num : Binary64) else Ok N) (tab m (fun _ => (0%num : Binary64))) = Ok N /\ ok_lev 0 N.
Proof.
  destruct (for_range_inv (fun t N => exists f, N = tab m f /\
      forall j, (0 <= j <= Z.of_nat p)%Z -> finite64 (f j) /\ value (f j) = (if (j <? t)%Z then hbase (values U) v (i + j) else 0))
    0 (Z.of_nat p + 1) (fun j N =>
      let* b := in_half_open U x (i + j) in
      if b then aset N j (1%num : Binary64) else Ok N) (tab m (fun _ => (0%num : Binary64))))
    as (N & E & f & EN & Hf).
  - lia.
  - exists (fun _ => (0%num : Binary64)); split; [reflexivity|].
    intros j Hj; split; [exact finite_0|]; destruct (Z.ltb_spec j 0); [lia|apply value_0].
  - intros t N Ht (f & -> & Hf); rewrite half_open64 by lia; cbn [bind].
    destruct (Req_EM_T (hbase (values U) v (i + t)) 1) as [E|E].
    + rewrite aset_tab by lia; eexists; split; [reflexivity|]; eexists; split; [reflexivity|].
      intros j Hj; unfold fupd; destruct (Z.eqb_spec j t) as [->|].
      * destruct (Z.ltb_spec t (t + 1)); [|lia]; rewrite E; split; [exact finite_1|exact value_1].
      * destruct (Hf j ltac:(lia)) as (F & ->); split; [exact F|].
        destruct (Z.ltb_spec j t); destruct (Z.ltb_spec j (t + 1)); try lia; reflexivity.
    + eexists; split; [reflexivity|]; exists f; split; [reflexivity|].
      intros j Hj; destruct (Hf j ltac:(lia)) as (F & ->); split; [exact F|].
      destruct (Z.ltb_spec j t); destruct (Z.ltb_spec j (t + 1)); try lia; try reflexivity.
      replace j with t by lia; destruct (hbase_01 (values U) v (i + t)) as [->|E']; [reflexivity|contradiction].
  - exists N; split; [exact E|]; exists f, (fun _ => 0); split; [exact EN|]; split.
    + intros j Hj; destruct (Hf j ltac:(lia)) as (F & V).
      destruct (Z.ltb_spec j (Z.of_nat p + 1)); [|lia].
      cbn [cox]; rewrite V; split; [exact F|].
      destruct (hbase_01 (values U) v (i + j)) as [->| ->]; cbn [INR]; rewrite Rminus_diag_eq, Rabs_R0 by reflexivity; repeat split; lra.
    + rewrite zsum_0 by reflexivity; cbn [INR]; lra.
Qed.

Lemma small_q q : (q <= p)%nat -> 0 <= INR q /\ 43 * INR q * ulp64 <= /10.
Proof.
  intros Hq; assert (INR q <= 2 ^ 40) by (apply le_INR in Hq; lra).
  assert (0 <= INR q) by apply pos_INR; split; [assumption|].
  unfold ulp64; apply (Rmult_le_reg_r (2 ^ 53)); [apply pow_lt; lra|].
  rewrite Rmult_assoc, Rinv_l by (apply pow_nonzero; lra); lra.
Qed.
Lemma small_G q : (q <= p)%nat -> 4 * INR q * (INR p + 1) * c64 <= /10.
Proof.
  intros Hq; assert (H1 : INR q <= 2 ^ 40) by (apply le_INR in Hq; lra).
  assert (H2 : 0 <= INR q) by apply pos_INR; assert (H3 : 0 <= INR p) by apply pos_INR; pose proof c64_pos as P; pose proof c64_small as CS.
  assert (INR q * (INR p + 1) <= 2 ^ 40 * (2 ^ 40 + 1)) by (apply Rmult_le_compat; lra).
  assert (4 * (INR q * (INR p + 1)) * c64 <= 4 * (2 ^ 40 * (2 ^ 40 + 1)) * c64) by (apply Rmult_le_compat_r; lra).
  lra.
Qed.
Lemma lev_term q f g j : lev q f g -> (0 <= j <= Z.of_nat p - Z.of_nat q)%Z -> (q <= p)%nat -> g j <= 4 * INR q * (INR p + 1) * c64.
Proof.
  intros (H & HS) Hj Hq; apply Rle_trans with (2 := HS).
  rewrite (zsum_ext 0 (S (p - q)) g (fun r => Rabs (g r))).
  - rewrite <- (Rabs_right (g j)) by (apply Rle_ge, H; exact Hj).
    apply (zsum_term p (S (p - q)) (fun r => Rabs (g r))); [lia|intros; apply Rabs_pos].
  - intros r Hr; symmetry; apply Rabs_right, Rle_ge, H; lia.
Qed.
Lemma lev_2 q f g j : lev q f g -> (0 <= j <= Z.of_nat p - Z.of_nat q)%Z -> (q <= p)%nat -> value (f j) <= 2.
Proof.
  intros HL Hj Hq; pose proof (lev_term q f g j HL Hj Hq) as Hg; pose proof (small_G q Hq) as HG.
  destruct HL as (H & _); destruct (H j Hj) as (_ & _ & _ & B & _).
  pose proof (C_range q (i + j)) as HC; destruct (small_q q Hq) as (Hq0 & Hqu).
  apply Rabs_le_inv in B; pose proof ulp64_pos.
  assert (0 <= INR q * ulp64) by (apply Rmult_le_pos; lra).
  assert (7 * INR q * ulp64 * C q (i + j) <= 7 * INR q * ulp64 * 1) by (apply Rmult_le_compat_l; lra).
  lra.
Qed.

Lemma neq0 (y : Binary64) : finite64 y -> neqb y (0%num : Binary64) = Req_bool (value y) 0.
Proof.
  intros F; change (neqb y (0%num : Binary64)) with (PrimFloat.eqb y (0%num : Binary64)).
  rewrite eqb64 by (assumption || exact finite_0); rewrite value_0; reflexivity.
Qed.

(** The left part of entry [j] of level [q]. *)
Definition left_ok (q : nat) (f : Z -> Binary64) (j : Z) (y : Binary64) : Prop :=
  finite64 y /\ 0 <= value y <= bpow radix2 502 /\ (wA q (i + j) * C q (i + j) = 0 -> value y = 0) /\
  Rabs (value y - wA q (i + j) * C q (i + j))
    <= wA q (i + j) * ((1 + 5 * ulp64) * Rabs (value (f j) - C q (i + j)) + 5 * ulp64 * C q (i + j)) + c64.
Definition right_ok (q : nat) (f : Z -> Binary64) (j : Z) (y : Binary64) : Prop :=
  finite64 y /\ 0 <= value y <= bpow radix2 502 /\ (wB q (i + j) * C q (i + j) = 0 -> value y = 0) /\
  Rabs (value y - wB q (i + j) * C q (i + j))
    <= wB q (i + j) * ((1 + 5 * ulp64) * Rabs (value (f j) - C q (i + j)) + 5 * ulp64 * C q (i + j)) + c64.

Lemma zero_part w n u c : 0 < u -> 0 <= c -> 0 <= w -> 0 <= n -> Rabs (0 - w * n) <= w * ((1 + 5 * u) * Rabs (0 - n) + 5 * u * n) + c.
Proof.
  intros Hu Hc Hw Hn.
  replace (0 - w * n) with (- (w * n)) by ring; replace (0 - n) with (- n) by ring.
  rewrite !Rabs_Ropp, (Rabs_right n), (Rabs_right (w * n)) by nra.
  assert (0 <= w * n) by nra; assert (0 <= u * (w * n)) by nra.
  replace (w * ((1 + 5 * u) * n + 5 * u * n)) with (w * n + 10 * (u * (w * n))) by ring; lra.
Qed.
Lemma left_zero q f j : value (f j) = 0 -> left_ok q f j (0%num : Binary64).
Proof.
  intros E; unfold left_ok; rewrite value_0, E; split; [exact finite_0|split; [|split; [reflexivity|]]].
  - pose proof (bpow_gt_0 radix2 502); lra.
  - apply zero_part; [apply ulp64_pos|apply Rlt_le, c64_pos|apply w_facts|apply C_range].
Qed.
Lemma right_zero q f j : value (f j) = 0 -> right_ok q f j (0%num : Binary64).
Proof.
  intros E; unfold right_ok; rewrite value_0, E; split; [exact finite_0|split; [|split; [reflexivity|]]].
  - pose proof (bpow_gt_0 radix2 502); lra.
  - apply zero_part; [apply ulp64_pos|apply Rlt_le, c64_pos|apply w_facts|apply C_range].
Qed.

(** The parts of an entry that is not zero. *)
Lemma parts_nz q f g j : (S q <= p)%nat -> lev q f g -> (0 <= j <= Z.of_nat p - Z.of_nat q)%Z -> value (f j) <> 0 ->
  let a := fU U (i + j) in let b := fU U (i + j + Z.of_nat q + 1) in
  left_ok q f j ((x - a) * (f j / (b - a)))%float /\
  left_ok q f j ((x - a) * f j / (b - a))%float /\
  right_ok q f j ((b - x) * (f j / (b - a)))%float.
Proof.
  intros Hq HL Hj Hnz a b.
  pose proof (lev_2 q f g j HL Hj ltac:(lia)) as B2.
  destruct HL as (H & _); destruct (H j Hj) as (Ff & B0 & HC0 & _ & _).
  assert (HC : C q (i + j) <> 0) by (intros E; apply Hnz, HC0, E).
  destruct (C_supp q (i + j) HC) as (Hv & HD).
  destruct (fU_val U HW (i + j) ltac:(lia)) as (Fa & Va & Ba).
  destruct (fU_val U HW (i + j + Z.of_nat q + 1) ltac:(lia)) as (Fb & Vb & Bb).
  fold a in Fa, Va; fold b in Fb, Vb.
  pose proof (bpow_gt_0 radix2 (-500)) as P500.
  destruct (dist64 a b Fa Fb) as (Fd & Bd & e3 & He3 & Ed); [lra|lra|lra|].
  destruct (dist64 a x Fa Fx) as (Fl & Bl & e1 & He1 & El); [lra|lra|lra|].
  destruct (dist64 x b Fx Fb) as (Fr & Br & e2 & He2 & Er); [lra|lra|lra|].
  rewrite Va, Vb in *.
  assert (EA : wA q (i + j) = (v - k (i + j)) / (k (i + j + Z.of_nat q + 1) - k (i + j))).
  { unfold wA; destruct (Req_EM_T _ 0); [contradiction|reflexivity]. }
  assert (EB : wB q (i + j) = (k (i + j + Z.of_nat q + 1) - v) / (k (i + j + Z.of_nat q + 1) - k (i + j))).
  { unfold wB; destruct (Req_EM_T _ 0); [contradiction|reflexivity]. }
  pose proof (C_range q (i + j)) as HCr.
  set (n := C q (i + j)) in *; set (D := k (i + j + Z.of_nat q + 1) - k (i + j)) in *.
  assert (KP : forall X y, part_ok X D n (value (f j)) y ->
     finite64 y /\ 0 <= value y <= bpow radix2 502 /\ (X / D * n = 0 -> value y = 0) /\
     Rabs (value y - X / D * n) <= X / D * ((1 + 5 * ulp64) * Rabs (value (f j) - n) + 5 * ulp64 * n) + c64).
  { intros X y (F & B & Z0 & Er'); split; [exact F|split; [exact B|split]].
    - intros E; apply Z0; apply Rmult_integral in E as [E|E]; [|contradiction].
      apply Rmult_integral in E as [E|E]; [exact E|exfalso].
      assert (0 < / D) by (apply Rinv_0_lt_compat; lra); lra.
    - replace (X / D * n) with (X * (n / D)) by (unfold Rdiv; ring); exact Er'. }
  assert (HD1 : bpow radix2 (-500) <= D <= 1) by (split; [exact HD|unfold D; lra]).
  unfold left_ok, right_ok; fold n; rewrite EA, EB.
  split; [|split]; apply KP.
  - apply (part1_ok (x - a)%float (b - a)%float (f j) (v - k (i + j)) D n e1 e3); try assumption; unfold D; lra.
  - apply (part2_ok (x - a)%float (b - a)%float (f j) (v - k (i + j)) D n e1 e3); try assumption; unfold D; lra.
  - apply (part1_ok (b - x)%float (b - a)%float (f j) (k (i + j + Z.of_nat q + 1) - v) D n e2 e3); try assumption; unfold D; lra.
Qed.

Definition gnext (q : nat) (g : Z -> R) (r : Z) : R :=
  (1 + 7 * ulp64) * (wA q (i + r) * g r + wB q (i + (r + 1)) * g (r + 1)%Z) + 3 * c64.

(** New entry from its two parts. *)
Definition new_ok (q : nat) (g : Z -> R) (r : Z) (y : Binary64) : Prop :=
  finite64 y /\ 0 <= value y /\ (C (S q) (i + r) = 0 -> value y = 0) /\
  Rabs (value y - C (S q) (i + r)) <= 7 * INR (S q) * ulp64 * C (S q) (i + r) + gnext q g r.

Lemma new_err q f g r y e : (S q <= p)%nat -> lev q f g -> (0 <= r < Z.of_nat p - Z.of_nat q)%Z ->
  Rabs (value y - C (S q) (i + r)) <= e ->
  e <= (1 + ulp64) * ((wA q (i + r) * ((1 + 5 * ulp64) * Rabs (value (f r) - C q (i + r)) + 5 * ulp64 * C q (i + r)) + c64)
     + (wB q (i + (r + 1)) * ((1 + 5 * ulp64) * Rabs (value (f (r + 1)%Z) - C q (i + (r + 1))) + 5 * ulp64 * C q (i + (r + 1))) + c64))
     + ulp64 * C (S q) (i + r) ->
  Rabs (value y - C (S q) (i + r)) <= 7 * INR (S q) * ulp64 * C (S q) (i + r) + gnext q g r.
Proof.
  intros Hq (HL & _) Hr H1 H2; eapply Rle_trans; [exact H1|]; rewrite S_INR; unfold gnext.
  destruct (HL r ltac:(lia)) as (_ & _ & _ & B1 & G1); destruct (HL (r + 1)%Z ltac:(lia)) as (_ & _ & _ & B2 & G2).
  destruct (small_q q ltac:(lia)) as (Q0 & Q1).
  destruct (w_facts q (i + r)) as (WA & _); destruct (w_facts q (i + (r + 1))) as (_ & WB & _).
  eapply entry_err with (7 := proj1 (C_range q (i + (r + 1)))) (6 := proj1 (C_range q (i + r))) (m1 := value (f r)) (m2 := value (f (r + 1)%Z)); try assumption.
  - apply ulp64_small.
  - apply Rlt_le, c64_pos.
  - rewrite C_step; do 3 f_equal; lia.
Qed.
Lemma new_sum q f g r y z : (S q <= p)%nat -> lev q f g -> (0 <= r < Z.of_nat p - Z.of_nat q)%Z ->
  left_ok q f r y -> right_ok q f (r + 1) z -> new_ok q g r (y + z)%float.
Proof.
  intros Hq HL Hr (Fy & By & Zy & Ey) (Fz & Bz & Zz & Ez).
  destruct (w_facts q (i + r)) as (WA & _); destruct (w_facts q (i + (r + 1))) as (_ & WB & _).
  pose proof (C_range q (i + r)); pose proof (C_range q (i + (r + 1))).
  assert (ET : C (S q) (i + r) = wA q (i + r) * C q (i + r) + wB q (i + (r + 1)) * C q (i + (r + 1))).
  { rewrite C_step; replace (i + r + 1)%Z with (i + (r + 1))%Z by lia; reflexivity. }
  assert (P1 : 0 <= wA q (i + r) * C q (i + r)) by (apply Rmult_le_pos; lra).
  assert (P2 : 0 <= wB q (i + (r + 1)) * C q (i + (r + 1))) by (apply Rmult_le_pos; lra).
  destruct (sum_ok y z _ _ _ _ Fy Fz By Bz Ey Ez P1 P2) as (F & B & Z0 & E).
  split; [exact F|split; [exact B|split]].
  - intros E0; apply Z0; [apply Zy|apply Zz]; lra.
  - eapply new_err; [exact Hq|exact HL|exact Hr| |apply Rle_refl]; rewrite ET; exact E.
Qed.
Lemma new_left q f g r y : (S q <= p)%nat -> lev q f g -> (0 <= r < Z.of_nat p - Z.of_nat q)%Z ->
  left_ok q f r y -> value (f (r + 1)%Z) = 0 -> new_ok q g r y.
Proof.
  intros Hq HL Hr (Fy & By & Zy & Ey) H0.
  destruct (w_facts q (i + r)) as (WA & _); destruct (w_facts q (i + (r + 1))) as (_ & WB & _).
  pose proof (C_range q (i + r)); pose proof (C_range q (i + (r + 1))).
  assert (ET : C (S q) (i + r) = wA q (i + r) * C q (i + r) + wB q (i + (r + 1)) * C q (i + (r + 1))).
  { rewrite C_step; replace (i + r + 1)%Z with (i + (r + 1))%Z by lia; reflexivity. }
  destruct (right_zero q f (r + 1) H0) as (_ & _ & _ & Ez); rewrite value_0 in Ez.
  assert (P1 : 0 <= wA q (i + r) * C q (i + r)) by (apply Rmult_le_pos; lra).
  assert (P2 : 0 <= wB q (i + (r + 1)) * C q (i + (r + 1))) by (apply Rmult_le_pos; lra).
  split; [exact Fy|split; [lra|split]].
  - intros E0; apply Zy; lra.
  - eapply new_err; [exact Hq|exact HL|exact Hr|apply Rle_refl|].
    pose proof ulp64_pos as Hu.
    set (X1 := wA q (i + r) * (_ + _) + c64) in *; set (X2 := wB q (i + (r + 1)) * (_ + _) + c64) in *.
    assert (T : Rabs (value y - C (S q) (i + r)) <= X1 + X2).
    { rewrite ET; replace (value y - (wA q (i + r) * C q (i + r) + wB q (i + (r + 1)) * C q (i + (r + 1))))
        with ((value y - wA q (i + r) * C q (i + r)) + (0 - wB q (i + (r + 1)) * C q (i + (r + 1)))) by ring.
      apply Rle_trans with (1 := Rabs_triang _ _); lra. }
    pose proof (Rabs_pos (value y - C (S q) (i + r))).
    pose proof (proj1 (C_range (S q) (i + r))).
    assert (0 <= ulp64 * C (S q) (i + r)) by (apply Rmult_le_pos; lra).
    assert (0 <= ulp64 * (X1 + X2)) by (apply Rmult_le_pos; lra).
    lra.
Qed.

Lemma gnext_sum q f g : (S q <= p)%nat -> lev q f g ->
  zsum 0 (S (p - S q)) (gnext q g) <= 4 * INR (S q) * (INR p + 1) * c64.
Proof.
  intros Hq (HL & HS).
  replace (S (p - S q)) with (p - q)%nat by lia.
  assert (E : zsum 0 (p - q) (gnext q g) = (1 + 7 * ulp64) * zsum 0 (p - q) (fun r => wA q (i + r) * g r + wB q (i + (r + 1)) * g (r + 1)%Z) + 3 * c64 * INR (p - q)).
  { generalize (p - q)%nat as t; induction t as [|t IH]; [cbn; ring|]; cbn [zsum]; rewrite IH, S_INR; unfold gnext; ring. }
  rewrite E; clear E.
  pose proof (shift_sum (fun r => wA q (i + r)) (fun r => wB q (i + r)) g (p - q) (p - q) (le_n _)) as SH.
  assert (SH' : zsum 0 (p - q) (fun r => wA q (i + r) * g r + wB q (i + (r + 1)) * g (r + 1)%Z) <= 4 * INR q * (INR p + 1) * c64).
  { eapply Rle_trans; [apply SH|exact HS].
    intros r Hr; destruct (w_facts q (i + r)) as (A & B & AB & _); repeat split; try assumption; apply HL; lia. }
  clear SH; pose proof c64_pos as Hc; destruct (small_q q ltac:(lia)) as (Q0 & Q1); pose proof ulp64_small as Hu.
  assert (HP : 0 <= INR p) by apply pos_INR.
  assert (INR (p - q) <= INR p) by (apply le_INR; lia).
  assert (3 * c64 * INR (p - q) <= 3 * c64 * (INR p + 1)) by (apply Rmult_le_compat_l; lra).
  set (K := (INR p + 1) * c64); assert (HK : 0 < K) by (apply Rmult_lt_0_compat; lra).
  apply Rle_trans with ((1 + 7 * ulp64) * (4 * INR q * K) + 3 * K).
  { apply Rplus_le_compat; [apply Rmult_le_compat_l; [lra|unfold K; lra]|unfold K; lra]. }
  replace (4 * INR (S q) * (INR p + 1) * c64) with (4 * INR q * K + 4 * K) by (rewrite S_INR; unfold K; ring).
  assert (28 * INR q * ulp64 * K <= 1 * K) by (apply Rmult_le_compat_r; lra).
  lra.
Qed.

Lemma gnext_nonneg q f g r : (S q <= p)%nat -> lev q f g -> (0 <= r <= Z.of_nat p - Z.of_nat (S q))%Z -> 0 <= gnext q g r.
Proof.
  intros Hq (HL & _) Hr; unfold gnext.
  destruct (HL r ltac:(lia)) as (_ & _ & _ & _ & G1); destruct (HL (r + 1)%Z ltac:(lia)) as (_ & _ & _ & _ & G2).
  destruct (w_facts q (i + r)) as (WA & _); destruct (w_facts q (i + (r + 1))) as (_ & WB & _).
  pose proof c64_pos; pose proof ulp64_pos.
  assert (0 <= wA q (i + r) * g r) by (apply Rmult_le_pos; assumption).
  assert (0 <= wB q (i + (r + 1)) * g (r + 1)%Z) by (apply Rmult_le_pos; assumption).
  assert (0 <= (1 + 7 * ulp64) * (wA q (i + r) * g r + wB q (i + (r + 1)) * g (r + 1)%Z)) by (apply Rmult_le_pos; lra).
  lra.
Qed.

Lemma ob_round64 q N : (S q <= p)%nat -> ok_lev q N ->
  exists N', ob_round (Z.of_nat p) U i x (Z.of_nat (S q)) N = Ok N' /\ ok_lev (S q) N'.
Proof.
  intros Hq (f & g & -> & HL); unfold ob_round.
  rewrite aget_tab by lia; cbn [bind].
  assert (Hf : forall j, (0 <= j <= Z.of_nat p - Z.of_nat q)%Z -> finite64 (f j)) by (intros j Hj; apply (proj1 HL j Hj)).
  rewrite (neq0 (f 0%Z)) by (apply Hf; lia).
  assert (ES : exists sv, (if negb (Req_bool (value (f 0%Z)) 0)
     then let* ui := aget U i in let* uk := aget U (i + Z.of_nat (S q)) in
          Ok ((x - ui) * f 0%Z / (uk - ui))%num
     else Ok (0%num : Binary64)) = Ok sv /\ left_ok q f 0 sv).
  { destruct (Req_bool_spec (value (f 0%Z)) 0) as [E|E]; cbn [negb].
    - exists (0%num : Binary64); split; [reflexivity|apply left_zero; exact E].
    - rewrite !aU by lia; cbn [bind]; eexists; split; [reflexivity|].
      destruct (parts_nz q f g 0 Hq HL ltac:(lia) E) as (_ & P & _).
      replace (i + 0)%Z with i in P by lia; replace (i + Z.of_nat q + 1)%Z with (i + Z.of_nat (S q))%Z in P by lia.
      exact P. }
  destruct ES as (sv0 & ES & HS0); rewrite ES; clear ES; cbn [bind].
  destruct (for_range_inv (fun j st => exists h, fst st = tab m h /\ left_ok q f j (snd st) /\
      (forall r, (0 <= r < j)%Z -> new_ok q g r (h r)) /\ (forall r, (j <= r)%Z -> h r = f r))
    0 (Z.of_nat p - Z.of_nat (S q) + 1) (ob_inner U i x (Z.of_nat (S q)))
    (tab m f, sv0)) as ([N sv] & E & h & EN & _ & Hh & _).
  - lia.
  - exists f; cbn [fst snd]; split; [reflexivity|split; [exact HS0|split; [intros; lia|reflexivity]]].
  - intros j [N sv] Hj (h & EN & HSv & H1 & H2); cbn [fst snd] in *; subst N.
    unfold ob_inner; rewrite !aU by lia; cbn [bind fst snd].
    rewrite aget_tab by lia; cbn [bind]; rewrite H2 by lia; rewrite neq0 by (apply Hf; lia).
    destruct (Req_bool_spec (value (f (j + 1)%Z)) 0) as [E|E].
    + rewrite aset_tab by lia; cbn [bind].
      eexists; split; [reflexivity|]; eexists; cbn [fst snd]; split; [reflexivity|].
      split; [apply left_zero; exact E|]; split.
      * intros r Hr; unfold fupd; destruct (Z.eqb_spec r j) as [->|]; [|apply H1; lia].
        apply (new_left q f g j sv Hq HL ltac:(lia) HSv E).
      * intros r Hr; rewrite fupd_other by lia; apply H2; lia.
    + destruct (parts_nz q f g (j + 1) Hq HL ltac:(lia) E) as (P1 & _ & P2).
      replace (i + (j + 1))%Z with (i + j + 1)%Z in P1, P2 by lia.
      replace (i + j + 1 + Z.of_nat q + 1)%Z with (i + j + Z.of_nat (S q) + 1)%Z in P1, P2 by lia.
      rewrite aset_tab by lia; cbn [bind].
      eexists; split; [reflexivity|]; eexists; cbn [fst snd]; split; [reflexivity|].
      split; [exact P1|]; split.
      * intros r Hr; unfold fupd; destruct (Z.eqb_spec r j) as [->|]; [|apply H1; lia].
        exact (new_sum q f g j sv _ Hq HL ltac:(lia) HSv P2).
      * intros r Hr; rewrite fupd_other by lia; apply H2; lia.
  - rewrite E; cbn [bind fst]; exists N; split; [reflexivity|].
    exists h, (gnext q g); split; [exact EN|]; split.
    + intros r Hr; destruct (Hh r ltac:(lia)) as (A1 & A2 & A3 & A4).
      split; [exact A1|split; [exact A2|split; [exact A3|split; [exact A4|]]]].
      apply (gnext_nonneg q f g r Hq HL); lia.
    + apply (gnext_sum q f g Hq HL).
Qed.

Lemma one_inner64 :
  exists y, (let* N := np_full (i + Z.of_nat p + 1) (0%num : Binary64) in
   let* N := for_range 0 (Z.of_nat p + 1) (fun j N =>
      let* b := in_half_open U x (i + j) in
      if b then aset N j (1%num : Binary64) else Ok N) N in
   let* N := for_range 1 (Z.of_nat p + 1) (ob_round (Z.of_nat p) U i x) N in
   aget N 0) = Ok y /\ finite64 y /\ 0 <= value y /\ (C p i = 0 -> value y = 0) /\
   Rabs (value y - C p i) <= 7 * INR p * ulp64 * C p i + 4 * INR p * (INR p + 1) * c64.
Proof.
  rewrite (np_full_tab' _ m) by lia; cbn [bind].
  destruct ob_base64 as (N0 & E0 & H0); rewrite E0; cbn [bind].
  destruct (for_range_inv (fun t N => ok_lev (Z.to_nat (t - 1)) N) 1 (Z.of_nat p + 1)
    (ob_round (Z.of_nat p) U i x) N0) as (N & E & HN).
  - lia.
  - exact H0.
  - intros t N Ht HN; destruct (ob_round64 (Z.to_nat (t - 1)) N ltac:(lia) HN) as (N' & E' & H').
    replace (Z.of_nat (S (Z.to_nat (t - 1)))) with t in E' by lia.
    replace (S (Z.to_nat (t - 1))) with (Z.to_nat (t + 1 - 1)) in H' by lia; eauto.
  - rewrite E; cbn [bind]; destruct HN as (f & g & -> & HL); rewrite aget_tab by lia.
    replace (Z.to_nat (Z.of_nat p + 1 - 1)) with p in HL by lia.
    pose proof (lev_term p f g 0 HL ltac:(lia) (le_n _)) as G.
    destruct HL as (HL & _); destruct (HL 0%Z ltac:(lia)) as (F & B & Z0 & Er & _).
    replace (i + 0)%Z with i in Z0, Er by lia.
    exists (f 0%Z); split; [reflexivity|split; [exact F|split; [exact B|split; [exact Z0|]]]].
    lra.
Qed.
End One.
