(** Formatting of doubles and reading them back (model: ModelFloat.v). *)
From Coq Require Import Reals Lra Lia ZArith List Floats Ascii String.
From Flocq Require Import Core.Core.
From Verif Require Import Py Num ModelIO ModelFloat SpecIO SpecB64 SpecFloatText ProofIO ProofB64 ProofFloat ProofFloat2.
Import ListNotations.
Open Scope R_scope.

Lemma rounded_iff x s p e m i : FloatOps.Prim2SF x = S754_finite s p e -> (0 < m)%Z -> rounded (decimal s m i) = value x <-> nearest s m i = x.
Proof.
  intros HX Hm; rewrite (nearest_iff x s p e HX m i Hm); pose proof (value_signed x s p e HX) as VS; set (V := Rabs (value x)) in *; clearbody V; rewrite VS; unfold rounded, decimal.
  destruct s; [rewrite <- Ropp_mult_distr_l, round_NE_opp|]; split; intros H; lra.
Qed.
Lemma abs_decimal s m k : (0 <= m)%Z -> Rabs (decimal s m k) = IZR m * powerRZ 10 k.
Proof.
  intros H; unfold decimal; rewrite Rabs_mult, (Rabs_pos_eq (powerRZ 10 k)) by (left; apply pow10_pos); f_equal.
  assert (0 <= IZR m) by (apply IZR_le; exact H); destruct s; [rewrite Rabs_Ropp|]; apply Rabs_pos_eq; assumption.
Qed.
Lemma decimal_shift s m k t : (0 <= t)%Z -> decimal s (m * 10 ^ t) (k - t) = decimal s m k.
Proof.
  intros H; unfold decimal; replace (powerRZ 10 k) with (powerRZ 10 t * powerRZ 10 (k - t)) by (rewrite <- powerRZ_add by lra; f_equal; lia).
  rewrite mult_IZR, <- pow10_IZR by exact H; destruct s; ring.
Qed.
Lemma distance x s p e c i : FloatOps.Prim2SF x = S754_finite s p e -> Rabs (decimal s c i - value x) = Rabs (IZR c * powerRZ 10 i - Rabs (value x)).
Proof.
  intros HX; pose proof (value_signed x s p e HX) as VS; set (V := Rabs (value x)) in *; clearbody V; rewrite VS; unfold decimal; destruct s; [|reflexivity].
  rewrite <- Rabs_Ropp; f_equal; ring.
Qed.
Lemma pow10_lt_inv a b : powerRZ 10 a < powerRZ 10 b -> (a < b)%Z.
Proof. intros H; destruct (Z_lt_le_dec a b) as [L|L]; [exact L|]; pose proof (pow10_le b a L); lra. Qed.
(** digits [ds] of a number c with 10^(n-1) <= c < 10^n at point position [j] *)
Lemma layout_number n c j (s : bool) : (1 <= n)%Z -> (10 ^ (n - 1) <= c < 10 ^ n)%Z -> (-999 <= j - 1 <= 999)%Z ->
  exists ip fp ex, layout (digits (Z.to_nat n) c) j = literal None ip fp ex /\ well_formed ip fp ex /\ (1 <= List.length ip)%nat /\ (ex = None -> fraction_digits fp <> []) /\
    (0 < positional (ip ++ fraction_digits fp))%Z /\ literal_value (if s then Some true else None) ip fp ex = decimal s c (j - n) /\ (ex = None <-> 1 / 10000 <= Rabs (decimal s c (j - n)) < 10 ^ 16) /\
    ((c mod 10 <> 0)%Z -> usual ip fp ex).
Proof.
  intros Hn Hc Hj; assert (P0 : (0 < 10 ^ (n - 1))%Z) by (apply Z.pow_pos_nonneg; lia).
  destruct (digits_chars (Z.to_nat n) c ltac:(lia)) as (ds & E & D & L & P); rewrite E; rewrite Z2Nat.id, Z.mod_small in P by lia.
  destruct (layout_literal ds j D) as (ip & fp & ex & t & H1 & H2 & H3 & H4 & H5 & H6 & H7 & H8 & H9); [intros ->; cbn in L; lia|exact Hj|].
  assert (LV : literal_value (if s then Some true else None) ip fp ex = decimal s c (j - n)).
  { unfold literal_value; replace (minus (if s then Some true else None)) with s by (destruct s; reflexivity); rewrite H4, H5, P, L, Z2Nat.id by lia; apply decimal_shift; exact H3. }
  exists ip, fp, ex; split; [exact H1|split; [exact H2|split; [exact H7|split; [intros Q; apply (H8 Q)|split; [rewrite H4, P; apply Z.mul_pos_pos; [lia|apply Z.pow_pos_nonneg; lia]|split; [exact LV|split]]]]]].
  2: { intros Hm; apply H9.
    - intros C; pose proof (positional_head ds D ltac:(intros ->; cbn in L; lia) C) as PH; rewrite L, P, Z2Nat.id in PH by lia; lia.
    - rewrite <- positional_last by exact D; rewrite P; exact Hm. }
  rewrite H6, abs_decimal by lia; pose proof (pow10_pos (j - n)) as Pk.
  assert (B1 : powerRZ 10 (j - 1) <= IZR c * powerRZ 10 (j - n)).
  { replace (j - 1)%Z with (n - 1 + (j - n))%Z by lia; rewrite powerRZ_add by lra; apply Rmult_le_compat_r; [lra|]; rewrite pow10_IZR by lia; apply IZR_le; lia. }
  assert (B2 : IZR c * powerRZ 10 (j - n) < powerRZ 10 j).
  { replace j with (n + (j - n))%Z at 2 by lia; rewrite (powerRZ_add 10 n) by lra; apply Rmult_lt_compat_r; [lra|]; rewrite pow10_IZR by lia; apply IZR_lt; lia. }
  assert (E1 : powerRZ 10 (-4) = 1 / 10000) by (rewrite pow10_neg by lia; change (10 ^ (- -4))%Z with 10000%Z; lra).
  assert (E2 : powerRZ 10 16 = 10 ^ 16) by (rewrite pow10_IZR by lia; change (10 ^ 16)%Z with 10000000000000000%Z; lra).
  rewrite <- E1, <- E2; split.
  - intros [A B]; split; [apply Rle_trans with (2 := B1); apply pow10_le; lia|apply Rlt_le_trans with (1 := B2); apply pow10_le; lia].
  - intros [A B]; split; [apply pow10_lt_inv; lra|]; assert (j - 1 < 16)%Z by (apply pow10_lt_inv; lra); lia.
Qed.
Lemma fmt_spec x (s : bool) p e : FloatOps.Prim2SF x = S754_finite s p e -> exists ip fp ex c i n,
  fmt_float x = literal (if s then Some true else None) ip fp ex /\ well_formed ip fp ex /\ (1 <= List.length ip)%nat /\ (ex = None -> fraction_digits fp <> []) /\ usual ip fp ex /\ (0 < positional (ip ++ fraction_digits fp))%Z /\
  literal_value (if s then Some true else None) ip fp ex = decimal s c i /\ (1 <= n <= 17)%Z /\ (10 ^ (n - 1) <= c < 10 ^ n)%Z /\
  (ex = None <-> 1 / 10000 <= Rabs (decimal s c i) < 10 ^ 16) /\
  rounded (decimal s c i) = value x /\
  (forall m k, (0 < m < 10 ^ n)%Z -> rounded (decimal s m k) = value x -> Rabs (decimal s c i - value x) <= Rabs (decimal s m k - value x)) /\
  (forall m k, (0 < m < 10 ^ n)%Z -> rounded (decimal s m k) = value x -> Rabs (decimal s c i - value x) = Rabs (decimal s m k - value x) ->
     decimal s m k = decimal s c i \/ Z.even c = true \/ c = 1%Z) /\
  (forall m k, (0 < m < 10 ^ (n - 1))%Z -> rounded (decimal s m k) <> value x).
Proof.
  intros HX; pose proof (shortest_spec x s p e HX) as S; unfold fmt_float; rewrite HX.
  change (if (0 <=? e)%Z then (Z.pos p * 2 ^ e, 1)%Z else (Z.pos p, 2 ^ (- e))%Z) with (parts p e).
  destruct (parts p e) as [num den]; cbv zeta in S; set (j := point_position num den) in *.
  destruct S as (Rj & Hj & c & n & Es & Hn & Hc & Hh & Hcl & Htie & Hmin); cbv zeta; rewrite Es.
  assert (P0 : (0 < 10 ^ (n - 1))%Z) by (apply Z.pow_pos_nonneg; lia).
  assert (Sg : forall ip fp ex, (if s then "-"%char :: literal None ip fp ex else literal None ip fp ex) = literal (if s then Some true else None) ip fp ex) by (intros; destruct s; reflexivity).
  destruct (Z.eqb_spec c (10 ^ n)) as [Ec|Ec].
  - assert (H10 : decimal s c (j - n) = decimal s 1 j).
    { rewrite Ec; rewrite <- (decimal_shift s 1 j n) by lia; f_equal; lia. }
    assert (HN : nearest s 1 j = x) by (rewrite <- Hh; apply nearest_same; [lia|lia|symmetry; exact H10]).
    assert (n = 1)%Z as ->.
    { destruct (Z.eq_dec n 1) as [Q|Q]; [exact Q|exfalso]; apply (Hmin 1%Z j); [lia|lia|exact HN]. }
    destruct (layout_number 1 1 (j + 1) s ltac:(lia) ltac:(cbn; lia) ltac:(lia)) as (ip & fp & ex & L1 & L2 & L3 & L4 & L5 & L6 & L7 & L8).
    change (digits (Z.to_nat 1) 1) with (digits 1 1) in L1; replace (j + 1 - 1)%Z with j in L6, L7 by lia.
    exists ip, fp, ex, 1%Z, j, 1%Z; rewrite L1, Sg.
    split; [reflexivity|split; [exact L2|split; [exact L3|split; [exact L4|split; [apply L8; discriminate|split; [exact L5|split; [exact L6|split; [lia|split; [cbn; lia|split; [exact L7|split; [|split; [|split]]]]]]]]]]]].
    + apply (rounded_iff x s p e); [exact HX|lia|exact HN].
    + intros m k Hm Hr; apply (rounded_iff x s p e) in Hr; [|exact HX|lia]; rewrite <- H10, !(distance x s p e) by exact HX; apply Hcl; [lia|exact Hr].
    + intros m k _ _ _; right; right; reflexivity.
    + intros m k Hm; cbn in Hm; lia.
  - destruct (layout_number n c j s ltac:(lia) ltac:(lia) ltac:(lia)) as (ip & fp & ex & L1 & L2 & L3 & L4 & L5 & L6 & L7 & L8).
    exists ip, fp, ex, c, (j - n)%Z, n; rewrite L1, Sg.
    assert (MN : forall m k, (0 < m < 10 ^ (n - 1))%Z -> rounded (decimal s m k) <> value x).
    { intros m k Hm Hr; apply (rounded_iff x s p e) in Hr; [|exact HX|lia]; destruct (Z.eq_dec n 1) as [->|]; [cbn in Hm; lia|]; apply (Hmin m k); [lia|lia|exact Hr]. }
    assert (HR : rounded (decimal s c (j - n)) = value x) by (apply (rounded_iff x s p e); [exact HX|lia|exact Hh]).
    split; [reflexivity|split; [exact L2|split; [exact L3|split; [exact L4|split; [apply L8|split; [exact L5|split; [exact L6|split; [lia|split; [lia|split; [exact L7|split; [exact HR|split; [|split; [|exact MN]]]]]]]]]]]]].
    + intros M; destruct (Z.eq_dec n 1) as [E1|E1]; [rewrite E1 in Hc, Ec; cbn in Hc, Ec; rewrite Z.mod_small in M by lia; lia|].
      pose proof (Z_div_exact_full_2 c 10 ltac:(lia) M) as C10; assert (T10 : (10 ^ n = 10 * 10 ^ (n - 1))%Z) by (rewrite <- Z.pow_succ_r by lia; f_equal; lia).
      apply (MN (c / 10)%Z (j - n + 1)%Z); [lia|]; rewrite <- HR; f_equal; rewrite <- (decimal_shift s (c / 10) (j - n + 1) 1) by lia.
      replace (c / 10 * 10 ^ 1)%Z with c by lia; f_equal; lia.
    + intros m k Hm Hr; apply (rounded_iff x s p e) in Hr; [|exact HX|lia]; rewrite !(distance x s p e) by exact HX; apply Hcl; [lia|exact Hr].
    + intros m k Hm Hr; apply (rounded_iff x s p e) in Hr; [|exact HX|lia]; rewrite !(distance x s p e) by exact HX; intros ED; destruct (Htie m k ltac:(lia) Hr ED) as [G|G]; [left|right; left; exact G].
      unfold decimal; destruct s; [rewrite !Ropp_mult_distr_l_reverse; f_equal|]; exact G.
Qed.
Lemma roundtrip x : py_float (fmt_float x) = Ok x.
Proof.
  destruct (FloatOps.Prim2SF x) as [s|s| |s p e] eqn:HX.
  1-3: unfold fmt_float; rewrite HX; rewrite <- (FloatAxioms.SF2Prim_Prim2SF x), HX; try destruct s; vm_compute; reflexivity.
  - destruct (fmt_spec x s p e HX) as (ip & fp & ex & c & i & n & E & W & _ & _ & _ & Pp & LV & Hn & Hc & _ & R & _).
    rewrite E, py_float_literal by exact W; f_equal; rewrite <- LV in R; unfold literal_value in R; replace (minus (if s then Some true else None)) with s in * by (destruct s; reflexivity); apply (rounded_iff x s p e) in R; assumption.
Qed.
Lemma fmt_word x : fmt_float x <> [] /\ Forall (fun c => blank c = false) (fmt_float x).
Proof.
  destruct (FloatOps.Prim2SF x) as [s|s| |s p e] eqn:HX.
  1-3: unfold fmt_float; rewrite HX; try destruct s; (split; [discriminate|repeat constructor]).
  destruct (fmt_spec x s p e HX) as (ip & fp & ex & c & i & n & E & W & _); rewrite E; split.
  - destruct (unsigned_head ip fp ex W) as (a & t & H & _); destruct s; [discriminate|]; cbv iota; rewrite H; discriminate.
  - eapply Forall_impl; [|apply plain_literal; exact W]; intros a Ha; apply plain_spec in Ha; tauto.
Qed.
Lemma py_float_outcome t : (exists x, py_float t = Ok x) \/ py_float t = Err ValueError.
Proof.
  unfold py_float; destruct (drop_underscores _ _) as [w|]; [|right; reflexivity]; destruct (read_sign _) as [neg r].
  destruct (_ || _)%bool; [left; eexists; reflexivity|]; destruct (text_eqb _ _); [left; eexists; reflexivity|].
  destruct (read_decimal r) as [[m k]|]; [left; eexists; reflexivity|right; reflexivity].
Qed.
Lemma python_faithful : faithful python_codec.
Proof.
  constructor; cbn [tc_fmt tc_parse python_codec]; [apply fmt_word|apply fmt_word|apply roundtrip|reflexivity|apply py_float_outcome].
Qed.
