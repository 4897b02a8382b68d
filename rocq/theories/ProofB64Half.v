(** [int(s / 2)] on doubles is integer division. *)
From Coq Require Import Reals Lra Lia ZArith List Floats.
From Flocq Require Import Core.Core IEEE754.BinarySingleNaN IEEE754.PrimFloat.
From Verif Require Import Py Num ModelKnots SpecB64 ProofB64 ProofB64Span ProofB64Vtk.
Open Scope R_scope.

Lemma half_fmt s : (0 <= s < 2 ^ 53)%Z -> fmt (IZR s / 2).
Proof.
  intros H; replace (IZR s / 2) with (F2R (Float radix2 s (-1))) by (unfold F2R; cbn; lra).
  apply generic_format_FLT; exists (Float radix2 s (-1)); [reflexivity|cbn [Fnum]; change (radix_val radix2) with 2%Z; lia|cbn; lia].
Qed.
Lemma half64 s : (0 <= s < 2 ^ 53)%Z -> ntrunc ((ofZ s : Binary64) / (ofZ 2 : Binary64))%num = Some (s / 2)%Z.
Proof.
  intros H; destruct (ofZ64 s) as [F V]; [lia|]; destruct (ofZ64 2) as [F2 V2]; [cbn; lia|].
  assert (S0 : 0 <= IZR s) by (apply IZR_le; lia).
  assert (S1 : IZR s <= bpow radix2 53) by (change (bpow radix2 53) with (IZR (2 ^ 53)); apply IZR_le; lia).
  assert (R : rnd (IZR s / 2) = IZR s / 2) by (apply round_generic; [apply valid_rnd_N|apply half_fmt; exact H]).
  destruct (div64 (ofZ s : Binary64) (ofZ 2 : Binary64)) as [FD VD]; try assumption; rewrite ?V, ?V2.
  - lra.
  - rewrite R, Rabs_pos_eq by lra; apply Rle_lt_trans with (bpow radix2 53); [lra|apply bpow_lt; lia].
  - rewrite V, V2, R in VD; change (ntrunc (PrimFloat.div (ofZ s : Binary64) (ofZ 2 : Binary64) : Binary64) = Some (s / 2)%Z).
    rewrite trunc64; [|exact FD|rewrite VD; lra]; rewrite VD; f_equal; change 2 with (IZR 2); apply Zfloor_div; lia.
Qed.
(** The two places: the first probe and the next ones. *)
Lemma probes64 low high : (0 <= low + high < 2 ^ 53 - 1)%Z ->
  ntrunc ((ofZ (low + high) : Binary64) / (ofZ 2 : Binary64))%num = Some (Z.quot (low + high) 2) /\
  (if (low + high) mod 2 =? 0 then ntrunc ((ofZ (low + high) : Binary64) / (ofZ 2 : Binary64))%num else ntrunc ((ofZ (low + high + 1) : Binary64) / (ofZ 2 : Binary64))%num)%Z = Some (first_mid low high).
Proof.
  intros H; split; [rewrite Z.quot_div_nonneg by lia; apply half64; lia|].
  unfold first_mid; destruct (_ =? 0)%Z; apply half64; lia.
Qed.
