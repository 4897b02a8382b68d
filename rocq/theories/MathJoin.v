(** Neighbouring polynomial pieces agree at a knot of multiplicity at most the degree. *)
From Verif Require Import Spec MathCox MathKnots.
Open Scope R_scope.

Section Join.
Variables (U : Z -> R) (s s' : Z) (u : R).
Hypothesis Hss : (s <= s')%Z.
Hypothesis Hmid : forall j, (s < j <= s')%Z -> U j = u.
Hypothesis Hlo : U s <> u.
Hypothesis Hhi : U (s' + 1)%Z <> u.

Lemma join_left q : (Z.of_nat q <= s' - s)%Z -> forall i, cox (delta s) U q i u = delta s i.
Proof.
  induction q as [|q IH]; intros Hq i; [reflexivity|]; cbn [cox]; rewrite !IH by lia; unfold delta.
  destruct (Z.eqb_spec i s) as [->|N].
  - destruct (Z.eqb_spec (s + 1) s); [lia|]; rewrite (Hmid (s + Z.of_nat q + 1)) by lia.
    rewrite sdiv_nz by lra; field; lra.
  - destruct (Z.eqb_spec (i + 1) s) as [E|]; [|ring].
    rewrite (Hmid (i + Z.of_nat q + 2)) by lia; unfold Rminus at 3; rewrite Rplus_opp_r, sdiv_0_l; ring.
Qed.
Lemma join_right q : (Z.of_nat q <= s' - s)%Z -> forall i, cox (delta s') U q i u = delta (s' - Z.of_nat q) i.
Proof.
  induction q as [|q IH]; intros Hq i; [rewrite Z.sub_0_r; reflexivity|]; cbn [cox]; rewrite !IH by lia; unfold delta.
  destruct (Z.eqb_spec i (s' - Z.of_nat q)) as [->|N].
  - rewrite (Hmid (s' - Z.of_nat q)) by lia; unfold Rminus at 1; rewrite Rplus_opp_r, sdiv_0_l.
    destruct (Z.eqb_spec (s' - Z.of_nat q + 1) (s' - Z.of_nat q)); [lia|].
    destruct (Z.eqb_spec (s' - Z.of_nat q) (s' - Z.of_nat (S q))); [lia|]; ring.
  - destruct (Z.eqb_spec (i + 1) (s' - Z.of_nat q)) as [E|].
    + destruct (Z.eqb_spec i (s' - Z.of_nat (S q))); [|lia].
      rewrite (Hmid (i + 1)) by lia; replace (i + Z.of_nat q + 2)%Z with (s' + 1)%Z by lia.
      rewrite (sdiv_nz (U (s' + 1)%Z - u)) by lra; field; lra.
    + destruct (Z.eqb_spec i (s' - Z.of_nat (S q))); [lia|ring].
Qed.
Lemma join_cox p : (s' - s <= Z.of_nat p)%Z -> forall i, cox (delta s) U p i u = cox (delta s') U p i u.
Proof.
  intros Hp; remember (p - Z.to_nat (s' - s))%nat as d eqn:Ed.
  replace p with (d + Z.to_nat (s' - s))%nat by lia; clear Ed Hp.
  induction d as [|d IH]; intros i.
  - cbn [Nat.add]; rewrite join_left, join_right by lia; f_equal; lia.
  - cbn [Nat.add cox]; rewrite !IH; reflexivity.
Qed.
End Join.

(** The value on a closed span is the value of the B-spline. *)
Lemma piece_closed p n U s u i : clamped (Z.of_nat p) n U -> kn U s < kn U (s + 1) ->
  kn U s <= u <= kn U (s + 1) ->
  u < kn U (s + 1) \/ continuous (Z.of_nat p) n U ->
  piece U s p i u = bspline U p i u.
Proof.
  intros HC Hs Hu HD; destruct (clamped_facts _ _ U HC) as (_ & H2 & HL & HU & Hl & Hr & HE & H0 & Hlt).
  assert (HS : (Z.of_nat p <= s < n)%Z).
  { split.
    - destruct (Z_le_dec (Z.of_nat p) s); [assumption|]; rewrite (Hl s), (Hl (s + 1)%Z) in Hs by lia; lra.
    - destruct (Z_lt_dec s n); [assumption|]; rewrite (Hr s), (Hr (s + 1)%Z) in Hs by lia; lra. }
  destruct (Rlt_dec u (kn U (s + 1))) as [L|L].
  { symmetry; apply bspline_piece; [exact HU|left; lra]. }
  assert (Eu : u = kn U (s + 1)) by lra.
  destruct (Req_EM_T u (last U 0)) as [El|Nl].
  { symmetry; apply bspline_piece; [exact HU|right; lra]. }
  destruct HD as [D|D]; [lra|].
  destruct (in_span_exists U u HU) as (s' & Hs' & HI).
  { split; [|rewrite <- kn_last, Eu; apply kn_mono; [exact HU|lia]].
    rewrite Eu; apply kn_mono; [exact HU|lia]. }
  { rewrite HE, H0; exact Hlt. }
  rewrite (bspline_piece U s' u HU HI).
  destruct HI as [HI|(_ & E1 & E2)]; [|contradiction].
  assert (Lss : (s < s')%Z).
  { destruct (Z_lt_dec s s'); [assumption|]; pose proof (kn_mono U HU (s' + 1) (s + 1) ltac:(lia)); lra. }
  apply join_cox.
  - lia.
  - intros j Hj; pose proof (kn_mono U HU (s + 1) j ltac:(lia)); pose proof (kn_mono U HU j s' ltac:(lia)); lra.
  - lra.
  - lra.
  - destruct (Z_le_dec (s' - s) (Z.of_nat p)); [assumption|exfalso].
    pose proof (kn_mono U HU (s + 1 + Z.of_nat p) s' ltac:(lia)) as M.
    pose proof (D (s + 1)%Z) as D1.
    destruct (Z_lt_dec (s + 1) n) as [Hn|Hn]; [specialize (D1 ltac:(lia)); lra|].
    apply Nl; rewrite Eu, HE; f_equal; lia.
Qed.
