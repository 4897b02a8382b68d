(** [check_knot_vector] and [generate_uniform] (model: ModelKnots.v) on binary64 numbers. *)
From Coq Require Import Reals Lra Lia ZArith List Floats.
From Flocq Require Import Core.Core.
From Verif Require Import Py PyLemmas Num ModelKnots Spec SpecB64 MathCox MathKnots ProofNum ProofBasis ProofSpan ProofKnots
  ProofB64 ProofB64Basis ProofB64Span.
Import ListNotations.
Open Scope R_scope.

(** ** min and max *)
Lemma nan64 (x : Binary64) : finite64 x -> is_nan x = false.
Proof.
  intros F; unfold is_nan; change (neqb x x) with (PrimFloat.eqb x x); rewrite eqb64 by exact F.
  rewrite Req_bool_true by reflexivity; reflexivity.
Qed.
Lemma np_max64 (l : list Binary64) : l <> [] -> Forall finite64 l ->
  exists m, np_max l = Ok m /\ In m l /\ forall x, In x l -> value x <= value m.
Proof.
  destruct l as [|x t]; [contradiction|]; intros _; cbn [np_max].
  revert x; induction t as [|y t IH]; intros x F.
  - exists x; cbn; intuition (subst; lra).
  - inversion F as [|? ? Fx F']; inversion F' as [|? ? Fy F'']; subst.
    cbn [fold_left]; rewrite (nan64 x Fx), (nan64 y Fy).
    assert (C : nltb x y = true /\ value x < value y \/ nltb x y = false /\ value y <= value x).
    { destruct (nltb x y) eqn:E; [left|right]; split; try reflexivity.
      - apply Rnot_le_lt; intros L; rewrite (ltb_ge x y _ _ Fx Fy eq_refl eq_refl L) in E; discriminate E.
      - apply (ge_ltb x y _ _ Fx Fy eq_refl eq_refl E). }
    destruct C as [(-> & C)|(-> & C)].
    + destruct (IH y F') as (m & E & I & G); exists m; split; [exact E|]; split; [right; exact I|].
      intros z [<-|Hz]; [|apply G; exact Hz]; pose proof (G y (or_introl eq_refl)); lra.
    + destruct (IH x) as (m & E & I & G); [constructor; assumption|]; exists m; split; [exact E|]; split.
      * destruct I as [I|I]; [left; exact I|right; right; exact I].
      * pose proof (G x (or_introl eq_refl)); intros z [<-|[<-|Hz]]; [lra|lra|apply G; right; exact Hz].
Qed.
Lemma np_min64 (l : list Binary64) : l <> [] -> Forall finite64 l ->
  exists m, np_min l = Ok m /\ In m l /\ forall x, In x l -> value m <= value x.
Proof.
  destruct l as [|x t]; [contradiction|]; intros _; cbn [np_min].
  revert x; induction t as [|y t IH]; intros x F.
  - exists x; cbn; intuition (subst; lra).
  - inversion F as [|? ? Fx F']; inversion F' as [|? ? Fy F'']; subst.
    cbn [fold_left]; rewrite (nan64 x Fx), (nan64 y Fy).
    assert (C : nltb y x = true /\ value y < value x \/ nltb y x = false /\ value x <= value y).
    { destruct (nltb y x) eqn:E; [left|right]; split; try reflexivity.
      - apply Rnot_le_lt; intros L; rewrite (ltb_ge y x _ _ Fy Fx eq_refl eq_refl L) in E; discriminate E.
      - apply (ge_ltb y x _ _ Fy Fx eq_refl eq_refl E). }
    destruct C as [(-> & C)|(-> & C)].
    + destruct (IH y F') as (m & E & I & G); exists m; split; [exact E|]; split; [right; exact I|].
      intros z [<-|Hz]; [|apply G; exact Hz]; pose proof (G y (or_introl eq_refl)); lra.
    + destruct (IH x) as (m & E & I & G); [constructor; assumption|]; exists m; split; [exact E|]; split.
      * destruct I as [I|I]; [left; exact I|right; right; exact I].
      * pose proof (G x (or_introl eq_refl)); intros z [<-|[<-|Hz]]; [lra|lra|apply G; right; exact Hz].
Qed.

(** ** normalize *)
Lemma pow_bpow n : 2 ^ n = bpow radix2 (Z.of_nat n).
Proof. rewrite bpow_powerRZ, <- pow_powerRZ; reflexivity. Qed.

Section Scale.
Variables (lo hi : Binary64).
Hypothesis Flo : finite64 lo.
Hypothesis Fhi : finite64 hi.
Hypothesis Blo : Rabs (value lo) <= 2 ^ 1000.
Hypothesis Bhi : Rabs (value hi) <= 2 ^ 1000.
Hypothesis Hgap : / 2 ^ 1000 <= value hi - value lo.

Definition shift (x : Binary64) : Binary64 := nsub x (nmul lo 1%num).
Definition factor : Binary64 := ndiv 1%num (nsub hi lo).
Definition scaled (x : Binary64) : Binary64 := nmul (shift x) factor.

Lemma lo1 : finite64 (nmul lo 1%num) /\ value (nmul lo 1%num) = value lo.
Proof.
  change (nmul lo 1%num) with (PrimFloat.mul lo (1%num : Binary64)).
  assert (E : rnd (value lo * value (1%num : Binary64)) = value lo) by (rewrite value_1, Rmult_1_r; apply rnd_fmt, value_fmt).
  destruct (mul64 lo (1%num : Binary64) Flo finite_1) as (F & V).
  - rewrite E; apply Rle_lt_trans with (1 := Blo); rewrite (pow_bpow 1000); apply bpow_lt; reflexivity.
  - split; [exact F|rewrite V; exact E].
Qed.
Lemma shift_ok x : finite64 x -> Rabs (value x) <= 2 ^ 1000 ->
  finite64 (shift x) /\ value (shift x) = rnd (value x - value lo).
Proof.
  intros Fx Bx; destruct lo1 as (F & V); rewrite <- V.
  apply sub64; [exact Fx|exact F|]; rewrite V; apply rnd_safe with 1001%Z; [lia|].
  replace (bpow radix2 1001) with (2 ^ 1000 + 2 ^ 1000).
  - unfold Rminus; eapply Rle_trans; [apply Rabs_triang|]; rewrite Rabs_Ropp; apply Rplus_le_compat; assumption.
  - rewrite (pow_bpow 1000); change (Z.of_nat 1000) with 1000%Z; change 1001%Z with (1000 + 1)%Z; rewrite bpow_plus; cbn [bpow]; 
      change (Z.pow_pos radix2 1) with 2%Z; ring.
Qed.

Definition D : R := rnd (value hi - value lo).
Lemma D_range : bpow radix2 (-1000) <= D <= bpow radix2 1001.
Proof.
  unfold D; split.
  - rewrite <- (rnd_fmt (bpow radix2 (-1000))) by (apply fmt_bpow; lia); apply rnd_le.
    rewrite bpow_powerRZ; exact Hgap.
  - apply Rle_trans with (1 := Rle_abs _); apply rnd_bound; [lia|].
    replace (bpow radix2 1001) with (2 ^ 1000 + 2 ^ 1000).
    + unfold Rminus; eapply Rle_trans; [apply Rabs_triang|]; rewrite Rabs_Ropp; apply Rplus_le_compat; assumption.
    + rewrite (pow_bpow 1000); change (Z.of_nat 1000) with 1000%Z; change 1001%Z with (1000 + 1)%Z; rewrite bpow_plus; cbn [bpow]; 
        change (Z.pow_pos radix2 1) with 2%Z; ring.
Qed.
Lemma D_pos : 0 < D.
Proof. pose proof D_range; pose proof (bpow_gt_0 radix2 (-1000)); lra. Qed.
Lemma inv_D : bpow radix2 (-1001) <= 1 / D <= bpow radix2 1000.
Proof.
  pose proof D_range as (A & B); pose proof D_pos; unfold Rdiv; rewrite Rmult_1_l; split.
  - replace (bpow radix2 (-1001)) with (/ bpow radix2 1001) by (rewrite <- bpow_opp; reflexivity).
    apply Rinv_le_contravar; assumption.
  - replace (bpow radix2 1000) with (/ bpow radix2 (-1000)) by (rewrite <- bpow_opp; reflexivity).
    apply Rinv_le_contravar; [apply bpow_gt_0|exact A].
Qed.
Lemma factor_ok : finite64 factor /\ value factor = rnd (1 / D).
Proof.
  destruct (sub64 hi lo Fhi Flo) as (F & V).
  { fold D; pose proof D_range as (A & B); pose proof D_pos; rewrite Rabs_right by lra.
    apply Rle_lt_trans with (1 := B); apply bpow_lt; lia. }
  fold D in V; pose proof D_pos; pose proof inv_D as (A & B).
  destruct (div64 (1%num : Binary64) (hi - lo)%float finite_1 F) as (F' & V').
  - rewrite V; lra.
  - rewrite value_1, V; apply rnd_safe with 1000%Z; [lia|].
    rewrite Rabs_right; [exact B|]; pose proof (bpow_gt_0 radix2 (-1001)); lra.
  - split; [exact F'|]; rewrite value_1, V in V'; exact V'.
Qed.
Lemma factor_pos : 0 < value factor.
Proof.
  rewrite (proj2 factor_ok); apply Rlt_le_trans with (rnd (bpow radix2 (-1001))).
  - rewrite rnd_fmt by (apply fmt_bpow; lia); apply bpow_gt_0.
  - apply rnd_le, inv_D.
Qed.
Lemma D_factor : Rabs (D * value factor - 1) <= 11/10 * ulp64.
Proof.
  rewrite (proj2 factor_ok); destruct (rnd_err (1 / D)) as (e & h & He & Hh & ->).
  pose proof D_pos as HD; pose proof D_range as (_ & B).
  replace (D * (1 / D * (1 + e) + h) - 1) with (e + D * h) by (field; lra).
  eapply Rle_trans; [apply Rabs_triang|]; rewrite Rabs_mult, (Rabs_right D) by lra.
  assert (D * Rabs h <= bpow radix2 1001 * eta64) by (apply Rmult_le_compat; try lra; apply Rabs_pos).
  assert (bpow radix2 1001 * eta64 <= /10 * ulp64); [|lra].
  unfold eta64; rewrite <- bpow_plus, ulp64_bpow; change (1001 + -1075)%Z with (-53 + -21)%Z; rewrite bpow_plus.
  rewrite Rmult_comm; apply Rmult_le_compat_r; [apply bpow_ge_0|].
  change (bpow radix2 (-21)) with (/ 2097152); lra.
Qed.
Lemma shift_mono x y : finite64 x -> finite64 y -> Rabs (value x) <= 2 ^ 1000 -> Rabs (value y) <= 2 ^ 1000 ->
  value x <= value y -> value (shift x) <= value (shift y).
Proof.
  intros Fx Fy Bx By L; rewrite (proj2 (shift_ok x Fx Bx)), (proj2 (shift_ok y Fy By)); apply rnd_le; lra.
Qed.

Section Inside.
Variable x : Binary64.
Hypothesis Fx : finite64 x.
Hypothesis Hx : value lo <= value x <= value hi.
Lemma Bx : Rabs (value x) <= 2 ^ 1000.
Proof. apply Rabs_le_inv in Blo; apply Rabs_le_inv in Bhi; apply Rabs_le; lra. Qed.
Lemma shift_range : 0 <= value (shift x) <= D.
Proof.
  rewrite (proj2 (shift_ok x Fx Bx)); split; [apply rnd_nonneg; lra|unfold D; apply rnd_le; lra].
Qed.
Lemma prod_range : 0 <= value (shift x) * value factor <= 2.
Proof.
  pose proof shift_range as (A & B); pose proof factor_pos; split; [apply Rmult_le_pos; lra|].
  apply Rle_trans with (D * value factor); [apply Rmult_le_compat_r; lra|].
  pose proof D_factor as E; apply Rabs_le_inv in E; pose proof ulp64_small; lra.
Qed.
Lemma scaled_ok : finite64 (scaled x) /\ value (scaled x) = rnd (value (shift x) * value factor).
Proof.
  apply mul64; [apply (shift_ok x Fx Bx)|apply factor_ok|].
  apply rnd_safe with 1%Z; [lia|]; pose proof prod_range; rewrite Rabs_right by lra.
  change (bpow radix2 1) with 2; lra.
Qed.
Lemma scaled_range : 0 <= value (scaled x) <= 2.
Proof.
  rewrite (proj2 scaled_ok); pose proof prod_range as (A & B); split; [apply rnd_nonneg; exact A|].
  change 2 with (bpow radix2 1); rewrite <- (rnd_fmt (bpow radix2 1)) by (apply fmt_bpow; lia); apply rnd_le; exact B.
Qed.
End Inside.

Lemma scaled_mono x y : finite64 x -> finite64 y -> value lo <= value x -> value x <= value y -> value y <= value hi ->
  value (scaled x) <= value (scaled y).
Proof.
  intros Fx Fy A B C; rewrite (proj2 (scaled_ok x Fx ltac:(lra))), (proj2 (scaled_ok y Fy ltac:(lra))).
  apply rnd_le, Rmult_le_compat_r; [pose proof factor_pos; lra|].
  apply shift_mono; try assumption; apply Bx; lra.
Qed.
Lemma scaled_lo x : finite64 x -> value x = value lo -> value (scaled x) = 0.
Proof.
  intros Fx E; rewrite (proj2 (scaled_ok x Fx ltac:(pose proof (Rinv_0_lt_compat _ (pow_lt 2 1000 ltac:(lra))); lra))).
  rewrite (proj2 (shift_ok x Fx ltac:(rewrite E; exact Blo))), E, Rminus_diag_eq, rnd_0, Rmult_0_l by reflexivity; apply rnd_0.
Qed.
Lemma scaled_hi x : finite64 x -> value x = value hi -> Rabs (value (scaled x) - 1) <= 3 * ulp64.
Proof.
  intros Fx E; rewrite (proj2 (scaled_ok x Fx ltac:(pose proof (Rinv_0_lt_compat _ (pow_lt 2 1000 ltac:(lra))); lra))).
  rewrite (proj2 (shift_ok x Fx ltac:(rewrite E; exact Bhi))), E; fold D.
  destruct (rnd_err (D * value factor)) as (e & h & He & Hh & ->).
  pose proof D_factor as DF; apply Rabs_le_inv in DF; apply Rabs_le_inv in He; apply Rabs_le_inv in Hh.
  pose proof ulp64_small; pose proof ulp64_pos; pose proof eta64_pos.
  assert (eta64 <= / 2 * ulp64).
  { pose proof eta_ulp as EU; assert (2 <= 2 ^ 100).
    { change (2 ^ 100) with (2 * 2 ^ 99); assert (1 <= 2 ^ 99) by (apply pow_R1_Rle; lra); lra. }
    assert (eta64 * 2 <= eta64 * 2 ^ 100) by (apply Rmult_le_compat_l; lra); lra. }
  set (q := D * value factor) in *.
  assert (QE : Rabs (q * e) <= 11/10 * ulp64).
  { rewrite Rabs_mult; apply Rmult_le_compat; try apply Rabs_pos; apply Rabs_le; lra. }
  apply Rabs_le_inv in QE; apply Rabs_le; lra.
Qed.
End Scale.

(** ** check_knot_vector *)
Lemma lit5_ok : finite64 (lit_1em5 : Binary64) /\
  Rabs (value (lit_1em5 : Binary64) - 1 / 100000) <= 11/10 * ulp64 * (1 / 100000).
Proof. apply (lit64 100000); lia. Qed.
Lemma isclose5 (a b : Binary64) : finite64 a -> finite64 b -> Rabs (value a) <= 2 ^ 1000 -> Rabs (value b) <= 2 ^ 1000 ->
  Rabs (value a - value b) <= 99/10000000000 -> isclose a b = true.
Proof.
  intros Fa Fb Ba Bb H; destruct lit5_ok as (F & V).
  apply (proj1 (isclose64 (lit_1em5 : Binary64) a b (1 / 100000) F ltac:(lra) V Fa Fb
    ltac:(rewrite bpow_powerRZ; exact Ba) ltac:(rewrite bpow_powerRZ; exact Bb))).
  pose proof (Rabs_pos (value b)).
  assert (ulp64 <= / 2 ^ 20) by (unfold ulp64; apply Rinv_le_contravar; [apply pow_lt; lra|apply Rle_pow; [lra|lia]]).
  assert (/ 2 ^ 20 <= / 10000) by (apply Rinv_le_contravar; [lra|cbn [pow]; lra]).
  assert (8 * ulp64 * (1 / 100000000 + 1 / 100000 * Rabs (value b)) <= 1/1000 * (1 / 100000000 + 1 / 100000 * Rabs (value b)))
    by (apply Rmult_le_compat_r; lra); lra.
Qed.
Lemma increasing64 (l : list PrimFloat.float) : Forall finite64 l -> forall x : Binary64, finite64 x ->
  (forall y, In y l -> value x <= value y) ->
  (forall i j, (i <= j < length l)%nat -> value (nth i l 0%float) <= value (nth j l 0%float)) ->
  increasing_from (K := Binary64) x l = true.
Proof.
  induction 1 as [|y t Fy Ft IH]; intros x Fx H1 H2; [reflexivity|]; cbn [increasing_from].
  rewrite (ltb_ge y x _ _ Fy Fx eq_refl eq_refl) by (apply H1; left; reflexivity).
  apply IH; [exact Fy| |].
  - intros z Hz; destruct (In_nth t z 0%float Hz) as (k & Hk & <-); apply (H2 0%nat (S k)); cbn [length]; lia.
  - intros i j Hij; apply (H2 (S i) (S j)); cbn [length]; lia.
Qed.
Lemma forallb_forall' {A} (f : A -> bool) l : (forall x, In x l -> f x = true) -> forallb f l = true.
Proof. intros H; apply forallb_forall; exact H. Qed.

Lemma check_clamped_b64 p n (U : list PrimFloat.float) : Forall finite64 U -> clamped p n (values U) ->
  Forall (fun x => Rabs (value x) <= 2 ^ 1000) U -> / 2 ^ 1000 <= kn (values U) n - kn (values U) 0 ->
  check_knot_vector p (NdArray (U : list Binary64)) n = Ok true.
Proof.
  intros FU HC BU HG.
  destruct (clamped_facts _ _ _ HC) as (Hp & Hn & HL & HU & Hl & Hr & _); rewrite len_values in HL.
  assert (NE : U <> []) by (intros ->; unfold len in HL; cbn in HL; lia).
  destruct (np_max64 U NE FU) as (hi & Ehi & Ihi & Ghi); destruct (np_min64 U NE FU) as (lo & Elo & Ilo & Glo).
  set (g := fun i => nth (Z.to_nat i) U 0%float).
  assert (NK : Z.to_nat (n + p + 1) = length U) by (unfold len in HL; lia).
  assert (EU : U = tab (length U) g) by (apply list_as_tab).
  assert (Vg : forall i, (0 <= i < n + p + 1)%Z -> value (g i) = kn (values U) i /\ finite64 (g i) /\ In (g i) U).
  { intros i Hi; split; [symmetry; apply kn_values; lia|].
    assert (I : In (g i) U) by (apply nth_In; unfold len in HL; lia).
    split; [|exact I]; rewrite Forall_forall in FU; apply FU; exact I. }
  rewrite Forall_forall in FU, BU.
  pose proof (Vg 0%Z ltac:(lia)) as (V0 & F0 & I0); pose proof (Vg n ltac:(lia)) as (Vn & Fn & In').
  assert (Kr : forall x, In x U -> kn (values U) 0 <= value x <= kn (values U) n).
  { intros x Hx; destruct (In_nth U x 0%float Hx) as (k & Hk & E).
    destruct (Vg (Z.of_nat k) ltac:(unfold len in HL; lia)) as (V & _); unfold g in V; rewrite Nat2Z.id, E in V; rewrite V.
    unfold len in HL; split; [apply HU; [lia|rewrite len_values; unfold len; lia]|].
    rewrite <- (Hr (n + p)%Z) by lia; apply HU; [lia|rewrite len_values; unfold len; lia]. }
  assert (Elo' : value lo = kn (values U) 0) by (pose proof (Glo _ I0); pose proof (Kr _ Ilo); lra).
  assert (Ehi' : value hi = kn (values U) n) by (pose proof (Ghi _ In'); pose proof (Kr _ Ihi); lra).
  assert (Flo := FU _ Ilo); assert (Fhi := FU _ Ihi); assert (Blo := BU _ Ilo); assert (Bhi := BU _ Ihi).
  assert (Hgap : / 2 ^ 1000 <= value hi - value lo) by (rewrite Elo', Ehi'; exact HG).
  set (y := fun i => scaled lo hi (g i)).
  assert (P1000 : 2 <= 2 ^ 1000).
  { change (2 ^ 1000) with (2 * 2 ^ 999); assert (1 <= 2 ^ 999) by (apply pow_R1_Rle; lra); lra. }
  assert (Y : forall i, (0 <= i < n + p + 1)%Z -> finite64 (y i) /\ 0 <= value (y i) <= 2).
  { intros i Hi; destruct (Vg i Hi) as (V & F & I); pose proof (Kr _ I).
    split; [apply (scaled_ok lo hi Flo Fhi Blo Bhi Hgap (g i) F); lra|apply (scaled_range lo hi Flo Fhi Blo Bhi Hgap (g i) F); lra]. }
  assert (EN : normalize (NdArray (U : list Binary64)) = Ok (tab (Z.to_nat (n + p + 1)) y)).
  { unfold normalize; cbn zeta.
    match goal with |- bind ?m _ = _ => replace m with (Ok hi : res Binary64) by (symmetry; exact Ehi) end; cbn [bind].
    match goal with |- bind ?m _ = _ => replace m with (Ok lo : res Binary64) by (symmetry; exact Elo) end; cbn [bind].
    apply (f_equal Ok); rewrite map_map, NK; transitivity (map (scaled lo hi) (tab (length U) g)); [rewrite <- EU; reflexivity|exact (map_tab (scaled lo hi) (length U) g)]. }
  unfold check_knot_vector; rewrite EN; cbn [bind].
  rewrite zlen_tab, Z2Nat.id, Z.eqb_refl by lia; cbn [negb].
  rewrite (np_full_tab' (p + 1) (Z.to_nat (p + 1)) (0%num : Binary64)) by lia; cbn [bind].
  rewrite slice_tab by lia; replace (Z.to_nat (p + 1 - 0)) with (Z.to_nat (p + 1)) by lia.
  unfold allclose at 1; rewrite !zlen_tab, Z.eqb_refl, combine_tab.
  assert (C1 : forallb (fun xy => isclose (fst xy) (snd xy)) (tab (Z.to_nat (p + 1)) (fun i => (0%num : Binary64, y (0 + i)%Z))) = true).
  { apply forallb_forall'; intros [a b] Hab; unfold tab in Hab; apply in_map_iff in Hab; destruct Hab as (k & E & Hk).
    injection E as <- <-; apply in_seq in Hk; cbn [fst snd].
    destruct (Y (0 + Z.of_nat k)%Z ltac:(lia)) as (F & _).
    assert (E0 : value (y (0 + Z.of_nat k)%Z) = 0).
    { destruct (Vg (0 + Z.of_nat k)%Z ltac:(lia)) as (V & F' & _).
      apply (scaled_lo lo hi Flo Fhi Blo Bhi Hgap _ F'); rewrite V, Elo'; transitivity (kn (values U) p); [apply Hl; lia|symmetry; apply Hl; lia]. }
    assert (Z0 : value 0%float = 0) by exact value_0.
    apply (isclose5 0%float (y (0 + Z.of_nat k)%Z)); [exact finite_0|exact F|rewrite Z0, Rabs_R0; lra|rewrite E0, Rabs_R0; lra|].
    rewrite E0, Z0, Rminus_0_r, Rabs_R0; lra. }
  rewrite C1; cbn [bind negb].
  rewrite (np_full_tab' (p + 1) (Z.to_nat (p + 1)) (1%num : Binary64)) by lia; cbn [bind].
  rewrite aget_tab_neg by lia; cbn [bind].
  replace (Z.of_nat (Z.to_nat (n + p + 1)) + -1 * (p + 1))%Z with n by lia.
  destruct (Y n ltac:(lia)) as (Fy & Ry).
  assert (Ey : Rabs (value (y n) - 1) <= 3 * ulp64) by (apply (scaled_hi lo hi Flo Fhi Blo Bhi Hgap (g n) Fn); rewrite Vn, Ehi'; reflexivity).
  assert (C2 : isclose (1%num : Binary64) (y n) = true).
  { apply isclose5; [exact finite_1|exact Fy|rewrite value_1, Rabs_R1; lra|rewrite Rabs_right by lra; lra|].
    rewrite value_1, Rabs_minus_sym; eapply Rle_trans; [exact Ey|].
    unfold ulp64; apply Rle_trans with (3 * / 2 ^ 34); [|cbn [pow]; lra].
    apply Rmult_le_compat_l; [lra|]; apply Rinv_le_contravar; [apply pow_lt; lra|apply Rle_pow; [lra|lia]]. }
  assert (C3 : allclose (tab (Z.to_nat (p + 1)) (fun _ => 1%num : Binary64)) [y n] = Ok true).
  { unfold allclose; rewrite zlen_tab; unfold zlen; cbn [length].
    destruct (Z.eqb_spec (Z.of_nat (Z.to_nat (p + 1))) (Z.of_nat 1)) as [E1|E1].
    - replace (Z.to_nat (p + 1)) with 1%nat by lia; rewrite tab_cons; cbn [tab seq map combine forallb fst snd]; rewrite C2; reflexivity.
    - replace (Z.to_nat (p + 1)) with (S (Z.to_nat p)) by lia; rewrite tab_cons.
      assert (FA : forallb (fun x : Binary64 => isclose x (y n)) (1%num :: tab (Z.to_nat p) (fun _ : Z => 1%num)) = true);
        [|destruct (tab (Z.to_nat p) (fun _ : Z => 1%num)); rewrite FA; reflexivity].
      apply forallb_forall'; intros a Ha; cbn [In] in Ha.
      destruct Ha as [<-|Ha]; [exact C2|]; unfold tab in Ha; apply in_map_iff in Ha; destruct Ha as (k & <- & _); exact C2. }
  rewrite C3; cbn [bind negb]; rewrite aget_tab by lia; cbn [bind]; f_equal.
  assert (Ymono : forall i j, (0 <= i)%Z -> (i <= j < n + p + 1)%Z -> value (y i) <= value (y j)).
  { intros i j Hi Hj; destruct (Vg i ltac:(lia)) as (Vi & Fi & Ii); destruct (Vg j ltac:(lia)) as (Vj & Fj & Ij).
    pose proof (Kr _ Ii); pose proof (Kr _ Ij).
    apply (scaled_mono lo hi Flo Fhi Blo Bhi Hgap); try assumption; try lra.
    rewrite Vi, Vj; apply HU; [lia|rewrite len_values; lia]. }
  apply increasing64.
  - apply Forall_tab; intros i Hi; apply Y; lia.
  - apply Y; lia.
  - intros z Hz; unfold tab in Hz; apply in_map_iff in Hz; destruct Hz as (k & <- & Hk); apply in_seq in Hk; apply Ymono; lia.
  - intros i j Hij; rewrite tab_length in Hij; rewrite !nth_tab by lia; apply Ymono; lia.
Qed.

(** ** generate_uniform *)
Section Uniform.
Variable m : Z.
Hypothesis Hm : (1 <= m <= 2 ^ 49)%Z.
Definition step64 : Binary64 := ndiv (ofZ 1) (ofZ m).
Definition mid64 (i : Z) : Binary64 := nadd (nmul (ofZ i) step64) 0%num.

Lemma mR : 1 <= IZR m.
Proof. apply IZR_le; lia. Qed.
Lemma m_ulp : 12 * ulp64 <= 1 / IZR m.
Proof.
  pose proof mR; apply Rmult_le_reg_r with (IZR m); [lra|]; unfold Rdiv; rewrite Rmult_1_l, Rinv_l by lra.
  assert (IZR m <= 2 ^ 49) by (rewrite pow_IZR; apply IZR_le; cbn [Z.of_nat]; lia).
  pose proof ulp64_pos.
  assert (12 * ulp64 * IZR m <= 12 * ulp64 * 2 ^ 49) by (apply Rmult_le_compat_l; lra).
  unfold ulp64 in *; replace (2 ^ 53) with (2 ^ 49 * 16) in * by (cbn [pow]; ring).
  assert (0 < 2 ^ 49) by (apply pow_lt; lra).
  rewrite Rinv_mult in * by lra; replace (12 * (/ 2 ^ 49 * / 16) * 2 ^ 49) with (12 / 16) in * by (field; lra); lra.
Qed.
Lemma step_ok : finite64 step64 /\ Rabs (value step64 - 1 / IZR m) <= 11/10 * ulp64 * (1 / IZR m).
Proof. apply lit64; lia. Qed.
Lemma step_range : 9/10 * (1 / IZR m) <= value step64 <= 11/10 * (1 / IZR m).
Proof.
  destruct step_ok as (_ & E); apply Rabs_le_inv in E; pose proof ulp64_small; pose proof m_ulp; pose proof ulp64_pos.
  assert (11/10 * ulp64 * (1 / IZR m) <= 1/10 * (1 / IZR m)) by (apply Rmult_le_compat_r; lra); lra.
Qed.
Lemma step_nonzero : neqb step64 0%num = false.
Proof.
  change (neqb step64 0%num) with (PrimFloat.eqb step64 (0%num : Binary64)).
  rewrite (eqb64 step64 (0%num : Binary64) (proj1 step_ok) finite_0); apply Req_bool_false; rewrite value_0.
  pose proof step_range; pose proof m_ulp; pose proof ulp64_pos; lra.
Qed.
Lemma mid_ok i : (0 <= i < m)%Z -> finite64 (mid64 i) /\ value (mid64 i) = rnd (IZR i * value step64) /\
  0 <= value (mid64 i) <= 1 /\ Rabs (value (mid64 i) - IZR i / IZR m) <= 3 * ulp64.
Proof.
  intros Hi; destruct step_ok as (Fs & Es); pose proof step_range as Rs; pose proof m_ulp; pose proof ulp64_pos; pose proof ulp64_small.
  destruct (ofZ64 i ltac:(lia)) as (Fi & Vi).
  pose proof mR as HmR.
  assert (I0 : 0 <= IZR i) by (apply IZR_le; lia).
  assert (I1 : IZR i <= IZR m - 1) by (rewrite <- minus_IZR; apply IZR_le; lia).
  assert (Q : 0 <= IZR i / IZR m <= 1 - 1 / IZR m).
  { split; [apply Rmult_le_pos; [lra|left; apply Rinv_0_lt_compat; lra]|].
    apply Rmult_le_reg_r with (IZR m); [lra|]; field_simplify; lra. }
  assert (E1 : Rabs (IZR i * value step64 - IZR i / IZR m) <= 11/10 * ulp64).
  { replace (IZR i * value step64 - IZR i / IZR m) with (IZR i * (value step64 - 1 / IZR m)) by (field; lra).
    rewrite Rabs_mult, (Rabs_right (IZR i)) by lra.
    apply Rle_trans with (IZR i * (11 / 10 * ulp64 * (1 / IZR m))); [apply Rmult_le_compat_l; assumption|].
    replace (IZR i * (11 / 10 * ulp64 * (1 / IZR m))) with (11 / 10 * ulp64 * (IZR i / IZR m)) by (field; lra).
    rewrite <- (Rmult_1_r (11 / 10 * ulp64)) at 2; apply Rmult_le_compat_l; lra. }
  pose proof (Rabs_le_inv _ _ E1) as E1'.
  assert (X : 0 <= IZR i * value step64 <= 1) by (split; [apply Rmult_le_pos; lra|lra]).
  destruct (mul64 (ofZ i : Binary64) step64 Fi Fs) as (Fp & Vp).
  { rewrite Vi; apply rnd_safe with 0%Z; [lia|]; rewrite Rabs_right by lra; cbn [bpow]; lra. }
  rewrite Vi in Vp.
  set (w := rnd (IZR i * value step64)) in *.
  assert (W : 0 <= w <= 1).
  { unfold w; split; [apply rnd_nonneg; lra|].
    change 1 with (bpow radix2 0); rewrite <- (rnd_fmt (bpow radix2 0)) by (apply fmt_bpow; lia); apply rnd_le; apply X. }
  assert (E0 : rnd (w + 0) = w) by (rewrite Rplus_0_r; apply rnd_fmt; rewrite <- Vp; apply value_fmt).
  destruct (add64 (PrimFloat.mul (ofZ i : Binary64) step64) (0%num : Binary64) Fp finite_0) as (Fa & Va).
  { rewrite Vp, value_0, E0; rewrite Rabs_right by lra; apply Rle_lt_trans with 1; [lra|].
    change 1 with (bpow radix2 0); apply bpow_lt; lia. }
  rewrite Vp, value_0, E0 in Va.
  split; [exact Fa|]; split; [exact Va|]; change (value (mid64 i)) with (value (PrimFloat.add (PrimFloat.mul (ofZ i : Binary64) step64) (0%num : Binary64))); rewrite Va.
  split; [exact W|].
  destruct (rnd_err (IZR i * value step64)) as (e & h & He & Hh & Er).
  assert (E2 : Rabs (w - IZR i * value step64) <= 11/10 * ulp64).
  { unfold w; rewrite Er; replace (IZR i * value step64 * (1 + e) + h - IZR i * value step64) with (IZR i * value step64 * e + h) by ring.
    eapply Rle_trans; [apply Rabs_triang|]; rewrite Rabs_mult, (Rabs_right (IZR i * value step64)) by lra.
    assert (IZR i * value step64 * Rabs e <= 1 * ulp64) by (apply Rmult_le_compat; try lra; apply Rabs_pos).
    assert (eta64 * 10 <= ulp64).
    { pose proof eta_ulp as EU; pose proof eta64_pos; assert (10 <= 2 ^ 100).
      { replace (2 ^ 100) with (2 ^ 4 * 2 ^ 96) by (rewrite <- pow_add; reflexivity).
        assert (1 <= 2 ^ 96) by (apply pow_R1_Rle; lra); cbn [pow] in *; lra. }
      assert (eta64 * 10 <= eta64 * 2 ^ 100) by (apply Rmult_le_compat_l; lra); lra. }
    lra. }
  apply Rabs_le_inv in E2; apply Rabs_le; lra.
Qed.

Lemma linspace64 : np_linspace (0 : Binary64)%num (1 : Binary64)%num (m + 1)
  = Ok (tab (Z.to_nat (m + 1)) (fun i => if (i <? m)%Z then mid64 i else 1%num)).
Proof.
  unfold np_linspace; destruct (Z.ltb_spec (m + 1) 0); [lia|]; cbn zeta.
  replace (m + 1 - 1)%Z with m by lia; destruct (Z.ltb_spec 0 m); [|lia].
  change (nsub (1%num : Binary64) 0%num) with (ofZ 1 : Binary64).
  change (ndiv (ofZ 1 : Binary64) (ofZ m)) with step64; rewrite step_nonzero.
  replace (m + 1)%Z with (Z.of_nat (Z.to_nat (m + 1))) at 1 by lia.
  rewrite zrange_tab, !map_tab, aset_tab_neg by lia; apply (f_equal Ok); apply tab_ext; intros i Hi; unfold fupd.
  destruct (Z.eqb_spec i (Z.of_nat (Z.to_nat (m + 1)) + -1)) as [Ei|Ei]; destruct (Z.ltb_spec i m); try lia; reflexivity.
Qed.
End Uniform.

Lemma generate_uniform_b64 p n : (0 <= p)%Z -> (p + 1 <= n)%Z -> (n - p <= 2 ^ 49)%Z ->
  exists U : list PrimFloat.float, generate_uniform p n = Ok (U : list Binary64) /\ within 0 1 U /\ clamped p n (values U) /\
    (forall i, (0 <= i <= p)%Z -> kn (values U) i = 0) /\ (forall i, (n <= i <= n + p)%Z -> kn (values U) i = 1) /\
    (forall i, (p <= i <= n)%Z -> Rabs (kn (values U) i - (IZR i - IZR p) / (IZR n - IZR p)) <= 3 * ulp64) /\
    (forall i, (p <= i < n)%Z -> 1 / (2 * (IZR n - IZR p)) <= kn (values U) (i + 1) - kn (values U) i).
Proof.
  intros Hp Hn Hb; set (m := (n - p)%Z); assert (Hm : (1 <= m <= 2 ^ 49)%Z) by (unfold m; lia).
  assert (HmR : IZR n - IZR p = IZR m) by (unfold m; rewrite minus_IZR; reflexivity); rewrite HmR.
  pose proof (mR m Hm) as M1; pose proof (m_ulp m Hm) as MU; pose proof ulp64_pos as Hu.
  set (f := fun i : Z => if (i <? p)%Z then 0%num : Binary64 else if (i <? n)%Z then mid64 m (i - p) else 1%num).
  assert (M0 : value (mid64 m 0) = 0).
  { rewrite (proj1 (proj2 (mid_ok m Hm 0%Z ltac:(lia)))), Rmult_0_l; apply rnd_0. }
  assert (Ff : forall i, finite64 (f i) /\ 0 <= value (f i) <= 1).
  { intros i; unfold f; destruct (Z.ltb_spec i p); [split; [exact finite_0|rewrite value_0; lra]|].
    destruct (Z.ltb_spec i n); [|split; [exact finite_1|rewrite value_1; lra]].
    destruct (mid_ok m Hm (i - p)%Z ltac:(unfold m; lia)) as (F & _ & R0 & _); split; assumption. }
  assert (E3 : forall i, (p <= i <= n)%Z -> Rabs (value (f i) - (IZR i - IZR p) / IZR m) <= 3 * ulp64).
  { intros i Hi; unfold f; destruct (Z.ltb_spec i p); [lia|]; rewrite <- minus_IZR; destruct (Z.ltb_spec i n).
    - apply (mid_ok m Hm); unfold m; lia.
    - replace (i - p)%Z with m by (unfold m; lia); unfold Rdiv; rewrite Rinv_r by lra; rewrite value_1, Rminus_diag_eq, Rabs_R0 by reflexivity; lra. }
  assert (G : forall i, (p <= i < n)%Z -> 1 / (2 * IZR m) <= value (f (i + 1)%Z) - value (f i)).
  { intros i Hi; pose proof (Rabs_le_inv _ _ (E3 i ltac:(lia))) as A; pose proof (Rabs_le_inv _ _ (E3 (i + 1)%Z ltac:(lia))) as B.
    rewrite plus_IZR in B.
    replace ((IZR i + 1 - IZR p) / IZR m) with ((IZR i - IZR p) / IZR m + 1 / IZR m) in B by (field; lra).
    replace (1 / (2 * IZR m)) with (/ 2 * (1 / IZR m)) by (field; lra); lra. }
  assert (Hpos : 0 < 1 / (2 * IZR m)) by (apply Rdiv_lt_0_compat; lra).
  set (U := tab (Z.to_nat (n + p + 1)) f : list PrimFloat.float).
  assert (LU : len U = (n + p + 1)%Z) by (unfold U; rewrite len_tab; lia).
  assert (KU : forall i, (0 <= i <= n + p)%Z -> kn (values U) i = value (f i)).
  { intros i Hi; rewrite (kn_values U i 0%float) by lia; unfold U; rewrite nth_tab by lia; rewrite Z2Nat.id by lia; reflexivity. }
  assert (K0 : forall i, (0 <= i <= p)%Z -> kn (values U) i = 0).
  { intros i Hi; rewrite KU by lia; unfold f; destruct (Z.ltb_spec i p); [exact value_0|]; destruct (Z.ltb_spec i n); [|lia].
    replace (i - p)%Z with 0%Z by lia; exact M0. }
  assert (K1 : forall i, (n <= i <= n + p)%Z -> kn (values U) i = 1).
  { intros i Hi; rewrite KU by lia; unfold f; destruct (Z.ltb_spec i p); [lia|]; destruct (Z.ltb_spec i n); [lia|exact value_1]. }
  assert (SM : forall i, (0 <= i < n + p)%Z -> kn (values U) i <= kn (values U) (i + 1)).
  { intros i Hi; destruct (Z_lt_dec i p); [rewrite !K0 by lia; lra|]; destruct (Z_lt_dec i n); [|rewrite !K1 by lia; lra].
    rewrite !KU by lia; pose proof (G i ltac:(lia)); lra. }
  exists U; split; [|split; [|split; [|split; [exact K0|split; [exact K1|split]]]]].
  - unfold generate_uniform; cbn zeta.
    replace (n + p + 1 - 2 * p)%Z with (m + 1)%Z by (unfold m; lia); rewrite linspace64 by exact Hm; cbn [bind].
    rewrite !(np_full_tab' p (Z.to_nat p)) by lia; cbn [bind]; apply (f_equal Ok); unfold U.
    replace (Z.to_nat (n + p + 1)) with (Z.to_nat p + (Z.to_nat (m + 1) + Z.to_nat p))%nat by (unfold m; lia).
    rewrite !tab_app; f_equal; [|f_equal]; apply tab_ext; intros i Hi; unfold f.
    + destruct (Z.ltb_spec i p); [reflexivity|lia].
    + destruct (Z.ltb_spec (Z.of_nat (Z.to_nat p) + i) p); [lia|].
      destruct (Z.ltb_spec i m); destruct (Z.ltb_spec (Z.of_nat (Z.to_nat p) + i) n); try (unfold m in *; lia); [|reflexivity].
      f_equal; lia.
    + destruct (Z.ltb_spec (Z.of_nat (Z.to_nat p) + (Z.of_nat (Z.to_nat (m + 1)) + i)) p); [lia|].
      destruct (Z.ltb_spec (Z.of_nat (Z.to_nat p) + (Z.of_nat (Z.to_nat (m + 1)) + i)) n); [unfold m in *; lia|reflexivity].
  - unfold within, U; apply Forall_tab; intros i Hi; apply Ff.
  - split; [split; [exact Hp|split; [exact Hn|split; [rewrite len_values; exact LU|]]]|].
    + intros i j Hij Hj; rewrite len_values, LU in Hj.
      assert (S' : forall k, (0 <= k)%Z -> (i + k <= n + p)%Z -> kn (values U) i <= kn (values U) (i + k)).
      { intros k Hk; revert k Hk; apply (natlike_ind (fun k => (i + k <= n + p)%Z -> kn (values U) i <= kn (values U) (i + k))).
        - intros _; rewrite Z.add_0_r; lra.
        - intros k Hk IH Hle; eapply Rle_trans; [apply IH; lia|].
          replace (i + Z.succ k)%Z with (i + k + 1)%Z by lia; apply SM; lia. }
      replace j with (i + (j - i))%Z by lia; apply S'; lia.
    + rewrite !K0 by lia; rewrite !K1 by lia; lra.
  - intros i Hi; rewrite KU by lia; apply E3; exact Hi.
  - intros i Hi; rewrite !KU by lia; apply G; exact Hi.
Qed.

Lemma uniform_accepted_b64 p n : (0 <= p)%Z -> (p + 1 <= n)%Z -> (n - p <= 2 ^ 49)%Z ->
  (let* U := generate_uniform p n in check_knot_vector p (NdArray (U : list Binary64)) n) = Ok true.
Proof.
  intros Hp Hn Hb; destruct (generate_uniform_b64 p n Hp Hn Hb) as (U & E & W & C & K0 & K1 & _); rewrite E; cbn [bind].
  assert (1 <= 2 ^ 1000) by (apply pow_R1_Rle; lra).
  apply check_clamped_b64; [exact (within_finite _ _ _ W)|exact C| |].
  - eapply Forall_impl; [|exact W]; intros x (_ & B); apply Rabs_le; lra.
  - rewrite (K0 0%Z), (K1 n) by lia; rewrite Rminus_0_r, <- Rinv_1; apply Rinv_le_contravar; lra.
Qed.
