(** Smoothness at knots, Lipschitz bound and linear independence of B-splines. *)
From Coq Require Import Sorted.
From Verif Require Import Spec MathCox MathKnots MathDeriv MathJoin.
Open Scope R_scope.

(** ** Derivatives of neighbouring pieces at a knot *)
Lemma Dx_join (U : Z -> R) s s' u : (s <= s')%Z -> (forall j, (s < j <= s')%Z -> U j = u) -> U s <> u -> U (s' + 1)%Z <> u ->
  forall k p i, (s' - s <= Z.of_nat p - Z.of_nat k)%Z -> Dx (delta s) U k p i u = Dx (delta s') U k p i u.
Proof.
  intros Hss Hmid Hlo Hhi; induction k as [|k IH]; intros p i Hk.
  - apply join_cox; try assumption; lia.
  - destruct p as [|q]; [lia|]; cbn [Dx]; rewrite !IH by lia; reflexivity.
Qed.

(** Between roots of a function lie roots of its derivative. *)
Lemma rolle_list (f f' : R -> R) : (forall x, derivable_pt_lim f x (f' x)) -> forall xs x, StronglySorted Rlt (x :: xs) -> Forall (fun x => f x = 0) (x :: xs) ->
  exists ys, length ys = length xs /\ StronglySorted Rlt ys /\ Forall (fun y => f' y = 0) ys /\ Forall (fun y => x < y) ys.
Proof.
  intros HD; induction xs as [|x' xs IH]; intros x HS HF; [exists []; repeat split; constructor|].
  inversion HS as [|? ? HS' HX]; subst; inversion HF as [|? ? Fx HF']; subst.
  destruct (IH x' HS' HF') as (ys & L & SY & FY & BY); pose proof (Forall_inv HX) as Hx; pose proof (Forall_inv HF') as Fx'; cbn beta in Hx, Fx'.
  destruct (MVT_cor2 f f' x x' Hx (fun y _ => HD y)) as (y & E & Hy); rewrite Fx, Fx' in E.
  exists (y :: ys); split; [cbn; lia|]; split; [|split].
  - constructor; [exact SY|]; eapply Forall_impl; [|exact BY]; intros z Hz; cbn beta in Hz; lra.
  - constructor; [|exact FY]; destruct (Rmult_integral (f' y) (x' - x)) as [Z|Z]; [lra|exact Z|lra].
  - constructor; [lra|]; eapply Forall_impl; [|exact BY]; intros z Hz; cbn beta in Hz; lra.
Qed.

(** A function made of two pieces that meet at [u]. *)
Lemma glue_derivable f f1 f2 a u b l : a < u -> u < b -> (forall x, a <= x <= u -> f x = f1 x) -> (forall x, u <= x <= b -> f x = f2 x) ->
  derivable_pt_lim f1 u l -> derivable_pt_lim f2 u l -> derivable_pt_lim f u l.
Proof.
  intros Ha Hb H1 H2 D1 D2 eps He; destruct (D1 eps He) as (d1 & E1); destruct (D2 eps He) as (d2 & E2).
  set (d := Rmin (Rmin d1 d2) (Rmin (u - a) (b - u))).
  assert (Hd : 0 < d) by (unfold d; repeat apply Rmin_glb_lt; try lra; apply cond_pos).
  exists (mkposreal d Hd); cbn [pos]; intros h Hh Hl.
  assert (L : d <= d1 /\ d <= d2 /\ d <= u - a /\ d <= b - u).
  { unfold d; pose proof (Rmin_l (Rmin d1 d2) (Rmin (u - a) (b - u))); pose proof (Rmin_r (Rmin d1 d2) (Rmin (u - a) (b - u))).
    pose proof (Rmin_l d1 d2); pose proof (Rmin_r d1 d2); pose proof (Rmin_l (u - a) (b - u)); pose proof (Rmin_r (u - a) (b - u)); lra. }
  destruct L as (L1 & L2 & L3 & L4); pose proof (Rabs_def2 _ _ Hl) as [B1 B2].
  destruct (Rle_dec h 0) as [N|N].
  - rewrite (H1 (u + h)), (H1 u) by lra; apply E1; [exact Hh|lra].
  - rewrite (H2 (u + h)), (H2 u) by lra; apply E2; [exact Hh|lra].
Qed.
Lemma glue_continuous f f1 f2 a u b : a < u -> u < b -> (forall x, a <= x <= u -> f x = f1 x) -> (forall x, u <= x <= b -> f x = f2 x) ->
  continuity_pt f1 u -> continuity_pt f2 u -> continuity_pt f u.
Proof.
  intros Ha Hb H1 H2 C1 C2 eps He; destruct (C1 eps He) as (d1 & P1 & E1); destruct (C2 eps He) as (d2 & P2 & E2).
  set (d := Rmin (Rmin d1 d2) (Rmin (u - a) (b - u))).
  assert (Hd : 0 < d) by (unfold d; repeat apply Rmin_glb_lt; lra).
  assert (L : d <= d1 /\ d <= d2 /\ d <= u - a /\ d <= b - u).
  { unfold d; pose proof (Rmin_l (Rmin d1 d2) (Rmin (u - a) (b - u))); pose proof (Rmin_r (Rmin d1 d2) (Rmin (u - a) (b - u))).
    pose proof (Rmin_l d1 d2); pose proof (Rmin_r d1 d2); pose proof (Rmin_l (u - a) (b - u)); pose proof (Rmin_r (u - a) (b - u)); lra. }
  destruct L as (L1 & L2 & L3 & L4); exists d; split; [exact Hd|]; intros x [HX HD]; unfold dist in HD; cbn in HD; unfold R_dist in HD.
  pose proof (Rabs_def2 _ _ HD) as [B1 B2].
  destruct (Rle_dec x u) as [N|N].
  - rewrite (H1 x), (H1 u) by lra; apply E1; split; [exact HX|unfold dist; cbn; unfold R_dist; lra].
  - rewrite (H2 x), (H2 u) by lra; apply E2; split; [exact HX|unfold dist; cbn; unfold R_dist; lra].
Qed.

Section Span.
Variables (U : Z -> R) (s : Z).
Hypothesis Umono : forall i j, (i <= j)%Z -> U i <= U j.
Hypothesis Hs : U s < U (s + 1)%Z.

(** The sum of the functions of span [s] with coefficients [c]. *)
Definition comb (q : nat) (c : Z -> R) (u : R) : R := zsum (s - Z.of_nat q) (S q) (fun i => cox (delta s) U q i u * c i).
(** The coefficients of the derivative. *)
Definition dcoef (q : nat) (c : Z -> R) (i : Z) : R := INR (S q) * ((c i - c (i - 1)%Z) / (U (i + Z.of_nat q + 1)%Z - U i)).

Lemma width_pos q i : (s - Z.of_nat q <= i <= s)%Z -> 0 < U (i + Z.of_nat q + 1)%Z - U i.
Proof. intros Hi; pose proof (Umono i s ltac:(lia)); pose proof (Umono (s + 1) (i + Z.of_nat q + 1) ltac:(lia)); lra. Qed.

Lemma comb_derivative q c u : derivable_pt_lim (comb (S q) c) u (comb q (dcoef q c) u).
Proof.
  replace (comb q (dcoef q c) u) with (zsum (s - Z.of_nat (S q)) (S (S q)) (fun i => Dx (delta s) U 1 (S q) i u * c i)).
  - unfold comb; apply (derivable_zsum (s - Z.of_nat (S q)) (S (S q)) (fun i u => cox (delta s) U (S q) i u * c i)); intros i.
    replace (Dx (delta s) U 1 (S q) i u * c i) with (Dx (delta s) U 1 (S q) i u * c i + cox (delta s) U (S q) i u * 0) by ring.
    apply (derivable_pt_lim_mult (fun u => cox (delta s) U (S q) i u) (fun _ => c i)); [apply cox_derivable; exact Umono|apply derivable_pt_lim_const].
  - unfold comb.
    rewrite (zsum_ext _ _ _ (fun i => INR (S q) * (Mx (delta s) U q i u * c i) - INR (S q) * (Mx (delta s) U q (i + 1) u * c i)))
      by (intros i _; rewrite Dx_1; ring).
    rewrite zsum_minus, zsum_first.
    replace (Mx (delta s) U q (s - Z.of_nat (S q)) u) with 0 by (unfold Mx; rewrite cox_support by lia; rewrite sdiv_0_l; reflexivity).
    change (zsum (s - Z.of_nat (S q)) (S (S q)) (fun i => INR (S q) * (Mx (delta s) U q (i + 1) u * c i))) with
      (zsum (s - Z.of_nat (S q)) (S q) (fun i => INR (S q) * (Mx (delta s) U q (i + 1) u * c i)) +
       INR (S q) * (Mx (delta s) U q (s - Z.of_nat (S q) + Z.of_nat (S q) + 1) u * c (s - Z.of_nat (S q) + Z.of_nat (S q))%Z)).
    replace (Mx (delta s) U q (s - Z.of_nat (S q) + Z.of_nat (S q) + 1) u) with 0 by (unfold Mx; rewrite cox_support by lia; rewrite sdiv_0_l; reflexivity).
    replace (s - Z.of_nat (S q) + 1)%Z with (s - Z.of_nat q)%Z by lia.
    replace (s - Z.of_nat (S q))%Z with (s - Z.of_nat q + -1)%Z by lia; rewrite zsum_shift.
    rewrite !Rmult_0_l, !Rmult_0_r, Rplus_0_l, Rplus_0_r, <- zsum_minus; apply zsum_ext; intros i Hi.
    replace (i + -1 + 1)%Z with i by lia; replace (i + -1)%Z with (i - 1)%Z by lia.
    pose proof (width_pos q i ltac:(lia)) as W; unfold Mx, dcoef; rewrite sdiv_nz by lra; field; lra.
Qed.

Lemma comb_const q c u a : (forall i, (s - Z.of_nat q <= i <= s)%Z -> c i = a) -> comb q c u = a.
Proof.
  intros H; unfold comb; rewrite (zsum_ext _ _ _ (fun i => cox (delta s) U q i u * a)) by (intros i Hi; rewrite H by lia; reflexivity).
  rewrite zsum_scal_r, (cox_unity U s q Hs); [ring|intros; apply Umono; lia|lia].
Qed.

(** A combination of degree [q] with more than [q] roots has no coefficients. *)
Lemma comb_roots : forall q c xs, StronglySorted Rlt xs -> length xs = S q -> Forall (fun x => comb q c x = 0) xs ->
  forall i, (s - Z.of_nat q <= i <= s)%Z -> c i = 0.
Proof.
  induction q as [|q IH]; intros c xs HS HL HF i Hi; destruct xs as [|x xs]; try discriminate HL; pose proof (Forall_inv HF) as Hx; cbn beta in Hx.
  - rewrite (comb_const 0 c _ (c s)) in Hx by (intros j Hj; f_equal; lia); rewrite <- Hx; f_equal; lia.
  - destruct (rolle_list (comb (S q) c) (comb q (dcoef q c)) (comb_derivative q c) xs x HS HF) as (ys & LY & SY & FY & _).
    assert (D : forall j, (s - Z.of_nat q <= j <= s)%Z -> dcoef q c j = 0) by (apply (IH _ ys SY); [injection HL as HL; lia|exact FY]).
    assert (E : forall j, (s - Z.of_nat q <= j <= s)%Z -> c j = c (j - 1)%Z).
    { intros j Hj; specialize (D j Hj); unfold dcoef in D; pose proof (width_pos q j Hj).
      apply Rmult_integral in D; destruct D as [D|D]; [pose proof (lt_0_INR (S q) ltac:(lia)); lra|].
      apply Rmult_integral in D; destruct D as [D|D]; [lra|]; exfalso; revert D; apply Rinv_neq_0_compat; lra. }
    assert (C : forall n : nat, (n <= S q)%nat -> c (s - Z.of_nat n)%Z = c s).
    { induction n as [|n IHn]; intros Hn; [f_equal; lia|]; rewrite <- (IHn ltac:(lia)), (E (s - Z.of_nat n)%Z) by lia; f_equal; lia. }
    assert (Z : c s = 0).
    { rewrite <- (comb_const (S q) c x (c s)); [exact Hx|].
      intros j Hj; rewrite <- (C (Z.to_nat (s - j)) ltac:(lia)); f_equal; lia. }
    rewrite <- Z, <- (C (Z.to_nat (s - i)) ltac:(lia)); f_equal; lia.
Qed.

(** Bound of a combination on the closed span. *)
Lemma comb_bound q c u L : U s <= u <= U (s + 1)%Z -> (forall i, (s - Z.of_nat q <= i <= s)%Z -> Rabs (c i) <= L) -> Rabs (comb q c u) <= L.
Proof.
  intros Hu H.
  assert (N : forall i, 0 <= cox (delta s) U q i u) by (intros i; apply (cox_nonneg U s q); [exact Hs|intros; apply Umono; lia|exact Hu|lia]).
  assert (E : forall f, (forall i, (s - Z.of_nat q <= i <= s)%Z -> f i <= L) -> comb q f u <= L).
  { intros f Hf; rewrite <- (comb_const q (fun _ => L) u L) by reflexivity; unfold comb; apply zsum_le; intros i Hi.
    apply Rmult_le_compat_l; [apply N|apply Hf; lia]. }
  pose proof (E c (fun i Hi => Rle_trans _ _ _ (Rle_abs _) (H i Hi))) as E1.
  assert (E2 : comb q (fun i => - c i) u <= L).
  { apply E; intros i Hi; specialize (H i Hi); rewrite <- Rabs_Ropp in H; pose proof (Rle_abs (- c i)); lra. }
  assert (E3 : comb q (fun i => - c i) u = - comb q c u).
  { unfold comb; transitivity (zsum (s - Z.of_nat q) (S q) (fun i => -1 * (cox (delta s) U q i u * c i))); [apply zsum_ext; intros; ring|rewrite zsum_scal; ring]. }
  apply Rabs_le; lra.
Qed.

Lemma comb_lipschitz p c L : (1 <= p)%nat ->
  (forall i, (s - Z.of_nat p < i <= s)%Z -> INR p * Rabs (c i - c (i - 1)%Z) <= L * (U (i + Z.of_nat p)%Z - U i)) ->
  forall u v, U s <= u -> u <= v -> v <= U (s + 1)%Z -> Rabs (comb p c v - comb p c u) <= L * (v - u).
Proof.
  intros Hp H u v Hu Huv Hv; destruct p as [|q]; [lia|].
  destruct (Req_dec u v) as [->|N]; [unfold Rminus; rewrite !Rplus_opp_r, Rabs_R0; lra|].
  destruct (MVT_cor2 (comb (S q) c) (comb q (dcoef q c)) u v ltac:(lra) (fun x _ => comb_derivative q c x)) as (x & E & Hx).
  rewrite E, Rabs_mult, (Rabs_right (v - u)) by lra; apply Rmult_le_compat_r; [lra|].
  apply comb_bound; [lra|]; intros i Hi; pose proof (width_pos q i Hi) as W.
  specialize (H i ltac:(lia)); replace (i + Z.of_nat (S q))%Z with (i + Z.of_nat q + 1)%Z in H by lia.
  unfold dcoef, Rdiv; rewrite !Rabs_mult, (Rabs_right (INR (S q))), Rabs_inv by (apply Rle_ge, pos_INR).
  rewrite (Rabs_right (_ - U i)) by lra; apply (Rmult_le_reg_r (U (i + Z.of_nat q + 1)%Z - U i)); [exact W|].
  replace (INR (S q) * (Rabs (c i - c (i - 1)%Z) * / (U (i + Z.of_nat q + 1)%Z - U i)) * (U (i + Z.of_nat q + 1)%Z - U i)) with (INR (S q) * Rabs (c i - c (i - 1)%Z)) by (field; lra).
  exact H.
Qed.
End Span.
