(** Proofs for C119: convergence of the inversion of points that lie on a
    surface, in exact arithmetic. *)
From Verif Require Import Py Num ModelKnots ModelCurve ModelSurface ModelParam Spec SpecParam SpecNewton SpecSmooth SpecConv ProofNum ProofInit ProofCurve ProofSurface ProofDers ProofParam ProofParam3 ProofParam5 ProofParam6 ProofParam7 ProofParam8 ProofSmooth ProofShape4 ProofConv.
From Coq Require Import Lra Lia.
Open Scope R_scope.

(** ** Vectors by coordinates *)
Lemma dot_nth a b : length a = 3%nat -> length b = 3%nat -> dotR a b = nth 0 a 0 * nth 0 b 0 + nth 1 a 0 * nth 1 b 0 + nth 2 a 0 * nth 2 b 0.
Proof. destruct a as [|a0 [|a1 [|a2 [|]]]]; try discriminate; destruct b as [|b0 [|b1 [|b2 [|]]]]; try discriminate; intros _ _; rewrite dot3; reflexivity. Qed.
Lemma sub_nth a b c : length a = 3%nat -> length b = 3%nat -> (c < 3)%nat -> nth c (subR a b) 0 = nth c a 0 - nth c b 0.
Proof.
  destruct a as [|a0 [|a1 [|a2 [|]]]]; try discriminate; destruct b as [|b0 [|b1 [|b2 [|]]]]; try discriminate; intros _ _ Hc.
  destruct c as [|[|[|c]]]; try reflexivity; lia.
Qed.
Lemma sub_length3 a b : length a = 3%nat -> length b = 3%nat -> length (subR a b) = 3%nat.
Proof. intros A B; unfold subR; rewrite map_length, combine_length, A, B; reflexivity. Qed.

(** ** Functions of three pairs, continuous where all three are [r] *)
Definition around (r : R * R) (e : R) (w : R * R) : Prop := Rabs (fst w - fst r) < e /\ Rabs (snd w - snd r) < e.
Definition cont3 (r : R * R) (F : R * R -> R * R -> R * R -> R) : Prop :=
  forall eps, 0 < eps -> exists e, 0 < e /\ forall d w z, around r e d -> around r e w -> around r e z -> Rabs (F d w z - F r r r) < eps.
Lemma around_less r e e' w : e <= e' -> around r e w -> around r e' w.
Proof. intros H [A B]; split; lra. Qed.
Lemma cont3_const r k : cont3 r (fun _ _ _ => k).
Proof. intros e He; exists 1; split; [lra|]; intros; rewrite Rminus_eq_0, Rabs_R0; exact He. Qed.
Lemma cont3_plus r F G : cont3 r F -> cont3 r G -> cont3 r (fun d w z => F d w z + G d w z).
Proof.
  intros HF HG eps He; destruct (HF (eps / 2) ltac:(lra)) as (e & He1 & A), (HG (eps / 2) ltac:(lra)) as (e' & He2 & B).
  exists (Rmin e e'); split; [apply Rmin_pos; assumption|]; intros d w z Hd Hw Hz.
  pose proof (Rmin_l e e') as L1; pose proof (Rmin_r e e') as L2.
  specialize (A d w z (around_less _ _ _ _ L1 Hd) (around_less _ _ _ _ L1 Hw) (around_less _ _ _ _ L1 Hz)).
  specialize (B d w z (around_less _ _ _ _ L2 Hd) (around_less _ _ _ _ L2 Hw) (around_less _ _ _ _ L2 Hz)).
  replace (F d w z + G d w z - (F r r r + G r r r)) with ((F d w z - F r r r) + (G d w z - G r r r)) by ring.
  eapply Rle_lt_trans; [apply Rabs_triang|]; lra.
Qed.
Lemma cont3_mult r F G : cont3 r F -> cont3 r G -> cont3 r (fun d w z => F d w z * G d w z).
Proof.
  intros HF HG eps He; set (f := F r r r); set (g := G r r r).
  set (M := Rabs f + Rabs g + 1); assert (HM : 0 < M) by (unfold M; pose proof (Rabs_pos f); pose proof (Rabs_pos g); lra).
  set (e0 := Rmin 1 (eps / (2 * M))); assert (He0 : 0 < e0) by (apply Rmin_pos; [lra|apply Rdiv_lt_0_compat; lra]).
  assert (E1 : e0 <= 1) by apply Rmin_l; assert (E2 : e0 * M <= eps / 2).
  { apply Rle_trans with (eps / (2 * M) * M); [apply Rmult_le_compat_r; [lra|apply Rmin_r]|right; field; lra]. }
  destruct (HF e0 He0) as (e & He1 & A), (HG e0 He0) as (e' & He2 & B).
  exists (Rmin e e'); split; [apply Rmin_pos; assumption|]; intros d w z Hd Hw Hz.
  pose proof (Rmin_l e e') as L1; pose proof (Rmin_r e e') as L2.
  specialize (A d w z (around_less _ _ _ _ L1 Hd) (around_less _ _ _ _ L1 Hw) (around_less _ _ _ _ L1 Hz)); fold f in A.
  specialize (B d w z (around_less _ _ _ _ L2 Hd) (around_less _ _ _ _ L2 Hw) (around_less _ _ _ _ L2 Hz)); fold g in B.
  fold f g; set (x := F d w z) in *; set (y := G d w z) in *.
  replace (x * y - f * g) with ((x - f) * (y - g) + (x - f) * g + f * (y - g)) by ring.
  pose proof (Rabs_triang ((x - f) * (y - g) + (x - f) * g) (f * (y - g))) as T1; pose proof (Rabs_triang ((x - f) * (y - g)) ((x - f) * g)) as T2.
  rewrite !Rabs_mult in *.
  assert (Rabs (x - f) * Rabs (y - g) <= e0 * 1) by (apply Rmult_le_compat; try apply Rabs_pos; lra).
  assert (Rabs (x - f) * Rabs g <= e0 * Rabs g) by (apply Rmult_le_compat_r; [apply Rabs_pos|lra]).
  assert (Rabs f * Rabs (y - g) <= e0 * Rabs f) by (rewrite (Rmult_comm e0); apply Rmult_le_compat_l; [apply Rabs_pos|lra]).
  unfold M in E2; lra.
Qed.
Lemma cont3_minus r F G : cont3 r F -> cont3 r G -> cont3 r (fun d w z => F d w z - G d w z).
Proof.
  intros HF HG; pose proof (cont3_plus r F (fun d w z => -1 * G d w z) HF (cont3_mult r (fun _ _ _ => -1) G (cont3_const r (-1)) HG)) as H.
  intros e He; destruct (H e He) as (e' & He' & A); exists e'; split; [exact He'|]; intros d w z Hd Hw Hz; specialize (A d w z Hd Hw Hz).
  replace (F d w z - G d w z - (F r r r - G r r r)) with (F d w z + -1 * G d w z - (F r r r + -1 * G r r r)) by ring; exact A.
Qed.
Lemma cont3_1 r (f : R -> R -> R) : continuous2 f (fst r) (snd r) -> cont3 r (fun d _ _ => f (fst d) (snd d)).
Proof. intros H e He; destruct (H e He) as (d & Hd & A); exists d; split; [exact Hd|]; intros x y z [X1 X2] _ _; apply A; assumption. Qed.
Lemma cont3_2 r (f : R -> R -> R) : continuous2 f (fst r) (snd r) -> cont3 r (fun _ w _ => f (fst w) (snd w)).
Proof. intros H e He; destruct (H e He) as (d & Hd & A); exists d; split; [exact Hd|]; intros x y z _ [X1 X2] _; apply A; assumption. Qed.
Lemma cont3_3 r (f : R -> R -> R) : continuous2 f (fst r) (snd r) -> cont3 r (fun _ _ z => f (fst z) (snd z)).
Proof. intros H e He; destruct (H e He) as (d & Hd & A); exists d; split; [exact Hd|]; intros x y z _ _ [X1 X2]; apply A; assumption. Qed.

(** ** One step *)
Section Step.
Variables (pt du dv duu dvv duv : R -> R -> list R) (r : R * R) (rho : R) (Q : list R).
Hypotheses (Hrho : 0 < rho) (LQ : length Q = 3%nat)
  (L0 : forall u v, length (pt u v) = 3%nat) (L1 : forall u v, length (du u v) = 3%nat) (L2 : forall u v, length (dv u v) = 3%nat)
  (L3 : forall u v, length (duu u v) = 3%nat) (L4 : forall u v, length (dvv u v) = 3%nat) (L5 : forall u v, length (duv u v) = 3%nat)
  (DU : forall c u v, (c < 3)%nat -> Rabs (u - fst r) < rho -> Rabs (v - snd r) < rho -> derivable_pt_lim (fun x => nth c (pt x v) 0) u (nth c (du u v) 0))
  (DV : forall c u v, (c < 3)%nat -> Rabs (u - fst r) < rho -> Rabs (v - snd r) < rho -> derivable_pt_lim (fun y => nth c (pt u y) 0) v (nth c (dv u v) 0))
  (C0 : forall c, (c < 3)%nat -> continuous2 (fun u v => nth c (pt u v) 0) (fst r) (snd r))
  (C1 : forall c, (c < 3)%nat -> continuous2 (fun u v => nth c (du u v) 0) (fst r) (snd r))
  (C2 : forall c, (c < 3)%nat -> continuous2 (fun u v => nth c (dv u v) 0) (fst r) (snd r))
  (C3 : forall c, (c < 3)%nat -> continuous2 (fun u v => nth c (duu u v) 0) (fst r) (snd r))
  (C4 : forall c, (c < 3)%nat -> continuous2 (fun u v => nth c (dvv u v) 0) (fst r) (snd r))
  (C5 : forall c, (c < 3)%nat -> continuous2 (fun u v => nth c (duv u v) 0) (fst r) (snd r))
  (HQ : at2 pt r = Q) (H01 : 0 <= fst r <= 1 /\ 0 <= snd r <= 1).
Let at_ (f : R -> R -> list R) (c : nat) (w : R * R) : R := nth c (at2 f w) 0.
Let res (c : nat) (w : R * R) : R := at_ pt c w - nth c Q 0.
Lemma res_dot f d w : (forall u v, length (f u v) = 3%nat) -> dotR (subR (at2 pt w) Q) (at2 f d) = res 0 w * at_ f 0 d + res 1 w * at_ f 1 d + res 2 w * at_ f 2 d.
Proof.
  intros Lf; rewrite dot_nth; [|apply sub_length3; [apply L0|exact LQ]|apply Lf].
  rewrite !sub_nth; try exact LQ; try lia; try apply L0; reflexivity.
Qed.
Lemma at_dot f g d : (forall u v, length (f u v) = 3%nat) -> (forall u v, length (g u v) = 3%nat) -> dotR (at2 f d) (at2 g d) = at_ f 0 d * at_ g 0 d + at_ f 1 d * at_ g 1 d + at_ f 2 d * at_ g 2 d.
Proof. intros Lf Lg; rewrite dot_nth; [reflexivity|apply Lf|apply Lg]. Qed.
Lemma around_between (w : R * R) e x : around r e w -> Rmin (fst w) (fst r) <= x <= Rmax (fst w) (fst r) -> Rabs (x - fst r) < e.
Proof. intros [A _] B; destruct (between _ _ _ B); lra. Qed.
Lemma around_between' (w : R * R) e x : around r e w -> Rmin (snd w) (snd r) <= x <= Rmax (snd w) (snd r) -> Rabs (x - snd r) < e.
Proof. intros [_ A] B; destruct (between _ _ _ B); lra. Qed.
Lemma around_center e : 0 < e -> around r e r.
Proof. intros H; split; rewrite Rminus_eq_0, Rabs_R0; exact H. Qed.
(** The residual by the mean value theorem in each parameter. *)
Lemma res_mean c e w : (c < 3)%nat -> e <= rho -> around r e w ->
  exists z z', around r e z /\ around r e z' /\ res c w = at_ du c z * (fst w - fst r) + at_ dv c z' * (snd w - snd r).
Proof.
  intros Hc He Hw; assert (Hw' := around_less _ _ _ _ He Hw).
  destruct (mean_value (fun x => nth c (pt x (snd w)) 0) (fun x => nth c (du x (snd w)) 0) (fst w) (fst r)) as (x & Hx & E1).
  { intros x _ B; apply DU; [exact Hc|apply (around_between w _ _ Hw' B)|apply Hw']. }
  destruct (mean_value (fun y => nth c (pt (fst r) y) 0) (fun y => nth c (dv (fst r) y) 0) (snd w) (snd r)) as (y & Hy & E2).
  { intros y _ B; apply DV; [exact Hc|rewrite Rminus_eq_0, Rabs_R0; exact Hrho|apply (around_between' w _ _ Hw' B)]. }
  assert (He0 : 0 < e) by (destruct Hw as [A _]; pose proof (Rabs_pos (fst w - fst r)); lra).
  exists (x, snd w), (fst r, y); split; [split; [apply (around_between w _ _ Hw Hx)|apply Hw]|].
  split; [split; [cbn [fst]; rewrite Rminus_eq_0, Rabs_R0; exact He0|apply (around_between' w _ _ Hw Hy)]|].
  unfold res, at_, at2 in *; cbn [fst snd]; rewrite <- HQ; lra.
Qed.
Let small (f g h : R -> R -> list R) (c : nat) (d w z : R * R) : R := at_ f c d * (at_ g c d - at_ g c z) + res c w * at_ h c d.
Lemma small_cont f g h c : (forall c, (c < 3)%nat -> continuous2 (fun u v => nth c (f u v) 0) (fst r) (snd r)) ->
  (forall c, (c < 3)%nat -> continuous2 (fun u v => nth c (g u v) 0) (fst r) (snd r)) -> (forall c, (c < 3)%nat -> continuous2 (fun u v => nth c (h u v) 0) (fst r) (snd r)) ->
  (c < 3)%nat -> forall eps, 0 < eps -> exists e, 0 < e /\ forall d w z, around r e d -> around r e w -> around r e z -> Rabs (small f g h c d w z) < eps.
Proof.
  intros Cf Cg Ch Hc eps He.
  assert (HC : cont3 r (small f g h c)).
  { unfold small, res; apply cont3_plus; apply cont3_mult; [apply (cont3_1 r _ (Cf c Hc))| |apply cont3_minus; [apply (cont3_2 r _ (C0 c Hc))|apply cont3_const]|apply (cont3_1 r _ (Ch c Hc))].
    apply cont3_minus; [apply (cont3_1 r _ (Cg c Hc))|apply (cont3_3 r _ (Cg c Hc))]. }
  assert (Z : small f g h c r r r = 0) by (unfold small, res, at_; rewrite HQ; ring).
  destruct (HC eps He) as (e & He' & A); exists e; split; [exact He'|]; intros d w z Hd Hw Hz; specialize (A d w z Hd Hw Hz); rewrite Z, Rminus_0_r in A; exact A.
Qed.
Lemma three (A : nat -> R -> Prop) : (forall c e e', e' <= e -> A c e -> A c e') -> (forall c, (c < 3)%nat -> exists e, 0 < e /\ A c e) -> exists e, 0 < e /\ forall c, (c < 3)%nat -> A c e.
Proof.
  intros M H; destruct (H 0%nat ltac:(lia)) as (e0 & P0 & H0), (H 1%nat ltac:(lia)) as (e1 & P1 & H1), (H 2%nat ltac:(lia)) as (e2 & P2 & H2).
  exists (Rmin e0 (Rmin e1 e2)); split; [repeat apply Rmin_pos; assumption|].
  pose proof (Rmin_l e0 (Rmin e1 e2)); pose proof (Rmin_r e0 (Rmin e1 e2)); pose proof (Rmin_l e1 e2); pose proof (Rmin_r e1 e2).
  intros [|[|[|c]]] Hc; [apply (M 0%nat e0); [lra|exact H0]|apply (M 1%nat e1); [lra|exact H1]|apply (M 2%nat e2); [lra|exact H2]|lia].
Qed.
Lemma small_all f g h eps : (forall c, (c < 3)%nat -> continuous2 (fun u v => nth c (f u v) 0) (fst r) (snd r)) ->
  (forall c, (c < 3)%nat -> continuous2 (fun u v => nth c (g u v) 0) (fst r) (snd r)) -> (forall c, (c < 3)%nat -> continuous2 (fun u v => nth c (h u v) 0) (fst r) (snd r)) ->
  0 < eps -> exists e, 0 < e /\ forall c, (c < 3)%nat -> forall d w z, around r e d -> around r e w -> around r e z -> Rabs (small f g h c d w z) <= eps.
Proof.
  intros Cf Cg Ch He; apply (three (fun c e => forall d w z, around r e d -> around r e w -> around r e z -> Rabs (small f g h c d w z) <= eps)).
  - intros c e e' L A d w z Hd Hw Hz; apply A; eapply around_less; eauto.
  - intros c Hc; destruct (small_cont f g h c Cf Cg Ch Hc eps He) as (e & He' & A); exists e; split; [exact He'|]; intros d w z Hd Hw Hz; left; apply A; assumption.
Qed.
Let muu := m_uu pt du duu Q.
Let mvv := m_vv pt dv dvv Q.
Let muv := m_uv pt du dv duv Q.
Let det := m_det pt du dv duu dvv duv Q.
Lemma at_cont f c : (forall c, (c < 3)%nat -> continuous2 (fun u v => nth c (f u v) 0) (fst r) (snd r)) -> (c < 3)%nat -> cont3 r (fun d _ _ => at_ f c d).
Proof. intros Cf Hc; apply (cont3_1 r _ (Cf c Hc)). Qed.
Lemma cont_dot f g : (forall u v, length (f u v) = 3%nat) -> (forall u v, length (g u v) = 3%nat) -> (forall c, (c < 3)%nat -> continuous2 (fun u v => nth c (f u v) 0) (fst r) (snd r)) ->
  (forall c, (c < 3)%nat -> continuous2 (fun u v => nth c (g u v) 0) (fst r) (snd r)) -> cont3 r (fun d _ _ => dotR (at2 f d) (at2 g d)).
Proof.
  intros Lf Lg Cf Cg.
  assert (H : cont3 r (fun d _ _ => at_ f 0 d * at_ g 0 d + at_ f 1 d * at_ g 1 d + at_ f 2 d * at_ g 2 d)).
  { repeat apply cont3_plus; apply cont3_mult; apply at_cont; try assumption; lia. }
  intros e He; destruct (H e He) as (e' & He' & A); exists e'; split; [exact He'|]; intros d w z Hd Hw Hz; rewrite !at_dot by assumption; exact (A d w z Hd Hw Hz).
Qed.
Lemma cont_res f : (forall u v, length (f u v) = 3%nat) -> (forall c, (c < 3)%nat -> continuous2 (fun u v => nth c (f u v) 0) (fst r) (snd r)) ->
  cont3 r (fun d w _ => dotR (subR (at2 pt w) Q) (at2 f d)).
Proof.
  intros Lf Cf.
  assert (H : cont3 r (fun d w _ => res 0 w * at_ f 0 d + res 1 w * at_ f 1 d + res 2 w * at_ f 2 d)).
  { assert (R1 : forall c, (c < 3)%nat -> cont3 r (fun _ w _ => res c w)) by (intros c Hc; unfold res; apply cont3_minus; [apply (cont3_2 r _ (C0 c Hc))|apply cont3_const]).
    repeat apply cont3_plus; apply cont3_mult; try (apply R1; lia); apply at_cont; try assumption; lia. }
  intros e He; destruct (H e He) as (e' & He' & A); exists e'; split; [exact He'|]; intros d w z Hd Hw Hz; rewrite !res_dot by assumption; exact (A d w z Hd Hw Hz).
Qed.
Lemma cont_muu : cont3 r (fun d w _ => muu d w).
Proof. apply cont3_plus; [apply cont_dot|apply cont_res]; assumption. Qed.
Lemma cont_mvv : cont3 r (fun d w _ => mvv d w).
Proof. apply cont3_plus; [apply cont_dot|apply cont_res]; assumption. Qed.
Lemma cont_muv : cont3 r (fun d w _ => muv d w).
Proof. apply cont3_plus; [apply cont_dot|apply cont_res]; assumption. Qed.
Lemma cont_det : cont3 r (fun d w _ => det d w).
Proof. apply cont3_minus; apply cont3_mult; first [apply cont_muu|apply cont_mvv|apply cont_muv]. Qed.
Lemma bounded3 F : cont3 r F -> exists e, 0 < e /\ forall d w z, around r e d -> around r e w -> around r e z -> Rabs (F d w z) <= Rabs (F r r r) + 1.
Proof.
  intros H; destruct (H 1 Rlt_0_1) as (e & He & A); exists e; split; [exact He|]; intros d w z Hd Hw Hz; specialize (A d w z Hd Hw Hz).
  replace (F d w z) with (F r r r + (F d w z - F r r r)) by ring; eapply Rle_trans; [apply Rabs_triang|]; lra.
Qed.
Lemma combo3 a0 a1 a2 b0 b1 b2 x y eps g : Rabs a0 <= eps -> Rabs a1 <= eps -> Rabs a2 <= eps -> Rabs b0 <= eps -> Rabs b1 <= eps -> Rabs b2 <= eps -> Rabs x <= g -> Rabs y <= g -> 0 <= eps -> 0 <= g ->
  Rabs ((a0 * x + b0 * y) + (a1 * x + b1 * y) + (a2 * x + b2 * y)) <= 6 * eps * g.
Proof.
  intros A0 A1 A2 B0 B1 B2 X Y He Hg.
  assert (M : forall a z, Rabs a <= eps -> Rabs z <= g -> Rabs (a * z) <= eps * g) by (intros a z Ha Hz; rewrite Rabs_mult; apply Rmult_le_compat; try apply Rabs_pos; assumption).
  pose proof (M a0 x A0 X); pose proof (M a1 x A1 X); pose proof (M a2 x A2 X); pose proof (M b0 y B0 Y); pose proof (M b1 y B1 Y); pose proof (M b2 y B2 Y).
  pose proof (Rabs_triang ((a0 * x + b0 * y) + (a1 * x + b1 * y)) (a2 * x + b2 * y)); pose proof (Rabs_triang (a0 * x + b0 * y) (a1 * x + b1 * y)).
  pose proof (Rabs_triang (a0 * x) (b0 * y)); pose proof (Rabs_triang (a1 * x) (b1 * y)); pose proof (Rabs_triang (a2 * x) (b2 * y)); lra.
Qed.
Lemma gap_le w g : Rabs (fst w - fst r) <= g -> Rabs (snd w - snd r) <= g -> gap w r <= g.
Proof. intros A B; unfold gap; apply Rmax_lub; assumption. Qed.
Lemma step_small th : 0 < th -> det r r <> 0 ->
  exists e, 0 < e /\ forall d w, around r e d -> around r e w -> det d w <> 0 /\
    forall w', surf_step pt du dv duu dvv duv Q d w w' -> gap w' r <= th * gap w r.
Proof.
  intros Ht HD.
  destruct (bounded3 _ cont_muu) as (ea & Pa & Ba), (bounded3 _ cont_mvv) as (eb & Pb & Bb), (bounded3 _ cont_muv) as (ec & Pc & Bc).
  set (B := Rabs (muu r r) + Rabs (mvv r r) + Rabs (muv r r) + 1).
  assert (HB : 0 < B) by (unfold B; pose proof (Rabs_pos (muu r r)); pose proof (Rabs_pos (mvv r r)); pose proof (Rabs_pos (muv r r)); lra).
  set (D := Rabs (det r r) / 2); assert (HD' : 0 < D) by (unfold D; pose proof (Rabs_pos_lt _ HD); lra).
  destruct (cont_det D HD') as (ed & Pd & Bd).
  set (eps := th * D / (12 * B)); assert (Heps : 0 < eps) by (unfold eps; apply Rdiv_lt_0_compat; [apply Rmult_lt_0_compat; lra|lra]).
  destruct (small_all du du duu eps C1 C1 C3 Heps) as (e1 & P1 & S1), (small_all du dv duv eps C1 C2 C5 Heps) as (e2 & P2 & S2),
    (small_all dv du duv eps C2 C1 C5 Heps) as (e3 & P3 & S3), (small_all dv dv dvv eps C2 C2 C4 Heps) as (e4 & P4 & S4).
  set (e := Rmin rho (Rmin (Rmin (Rmin ea eb) (Rmin ec ed)) (Rmin (Rmin e1 e2) (Rmin e3 e4)))).
  assert (He : 0 < e) by (unfold e; repeat apply Rmin_pos; assumption).
  assert (LE : (e <= rho /\ e <= ea /\ e <= eb /\ e <= ec /\ e <= ed) /\ e <= e1 /\ e <= e2 /\ e <= e3 /\ e <= e4).
  { unfold e; pose proof (Rmin_l rho (Rmin (Rmin (Rmin ea eb) (Rmin ec ed)) (Rmin (Rmin e1 e2) (Rmin e3 e4)))); pose proof (Rmin_r rho (Rmin (Rmin (Rmin ea eb) (Rmin ec ed)) (Rmin (Rmin e1 e2) (Rmin e3 e4)))).
    pose proof (Rmin_l (Rmin (Rmin ea eb) (Rmin ec ed)) (Rmin (Rmin e1 e2) (Rmin e3 e4))); pose proof (Rmin_r (Rmin (Rmin ea eb) (Rmin ec ed)) (Rmin (Rmin e1 e2) (Rmin e3 e4))).
    pose proof (Rmin_l (Rmin ea eb) (Rmin ec ed)); pose proof (Rmin_r (Rmin ea eb) (Rmin ec ed)); pose proof (Rmin_l (Rmin e1 e2) (Rmin e3 e4)); pose proof (Rmin_r (Rmin e1 e2) (Rmin e3 e4)).
    pose proof (Rmin_l ea eb); pose proof (Rmin_r ea eb); pose proof (Rmin_l ec ed); pose proof (Rmin_r ec ed); pose proof (Rmin_l e1 e2); pose proof (Rmin_r e1 e2); pose proof (Rmin_l e3 e4); pose proof (Rmin_r e3 e4).
    repeat split; lra. }
  destruct LE as ((Lr & La & Lb & Lc & Ld) & Le1 & Le2 & Le3 & Le4).
  clearbody e; exists e; split; [exact He|]; intros d w Hd Hw.
  assert (Bdw : Rabs (det d w - det r r) < D) by (apply (Bd d w r); eapply around_less; try eassumption; apply around_center; exact He).
  assert (Bmu : Rabs (muu d w) <= B).
  { eapply Rle_trans; [apply (Ba d w r); eapply around_less; try eassumption; apply around_center; exact He|].
    unfold B; pose proof (Rabs_pos (mvv r r)); pose proof (Rabs_pos (muv r r)); lra. }
  assert (Bmv : Rabs (mvv d w) <= B).
  { eapply Rle_trans; [apply (Bb d w r); eapply around_less; try eassumption; apply around_center; exact He|].
    unfold B; pose proof (Rabs_pos (muu r r)); pose proof (Rabs_pos (muv r r)); lra. }
  assert (Bmx : Rabs (muv d w) <= B).
  { eapply Rle_trans; [apply (Bc d w r); eapply around_less; try eassumption; apply around_center; exact He|].
    unfold B; pose proof (Rabs_pos (muu r r)); pose proof (Rabs_pos (mvv r r)); lra. }
  assert (Bdet : D <= Rabs (det d w)).
  { pose proof (Rabs_triang_inv (det r r) (det d w)) as T; rewrite (Rabs_minus_sym (det r r)) in T.
    assert (Rabs (det r r) = 2 * D) by (unfold D; field); lra. }
  split; [intros E0; rewrite E0, Rabs_R0 in Bdet; lra|].
  intros w' (Hdet & a & b & E1 & E2 & ->).
  set (x := fst w - fst r); set (y := snd w - snd r); set (g := gap w r).
  assert (Hx : Rabs x <= g) by apply Rmax_l; assert (Hy : Rabs y <= g) by apply Rmax_r.
  assert (Hg : 0 <= g) by (pose proof (Rabs_pos x); lra).
  destruct (res_mean 0 e w ltac:(lia) Lr Hw) as (z0 & y0 & Z0 & Y0 & R0), (res_mean 1 e w ltac:(lia) Lr Hw) as (z1 & y1 & Z1 & Y1 & R1), (res_mean 2 e w ltac:(lia) Lr Hw) as (z2 & y2 & Z2 & Y2 & R2).
  fold x y in R0, R1, R2.
  assert (F1 : muu d w * (x + a) + muv d w * (y + b) =
    (small du du duu 0 d w z0 * x + small du dv duv 0 d w y0 * y) + (small du du duu 1 d w z1 * x + small du dv duv 1 d w y1 * y) + (small du du duu 2 d w z2 * x + small du dv duv 2 d w y2 * y)).
  { replace (muu d w * (x + a) + muv d w * (y + b)) with (muu d w * x + muv d w * y + (muu d w * a + muv d w * b)) by ring.
    unfold muu at 2, muv at 2; rewrite E1; unfold muu, muv, m_uu, m_uv; rewrite !res_dot, !at_dot by assumption.
    unfold small.
    replace (- (res 0 w * at_ du 0 d + res 1 w * at_ du 1 d + res 2 w * at_ du 2 d)) with
      (- ((at_ du 0 z0 * x + at_ dv 0 y0 * y) * at_ du 0 d + (at_ du 1 z1 * x + at_ dv 1 y1 * y) * at_ du 1 d + (at_ du 2 z2 * x + at_ dv 2 y2 * y) * at_ du 2 d)) by (rewrite R0, R1, R2; ring).
    ring. }
  assert (F2 : muv d w * (x + a) + mvv d w * (y + b) =
    (small dv du duv 0 d w z0 * x + small dv dv dvv 0 d w y0 * y) + (small dv du duv 1 d w z1 * x + small dv dv dvv 1 d w y1 * y) + (small dv du duv 2 d w z2 * x + small dv dv dvv 2 d w y2 * y)).
  { replace (muv d w * (x + a) + mvv d w * (y + b)) with (muv d w * x + mvv d w * y + (muv d w * a + mvv d w * b)) by ring.
    unfold muv at 2, mvv at 2; rewrite E2; unfold mvv, muv, m_vv, m_uv; rewrite !res_dot, !at_dot by assumption.
    unfold small.
    replace (- (res 0 w * at_ dv 0 d + res 1 w * at_ dv 1 d + res 2 w * at_ dv 2 d)) with
      (- ((at_ du 0 z0 * x + at_ dv 0 y0 * y) * at_ dv 0 d + (at_ du 1 z1 * x + at_ dv 1 y1 * y) * at_ dv 1 d + (at_ du 2 z2 * x + at_ dv 2 y2 * y) * at_ dv 2 d)) by (rewrite R0, R1, R2; ring).
    ring. }
  set (f1 := muu d w * (x + a) + muv d w * (y + b)) in *; set (f2 := muv d w * (x + a) + mvv d w * (y + b)) in *.
  assert (A1 : Rabs f1 <= 6 * eps * g).
  { rewrite F1; apply combo3; try assumption; try lra; first [apply S1|apply S2]; try lia; eapply around_less; eassumption. }
  assert (A2 : Rabs f2 <= 6 * eps * g).
  { rewrite F2; apply combo3; try assumption; try lra; first [apply S3|apply S4]; try lia; eapply around_less; eassumption. }
  clear F1 F2 R0 R1 R2.
  assert (X : Rabs (x + a) * Rabs (det d w) <= 12 * B * eps * g).
  { rewrite <- Rabs_mult; replace ((x + a) * det d w) with (mvv d w * f1 + - (muv d w * f2)) by (unfold f1, f2, det, m_det; fold muu mvv muv; ring).
    eapply Rle_trans; [apply Rabs_triang|]; rewrite Rabs_Ropp, !Rabs_mult.
    assert (Rabs (mvv d w) * Rabs f1 <= B * (6 * eps * g)) by (apply Rmult_le_compat; try apply Rabs_pos; assumption).
    assert (Rabs (muv d w) * Rabs f2 <= B * (6 * eps * g)) by (apply Rmult_le_compat; try apply Rabs_pos; assumption); lra. }
  assert (Y : Rabs (y + b) * Rabs (det d w) <= 12 * B * eps * g).
  { rewrite <- Rabs_mult; replace ((y + b) * det d w) with (muu d w * f2 + - (muv d w * f1)) by (unfold f1, f2, det, m_det; fold muu mvv muv; ring).
    eapply Rle_trans; [apply Rabs_triang|]; rewrite Rabs_Ropp, !Rabs_mult.
    assert (Rabs (muu d w) * Rabs f2 <= B * (6 * eps * g)) by (apply Rmult_le_compat; try apply Rabs_pos; assumption).
    assert (Rabs (muv d w) * Rabs f1 <= B * (6 * eps * g)) by (apply Rmult_le_compat; try apply Rabs_pos; assumption); lra. }
  assert (K : 12 * B * eps * g = th * g * D) by (unfold eps; field; lra).
  assert (Fin1 : forall t, Rabs t * Rabs (det d w) <= 12 * B * eps * g -> Rabs t <= th * g).
  { intros t T; rewrite K in T; apply Rmult_le_reg_r with D; [exact HD'|]; eapply Rle_trans; [|exact T]; apply Rmult_le_compat_l; [apply Rabs_pos|exact Bdet]. }
  apply gap_le; cbn [fst snd].
  - eapply Rle_trans; [apply clamp_toward; apply H01|]; replace (fst w + a - fst r) with (x + a) by (unfold x; ring); apply Fin1; exact X.
  - eapply Rle_trans; [apply clamp_toward; apply H01|]; replace (snd w + b - snd r) with (y + b) by (unfold y; ring); apply Fin1; exact Y.
Qed.
End Step.
