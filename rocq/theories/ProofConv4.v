(** Proofs for C119: the run of surface_inversion near a point of the surface. *)
From Verif Require Import Py Num ModelKnots ModelCurve ModelSurface ModelParam Spec SpecParam SpecNewton SpecSmooth SpecConv ProofNum ProofInit ProofCurve ProofSurface ProofDers ProofParam ProofParam3 ProofParam5 ProofParam6 ProofParam7 ProofParam8 ProofSmooth ProofShape4 ProofConv ProofConv3.
From Coq Require Import Lra Lia.
Open Scope R_scope.

Lemma gap_pos w r : 0 <= gap w r.
Proof. unfold gap; eapply Rle_trans; [apply Rabs_pos|apply Rmax_l]. Qed.
Lemma gap_around r e w : gap w r < e -> around r e w.
Proof. intros H; pose proof (Rmax_l (Rabs (fst w - fst r)) (Rabs (snd w - snd r))); pose proof (Rmax_r (Rabs (fst w - fst r)) (Rabs (snd w - snd r))); unfold gap in H; split; lra. Qed.

Section Run.
Variables (s : surf_beh Exact) (pt du dv duu dvv duv : R -> R -> list R) (Q : list R) (e1 e2 : R) (mi : nat).
Hypotheses (HS : proper_surface s pt du dv duu dvv duv) (LQ : length Q = 3%nat).
Let det := m_det pt du dv duu dvv duv Q.
Let step := surf_step pt du dv duu dvv duv Q.
Let run := surface_inversion s (fin Q) (Fin e1 : Exact) (Fin e2 : Exact) (Z.of_nat mi).
Definition snext (d w : R * R) : R * R :=
  let g1 := dotR (subR (at2 pt w) Q) (at2 du d) in let g2 := dotR (subR (at2 pt w) Q) (at2 dv d) in
  (clampR (fst w + (m_uv pt du dv duv Q d w * g2 - m_vv pt dv dvv Q d w * g1) / m_det pt du dv duu dvv duv Q d w),
   clampR (snd w + (m_uv pt du dv duv Q d w * g1 - m_uu pt du duu Q d w * g2) / m_det pt du dv duu dvv duv Q d w)).
Lemma snext_step d w : det d w <> 0 -> step d w (snext d w).
Proof.
  intros H; split; [exact H|]; do 2 eexists; split; [|split; [|reflexivity]]; unfold det, m_det in *; field; exact H.
Qed.
Fixpoint states (x0 : R * R) (k : nat) : (R * R) * (R * R) :=
  match k with O => (x0, x0) | S k' => (snd (states x0 k'), snext (fst (states x0 k')) (snd (states x0 k'))) end.
Definition iter (x0 : R * R) (k : nat) : R * R := snd (states x0 k).
Lemma states_pred x0 k : fst (states x0 k) = iter x0 (pred k).
Proof. destruct k; reflexivity. Qed.
Lemma iter_S x0 k : iter x0 (S k) = snext (iter x0 (pred k)) (iter x0 k).
Proof. unfold iter at 1; cbn [states snd]; rewrite states_pred; reflexivity. Qed.
Lemma srun_iterate x0 : 0 <= fst x0 <= 1 /\ 0 <= snd x0 <= 1 -> initial_guess_surf s (fin Q) = Ok (Fin (fst x0) : Exact, Fin (snd x0) : Exact) ->
  (forall k, det (iter x0 (pred k)) (iter x0 k) <> 0) ->
  exists k, (k <= S mi)%nat /\ run = Ok (Fin (fst (iter x0 k)) : Exact, Fin (snd (iter x0 k)) : Exact) /\
    ((k = 0%nat /\ surf_near (at2 du x0) (at2 dv x0) (subR (at2 pt x0) Q) e1 e2) \/
     exists j, k = S j /\ (j = mi \/ surf_stop pt du dv Q e1 e2 (iter x0 (pred j)) (iter x0 j) (iter x0 k))).
Proof.
  intros Hx EG HN; destruct (surf_trace s pt du dv duu dvv duv Q e1 e2 HS LQ mi (iter x0) Hx EG) as [T0 T]; fold run in T0, T.
  assert (St : forall k, step (iter x0 (pred k)) (iter x0 k) (iter x0 (S k))) by (intros k; rewrite iter_S; apply snext_step, HN).
  destruct (Classical_Prop.classic (surf_near (at2 du x0) (at2 dv x0) (subR (at2 pt x0) Q) e1 e2)) as [H0|H0].
  - exists 0%nat; split; [lia|]; split; [apply T0; exact H0|left; auto].
  - specialize (T H0).
    destruct (least_stop (fun k => surf_stop pt du dv Q e1 e2 (iter x0 (pred k)) (iter x0 k) (iter x0 (S k))) mi) as [(k & Hk & H1 & H2)|H].
    + exists (S k); split; [lia|]; split; [|right; exists k; split; [reflexivity|right; exact H1]].
      apply (T k Hk); [intros i Hi; split; [apply St|apply H2; exact Hi]|apply St|left; exact H1].
    + exists (S mi); split; [lia|]; split; [|right; exists mi; split; [reflexivity|left; reflexivity]].
      apply (T mi (le_n _)); [intros i Hi; split; [apply St|apply H; lia]|apply St|right; reflexivity].
Qed.
Variables (r : R * R) (th e : R).
Hypotheses (Ht : 0 < th < 1) (He : 0 < e)
  (HD : forall d w, around r e d -> around r e w -> det d w <> 0 /\ forall w', step d w w' -> gap w' r <= th * gap w r).
Lemma iter_near x0 : gap x0 r < e -> forall k, gap (iter x0 k) r <= th ^ k * gap x0 r /\ gap (iter x0 k) r < e /\ gap (iter x0 (S k)) r <= th * gap (iter x0 k) r.
Proof.
  intros H0.
  assert (B : forall k, gap (iter x0 k) r <= th ^ k * gap x0 r /\ gap (iter x0 k) r < e /\ gap (iter x0 (S k)) r <= th * gap (iter x0 k) r /\ gap (iter x0 (S k)) r < e).
  { induction k as [|k (I1 & I2 & I3 & I4)].
    - change (iter x0 0) with x0; assert (gap (iter x0 1) r <= th * gap x0 r).
      { destruct (HD x0 x0 (gap_around _ _ _ H0) (gap_around _ _ _ H0)) as [D1 D2]; apply D2; rewrite iter_S; apply snext_step; exact D1. }
      pose proof (gap_pos x0 r); cbn [pow]; repeat split; try lra; nra.
    - assert (A : gap (iter x0 (S (S k))) r <= th * gap (iter x0 (S k)) r).
      { destruct (HD (iter x0 k) (iter x0 (S k)) (gap_around _ _ _ I2) (gap_around _ _ _ I4)) as [D1 D2]; apply D2; rewrite (iter_S x0 (S k)); apply snext_step; exact D1. }
      pose proof (gap_pos (iter x0 (S k)) r); split; [|split; [exact I4|split; [exact A|nra]]].
      eapply Rle_trans; [exact I3|]; cbn [pow]; rewrite Rmult_assoc; apply Rmult_le_compat_l; lra. }
  intros k; destruct (B k) as (A1 & A2 & A3 & _); auto.
Qed.
Lemma surf_converges_from x0 : 0 <= fst x0 <= 1 /\ 0 <= snd x0 <= 1 -> initial_guess_surf s (fin Q) = Ok (Fin (fst x0) : Exact, Fin (snd x0) : Exact) -> gap x0 r < e ->
  exists w k, run = Ok (Fin (fst w) : Exact, Fin (snd w) : Exact) /\ (0 <= fst w <= 1 /\ 0 <= snd w <= 1) /\ (k <= S mi)%nat /\ gap w r <= th ^ k * gap x0 r /\
    (k = S mi \/ surf_near (at2 du w) (at2 dv w) (subR (at2 pt w) Q) e1 e2 \/
     exists d w0, (0 <= fst d <= 1 /\ 0 <= snd d <= 1) /\ (0 <= fst w0 <= 1 /\ 0 <= snd w0 <= 1) /\ gap w0 r <= gap d r /\ gap w r <= th * gap w0 r /\ surf_stop pt du dv Q e1 e2 d w0 w).
Proof.
  intros Hx EG Hg; pose proof (iter_near x0 Hg) as B.
  destruct (srun_iterate x0 Hx EG) as (k & Hk & ER & HE).
  { intros k; apply HD; apply gap_around, B. }
  assert (In : forall k, 0 <= fst (iter x0 k) <= 1 /\ 0 <= snd (iter x0 k) <= 1).
  { intros [|i]; [exact Hx|rewrite iter_S; split; apply clampR_range]. }
  exists (iter x0 k), k; split; [exact ER|]; split; [apply In|]; split; [exact Hk|]; split; [apply B|].
  destruct HE as [[-> HE]|(j & -> & [->|HE])]; [right; left; exact HE|left; reflexivity|right; right].
  exists (iter x0 (pred j)), (iter x0 j); split; [apply In|]; split; [apply In|]; split; [|split; [apply B|exact HE]].
  destruct j as [|j]; [apply Rle_refl|]; cbn [pred]; destruct (B j) as (_ & _ & B3); pose proof (gap_pos (iter x0 j) r); nra.
Qed.
End Run.

(** ** Spline surfaces *)
Lemma surf_rows_proper p q nu nv U V P : clamped (Z.of_nat p) (Z.of_nat nu) U -> strict (Z.of_nat p) (Z.of_nat nu) U -> kn U (Z.of_nat p) = 0 -> kn U (Z.of_nat nu) = 1 ->
  clamped (Z.of_nat q) (Z.of_nat nv) V -> strict (Z.of_nat q) (Z.of_nat nv) V -> kn V (Z.of_nat q) = 0 -> kn V (Z.of_nat nv) = 1 ->
  Forall (fun row => length row = 3%nat) P -> length P = (nu * nv)%nat -> (2 <= p)%nat -> (2 <= q)%nat ->
  let D := ProofShape4.surf_row p q nu nv U V P in proper_surface (beh_of_surf (surf_of p q nu nv U V P)) (D 0%nat 0%nat) (D 1%nat 0%nat) (D 0%nat 1%nat) (D 2%nat 0%nat) (D 0%nat 2%nat) (D 1%nat 1%nat).
Proof.
  intros CU SU U0 U1 CV SV V0 V1 HF HL Hp Hq D u v Hu Hv.
  destruct (surf_rows_all p q nu nv U V P u v CU SU U0 U1 CV SV V0 V1 HF HL Hu Hv) as [E0 E]; fold D in E0, E.
  split; [exact E0|]; do 6 (split; [reflexivity|]).
  destruct (E 2%nat 2%nat) as (m & EM & Lm & N); rewrite !Nat.min_l in Lm, N by lia.
  exists (D 0%nat 0%nat u v), (D 1%nat 2%nat u v), [D 2%nat 1%nat u v; D 2%nat 2%nat u v].
  change (Z.of_nat 2) with 2%Z in EM; cbn [beh_of_surf sb_ders]; rewrite EM; do 2 f_equal.
  destruct m as [|m0 [|m1 [|m2 [|m3 [|m4 [|m5 [|m6 [|m7 [|m8 [|]]]]]]]]]]; try discriminate Lm.
  rewrite <- !N by lia; reflexivity.
Qed.
Lemma proper_surface_unique s pt du dv duu dvv duv pt' du' dv' duu' dvv' duv' u v : proper_surface s pt du dv duu dvv duv -> proper_surface s pt' du' dv' duu' dvv' duv' ->
  0 <= u <= 1 -> 0 <= v <= 1 -> pt u v = pt' u v /\ du u v = du' u v /\ dv u v = dv' u v.
Proof.
  intros H H' Hu Hv; destruct (H u v Hu Hv) as (E & _ & _ & _ & _ & _ & _ & r0 & r5 & rest & D); destruct (H' u v Hu Hv) as (E' & _ & _ & _ & _ & _ & _ & r0' & r5' & rest' & D').
  rewrite D in D'; injection D' as _ B _ A _ _ _ _; rewrite E in E'; injection E' as C; repeat split; apply fin_inj; assumption.
Qed.
Lemma surface_converges p q nu nv U V P : clamped (Z.of_nat p) (Z.of_nat nu) U -> strict (Z.of_nat p) (Z.of_nat nu) U -> kn U (Z.of_nat p) = 0 -> kn U (Z.of_nat nu) = 1 -> wide_end (Z.of_nat nu) U ->
  clamped (Z.of_nat q) (Z.of_nat nv) V -> strict (Z.of_nat q) (Z.of_nat nv) V -> kn V (Z.of_nat q) = 0 -> kn V (Z.of_nat nv) = 1 -> wide_end (Z.of_nat nv) V ->
  Forall (fun row => length row = 3%nat) P -> length P = (nu * nv)%nat -> (3 <= p)%nat -> (3 <= q)%nat ->
  let s := beh_of_surf (surf_of p q nu nv U V P) in
  forall pt du dv duu dvv duv a b th, proper_surface s pt du dv duu dvv duv -> 0 < a < 1 -> 0 < b < 1 -> 0 < th < 1 ->
    dotR (du a b) (du a b) * dotR (dv a b) (dv a b) <> dotR (du a b) (dv a b) * dotR (du a b) (dv a b) ->
    exists del, 0 < del /\ forall e1 e2 mi x y, initial_guess_surf s (fin (pt a b)) = Ok (Fin x : Exact, Fin y : Exact) -> gap (x, y) (a, b) <= del ->
    exists u v k, surface_inversion s (fin (pt a b)) (Fin e1 : Exact) (Fin e2 : Exact) (Z.of_nat mi) = Ok (Fin u : Exact, Fin v : Exact) /\
      0 <= u <= 1 /\ 0 <= v <= 1 /\ (k <= S mi)%nat /\ gap (u, v) (a, b) <= th ^ k * gap (x, y) (a, b) /\
      (k = S mi \/ surf_near (du u v) (dv u v) (subR (pt u v) (pt a b)) e1 e2 \/
       exists d w, gap w (a, b) <= gap d (a, b) /\ gap (u, v) (a, b) <= th * gap w (a, b) /\ surf_stop pt du dv (pt a b) e1 e2 d w (u, v)).
Proof.
  intros CU SU U0 U1 WU CV SV V0 V1 WV HF HL Hp Hq s.
  set (D := ProofShape4.surf_row p q nu nv U V P).
  assert (HP : proper_surface s (D 0%nat 0%nat) (D 1%nat 0%nat) (D 0%nat 1%nat) (D 2%nat 0%nat) (D 0%nat 2%nat) (D 1%nat 1%nat))
    by (apply surf_rows_proper; try assumption; lia).
  intros pt du dv duu dvv duv a b th HP' Ha Hb Ht HI.
  assert (Eq : forall u v, 0 <= u <= 1 -> 0 <= v <= 1 -> pt u v = D 0%nat 0%nat u v /\ du u v = D 1%nat 0%nat u v /\ dv u v = D 0%nat 1%nat u v)
    by (intros u v Hu Hv; exact (proper_surface_unique _ _ _ _ _ _ _ _ _ _ _ _ _ u v HP' HP Hu Hv)).
  destruct (Eq a b ltac:(lra) ltac:(lra)) as (Ea & Eb & Ec); rewrite Ea; rewrite Eb, Ec in HI; set (Q := D 0%nat 0%nat a b).
  assert (LQ : length Q = 3%nat) by reflexivity.
  destruct (smooth_rows p q nu nv U V P CU SU U0 U1 WU CV SV V0 V1 WV HF HL) as (DU & DV & DC); fold D in DU, DV, DC.
  set (rho := Rmin (Rmin a (1 - a)) (Rmin b (1 - b))).
  assert (Hrho : 0 < rho) by (unfold rho; repeat apply Rmin_pos; lra).
  assert (LR : rho <= a /\ rho <= 1 - a /\ rho <= b /\ rho <= 1 - b).
  { unfold rho; pose proof (Rmin_l (Rmin a (1 - a)) (Rmin b (1 - b))); pose proof (Rmin_r (Rmin a (1 - a)) (Rmin b (1 - b))); pose proof (Rmin_l a (1 - a)); pose proof (Rmin_r a (1 - a)); pose proof (Rmin_l b (1 - b)); pose proof (Rmin_r b (1 - b)); repeat split; lra. }
  clearbody rho.
  assert (IU : forall u, Rabs (u - a) < rho -> 0 < u < 1) by (intros u; unfold Rabs; destruct Rcase_abs; lra).
  assert (IV : forall v, Rabs (v - b) < rho -> 0 < v < 1) by (intros v; unfold Rabs; destruct Rcase_abs; lra).
  destruct (step_small (D 0%nat 0%nat) (D 1%nat 0%nat) (D 0%nat 1%nat) (D 2%nat 0%nat) (D 0%nat 2%nat) (D 1%nat 1%nat) (a, b) rho Q) with (th := th) as (e & He & HE); try assumption; try (intros; reflexivity); try lra.
  - intros c u v Hc Hu _; apply DU; try assumption; [lia|apply IU; exact Hu].
  - intros c u v Hc _ Hv; apply DV; try assumption; [lia|apply IV; exact Hv].
  - intros c Hc; apply DC; try assumption; lia.
  - intros c Hc; apply DC; try assumption; lia.
  - intros c Hc; apply DC; try assumption; lia.
  - intros c Hc; apply DC; try assumption; lia.
  - intros c Hc; apply DC; try assumption; lia.
  - intros c Hc; apply DC; try assumption; lia.
  - cbn [fst snd]; lra.
  - assert (Z : forall f, (forall u v, length (f u v) = 3%nat) -> dotR (subR (at2 (D 0%nat 0%nat) (a, b)) Q) (at2 f (a, b)) = 0).
    { intros f Lf; rewrite dot_nth; [|reflexivity|apply Lf]; rewrite !sub_nth by (try reflexivity; lia); unfold Q, at2; cbn [fst snd]; ring. }
    unfold m_det, m_uu, m_vv, m_uv; rewrite !Z by (intros; reflexivity); rewrite !Rplus_0_r; unfold at2; cbn [fst snd].
    intros E; apply HI; lra.
  - exists (Rmin (e / 2) (rho / 2)); split; [apply Rmin_pos; lra|]; intros e1 e2 mi x y EG Hg.
    pose proof (Rmin_l (e / 2) (rho / 2)); pose proof (Rmin_r (e / 2) (rho / 2)).
    assert (A : around (a, b) rho (x, y)) by (apply gap_around; lra); destruct A as [A1 A2]; cbn [fst snd] in A1, A2; apply IU in A1; apply IV in A2.
    destruct (surf_converges_from s (D 0%nat 0%nat) (D 1%nat 0%nat) (D 0%nat 1%nat) (D 2%nat 0%nat) (D 0%nat 2%nat) (D 1%nat 1%nat) Q e1 e2 mi HP LQ (a, b) th e Ht HE (x, y)) as ((u & v) & k & R1 & (I1 & I2) & R2 & R3 & R4); try assumption; try (cbn [fst snd]; lra); try lra.
    cbn [fst snd] in I1, I2; exists u, v, k; split; [exact R1|]; split; [exact I1|]; split; [exact I2|]; split; [exact R2|]; split; [exact R3|].
    destruct (Eq u v I1 I2) as (-> & -> & ->); destruct R4 as [R4|[R4|(d0 & w0 & J1 & J2 & R4 & R5 & R6)]]; [left; exact R4|right; left; exact R4|right; right].
    exists d0, w0; split; [exact R4|]; split; [exact R5|].
    destruct (Eq _ _ (proj1 J1) (proj2 J1)) as (_ & X1 & X2), (Eq _ _ (proj1 J2) (proj2 J2)) as (_ & Y1 & Y2), (Eq u v I1 I2) as (Z1 & _).
    unfold surf_stop, at2 in *; cbn [fst snd] in *; rewrite X1, X2, Y1, Y2, Z1; exact R6.
Qed.
