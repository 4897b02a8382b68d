(** The inversion of points, iterate by iterate, in exact arithmetic (model:
    ModelParam.v). *)
From Verif Require Import Py PyLemmas Num ModelCurve ModelSurface ModelParam Spec SpecParam SpecNewton
  ProofNum ProofKnots ProofInit ProofParam ProofParam2 ProofParam3 ProofParam4 ProofParam5.
Open Scope R_scope.

Lemma clampR_range x : 0 <= clampR x <= 1.
Proof. unfold clampR, Rmax, Rmin; destruct (Rle_dec 1 x), (Rle_dec 0 _); lra. Qed.
Lemma E_clamp x : clamp01 (Fin x : Exact) = (Fin (clampR x) : Exact).
Proof.
  unfold clamp01; rewrite !E_ofZ, !E_ltb; unfold clampR, Rmax, Rmin.
  destruct (Rltb x 0) eqn:E0; [apply Rltb_true in E0|apply Rltb_false in E0;
    destruct (Rltb 1 x) eqn:E1; [apply Rltb_true in E1|apply Rltb_false in E1]];
    destruct (Rle_dec 1 x), (Rle_dec 0 _); try lra; f_equal; lra.
Qed.
Lemma cos_test (t r : list R) (e2 : R) :
  (((Fin (Rabs (dotR t r)) : Exact) / ((Fin (normR t) : Exact) * (Fin (normR r) : Exact))) <=? (Fin e2 : Exact))%num = true
  <-> right_angle t r e2.
Proof.
  rewrite E_mul; unfold right_angle; pose proof (normR_nonneg t) as Ht; pose proof (normR_nonneg r) as Hr.
  destruct (Req_dec (normR t * normR r) 0) as [E|E].
  - rewrite E; split; [|lra]; intros H; exfalso.
    assert (Z0 : dotR t r = 0).
    { apply Rmult_integral in E; destruct E as [E|E]; pose proof (normR_zero _ E) as E'; [apply dotR_null; exact E'|]; clear E; rename E' into E.
      clear - E; revert r E; induction t as [|x t IH]; intros [|y r] E; try reflexivity.
      assert (Q : dotR (x :: t) (y :: r) = x * y + dotR t r) by reflexivity.
      rewrite Q, (IH r (fun k => E (S k))), (E O : y = 0); ring. }
    rewrite Z0, Rabs_R0, E_div0 in H; discriminate H.
  - rewrite E_div by exact E; rewrite E_leb, Rleb_true.
    assert (0 < normR t * normR r) by (pose proof (Rmult_le_pos _ _ Ht Hr); lra).
    split.
    + intros H1; split; [assumption|]; apply (Rmult_le_compat_r (normR t * normR r)) in H1; [|lra].
      unfold Rdiv in H1; rewrite Rmult_assoc, Rinv_l, Rmult_1_r in H1 by exact E; lra.
    + intros [_ H1]; apply (Rmult_le_reg_r (normR t * normR r)); [assumption|].
      unfold Rdiv; rewrite Rmult_assoc, Rinv_l, Rmult_1_r by exact E; exact H1.
Qed.
Lemma right_angle_dec t r e2 : right_angle t r e2 \/ ~ right_angle t r e2.
Proof. unfold right_angle; destruct (Rlt_dec 0 (normR t * normR r)), (Rle_dec (Rabs (dotR t r)) (e2 * (normR t * normR r))); tauto. Qed.
Lemma dotR_scale x l : dotR (map (fun i => i * x) l) (map (fun i => i * x) l) = x * x * dotR l l.
Proof.
  induction l as [|y l IH]; [unfold dotR; cbn; ring|].
  assert (Q : forall a b, dotR (a :: b) (a :: b) = a * a + dotR b b) by reflexivity.
  cbn [map]; rewrite !Q, IH; ring.
Qed.
Lemma normR_scale x l : normR (map (fun i => i * x) l) = normR l * Rabs x.
Proof.
  unfold normR; rewrite dotR_scale, sqrt_mult by (try apply Rle_0_sqr; apply dotR_self_nonneg).
  rewrite (sqrt_Rsqr_abs x : sqrt (x * x) = _); ring.
Qed.

(** ** Curves *)
Section CurveTrace.
Variables (c : curve_beh Exact) (pt d1 d2 : R -> list R) (P : list R) (e1 e2 : R).
Hypotheses (HC : proper_curve c pt d1 d2) (LP : length P = 3%nat).
Let stop := curve_stop pt d1 P e1 e2.
Let step := curve_step pt d1 d2 P.

Lemma step_range u u' : step u u' -> 0 <= u' <= 1.
Proof. intros [[_ ->]|[(_ & _ & ->)|(_ & _ & ->)]]; try lra; apply clampR_range. Qed.
Lemma curve_newton_step u u' : 0 <= u <= 1 -> step u u' ->
  curve_newton (Fin u : Exact) (fin (pt u)) (fin (d1 u)) (fin (d2 u)) (fin P) = Ok (Fin u' : Exact).
Proof.
  intros Hu HS; destruct (proj1 HC u Hu) as (_ & L & L1 & L2 & _); unfold curve_newton; rewrite E_np_sub by congruence; cbn [bind].
  assert (LR : length (subR (pt u) P) = 3%nat) by (rewrite subR_length; congruence).
  rewrite !E_dot by congruence; cbn [bind]; cbv zeta; rewrite !E_vnorm, E_mul, E_add, normR_sqr.
  fold (slope pt d1 P u); fold (curvature pt d1 d2 P u).
  destruct HS as [[Hc ->]|[(Hc & Hs & ->)|(Hc & Hs & ->)]].
  - rewrite E_div by exact Hc; rewrite E_sub; f_equal; apply E_clamp.
  - rewrite Hc; cbn [ndiv Exact xdiv]; destruct (Req_EM_T 0 0) as [_|]; [|lra]; destruct (Req_EM_T _ 0) as [|_]; [lra|].
    destruct (Rlt_dec _ 0); [lra|reflexivity].
  - rewrite Hc; cbn [ndiv Exact xdiv]; destruct (Req_EM_T 0 0) as [_|]; [|lra]; destruct (Req_EM_T _ 0) as [|_]; [lra|].
    destruct (Rlt_dec _ 0); [reflexivity|lra].
Qed.
Lemma curve_newton_nan u : 0 <= u <= 1 -> slope pt d1 P u = 0 -> curvature pt d1 d2 P u = 0 ->
  curve_newton (Fin u : Exact) (fin (pt u)) (fin (d1 u)) (fin (d2 u)) (fin P) = Ok (NaN : Exact).
Proof.
  intros Hu Hs Hc; destruct (proj1 HC u Hu) as (_ & L & L1 & L2 & _); unfold curve_newton; rewrite E_np_sub by congruence; cbn [bind].
  assert (LR : length (subR (pt u) P) = 3%nat) by (rewrite subR_length; congruence).
  rewrite !E_dot by congruence; cbn [bind]; cbv zeta; rewrite !E_vnorm, E_mul, E_add, normR_sqr.
  fold (slope pt d1 P u); fold (curvature pt d1 d2 P u); rewrite Hs, Hc, E_div0; reflexivity.
Qed.
Lemma loop_unfold mi f j u u' : 0 <= u <= 1 -> step u u' ->
  (stop u u' -> curve_loop (S f) c (fin P) (Fin e1 : Exact) (Fin e2 : Exact) mi j (Fin u : Exact) (fin (pt u)) (fin (d1 u)) (fin (d2 u)) = Ok (Fin u : Exact)) /\
  (~ stop u u' -> curve_loop (S f) c (fin P) (Fin e1 : Exact) (Fin e2 : Exact) mi j (Fin u : Exact) (fin (pt u)) (fin (d1 u)) (fin (d2 u)) =
     if (mi <? j)%Z then Ok (Fin u' : Exact) else
     curve_loop f c (fin P) (Fin e1 : Exact) (Fin e2 : Exact) mi (j + 1) (Fin u' : Exact) (fin (pt u')) (fin (d1 u')) (fin (d2 u'))).
Proof.
  intros Hu HS; pose proof (step_range _ _ HS) as Hu'; cbn [curve_loop]; rewrite (curve_newton_step u u' Hu HS); cbn [bind].
  rewrite E_sub, scale_null, E_leb, normR_scale.
  destruct (proj1 HC u' Hu') as (_ & L & L1 & _ & rest & ED); rewrite (rows_of c _ _ _ _ _ ED); cbn [bind].
  rewrite (dist_at c pt d1 d2 P HC LP u' Hu'); cbn [bind]; rewrite E_leb.
  unfold curve_cos; rewrite E_np_sub by congruence; cbn [bind].
  rewrite E_dot by (rewrite subR_length; congruence); cbn [bind]; rewrite E_snorm, !E_vnorm.
  unfold stop, curve_stop, curve_near.
  destruct (Rleb (normR (d1 u) * Rabs (u' - u)) e1) eqn:A1; [apply Rleb_true in A1; split; [reflexivity|tauto]|apply Rleb_false in A1].
  destruct (Rleb (normR (subR (pt u') P)) e1) eqn:A2; [apply Rleb_true in A2; split; [reflexivity|tauto]|apply Rleb_false in A2].
  destruct (_ <=? (Fin e2 : Exact))%num eqn:A3.
  - apply cos_test in A3; split; [reflexivity|tauto].
  - split; [|reflexivity]; intros [H|[H|H]]; [lra|lra|]; apply cos_test in H; rewrite H in A3; discriminate A3.
Qed.
Lemma loop_nan mi f j u : 0 <= u <= 1 -> slope pt d1 P u = 0 -> curvature pt d1 d2 P u = 0 ->
  curve_loop (S f) c (fin P) (Fin e1 : Exact) (Fin e2 : Exact) mi j (Fin u : Exact) (fin (pt u)) (fin (d1 u)) (fin (d2 u)) = Err ValueError.
Proof.
  intros Hu Hs Hc; cbn [curve_loop]; rewrite (curve_newton_nan u Hu Hs Hc); cbn [bind].
  destruct (_ <=? (Fin e1 : Exact))%num eqn:EN.
  - apply (nan_cond e1) in EN; destruct (proj1 HC u Hu) as (_ & _ & L1 & _); rewrite EN in L1; discriminate.
  - rewrite (nan_rejected c pt d1 d2 HC); reflexivity.
Qed.
(** The loop follows a sequence of Newton steps. *)
Lemma loop_follow mi (x : nat -> R) : forall k f j, 0 <= x O <= 1 -> (k <= f)%nat -> (j + Z.of_nat k <= mi + 1)%Z ->
  (forall i, (i < k)%nat -> step (x i) (x (S i)) /\ ~ stop (x i) (x (S i))) ->
  0 <= x k <= 1 /\
  curve_loop f c (fin P) (Fin e1 : Exact) (Fin e2 : Exact) mi j (Fin (x O) : Exact) (fin (pt (x O))) (fin (d1 (x O))) (fin (d2 (x O))) =
  curve_loop (f - k) c (fin P) (Fin e1 : Exact) (Fin e2 : Exact) mi (j + Z.of_nat k) (Fin (x k) : Exact) (fin (pt (x k))) (fin (d1 (x k))) (fin (d2 (x k))).
Proof.
  induction k as [|k IH]; intros f j Hx Hf Hj Hk.
  - rewrite Nat.sub_0_r, Z.add_0_r; auto.
  - destruct (IH f j Hx) as [R E]; [lia|lia|intros i Hi; apply Hk; lia|].
    destruct (Hk k ltac:(lia)) as [HS HN]; split; [exact (step_range _ _ HS)|].
    rewrite E; replace (f - k)%nat with (S (f - S k)) by lia.
    rewrite (proj2 (loop_unfold mi (f - S k) (j + Z.of_nat k) _ _ R HS) HN).
    destruct (Z.ltb_spec mi (j + Z.of_nat k)); [lia|]; f_equal; lia.
Qed.
Lemma inversion_start mi (u : R) : 0 <= u <= 1 -> initial_guess_curve c (fin P) = Ok (Fin u : Exact) ->
  (curve_near (d1 u) (subR (pt u) P) e1 e2 -> curve_inversion c (fin P) (Fin e1 : Exact) (Fin e2 : Exact) mi = Ok (Fin u : Exact)) /\
  (~ curve_near (d1 u) (subR (pt u) P) e1 e2 -> curve_inversion c (fin P) (Fin e1 : Exact) (Fin e2 : Exact) mi =
     curve_loop (S (Z.to_nat (mi + 2))) c (fin P) (Fin e1 : Exact) (Fin e2 : Exact) mi 0 (Fin u : Exact) (fin (pt u)) (fin (d1 u)) (fin (d2 u))).
Proof.
  intros Hu EG; unfold curve_inversion, curve_inversion_fuel; rewrite EG; cbn [bind].
  destruct (proj1 HC u Hu) as (_ & L & L1 & _ & rest & ED); rewrite (rows_of c _ _ _ _ _ ED); cbn [bind].
  rewrite (dist_at c pt d1 d2 P HC LP u Hu); cbn [bind]; rewrite E_leb.
  unfold curve_cos; rewrite E_np_sub by congruence; cbn [bind].
  rewrite E_dot by (rewrite subR_length; congruence); cbn [bind]; rewrite E_snorm, !E_vnorm; unfold curve_near.
  destruct (Rleb (normR (subR (pt u) P)) e1) eqn:A2; [apply Rleb_true in A2; split; [reflexivity|tauto]|apply Rleb_false in A2].
  destruct (_ <=? (Fin e2 : Exact))%num eqn:A3.
  - apply cos_test in A3; split; [reflexivity|tauto].
  - split; [|reflexivity]; intros [H|H]; [lra|]; apply cos_test in H; rewrite H in A3; discriminate A3.
Qed.
Lemma curve_trace mi (x : nat -> R) : 0 <= x O <= 1 -> initial_guess_curve c (fin P) = Ok (Fin (x O) : Exact) ->
  let run := curve_inversion c (fin P) (Fin e1 : Exact) (Fin e2 : Exact) (Z.of_nat mi) in
  (curve_near (d1 (x O)) (subR (pt (x O)) P) e1 e2 -> run = Ok (Fin (x O) : Exact)) /\
  (~ curve_near (d1 (x O)) (subR (pt (x O)) P) e1 e2 -> forall k, (k <= S mi)%nat ->
     (forall i, (i < k)%nat -> step (x i) (x (S i)) /\ ~ stop (x i) (x (S i))) ->
     (step (x k) (x (S k)) -> stop (x k) (x (S k)) -> run = Ok (Fin (x k) : Exact)) /\
     (step (x k) (x (S k)) -> ~ stop (x k) (x (S k)) -> k = S mi -> run = Ok (Fin (x (S k)) : Exact)) /\
     (slope pt d1 P (x k) = 0 -> curvature pt d1 d2 P (x k) = 0 -> run = Err ValueError)).
Proof.
  intros Hx EG; destruct (inversion_start (Z.of_nat mi) (x O) Hx EG) as [S1 S2]; cbv zeta; split; [exact S1|].
  intros HN k Hk Hi; rewrite (S2 HN).
  destruct (loop_follow (Z.of_nat mi) x k (S (Z.to_nat (Z.of_nat mi + 2))) 0 Hx) as [R E]; [lia|lia|exact Hi|].
  rewrite E; replace (S (Z.to_nat (Z.of_nat mi + 2)) - k)%nat with (S (Z.to_nat (Z.of_nat mi + 2) - k)) by lia.
  split; [|split].
  - intros HS HT; apply (loop_unfold _ _ _ _ _ R HS); exact HT.
  - intros HS HT ->; rewrite (proj2 (loop_unfold _ _ _ _ _ R HS) HT).
    destruct (Z.ltb_spec (Z.of_nat mi) (0 + Z.of_nat (S mi))); [reflexivity|lia].
  - intros Hs Hc; apply loop_nan; assumption.
Qed.
(** Every case occurs in the list above. *)
Lemma curve_step_exists u : (exists u', step u u') \/ (slope pt d1 P u = 0 /\ curvature pt d1 d2 P u = 0).
Proof.
  unfold step, curve_step; destruct (Req_dec (curvature pt d1 d2 P u) 0) as [E|E]; [|left; eexists; left; split; [exact E|reflexivity]].
  destruct (Rtotal_order (slope pt d1 P u) 0) as [H|[H|H]]; [left; exists 1; right; right; auto|right; auto|left; exists 0; right; left; auto].
Qed.
End CurveTrace.

(** ** Surfaces *)
Section SurfTrace.
Variables (s : surf_beh Exact) (pt du dv duu dvv duv : R -> R -> list R) (P : list R) (e1 e2 : R).
Hypotheses (HS : proper_surface s pt du dv duu dvv duv) (LP : length P = 3%nat).
Let inside (w : R * R) := 0 <= fst w <= 1 /\ 0 <= snd w <= 1.
Let rows_at (w : R * R) : surf_rows Exact := mkRows (fin (at2 du w)) (fin (at2 dv w)) (fin (at2 duu w)) (fin (at2 dvv w)) (fin (at2 duv w)).
Let step := surf_step pt du dv duu dvv duv P.
Let stop := surf_stop pt du dv P e1 e2.
Let ex (w : R * R) : Exact * Exact := (Fin (fst w) : Exact, Fin (snd w) : Exact).
Let loop mi f n d w := surf_loop f s (fin P) (Fin e1 : Exact) (Fin e2 : Exact) mi n (Fin (fst w) : Exact) (Fin (snd w) : Exact) (rows_at d).

Lemma sstep_inside d w w' : step d w w' -> inside w'.
Proof. intros (_ & a & b & _ & _ & ->); split; apply clampR_range. Qed.
Lemma surf_newton_sys d w : inside d -> inside w ->
  surf_newton s (fin P) (Fin (fst w) : Exact) (Fin (snd w) : Exact) (rows_at d) =
  bind (inv2 (Fin (m_uu pt du duu P d w) : Exact) (Fin (m_uv pt du dv duv P d w) : Exact)
             (Fin (m_uv pt du dv duv P d w) : Exact) (Fin (m_vv pt dv dvv P d w) : Exact))
    (fun i => let '(i00, i01, i10, i11) := i in
      let k0 : Exact := Fin (- dotR (subR (at2 pt w) P) (at2 du d)) in
      let k1 : Exact := Fin (- dotR (subR (at2 pt w) P) (at2 dv d)) in
      Ok (clamp01 (i00 * k0 + i01 * k1 + Fin (fst w))%num, clamp01 (i10 * k0 + i11 * k1 + Fin (snd w))%num)).
Proof.
  intros [Ha Hb] [Hu Hv]; pose proof (sres_len _ _ _ _ _ _ _ P HS LP (fst w) (snd w) (conj Hu Hv)) as LR.
  destruct (HS _ _ Ha Hb) as (_ & _ & L1 & L2 & L3 & L4 & L5 & _).
  unfold surf_newton; rewrite (sres_at _ _ _ _ _ _ _ P HS LP _ _ (conj Hu Hv)); cbn [bind rows_at sr_u sr_v sr_uu sr_vv sr_uv].
  unfold at2; rewrite !E_dot by congruence; cbn [bind]; cbv zeta; rewrite !E_vnorm, !E_mul, !E_add, !normR_sqr.
  fold (at2 pt w) (at2 du d) (at2 dv d) (at2 duu d) (at2 duv d) (at2 dvv d).
  fold (m_uu pt du duu P d w) (m_vv pt dv dvv P d w) (m_uv pt du dv duv P d w).
  rewrite !E_ofZ, !E_opp, !E_mul.
  replace (- (1) * dotR (subR (at2 pt w) P) (at2 du d)) with (- dotR (subR (at2 pt w) P) (at2 du d)) by ring.
  replace (- (1) * dotR (subR (at2 pt w) P) (at2 dv d)) with (- dotR (subR (at2 pt w) P) (at2 dv d)) by ring.
  reflexivity.
Qed.
Lemma surf_newton_step d w w' : inside d -> inside w -> step d w w' ->
  surf_newton s (fin P) (Fin (fst w) : Exact) (Fin (snd w) : Exact) (rows_at d) = Ok (ex w').
Proof.
  intros Hd Hw (D & a & b & E1 & E2 & ->); rewrite surf_newton_sys by assumption.
  unfold m_det in D; rewrite E_inv2 by exact D; cbn [bind]; rewrite !E_mul, !E_add, !E_clamp; unfold ex; cbn [fst snd].
  set (A := m_uu pt du duu P d w) in *; set (B := m_uv pt du dv duv P d w) in *; set (C := m_vv pt dv dvv P d w) in *.
  rewrite <- E1, <- E2.
  assert (X1 : C / (A * C - B * B) * (A * a + B * b) + - B / (A * C - B * B) * (B * a + C * b) = a) by (field; exact D).
  assert (X2 : - B / (A * C - B * B) * (A * a + B * b) + A / (A * C - B * B) * (B * a + C * b) = b) by (field; exact D).
  rewrite X1, X2, (Rplus_comm a), (Rplus_comm b); reflexivity.
Qed.
Lemma surf_newton_singular d w : inside d -> inside w -> m_det pt du dv duu dvv duv P d w = 0 ->
  surf_newton s (fin P) (Fin (fst w) : Exact) (Fin (snd w) : Exact) (rows_at d) = Err LinAlgError.
Proof. intros Hd Hw D; rewrite surf_newton_sys by assumption; rewrite E_inv2_singular by exact D; reflexivity. Qed.
Lemma near_test (w w' : R * R) : inside w -> inside w' -> forall (X Y : res (Exact * Exact)),
  (surf_near (at2 du w) (at2 dv w) (subR (at2 pt w') P) e1 e2 ->
   (if ((vnorm (fin (subR (at2 pt w') P)) : Exact) <=? (Fin e1 : Exact))%num then X else
    let* cond2a := surf_cos (fin (at2 du w)) (fin (subR (at2 pt w') P)) in
    let* cond2b := surf_cos (fin (at2 dv w)) (fin (subR (at2 pt w') P)) in
    if ((cond2a <=? (Fin e2 : Exact)) && (cond2b <=? (Fin e2 : Exact)))%num then X else Y) = X) /\
  (~ surf_near (at2 du w) (at2 dv w) (subR (at2 pt w') P) e1 e2 ->
   (if ((vnorm (fin (subR (at2 pt w') P)) : Exact) <=? (Fin e1 : Exact))%num then X else
    let* cond2a := surf_cos (fin (at2 du w)) (fin (subR (at2 pt w') P)) in
    let* cond2b := surf_cos (fin (at2 dv w)) (fin (subR (at2 pt w') P)) in
    if ((cond2a <=? (Fin e2 : Exact)) && (cond2b <=? (Fin e2 : Exact)))%num then X else Y) = Y).
Proof.
  intros [Ha Hb] [Hu Hv] X Y; pose proof (sres_len _ _ _ _ _ _ _ P HS LP _ _ (conj Hu Hv)) as LR; fold (at2 pt w') in LR.
  destruct (HS _ _ Ha Hb) as (_ & _ & L1 & L2 & _); fold (at2 du w) in L1; fold (at2 dv w) in L2.
  rewrite E_vnorm, E_leb; unfold surf_cos; rewrite !E_dot by congruence; cbn [bind]; rewrite !E_snorm, !E_vnorm; unfold surf_near.
  destruct (Rleb _ e1) eqn:A2; [apply Rleb_true in A2; split; [reflexivity|tauto]|apply Rleb_false in A2].
  destruct (_ <=? (Fin e2 : Exact))%num eqn:A3; cbn [andb]; [apply cos_test in A3; destruct (_ <=? (Fin e2 : Exact))%num eqn:A4|].
  - apply cos_test in A4; split; [reflexivity|tauto].
  - split; [|reflexivity]; intros [H|[_ H]]; [lra|]; apply cos_test in H; rewrite H in A4; discriminate A4.
  - split; [|reflexivity]; intros [H|[H _]]; [lra|]; apply cos_test in H; rewrite H in A3; discriminate A3.
Qed.
Lemma sloop_unfold mi f n d w w' : inside d -> inside w -> step d w w' ->
  (stop d w w' -> loop mi (S f) n d w = Ok (ex w')) /\
  (~ stop d w w' -> loop mi (S f) n d w = if (mi <=? n)%Z then Ok (ex w') else loop mi f (n + 1)%Z w w').
Proof.
  intros Hd Hw Hs; pose proof (sstep_inside _ _ _ Hs) as Hw'; unfold loop; cbn [surf_loop].
  rewrite (surf_newton_step d w w' Hd Hw Hs); cbn [bind]; cbv beta iota delta [ex]; cbn [rows_at sr_u sr_v].
  rewrite !E_sub.
  assert (V : forall x l, vscale (Fin x : Exact) (fin l) = fin (map (Rmult x) l)).
  { intros x l; unfold vscale, fin; rewrite !map_map; apply map_ext; intros; apply E_mul. }
  destruct (HS _ _ (proj1 Hd) (proj2 Hd)) as (_ & _ & L1 & L2 & _); fold (at2 du d) in L1; fold (at2 dv d) in L2.
  rewrite !V; rewrite (E_np_bin _ Rplus) by (try (intros; apply E_add); rewrite !map_length; congruence); cbn [bind].
  rewrite E_vnorm, E_leb.
  replace (map (fun xy : R * R => fst xy + snd xy) (combine (map (Rmult (fst w' - fst w)) (at2 du d)) (map (Rmult (snd w' - snd w)) (at2 dv d))))
    with (map (fun xy : R * R => (fst w' - fst w) * fst xy + (snd w' - snd w) * snd xy) (combine (at2 du d) (at2 dv d))).
  2:{ generalize (at2 du d) (at2 dv d); clear; induction l as [|x l IH]; intros [|y l']; try reflexivity; cbn [map combine fst snd]; f_equal; apply IH. }
  unfold stop, surf_stop.
  pose proof (srows_at _ _ _ _ _ _ _ P HS LP (fst w) (snd w) Hw) as ER.
  pose proof (sres_at _ _ _ _ _ _ _ P HS LP (fst w') (snd w') Hw') as EP.
  rewrite ER; cbn [bind sr_u sr_v]; rewrite EP; cbn [bind].
  destruct (near_test w w' Hw Hw' (Ok (ex w')) (if (mi <=? n)%Z then Ok (ex w') else
     surf_loop f s (fin P) (Fin e1 : Exact) (Fin e2 : Exact) mi (n + 1)%Z (Fin (fst w') : Exact) (Fin (snd w') : Exact) (rows_at w))) as [N1 N2].
  destruct (Rleb _ e1) eqn:A1; [apply Rleb_true in A1; split; [reflexivity|tauto]|apply Rleb_false in A1].
  split.
  - intros [H|H]; [lra|]; exact (N1 H).
  - intros H; apply N2; tauto.
Qed.
Lemma sloop_singular mi f n d w : inside d -> inside w -> m_det pt du dv duu dvv duv P d w = 0 -> loop mi (S f) n d w = Err LinAlgError.
Proof. intros Hd Hw D; unfold loop; cbn [surf_loop]; rewrite surf_newton_singular by assumption; reflexivity. Qed.
(** Round [k] uses the derivatives of the iterate before. *)
Lemma sloop_follow mi (x : nat -> R * R) : forall k f n, inside (x O) -> (k <= f)%nat -> (n + Z.of_nat k <= mi)%Z ->
  (forall i, (i < k)%nat -> step (x (pred i)) (x i) (x (S i)) /\ ~ stop (x (pred i)) (x i) (x (S i))) ->
  inside (x (pred k)) /\ inside (x k) /\ loop mi f n (x O) (x O) = loop mi (f - k) (n + Z.of_nat k) (x (pred k)) (x k).
Proof.
  induction k as [|k IH]; intros f n Hx Hf Hn Hk.
  - rewrite Nat.sub_0_r, Z.add_0_r; auto.
  - destruct (IH f n Hx) as (R1 & R2 & E); [lia|lia|intros i Hi; apply Hk; lia|].
    destruct (Hk k ltac:(lia)) as [Hs HN]; cbn [pred]; split; [exact R2|]; split; [exact (sstep_inside _ _ _ Hs)|].
    rewrite E; replace (f - k)%nat with (S (f - S k)) by lia.
    rewrite (proj2 (sloop_unfold mi (f - S k) (n + Z.of_nat k) _ _ _ R1 R2 Hs) HN).
    destruct (Z.leb_spec mi (n + Z.of_nat k)); [lia|]; f_equal; lia.
Qed.
Lemma sinversion_start mi (w : R * R) : inside w -> initial_guess_surf s (fin P) = Ok (ex w) ->
  (surf_near (at2 du w) (at2 dv w) (subR (at2 pt w) P) e1 e2 -> surface_inversion s (fin P) (Fin e1 : Exact) (Fin e2 : Exact) mi = Ok (ex w)) /\
  (~ surf_near (at2 du w) (at2 dv w) (subR (at2 pt w) P) e1 e2 ->
     surface_inversion s (fin P) (Fin e1 : Exact) (Fin e2 : Exact) mi = loop mi (S (Z.to_nat (mi + 1))) 0 w w).
Proof.
  intros Hw EG; unfold surface_inversion, surface_inversion_fuel; rewrite EG; cbn [bind]; cbv beta iota delta [ex].
  pose proof (srows_at _ _ _ _ _ _ _ P HS LP (fst w) (snd w) Hw) as ER.
  pose proof (sres_at _ _ _ _ _ _ _ P HS LP (fst w) (snd w) Hw) as EP.
  rewrite ER; cbn [bind sr_u sr_v]; rewrite EP; cbn [bind].
  exact (near_test w w Hw Hw (Ok (ex w)) (loop mi (S (Z.to_nat (mi + 1))) 0 w w)).
Qed.
Lemma surf_trace mi (x : nat -> R * R) : inside (x O) -> initial_guess_surf s (fin P) = Ok (ex (x O)) ->
  let run := surface_inversion s (fin P) (Fin e1 : Exact) (Fin e2 : Exact) (Z.of_nat mi) in
  (surf_near (at2 du (x O)) (at2 dv (x O)) (subR (at2 pt (x O)) P) e1 e2 -> run = Ok (ex (x O))) /\
  (~ surf_near (at2 du (x O)) (at2 dv (x O)) (subR (at2 pt (x O)) P) e1 e2 -> forall k, (k <= mi)%nat ->
     (forall i, (i < k)%nat -> step (x (pred i)) (x i) (x (S i)) /\ ~ stop (x (pred i)) (x i) (x (S i))) ->
     (step (x (pred k)) (x k) (x (S k)) -> stop (x (pred k)) (x k) (x (S k)) \/ k = mi -> run = Ok (ex (x (S k)))) /\
     (m_det pt du dv duu dvv duv P (x (pred k)) (x k) = 0 -> run = Err LinAlgError)).
Proof.
  intros Hx EG; destruct (sinversion_start (Z.of_nat mi) (x O) Hx EG) as [S1 S2]; cbv zeta; split; [exact S1|].
  intros HN k Hk Hi; rewrite (S2 HN).
  destruct (sloop_follow (Z.of_nat mi) x k (S (Z.to_nat (Z.of_nat mi + 1))) 0 Hx) as (R1 & R2 & E); [lia|lia|exact Hi|].
  rewrite E; replace (S (Z.to_nat (Z.of_nat mi + 1)) - k)%nat with (S (Z.to_nat (Z.of_nat mi + 1) - k)) by lia.
  split.
  - intros Hs HT; destruct (sloop_unfold (Z.of_nat mi) (Z.to_nat (Z.of_nat mi + 1) - k) (0 + Z.of_nat k) _ _ _ R1 R2 Hs) as [U1 U2].
    assert (DE : stop (x (pred k)) (x k) (x (S k)) \/ ~ stop (x (pred k)) (x k) (x (S k))).
    { unfold stop, surf_stop, surf_near.
      destruct (right_angle_dec (at2 du (x k)) (subR (at2 pt (x (S k))) P) e2), (right_angle_dec (at2 dv (x k)) (subR (at2 pt (x (S k))) P) e2);
        (match goal with |- (?a <= ?b \/ (?c <= ?d \/ _)) \/ _ => destruct (Rle_dec a b), (Rle_dec c d) end); tauto. }
    destruct DE as [D|D]; [exact (U1 D)|]; destruct HT as [HT|HT]; [contradiction|]; rewrite (U2 D), HT.
    destruct (Z.leb_spec (Z.of_nat mi) (0 + Z.of_nat mi)); [reflexivity|lia].
  - intros D; apply sloop_singular; assumption.
Qed.
Lemma surf_step_exists d w : (exists w', step d w w') \/ m_det pt du dv duu dvv duv P d w = 0.
Proof.
  destruct (Req_dec (m_det pt du dv duu dvv duv P d w) 0) as [E|E]; [right; exact E|left].
  eexists; split; [exact E|]; unfold m_det in E.
  set (A := m_uu pt du duu P d w) in *; set (B := m_uv pt du dv duv P d w) in *; set (C := m_vv pt dv dvv P d w) in *.
  set (f := dotR (subR (at2 pt w) P) (at2 du d)); set (g := dotR (subR (at2 pt w) P) (at2 dv d)).
  exists ((B * g - C * f) / (A * C - B * B)), ((B * f - A * g) / (A * C - B * B)).
  split; [field; exact E|]; split; [field; exact E|reflexivity].
Qed.
End SurfTrace.
