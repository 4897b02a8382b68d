(** The order of the data rows with dot products and solutions of any value (model:
    ModelDotParam.v). *)
From Coq Require Import Permutation Sorted Floats Reals Lra.
From Verif Require Import Py PyLemmas Num ModelKnots ModelBasis ModelCurve ModelSurface ModelInit ModelParam ModelDot ModelDotParam ModelIO SpecB64 SpecSpecial SpecOrder
  ProofNum ProofCurve2 ProofParam2 ProofB64 ProofB64Span ProofSpecial ProofOrder ProofOrder2.
Open Scope Z_scope.

Section Params.
Context {K : Num}.
Hypothesis TK : tidy K.
Variable dot : list Z -> list K -> list K -> K.
Variable solve : K -> K -> K -> K -> K -> K -> res (K * K).
Lemma guess_one_zero_dot (c : curve_beh K) p u : initial_guess_curve_dot dot c p = Ok u -> one_zero u.
Proof.
  unfold initial_guess_curve_dot; pose proof (ti_samples K TK (2 * cb_count c)) as HS; rewrite Forall_forall in HS.
  destruct (aget _ 0) as [u0|e|] eqn:E0; cbn [bind]; try discriminate.
  destruct (for_range _ _ _ _) as [st|e|] eqn:E; cbn [bind]; try discriminate; intros H; inversion H; subst.
  apply (range_keeps (fun st => one_zero (snd st))) in E; [exact E| |exact (HS _ (aget_In _ _ _ E0))].
  intros i x y Hx; unfold guess_step_dot; destruct (aget _ i) as [ei|e|] eqn:Ei; cbn [bind]; try discriminate.
  destruct (cb_point c ei); cbn [bind]; try discriminate; destruct (np_sub p _); cbn [bind]; try discriminate.
  intros H'; inversion H'; subst; destruct (_ <? _)%num; [exact (HS _ (aget_In _ _ _ Ei))|exact Hx].
Qed.
Lemma newton_one_zero_dot j (ui : K) pt d1 d2 p u : one_zero ui -> curve_newton_dot dot j ui pt d1 d2 p = Ok u -> one_zero u.
Proof.
  intros Hu; unfold curve_newton_dot; destruct (np_sub pt p); cbn [bind]; try discriminate; destruct (mm dot _ d1 _); cbn [bind]; try discriminate; destruct (mm dot _ d2 _); cbn [bind]; try discriminate.
  intros H; inversion H; subst; destruct (_ <? 0)%num; [apply one_zero_0|]; destruct (1 <? _)%num; [apply (ti_one K TK)|apply (ti_sub K TK); exact Hu].
Qed.
Lemma loop_one_zero_dot fuel (c : curve_beh K) p e1 e2 mi : forall j ui pt d1 d2 u, one_zero ui -> curve_loop_dot dot fuel c p e1 e2 mi j ui pt d1 d2 = Ok u -> one_zero u.
Proof.
  induction fuel as [|f IH]; intros j ui pt d1 d2 u Hu; cbn [curve_loop_dot]; [discriminate|].
  destruct (curve_newton_dot dot j ui pt d1 d2 p) as [un|e|] eqn:EN; cbn [bind]; try discriminate; pose proof (newton_one_zero_dot _ _ _ _ _ _ _ Hu EN) as Hn.
  destruct (_ <=? e1)%num; [intros H; inversion H; subst; exact Hu|].
  destruct (curve_rows c un) as [[[pt' d1'] d2']|e|]; cbn [bind]; try discriminate.
  destruct (curve_dist_dot dot j c p un) as [q|e|]; cbn [bind]; try discriminate; destruct (q <=? e1)%num; [intros H; inversion H; subst; exact Hu|].
  destruct (curve_cos_dot dot j pt' d1' p) as [q2|e|]; cbn [bind]; try discriminate; destruct (q2 <=? e2)%num; [intros H; inversion H; subst; exact Hu|].
  destruct (mi <? j); [intros H; inversion H; subst; exact Hn|apply IH; exact Hn].
Qed.
Lemma inversion_one_zero_dot (c : curve_beh K) p e1 e2 mi u : curve_inversion_dot dot c p e1 e2 mi = Ok u -> one_zero u.
Proof.
  unfold curve_inversion_dot, curve_inversion_fuel_dot; destruct (initial_guess_curve_dot dot c p) as [ui|e|] eqn:EG; cbn [bind]; try discriminate; pose proof (guess_one_zero_dot _ _ _ EG) as Hu.
  destruct (curve_rows c ui) as [[[pt d1] d2]|e|]; cbn [bind]; try discriminate.
  destruct (curve_dist_dot dot (-1) c p ui) as [q|e|]; cbn [bind]; try discriminate; destruct (q <=? e1)%num; [intros H; inversion H; subst; exact Hu|].
  destruct (curve_cos_dot dot (-1) pt d1 p) as [q2|e|]; cbn [bind]; try discriminate; destruct (q2 <=? e2)%num; [intros H; inversion H; subst; exact Hu|apply loop_one_zero_dot; exact Hu].
Qed.
Lemma guess2_one_zero_dot (s : surf_beh K) p u v : initial_guess_surf_dot dot s p = Ok (u, v) -> one_zero u /\ one_zero v.
Proof.
  unfold initial_guess_surf_dot; pose proof (ti_samples K TK (2 * sb_nu s)) as HU; pose proof (ti_samples K TK (2 * sb_nv s)) as HV; rewrite Forall_forall in HU, HV.
  destruct (aget _ 0) as [u0|e|] eqn:E0; cbn [bind]; try discriminate; destruct (aget (samples (2 * sb_nv s)) 0) as [v0|e|] eqn:E1; cbn [bind]; try discriminate.
  destruct (for_range _ _ _ _) as [st|e|] eqn:E; cbn [bind]; try discriminate; intros H; inversion H; subst.
  apply (range_keeps (fun st => one_zero (snd (fst st)) /\ one_zero (snd st))) in E; [exact E| |exact (conj (HU _ (aget_In _ _ _ E0)) (HV _ (aget_In _ _ _ E1)))].
  intros i x y Hx Ey; apply (range_keeps (fun st => one_zero (snd (fst st)) /\ one_zero (snd st))) in Ey; [exact Ey| |exact Hx].
  clear - HU HV; intros j x y Hx; unfold guess_step2_dot; destruct (aget _ i) as [ei|e|] eqn:Ei; cbn [bind]; try discriminate; destruct (aget _ j) as [ej|e|] eqn:Ej; cbn [bind]; try discriminate.
  destruct (sb_point s ei ej); cbn [bind]; try discriminate; destruct (np_sub p _); cbn [bind]; try discriminate.
  intros H'; inversion H'; subst; destruct (_ <? _)%num; [split; [exact (HU _ (aget_In _ _ _ Ei))|exact (HV _ (aget_In _ _ _ Ej))]|exact Hx].
Qed.
Lemma newton2_one_zero_dot n (s : surf_beh K) p ui vi d u v : one_zero ui -> one_zero vi -> surf_newton_dot dot solve n s p ui vi d = Ok (u, v) -> one_zero u /\ one_zero v.
Proof.
  intros Hu Hv; unfold surf_newton_dot; destruct (surf_res s p ui vi); cbn [bind]; try discriminate.
  repeat (destruct (mm dot _ _ _); cbn [bind]; try discriminate).
  destruct (solve _ _ _ _ _ _) as [[i00 i01]|e|]; cbn [bind]; try discriminate; intros H; inversion H; subst.
  split; apply (clamp_one_zero TK), (ti_add K TK); assumption.
Qed.
Lemma loop2_one_zero_dot fuel (s : surf_beh K) p e1 e2 mi : forall n ui vi d u v, one_zero ui -> one_zero vi -> surf_loop_dot dot solve fuel s p e1 e2 mi n ui vi d = Ok (u, v) -> one_zero u /\ one_zero v.
Proof.
  induction fuel as [|f IH]; intros n ui vi d u v Hu Hv; cbn [surf_loop_dot]; [discriminate|].
  destruct (surf_newton_dot dot solve n s p ui vi d) as [[un vn]|e|] eqn:EN; cbn [bind]; try discriminate; destruct (newton2_one_zero_dot _ _ _ _ _ _ _ _ Hu Hv EN) as [Gu Gv].
  destruct (np_bin _ _ _) as [st|e|]; cbn [bind]; try discriminate; destruct (_ <=? e1)%num; [intros H; inversion H; subst; auto|].
  destruct (get_surf_rows s ui vi) as [d'|e|]; cbn [bind]; try discriminate; destruct (surf_res s p un vn) as [r|e|]; cbn [bind]; try discriminate.
  destruct (_ <=? e1)%num; [intros H; inversion H; subst; auto|].
  destruct (surf_cos_dot dot n 0 (sr_u d') r) as [ca|e|]; cbn [bind]; try discriminate; destruct (surf_cos_dot dot n 1 (sr_v d') r) as [cb|e|]; cbn [bind]; try discriminate.
  destruct (_ && _); [intros H; inversion H; subst; auto|]; destruct (mi <=? n); [intros H; inversion H; subst; auto|apply IH; assumption].
Qed.
Lemma inversion2_one_zero_dot (s : surf_beh K) p e1 e2 mi u v : surface_inversion_dot dot solve s p e1 e2 mi = Ok (u, v) -> one_zero u /\ one_zero v.
Proof.
  unfold surface_inversion_dot, surface_inversion_fuel_dot; destruct (initial_guess_surf_dot dot s p) as [[ui vi]|e|] eqn:EG; cbn [bind]; try discriminate; destruct (guess2_one_zero_dot _ _ _ _ EG) as [Hu Hv].
  destruct (get_surf_rows s ui vi) as [d|e|]; cbn [bind]; try discriminate; destruct (surf_res s p ui vi) as [r|e|]; cbn [bind]; try discriminate.
  destruct (_ <=? e1)%num; [intros H; inversion H; subst; auto|].
  destruct (surf_cos_dot dot (-1) 0 (sr_u d) r) as [ca|e|]; cbn [bind]; try discriminate; destruct (surf_cos_dot dot (-1) 1 (sr_v d) r) as [cb|e|]; cbn [bind]; try discriminate.
  destruct (_ && _); [intros H; inversion H; subst; auto|apply loop2_one_zero_dot; assumption].
Qed.

Lemma parameterize_reordered_dot (c : curve_beh K) d d' out : reordered d d' -> parameterize_curve_dot dot c d = Ok out -> parameterize_curve_dot dot c d' = Ok out.
Proof.
  intros (C & C' & HP & HF); unfold parameterize_curve_dot; rewrite C, C'.
  destruct (mapM _ (dt_rows d)) as [us|e|] eqn:EM; cbn [bind]; try discriminate.
  destruct (mapM_reordered _ _ _ _ HP EM) as (us' & -> & HC); cbn [bind].
  set (g := fun t : list K * K => fst t ++ [snd t]).
  assert (R : Forall (record 4) (map g (combine (dt_rows d) us))).
  { apply Forall_forall; intros r Hr; apply in_map_iff in Hr; destruct Hr as ([a u] & <- & Hau); unfold g; cbn [fst snd].
    rewrite Forall_forall in HF; destruct (HF a (in_combine_l _ _ _ _ Hau)) as (La & Ga).
    apply mapM_spec in EM; assert (Gu : one_zero u).
    { clear - EM Hau TK; induction EM as [|x y l ys E EM IH]; [contradiction|]; destruct Hau as [H|H]; [inversion H; subst; eapply inversion_one_zero_dot; exact E|auto]. }
    split; [rewrite app_length, La; reflexivity|apply Forall_app; auto]. }
  assert (R' : Forall (record 4) (map g (combine (dt_rows d') us'))) by (eapply Permutation_Forall; [apply Permutation_map; exact HC|exact R]).
  pose proof (fun (m : list (list K)) H => sort_view_rows 4 [3%nat; 0%nat; 1%nat; 2%nat] m ltac:(lia) H) as SV; change (Z.of_nat 4) with 4 in SV; change (3 + 1) with 4.
  rewrite !SV by (eapply Forall_impl; [|eassumption]; intros ? []; assumption).
  rewrite (sort_unique (ti_sort K TK) 4 [3%nat; 0%nat; 1%nat; 2%nat] ltac:(intros i Hi; cbn [In]; lia) _ _ (Permutation_map g HC) R); auto.
Qed.
Lemma parameterize2_reordered_dot (s : surf_beh K) d d' out : reordered d d' -> parameterize_surface_dot dot solve s d = Ok out -> parameterize_surface_dot dot solve s d' = Ok out.
Proof.
  intros (C & C' & HP & HF); unfold parameterize_surface_dot; rewrite C, C'.
  destruct (mapM _ (dt_rows d)) as [us|e|] eqn:EM; cbn [bind]; try discriminate.
  destruct (mapM_reordered _ _ _ _ HP EM) as (us' & -> & HC); cbn [bind].
  set (g := fun t : list K * (K * K) => fst t ++ [fst (snd t); snd (snd t)]).
  assert (R : Forall (record 5) (map g (combine (dt_rows d) us))).
  { apply Forall_forall; intros r Hr; apply in_map_iff in Hr; destruct Hr as ([a u] & <- & Hau); unfold g; cbn [fst snd].
    rewrite Forall_forall in HF; destruct (HF a (in_combine_l _ _ _ _ Hau)) as (La & Ga).
    apply mapM_spec in EM; assert (Gu : one_zero (fst u) /\ one_zero (snd u)).
    { clear - EM Hau TK; induction EM as [|x y l ys E EM IH]; [contradiction|]; destruct Hau as [H|H]; [inversion H; subst; destruct u; eapply inversion2_one_zero_dot; exact E|auto]. }
    split; [rewrite app_length, La; reflexivity|apply Forall_app; split; [exact Ga|repeat constructor; apply Gu]]. }
  assert (R' : Forall (record 5) (map g (combine (dt_rows d') us'))) by (eapply Permutation_Forall; [apply Permutation_map; exact HC|exact R]).
  pose proof (fun (m : list (list K)) H => sort_view_rows 5 [3%nat; 4%nat; 0%nat; 1%nat; 2%nat] m ltac:(lia) H) as SV; change (Z.of_nat 5) with 5 in SV; change (3 + 2) with 5.
  rewrite !SV by (eapply Forall_impl; [|eassumption]; intros ? []; assumption).
  rewrite (sort_unique (ti_sort K TK) 5 [3%nat; 4%nat; 0%nat; 1%nat; 2%nat] ltac:(intros i Hi; cbn [In]; lia) _ _ (Permutation_map g HC) R); auto.
Qed.
End Params.
Lemma order_parameterize_dot {K : Num} (HK : K = Exact \/ K = Binary64) (d d' : data_array K) : reordered d d' -> forall dot solve out,
  (forall c : curve_beh K, parameterize_curve_dot dot c d = Ok out <-> parameterize_curve_dot dot c d' = Ok out) /\
  (forall s : surf_beh K, parameterize_surface_dot dot solve s d = Ok out <-> parameterize_surface_dot dot solve s d' = Ok out).
Proof.
  intros HD dot solve out; pose proof (tidy_both K HK) as TK; pose proof (reordered_sym _ _ HD) as HD'; split; intros x; split.
  - exact (parameterize_reordered_dot TK dot x d d' out HD). - exact (parameterize_reordered_dot TK dot x d' d out HD').
  - exact (parameterize2_reordered_dot TK dot solve x d d' out HD). - exact (parameterize2_reordered_dot TK dot solve x d' d out HD').
Qed.
