(** Lemmas about [linear_fit_fixed] (parts), [fit_curve_fixed_ctrlpts], and the
    number of rounds of [fit_curve_knot_insertion]. *)
From Verif Require Import Py PyLemmas Num ModelKnots ModelBasis ModelCurve ModelSurface ModelInit ModelParam ModelFit Spec SpecFit ProofNum ProofCurve2 ProofInit ProofParam4 ProofFit ProofFit2 ProofFit3 ProofFit4 ProofFit5.
Open Scope Z_scope.

Section Any.
Context {K : Num}.

Lemma linear_fit_fixed_parts sv (R : list (list K)) Q P fixed lg x : linear_fit_fixed sv R Q P fixed lg = Ok x ->
  (length P <= length fixed)%nat /\ length x = length P /\
  kept (firstn (length P) fixed) x = kept (firstn (length P) fixed) P /\
  (free (firstn (length P) fixed) P = [] /\ x = P \/
   exists A b y, sv_lstsq sv (Z.of_nat (length (free (firstn (length P) fixed) P))) A b = Ok y /\
     free (firstn (length P) fixed) x = firstn (length (free (firstn (length P) fixed) P)) y).
Proof.
  intros H; apply linear_fit_fixed_result in H; destruct H as (HL & H).
  set (mask := firstn (length P) fixed) in *.
  assert (HM : length mask = length P) by (unfold mask; rewrite firstn_length; lia).
  split; [exact HL|]; destruct H as [(-> & HA)|(A & b & y & E & Hy & ->)].
  - split; [reflexivity|]; split; [reflexivity|]; left; split; [|reflexivity].
    clear HL; revert HA HM; generalize mask; clear; intros mask; revert P; induction mask as [|m mask IH]; intros [|q P] HA HM; try reflexivity.
    pose proof (Forall_inv HA) as E; cbn in E; subst m; cbn; apply IH; [exact (Forall_inv_tail HA)|cbn in HM; lia].
  - split; [apply merge_length; [exact HM|lia]|]; split; [apply merge_kept; [exact HM|lia]|]; right.
    unfold free at 1 3; rewrite (pick_length false mask P HM).
    exists A, b, y; split; [exact E|]; apply merge_free; [exact HM|lia].
Qed.
Lemma linear_fit_fixed_short sv (R : list (list K)) Q P fixed lg : (length fixed < length P)%nat ->
  linear_fit_fixed sv R Q P fixed lg = Err IndexError.
Proof.
  intros HL; unfold linear_fit_fixed; rewrite count_fixed_eq; destruct (Z.leb_spec (zlen P) (zlen fixed)); [unfold zlen in *; lia|reflexivity].
Qed.

(** ** Counting *)
Lemma single_fit_curve_count sv (c c' : curve_obj K) rows P : c_ctrl c = Some P ->
  single_fit_curve store_ctrl sv c rows = Ok c' ->
  exists Q, c' = mkCurve (c_degree c) (Some Q) (c_kv c) (c_dim c) /\ length Q = length P.
Proof.
  intros HP; unfold single_fit_curve; intros H; apply bind_Ok in H; destruct H as (us & _ & H).
  apply bind_Ok in H; destruct H as ([[p P'] kv] & HF & H).
  unfold curve_fields in HF; rewrite HP in HF; destruct (c_kv c) eqn:EK; [|discriminate]; destruct (c_degree c) eqn:ED; [|discriminate].
  injection HF as <- <- <-.
  apply bind_Ok in H; destruct H as (N & _ & H); apply bind_Ok in H; destruct H as (_u & _ & H).
  apply bind_Ok in H; destruct H as (mask & HM & H); apply bind_Ok in H; destruct H as (Q & HQ & H).
  injection H as <-; exists Q; unfold store_ctrl; rewrite ?EK, ?ED; split; [reflexivity|].
  assert (Hn : (1 <= length P)%nat) by (apply curve_mask_inv in HM; unfold zlen in *; lia).
  unfold zlen in HM; rewrite (curve_mask_tab _ Hn) in HM; injection HM as <-.
  unfold fit_coordinates in HQ.
  apply bind_Ok in HQ; destruct HQ as (q0 & _ & HQ); apply bind_Ok in HQ; destruct HQ as (p0 & E0 & HQ); apply bind_Ok in HQ; destruct HQ as (x & Ex & HQ).
  apply bind_Ok in HQ; destruct HQ as (q1 & _ & HQ); apply bind_Ok in HQ; destruct HQ as (p1 & E1 & HQ); apply bind_Ok in HQ; destruct HQ as (y & Ey & HQ).
  apply bind_Ok in HQ; destruct HQ as (q2 & _ & HQ); apply bind_Ok in HQ; destruct HQ as (p2 & E2 & HQ); apply bind_Ok in HQ; destruct HQ as (w & Ez & HQ).
  injection HQ as <-.
  apply acol_length in E0, E1, E2.
  apply linear_fit_keeps in Ex, Ey, Ez; try (rewrite tab_length; congruence).
  unfold column_stack3; rewrite map_length, !combine_length; lia.
Qed.

Lemma insertion_count p (kv : list K) P x r kv' P' : curve_knot_insertion p kv P x r = Ok (kv', P') ->
  zlen P' = zlen P + r.
Proof.
  unfold curve_knot_insertion; cbv zeta; intros H; repeat bind_inv H.
  injection H as _ <-.
  assert (HA : zlen a1 = zlen P + r).
  { unfold np_full2 in E1; destruct (Z.ltb_spec (zlen P + r) 0); [discriminate|]; cbn [orb] in E1; injection E1 as <-.
    unfold zlen in *; rewrite repeat_length; lia. }
  assert (HR : forall (m m' : list (list K)) i w, aset_row m i w = Ok m' -> zlen m' = zlen m).
  { intros m m' i w HE; apply aset_row_len in HE; unfold zlen; congruence. }
  set (Q := fun a : list (list K) => zlen a = zlen P + r).
  assert (Q1 : Q a6).
  { refine (for_range_pres Q _ _ _ _ _ _ E6 HA); intros i s0 s' H1 HQ; bind_inv H1; apply HR in H1; unfold Q in *; lia. }
  assert (Q2 : Q a7).
  { refine (for_range_pres Q _ _ _ _ _ _ E7 Q1); intros i s0 s' H1 HQ; bind_inv H1; apply HR in H1; unfold Q in *; lia. }
  assert (Q3 : Q (fst a9)).
  { refine (for_range_pres (fun st => Q (fst st)) _ _ _ _ _ _ E9 Q2); intros i s0 s' H1 HQ; unfold insertion_round in H1; cbv zeta in H1.
    repeat bind_inv H1; injection H1 as <-; cbn [fst]; unfold Q in *.
    repeat match goal with E : aset_row _ _ _ = Ok _ |- _ => apply HR in E end; lia. }
  refine (for_range_pres Q _ _ _ _ _ _ E10 Q3); intros i s0 s' H1 HQ; bind_inv H1; apply HR in H1; unfold Q in *; lia.
Qed.
Lemma check_true_length p (kv : list K) n : check_knot_vector p (NdArray kv) n = Ok true -> zlen kv = n + p + 1.
Proof.
  unfold check_knot_vector; intros H; bind_inv H.
  assert (zlen a = zlen kv).
  { unfold normalize in E; repeat bind_inv E; injection E as <-; unfold zlen; rewrite !map_length; reflexivity. }
  destruct (Z.eqb_spec (zlen a) (n + p + 1)); cbn [negb] in H; [lia|discriminate].
Qed.
(** One insertion: one more control point; the knot vector follows or stays. *)
Lemma insert_working_count (c c' : curve_obj K) u p P kv : c_degree c = Some p -> c_ctrl c = Some P -> c_kv c = Some kv ->
  insert_knot_working c u = Ok c' ->
  exists P' kv', c' = mkCurve (Some p) (Some P') (Some kv') (c_dim c) /\ zlen P' = zlen P + 1 /\ (kv' = kv \/ zlen kv' = zlen kv + 1).
Proof.
  intros Hd HP Hk; unfold insert_knot_working; destruct (negb _); [discriminate|].
  unfold curve_fields; rewrite Hd, HP, Hk; cbn [bind]; intros H; bind_inv H.
  destruct a as [kv' P']; cbn [fst snd] in H.
  pose proof (insertion_length _ _ _ _ _ _ _ _ E) as L1; apply insertion_count in E.
  unfold set_knot_vector in H; cbn [bind store_ctrl c_degree c_ctrl c_kv c_dim] in H; rewrite Hd, Hk in H.
  bind_inv H; destruct a; injection H as <-; eexists; eexists; (split; [reflexivity|]); auto.
Qed.
Lemma inserts_count knots l (c c' : curve_obj K) p P kv : c_degree c = Some p -> c_ctrl c = Some P -> c_kv c = Some kv ->
  for_list l (fun i t => let* u := aget knots i in insert_knot_working t u) c = Ok c' ->
  exists P' kv', c' = mkCurve (Some p) (Some P') (Some kv') (c_dim c) /\ zlen P' = zlen P + zlen l /\ zlen kv <= zlen kv'.
Proof.
  revert c P kv; induction l as [|i l IH]; intros c P kv Hd HP Hk H; cbn [for_list] in H.
  - injection H as <-; exists P, kv; destruct c; cbn in *; subst; split; [reflexivity|]; unfold zlen; cbn; lia.
  - bind_inv H; bind_inv E.
    destruct (insert_working_count _ _ _ _ _ _ Hd HP Hk E) as (P1 & kv1 & E1 & L1 & L2); subst a.
    destruct (IH (mkCurve (Some p) (Some P1) (Some kv1) (c_dim c)) P1 kv1 eq_refl eq_refl eq_refl H) as (P2 & kv2 & -> & L3 & L4).
    exists P2, kv2; split; [reflexivity|]; rewrite zlen_cons; split; [lia|]; destruct L2 as [->|]; lia.
Qed.
Lemma span_midpoints_count p (kv m : list K) : span_midpoints p kv = Ok m -> zlen m = zlen kv - p - 1 - p.
Proof.
  unfold span_midpoints; cbv zeta; intros H; bind_inv H.
  assert (HA : zlen a = zlen kv - p - 1 - p).
  { unfold np_full in E; destruct (Z.ltb_spec (zlen kv - p - 1 - p) 0); [discriminate|]; injection E as <-.
    unfold zlen in *; rewrite repeat_length; lia. }
  refine (for_range_pres (fun s => zlen s = zlen kv - p - 1 - p) _ _ _ _ _ _ H HA); intros i s s' H1 HQ.
  repeat bind_inv H1; apply aset_len in H1; lia.
Qed.

(** [num_pts] rounds are enough, whatever the data and the solver. *)
Lemma insertion_loop_rounds sv data num p : forall fuel fuel' (c : curve_obj K) P kv,
  c_degree c = Some p -> c_ctrl c = Some P -> c_kv c = Some kv -> 2 * p + 2 <= zlen kv ->
  (Z.to_nat (num - zlen P) < fuel)%nat -> (fuel <= fuel')%nat ->
  insertion_loop fuel' working_class sv data num c = insertion_loop fuel working_class sv data num c.
Proof.
  induction fuel as [|fuel IH]; intros fuel' c P kv Hd HP Hk HL HF HF'; [lia|].
  destruct fuel' as [|fuel']; [lia|]; cbn [insertion_loop].
  destruct (parameterize_curve _ data) as [rows| |]; cbn [bind]; try reflexivity.
  change (cl_set_ctrl working_class) with (@store_ctrl K).
  destruct (single_fit_curve store_ctrl sv c rows) as [t| |] eqn:E; cbn [bind]; try reflexivity.
  destruct (single_fit_curve_count _ _ _ _ _ HP E) as (Q & -> & LQ); cbn [c_ctrl].
  destruct (Z.leb_spec num (zlen Q)); [reflexivity|].
  unfold curve_fields; cbn [c_ctrl c_kv c_degree]; rewrite Hd, Hk; cbn [bind].
  destruct (span_midpoints p kv) as [m| |] eqn:EM; cbn [bind]; try reflexivity.
  apply span_midpoints_count in EM.
  change (cl_insert working_class) with (@insert_knot_working K).
  destruct (for_range 0 (zlen m) _ _) as [t| |] eqn:EF; cbn [bind]; try reflexivity.
  unfold for_range in EF; apply (inserts_count _ _ _ _ p Q kv) in EF; try reflexivity.
  destruct EF as (P' & kv' & -> & L1 & L2).
  assert (LZ : zlen (zrange 0 (zlen m)) = zlen m) by (unfold zlen at 2; rewrite zrange_tab, zlen_tab; reflexivity).
  apply (IH fuel' _ P' kv'); try reflexivity; try lia; unfold zlen in *; lia.
Qed.
Lemma copy_working (c t : curve_obj K) p P : c_degree c = Some p -> c_ctrl c = Some P -> copy_curve working_class c = Ok t ->
  1 <= p /\ exists kv, c_kv c = Some kv /\
    ((t = mkCurve (Some p) (Some P) (Some kv) 0 /\ zlen kv = zlen P + p + 1) \/ t = mkCurve (Some p) (Some P) None 0).
Proof.
  unfold copy_curve; intros -> ->; unfold set_degree; destruct (Z.ltb_spec p 1) as [|Hp]; [discriminate|]; cbn [bind].
  change (cl_set_ctrl working_class) with (@store_ctrl K); unfold store_ctrl; cbn [bind].
  destruct (c_kv c) as [kv|]; [|discriminate]; intros H; split; [exact Hp|]; exists kv; split; [reflexivity|].
  unfold set_knot_vector in H; cbn [c_degree c_ctrl c_kv c_dim working_class cl_blank curve_init] in H.
  bind_inv H; destruct a; injection H as <-; [left|right; reflexivity]; split; [reflexivity|].
  apply check_true_length in E; lia.
Qed.
Lemma insertion_rounds sv (c : curve_obj K) data num p P fuel : c_degree c = Some p -> c_ctrl c = Some P -> p + 1 <= zlen P ->
  (Z.to_nat num < fuel)%nat ->
  fit_curve_knot_insertion_fuel fuel working_class sv c data num = fit_curve_knot_insertion working_class sv c data num.
Proof.
  intros Hd HP HL HF; unfold fit_curve_knot_insertion, fit_curve_knot_insertion_fuel.
  destruct (copy_curve working_class c) as [t| |] eqn:E; cbn [bind]; try reflexivity.
  destruct (copy_working _ _ _ _ Hd HP E) as (Hp & kv & _ & [(-> & Lk)| ->]).
  - apply (insertion_loop_rounds _ _ _ p _ _ _ P kv); try reflexivity; lia.
  - destruct fuel as [|fuel]; [lia|]; cbn [insertion_loop].
    destruct (parameterize_curve _ data) as [rows| |]; cbn [bind]; try reflexivity.
    unfold single_fit_curve; destruct (acol rows (-1)); cbn [bind curve_fields c_ctrl c_kv]; reflexivity.
Qed.

(** ** The fit with fixed control points *)
Lemma fixed_ctrlpts_keeps sv (c c' : curve_obj K) data p P : c_degree c = Some p -> c_ctrl c = Some P ->
  Forall (fun r => length r = 3%nat) P ->
  fit_curve_fixed_ctrlpts working_class sv c data = Ok c' ->
  exists Q kv, c_kv c = Some kv /\ c' = mkCurve (Some p) (Some Q) (Some kv) 0 /\ length Q = length P /\
    Forall (fun r => length r = 3%nat) Q /\ nth 0 Q [] = nth 0 P [] /\ last Q [] = last P [].
Proof.
  intros Hd HP H3; unfold fit_curve_fixed_ctrlpts; rewrite Hd, HP; intros H.
  bind_inv H; bind_inv H; bind_inv H; destruct (c_ctrl a1); [|discriminate]; bind_inv H; bind_inv H; bind_inv H.
  match goal with E : copy_curve _ _ = Ok ?t |- _ => destruct (copy_working _ _ _ _ Hd HP E) as (Hp & kv & Hk & [(-> & Lk)| ->]) end.
  - change (cl_set_ctrl working_class) with (@store_ctrl K) in H; bind_inv H.
    destruct (single_fit_curve_any sv (mkCurve (Some p) (Some P) (Some kv) 0) _ _ P eq_refl H3 E5) as (Q & -> & L1 & F1 & N1 & M1).
    bind_inv H; destruct (single_fit_curve_any sv (mkCurve (Some p) (Some Q) (Some kv) 0) _ _ Q eq_refl F1 H) as (Q2 & -> & L2 & F2 & N2 & M2).
    exists Q2, kv; split; [exact Hk|]; split; [reflexivity|]; repeat split; congruence || assumption.
  - unfold single_fit_curve in H; destruct (acol _ (-1)) in H; cbn [bind curve_fields c_ctrl c_kv] in H; discriminate.
Qed.
(** With the repository's own class neither function ever returns. *)
Lemma copy_repo (c t : curve_obj K) : copy_curve repo_class c <> Ok t.
Proof.
  unfold copy_curve; destruct (c_degree c) as [p|]; [|discriminate]; unfold set_degree; destruct (p <? 1)%Z; [discriminate|]; cbn [bind].
  destruct (c_ctrl c) as [P|]; [|discriminate]; change (cl_set_ctrl repo_class) with (@set_control_points K).
  unfold set_control_points; cbn [c_degree]; destruct (negb _); cbn [bind]; [discriminate|].
  destruct (c_kv c); discriminate.
Qed.
Lemma insertion_repo sv (c t : curve_obj K) data num : fit_curve_knot_insertion repo_class sv c data num <> Ok t.
Proof.
  unfold fit_curve_knot_insertion, fit_curve_knot_insertion_fuel; intros H; bind_inv H; exact (copy_repo _ _ E).
Qed.
Lemma fixed_ctrlpts_repo sv (c c' : curve_obj K) data : fit_curve_fixed_ctrlpts repo_class sv c data <> Ok c'.
Proof.
  unfold fit_curve_fixed_ctrlpts; destruct (c_ctrl c) as [P|] eqn:EP; [|discriminate].
  destruct (aget P 0); cbn [bind]; try discriminate; destruct (aget P (-1)); cbn [bind]; try discriminate.
  destruct (c_degree c) as [p|]; [|discriminate]; intros H; bind_inv H.
  exact (initialize_repo _ _ _ _ _ _ E).
Qed.
End Any.
