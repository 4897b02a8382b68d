(** Lemmas about fits with open arithmetic (model: ModelDotFit.v), over any numbers. *)
From Coq Require Import Permutation Sorted Floats.
From Verif Require Import Py PyLemmas Num ModelKnots ModelBasis ModelCurve ModelSurface ModelInit ModelParam ModelFit ModelDot ModelDotParam ModelDotFit ModelIO Spec SpecFit SpecB64 SpecSpecial SpecOrder
  ProofNum ProofCurve2 ProofInit ProofParam4 ProofFit ProofFit2 ProofFit3 ProofFit4 ProofFit5 ProofFit6 ProofFit7 ProofDotParam ProofDotParam4 ProofOrder ProofOrder2 ProofOrder3 ProofB64Edges.
Open Scope Z_scope.

(** ** Left to right *)
Section Left.
Context {K : Num}.
Notation L := (fun _ : list Z => @vdot K).
Notation S' := (fun _ : list Z => @nsum K).
Lemma map_snd_combine {A B} (f : A -> B) : forall (l : list A) (zs : list Z), (length l <= length zs)%nat -> map (fun ir => f (snd ir)) (combine zs l) = map f l.
Proof. induction l as [|a l IH]; intros [|z zs] H; cbn [length combine map] in *; try lia; [reflexivity..|]; rewrite IH by lia; reflexivity. Qed.
Lemma range_length n : length (zrange 0 n) = Z.to_nat n.
Proof. unfold zrange; rewrite map_length, seq_length, Z.sub_0_r; reflexivity. Qed.
Lemma gram_left call n (m : list (list K)) : gram_dot L call n m = gram n m.
Proof.
  unfold gram_dot, gram; destruct (mapM (acol m) (zrange 0 n)) as [cols|e|] eqn:E; cbn [bind]; [|reflexivity..]; f_equal.
  assert (HL : (length cols <= length (zrange 0 n))%nat) by (apply mapM_spec in E; apply Nat.eq_le_incl; clear - E; induction E; cbn [length]; congruence).
  rewrite <- (map_snd_combine (fun a => map (vdot a) cols) cols _ HL); apply map_ext; intros [i a]; cbn [fst snd]; exact (map_snd_combine (vdot a) cols _ HL).
Qed.
Lemma check_left call sv n (m : list (list K)) rows : check_unity_dot S' L call sv n m rows = check_unity sv n m rows.
Proof.
  unfold check_unity_dot, check_unity; rewrite gram_left, (map_snd_combine (@nsum K)); [reflexivity|].
  rewrite range_length; unfold zlen; lia.
Qed.
Lemma single_left call set sv (c : curve_obj K) rows : single_fit_curve_dot S' L call set sv c rows = single_fit_curve set sv c rows.
Proof.
  unfold single_fit_curve_dot, single_fit_curve; destruct (acol rows (-1)); cbn [bind]; [|reflexivity..]; destruct (curve_fields c) as [[[p P] kv]|e|]; cbn [bind]; [|reflexivity..].
  destruct (curve_matrix _ _ _ _ _); cbn [bind]; [|reflexivity..]; rewrite check_left; reflexivity.
Qed.
Lemma single_surface_left call sv (s : surf K) rows : single_fit_surface_dot S' L call sv s rows = single_fit_surface sv s rows.
Proof.
  unfold single_fit_surface_dot, single_fit_surface; destruct (acol rows 3); cbn [bind]; [|reflexivity..]; destruct (acol rows 4); cbn [bind]; [|reflexivity..].
  destruct (surf_matrix _ _ _ _); cbn [bind]; [|reflexivity..]; rewrite check_left; reflexivity.
Qed.
Lemma project_left cl call (c : curve_obj K) d : project L (fun _ => cl_beh cl) call c d = parameterize_curve (cl_beh cl c) d.
Proof. unfold project; apply parameterize_curve_left. Qed.
Lemma loop_left cl sv data num : forall fuel call (c : curve_obj K), insertion_loop_dot L S' L (fun _ => cl_beh cl) fuel call cl sv data num c = insertion_loop fuel cl sv data num c.
Proof.
  induction fuel as [|k IH]; intros call c; cbn [insertion_loop_dot insertion_loop]; [reflexivity|].
  rewrite project_left; destruct (parameterize_curve _ _); cbn [bind]; [|reflexivity..]; rewrite single_left; destruct (single_fit_curve _ _ _ _) as [t|e|]; cbn [bind]; [|reflexivity..].
  destruct (c_ctrl t); [|reflexivity]; destruct (num <=? _); [reflexivity|]; destruct (curve_fields t) as [[[p P] kv]|e|]; cbn [bind]; [|reflexivity..].
  destruct (span_midpoints _ _); cbn [bind]; [|reflexivity..]; destruct (for_range _ _ _ _); cbn [bind]; [apply IH|reflexivity..].
Qed.
Lemma fits_left cl sv (c : curve_obj K) (s : surf K) data num top bot :
  fit_curve_knot_insertion_dot L S' L (fun _ => cl_beh cl) cl sv c data num = fit_curve_knot_insertion cl sv c data num /\
  fit_curve_fixed_ctrlpts_dot L S' L (fun _ => cl_beh cl) cl sv c data = fit_curve_fixed_ctrlpts cl sv c data /\
  fit_surface_dot L solve_lu S' L beh_of_surf sv s data top bot = fit_surface sv s data top bot.
Proof.
  assert (A : forall c num, fit_curve_knot_insertion_dot L S' L (fun _ => cl_beh cl) cl sv c data num = fit_curve_knot_insertion cl sv c data num).
  { intros c0 n; unfold fit_curve_knot_insertion_dot, fit_curve_knot_insertion, fit_curve_knot_insertion_fuel_dot, fit_curve_knot_insertion_fuel.
    destruct (copy_curve cl c0); cbn [bind]; [apply loop_left|reflexivity..]. }
  split; [apply A|]; split.
  - unfold fit_curve_fixed_ctrlpts_dot, fit_curve_fixed_ctrlpts; destruct (c_ctrl c) as [P|]; [|reflexivity]; destruct (aget P 0); cbn [bind]; [|reflexivity..]; destruct (aget P (-1)); cbn [bind]; [|reflexivity..].
    destruct (c_degree c) as [p|]; [|reflexivity]; destruct (initialize_curve_with _ _ _ _ _ _) as [i|e|]; cbn [bind]; [|reflexivity..]; destruct (c_ctrl i) as [P0|]; [|reflexivity]; rewrite A.
    destruct (fit_curve_knot_insertion _ _ _ _ _); cbn [bind]; [|reflexivity..]; rewrite project_left; destruct (parameterize_curve _ _); cbn [bind]; [|reflexivity..].
    destruct (copy_curve _ _); cbn [bind]; [|reflexivity..]; rewrite single_left; destruct (single_fit_curve _ _ _ _); cbn [bind]; [|reflexivity..]; rewrite project_left; destruct (parameterize_curve _ _); cbn [bind]; [|reflexivity..]; apply single_left.
  - unfold fit_surface_dot, fit_surface; rewrite parameterize_surface_left; destruct (parameterize_surface _ _); cbn [bind]; [|reflexivity..].
    destruct top; [|reflexivity]; destruct bot; [|reflexivity]; destruct (vstack _ _); cbn [bind]; [|reflexivity..]; destruct (sort_view _ _ _ _); cbn [bind]; [apply single_surface_left|reflexivity..].
Qed.
End Left.

(** ** What every arithmetic keeps *)
Section Kept.
Context {K : Num}.
Variables (dot : list Z -> list K -> list K -> K) (solve : K -> K -> K -> K -> K -> K -> res (K * K)) (sum : list Z -> list K -> K) (prod : list Z -> list K -> list K -> K) (beh : Z -> curve_obj K -> curve_beh K).
Lemma single_dot_any call sv (c c' : curve_obj K) rows P : c_ctrl c = Some P -> Forall (fun r => length r = 3%nat) P ->
  single_fit_curve_dot sum prod call store_ctrl sv c rows = Ok c' ->
  exists Q, c' = mkCurve (c_degree c) (Some Q) (c_kv c) (c_dim c) /\
    length Q = length P /\ Forall (fun r => length r = 3%nat) Q /\ nth 0 Q [] = nth 0 P [] /\ last Q [] = last P [].
Proof.
  intros HP H3; unfold single_fit_curve_dot; intros H; apply bind_Ok in H; destruct H as (us & _ & H).
  apply bind_Ok in H; destruct H as ([[p P'] kv] & HF & H).
  unfold curve_fields in HF; rewrite HP in HF; destruct (c_kv c) eqn:EK; [|discriminate]; destruct (c_degree c) eqn:ED; [|discriminate].
  injection HF as <- <- <-.
  apply bind_Ok in H; destruct H as (N & _ & H); apply bind_Ok in H; destruct H as (_u & _ & H).
  apply bind_Ok in H; destruct H as (mask & HM & H); apply bind_Ok in H; destruct H as (Q & HQ & H).
  injection H as <-; exists Q; unfold store_ctrl; rewrite ?EK, ?ED.
  assert (Hn : (1 <= length P)%nat) by (apply curve_mask_inv in HM; unfold zlen in *; lia).
  unfold zlen in HM; rewrite (curve_mask_tab _ Hn) in HM; injection HM as <-.
  destruct (fit_coordinates_any _ _ _ _ _ _ (tab_length _ _) H3 HQ) as (LQ & F3 & KQ).
  split; [reflexivity|]; split; [exact LQ|]; split; [exact F3|].
  assert (LN : forall (A : list (list K)), length A = length P -> last A [] = nth (length P - 1) A []).
  { intros A HA; destruct (exists_last (l := A) ltac:(intros ->; cbn in HA; lia)) as (A' & x & ->).
    rewrite last_last, app_length in *; cbn in HA; rewrite app_nth2, <- HA by lia.
    replace (length A' + 1 - 1 - length A')%nat with 0%nat by lia; reflexivity. }
  split; [|rewrite !LN by auto]; apply KQ; rewrite nth_tab by lia; apply Bool.orb_true_iff; rewrite !Z.eqb_eq; lia.
Qed.
Lemma fixed_dot_keeps sv (c c' : curve_obj K) data p P : c_degree c = Some p -> c_ctrl c = Some P ->
  Forall (fun r => length r = 3%nat) P ->
  fit_curve_fixed_ctrlpts_dot dot sum prod beh working_class sv c data = Ok c' ->
  exists Q kv, c_kv c = Some kv /\ c' = mkCurve (Some p) (Some Q) (Some kv) 0 /\ length Q = length P /\
    Forall (fun r => length r = 3%nat) Q /\ nth 0 Q [] = nth 0 P [] /\ last Q [] = last P [].
Proof.
  intros Hd HP H3; unfold fit_curve_fixed_ctrlpts_dot; rewrite Hd, HP; intros H.
  bind_inv H; bind_inv H; bind_inv H; destruct (c_ctrl a1); [|discriminate]; bind_inv H; bind_inv H; bind_inv H.
  match goal with E : copy_curve _ _ = Ok ?t |- _ => destruct (copy_working _ _ _ _ Hd HP E) as (Hp & kv & Hk & [(-> & Lk)| ->]) end.
  - change (cl_set_ctrl working_class) with (@store_ctrl K) in H; bind_inv H.
    destruct (single_dot_any _ sv (mkCurve (Some p) (Some P) (Some kv) 0) _ _ P eq_refl H3 E5) as (Q & -> & L1 & F1 & N1 & M1).
    bind_inv H; destruct (single_dot_any _ sv (mkCurve (Some p) (Some Q) (Some kv) 0) _ _ Q eq_refl F1 H) as (Q2 & -> & L2 & F2 & N2 & M2).
    exists Q2, kv; split; [exact Hk|]; split; [reflexivity|]; repeat split; congruence || assumption.
  - unfold single_fit_curve_dot in H; destruct (acol _ (-1)) in H; cbn [bind curve_fields c_ctrl c_kv] in H; discriminate.
Qed.
Lemma fit_surface_dot_any sbeh sv (s s' : surf K) data top bottom nu nv : s_nu s = Z.of_nat nu -> s_nv s = Z.of_nat nv -> (1 <= nu)%nat -> (1 <= nv)%nat ->
  length (s_ctrl s) = (nu * nv)%nat -> Forall (fun r => length r = 3%nat) (s_ctrl s) -> fit_surface_dot dot solve sum prod sbeh sv s data top bottom = Ok s' ->
  exists Q, s' = mkSurf (s_pu s) (s_pv s) (s_nu s) (s_nv s) Q (s_ku s) (s_kv s) /\ length Q = (nu * nv)%nat /\ Forall (fun r => length r = 3%nat) Q /\
    forall i j, (i < nu)%nat -> (j < nv)%nat -> i = 0%nat \/ i = (nu - 1)%nat \/ j = 0%nat \/ j = (nv - 1)%nat -> nth (i * nv + j) Q [] = nth (i * nv + j) (s_ctrl s) [].
Proof.
  intros Eu Ev Hu Hv HL H3 H; unfold fit_surface_dot in H; apply bind_Ok in H; destruct H as (out & _ & H).
  destruct top; [|discriminate]; destruct bottom; [|discriminate]; apply bind_Ok in H; destruct H as (_x & _ & H); apply bind_Ok in H; destruct H as (rows & _ & H).
  unfold single_fit_surface_dot in H.
  apply bind_Ok in H; destruct H as (us & _ & H); apply bind_Ok in H; destruct H as (vs & _ & H).
  apply bind_Ok in H; destruct H as (N & _ & H); apply bind_Ok in H; destruct H as (_u & _ & H).
  apply bind_Ok in H; destruct H as (mask & HM & H); apply bind_Ok in H; destruct H as (Q & HQ & H); injection H as <-.
  destruct (surf_mask_tab nu nv Hu Hv) as (m & Em & Lm & Hm).
  unfold zlen in HM; rewrite HL, Eu, Ev, Em in HM; injection HM as <-.
  destruct (fit_coordinates_any sv N rows (s_ctrl s) Q m ltac:(congruence) H3 HQ) as (LQ & F & E).
  exists Q; split; [reflexivity|]; split; [congruence|]; split; [exact F|].
  intros i j Hi Hj O; apply E, Hm; assumption.
Qed.
(** ** Rounds *)
Lemma single_dot_count call sv (c c' : curve_obj K) rows P : c_ctrl c = Some P ->
  single_fit_curve_dot sum prod call store_ctrl sv c rows = Ok c' ->
  exists Q, c' = mkCurve (c_degree c) (Some Q) (c_kv c) (c_dim c) /\ length Q = length P.
Proof.
  intros HP; unfold single_fit_curve_dot; intros H; apply bind_Ok in H; destruct H as (us & _ & H).
  apply bind_Ok in H; destruct H as ([[p P'] kv] & HF & H).
  unfold curve_fields in HF; rewrite HP in HF; destruct (c_kv c) eqn:EK; [|discriminate]; destruct (c_degree c) eqn:ED; [|discriminate].
  injection HF as <- <- <-.
  apply bind_Ok in H; destruct H as (N & _ & H); apply bind_Ok in H; destruct H as (_u & _ & H).
  apply bind_Ok in H; destruct H as (mask & HM & H); apply bind_Ok in H; destruct H as (Q & HQ & H).
  injection H as <-; exists Q; unfold store_ctrl; rewrite ?EK, ?ED; split; [reflexivity|].
  assert (Hn : (1 <= length P)%nat) by (apply curve_mask_inv in HM; unfold zlen in *; lia).
  unfold zlen in HM; rewrite (curve_mask_tab _ Hn) in HM; injection HM as <-.
  unfold fit_coordinates in HQ.
  apply bind_Ok in HQ; destruct HQ as (q0 & _ & HQ); apply bind_Ok in HQ; destruct HQ as (p0 & E0 & HQ); apply bind_Ok in HQ; destruct HQ as (x & Ex & HQ).
  apply bind_Ok in HQ; destruct HQ as (q1 & _ & HQ); apply bind_Ok in HQ; destruct HQ as (p1 & E1 & HQ); apply bind_Ok in HQ; destruct HQ as (y & Ey & HQ).
  apply bind_Ok in HQ; destruct HQ as (q2 & _ & HQ); apply bind_Ok in HQ; destruct HQ as (p2 & E2 & HQ); apply bind_Ok in HQ; destruct HQ as (w & Ez & HQ).
  injection HQ as <-.
  apply acol_length in E0, E1, E2.
  apply linear_fit_keeps in Ex, Ey, Ez; try (rewrite tab_length; congruence).
  unfold column_stack3; rewrite map_length, !combine_length; lia.
Qed.
Lemma loop_dot_rounds sv data num p : forall fuel fuel' call (c : curve_obj K) P kv,
  c_degree c = Some p -> c_ctrl c = Some P -> c_kv c = Some kv -> 2 * p + 2 <= zlen kv ->
  (Z.to_nat (num - zlen P) < fuel)%nat -> (fuel <= fuel')%nat ->
  insertion_loop_dot dot sum prod beh fuel' call working_class sv data num c = insertion_loop_dot dot sum prod beh fuel call working_class sv data num c.
Proof.
  induction fuel as [|fuel IH]; intros fuel' call c P kv Hd HP Hk HL HF HF'; [lia|].
  destruct fuel' as [|fuel']; [lia|]; cbn [insertion_loop_dot].
  destruct (project _ _ _ _ data) as [rows| |]; cbn [bind]; try reflexivity.
  change (cl_set_ctrl working_class) with (@store_ctrl K).
  destruct (single_fit_curve_dot _ _ _ store_ctrl sv c rows) as [t| |] eqn:E; cbn [bind]; try reflexivity.
  destruct (single_dot_count _ _ _ _ _ _ HP E) as (Q & -> & LQ); cbn [c_ctrl].
  destruct (Z.leb_spec num (zlen Q)); [reflexivity|].
  unfold curve_fields; cbn [c_ctrl c_kv c_degree]; rewrite Hd, Hk; cbn [bind].
  destruct (span_midpoints p kv) as [m| |] eqn:EM; cbn [bind]; try reflexivity.
  apply span_midpoints_count in EM.
  change (cl_insert working_class) with (@insert_knot_working K).
  destruct (for_range 0 (zlen m) _ _) as [t| |] eqn:EF; cbn [bind]; try reflexivity.
  unfold for_range in EF; apply (inserts_count _ _ _ _ p Q kv) in EF; try reflexivity.
  destruct EF as (P' & kv' & -> & L1 & L2).
  assert (LZ : zlen (zrange 0 (zlen m)) = zlen m) by (unfold zlen at 2; rewrite zrange_tab, zlen_tab; reflexivity).
  apply (IH fuel' _ _ P' kv'); try reflexivity; try lia; unfold zlen in *; lia.
Qed.
Lemma insertion_dot_rounds sv (c : curve_obj K) data num p P fuel : c_degree c = Some p -> c_ctrl c = Some P -> p + 1 <= zlen P ->
  (Z.to_nat num < fuel)%nat ->
  fit_curve_knot_insertion_fuel_dot dot sum prod beh fuel working_class sv c data num = fit_curve_knot_insertion_dot dot sum prod beh working_class sv c data num.
Proof.
  intros Hd HP HL HF; unfold fit_curve_knot_insertion_dot, fit_curve_knot_insertion_fuel_dot.
  destruct (copy_curve working_class c) as [t| |] eqn:E; cbn [bind]; try reflexivity.
  destruct (copy_working _ _ _ _ Hd HP E) as (Hp & kv & _ & [(-> & Lk)| ->]).
  - apply (loop_dot_rounds _ _ _ p _ _ _ _ P kv); try reflexivity; lia.
  - destruct fuel as [|fuel]; [lia|]; cbn [insertion_loop_dot].
    destruct (project _ _ _ _ data) as [rows| |]; cbn [bind]; try reflexivity.
    unfold single_fit_curve_dot; destruct (acol rows (-1)); cbn [bind curve_fields c_ctrl c_kv]; reflexivity.
Qed.

(** ** The order of the data *)
Lemma loop_dot_reordered (TK : tidy K) d d' (HD : reordered d d') cl (sv : solver K) num : forall fuel call c r, insertion_loop_dot dot sum prod beh fuel call cl sv d num c = Ok r -> insertion_loop_dot dot sum prod beh fuel call cl sv d' num c = Ok r.
Proof.
  induction fuel as [|k IH]; intros call c r; cbn [insertion_loop_dot]; [discriminate|]; unfold project.
  destruct (parameterize_curve_dot _ (beh call c) d) as [x|e|] eqn:E; cbn [bind]; try discriminate; rewrite (parameterize_reordered_dot TK _ _ _ _ _ HD E); cbn [bind].
  destruct (single_fit_curve_dot _ _ _ _ sv c x) as [t|e|]; cbn [bind]; try discriminate; destruct (c_ctrl t) as [P|]; [|discriminate].
  destruct (num <=? zlen P); [auto|]; destruct (curve_fields t) as [[[p P'] kv]|e|]; cbn [bind]; try discriminate.
  destruct (span_midpoints p kv) as [ks|e|]; cbn [bind]; try discriminate; destruct (for_range _ _ _ t) as [t'|e|]; cbn [bind]; try discriminate; apply IH.
Qed.
Lemma insertion_dot_reordered (TK : tidy K) d d' (HD : reordered d d') cl (sv : solver K) c num r : fit_curve_knot_insertion_dot dot sum prod beh cl sv c d num = Ok r -> fit_curve_knot_insertion_dot dot sum prod beh cl sv c d' num = Ok r.
Proof. unfold fit_curve_knot_insertion_dot, fit_curve_knot_insertion_fuel_dot; destruct (copy_curve cl c) as [t|e|]; cbn [bind]; try discriminate; apply loop_dot_reordered; assumption. Qed.
Lemma fixed_dot_reordered (TK : tidy K) d d' (HD : reordered d d') cl (sv : solver K) c r : fit_curve_fixed_ctrlpts_dot dot sum prod beh cl sv c d = Ok r -> fit_curve_fixed_ctrlpts_dot dot sum prod beh cl sv c d' = Ok r.
Proof.
  unfold fit_curve_fixed_ctrlpts_dot, project; destruct (c_ctrl c) as [P|]; [|discriminate]; destruct (aget P 0) as [a|e|]; cbn [bind]; try discriminate; destruct (aget P (-1)) as [b|e|]; cbn [bind]; try discriminate.
  destruct (c_degree c) as [p|]; [|discriminate]; destruct (initialize_curve_with _ _ _ _ _ _) as [i|e|]; cbn [bind]; try discriminate; destruct (c_ctrl i) as [P0|]; [|discriminate].
  destruct (fit_curve_knot_insertion_dot _ _ _ _ cl sv i d (zlen P0)) as [f|e|] eqn:E1; cbn [bind]; try discriminate; rewrite (insertion_dot_reordered TK _ _ HD _ _ _ _ _ E1); cbn [bind].
  destruct (parameterize_curve_dot _ (beh (-1) f) d) as [x|e|] eqn:E2; cbn [bind]; try discriminate; rewrite (parameterize_reordered_dot TK _ _ _ _ _ HD E2); cbn [bind].
  destruct (copy_curve cl c) as [g|e|]; cbn [bind]; try discriminate; destruct (single_fit_curve_dot _ _ _ _ sv g x) as [h|e|]; cbn [bind]; try discriminate.
  destruct (parameterize_curve_dot _ (beh (-2) h) d) as [y|e|] eqn:E3; cbn [bind]; try discriminate; rewrite (parameterize_reordered_dot TK _ _ _ _ _ HD E3); auto.
Qed.
Lemma surface_dot_reordered (TK : tidy K) d d' (HD : reordered d d') sbeh (sv : solver K) s top bot r : fit_surface_dot dot solve sum prod sbeh sv s d top bot = Ok r -> fit_surface_dot dot solve sum prod sbeh sv s d' top bot = Ok r.
Proof.
  unfold fit_surface_dot; destruct (parameterize_surface_dot _ _ (sbeh s) d) as [x|e|] eqn:E; cbn [bind]; try discriminate; rewrite (parameterize2_reordered_dot TK _ _ _ _ _ _ HD E); cbn [bind].
  destruct HD as (C & C' & _); rewrite C, C'; auto.
Qed.
End Kept.
Lemma fits_dot_order {K : Num} (HK : K = Exact \/ K = Binary64) (d d' : data_array K) : reordered d d' -> forall dot solve sum prod beh sbeh (cl : curve_class K) (sv : solver K),
  (forall c num r, fit_curve_knot_insertion_dot dot sum prod beh cl sv c d num = Ok r <-> fit_curve_knot_insertion_dot dot sum prod beh cl sv c d' num = Ok r) /\
  (forall c r, fit_curve_fixed_ctrlpts_dot dot sum prod beh cl sv c d = Ok r <-> fit_curve_fixed_ctrlpts_dot dot sum prod beh cl sv c d' = Ok r) /\
  (forall s top bot r, fit_surface_dot dot solve sum prod sbeh sv s d top bot = Ok r <-> fit_surface_dot dot solve sum prod sbeh sv s d' top bot = Ok r).
Proof.
  intros HD dot solve sum prod beh sbeh cl sv; pose proof (tidy_both K HK) as TK; pose proof (reordered_sym _ _ HD) as HD'.
  split; [|split]; intros; split; first [apply insertion_dot_reordered|apply fixed_dot_reordered|apply surface_dot_reordered]; assumption.
Qed.
