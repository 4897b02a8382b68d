(** Whole fits of moved data (model: ModelFit.v), in exact arithmetic. *)
From Coq Require Import Permutation Sorted.
From Verif Require Import Py PyLemmas Num ModelKnots ModelBasis ModelCurve ModelSurface ModelInit ModelParam ModelFit Spec SpecFit SpecParam SpecSmooth SpecWhole MathCox MathKnots
  ProofNum ProofSpan ProofSpan2 ProofKnots ProofCurve ProofCurve2 ProofSurface ProofSurface2 ProofInit ProofParam ProofParam2 ProofParam3 ProofParam4 ProofParam5 ProofParam6 ProofFit ProofFit2
  ProofFit3 ProofFit4 ProofFit5 ProofFit6 ProofFit7 ProofFit8 ProofFit9 ProofSmooth2 ProofSmooth3 ProofSmooth5 ProofSmooth6 ProofSmooth7 ProofSmooth8 ProofShape3 ProofData7.
Open Scope R_scope.

Lemma len_moved M b P : len (map (affine M b) P) = len P.
Proof. unfold len; rewrite map_length; reflexivity. Qed.
Lemma curve_xyz_affine p U P M b u : clamped (Z.of_nat p) (len P) U -> kn U (Z.of_nat p) <= u <= kn U (len P) ->
  curve_xyz U p (map (affine M b) P) u = affine M b (curve_xyz U p P u).
Proof.
  intros HC Hu.
  assert (E : forall c, (c < 3)%nat -> curve_sum U p (coords c (map (affine M b) P)) u =
    M c 0%nat * curve_sum U p (coords 0 P) u + M c 1%nat * curve_sum U p (coords 1 P) u + M c 2%nat * curve_sum U p (coords 2 P) u + b c).
  { intros c Hc; unfold curve_sum; rewrite !coords_length, map_length.
    replace (b c) with (b c * zsum 0 (length P) (fun i => bspline U p i u)) by (rewrite (bspline_unity p (length P) U u HC Hu); ring).
    rewrite <- !zsum_scal, <- !zsum_plus; apply zsum_ext; intros i Hi; rewrite moved_coord by lia; ring. }
  unfold curve_xyz, affine; cbn [map nth]; rewrite !E by lia; reflexivity.
Qed.
Lemma plenty_all p U n (A : R -> Prop) k : strict p n U -> (forall s u, (p <= s < n)%Z -> kn U s <= u <= kn U (s + 1) -> A u) -> plenty k p n U A.
Proof.
  intros HS HA s Hs; pose proof (HS s Hs) as H.
  set (h := (kn U (s + 1) - kn U s) / INR (S k)); assert (P0 : 0 < INR (S k)) by (apply lt_0_INR; lia).
  assert (Hh : 0 < h) by (apply Rdiv_lt_0_compat; lra).
  assert (EH : INR (S k) * h = kn U (s + 1) - kn U s) by (unfold h; field; lra).
  exists (map (fun i => kn U s + INR i * h) (seq 0 k)); split; [rewrite map_length, seq_length; reflexivity|]; split.
  - generalize 0%nat as a; generalize k at 1 as m; induction m as [|m IH]; intros a; cbn [seq map]; constructor; [apply IH|].
    apply Forall_forall; intros y Hy; apply in_map_iff in Hy; destruct Hy as (i & <- & Hi); apply in_seq in Hi.
    apply Rplus_lt_compat_l, Rmult_lt_compat_r; [exact Hh|apply lt_INR; lia].
  - apply Forall_forall; intros y Hy; apply in_map_iff in Hy; destruct Hy as (i & <- & Hi); apply in_seq in Hi.
    assert (B : kn U s <= kn U s + INR i * h <= kn U (s + 1)).
    { pose proof (Rmult_le_pos (INR i) h (pos_INR i) ltac:(lra)).
      pose proof (Rmult_le_compat_r h (INR i) (INR (S k)) ltac:(lra) ltac:(apply le_INR; lia)); lra. }
    split; [exact B|apply (HA s); assumption].
Qed.
Lemma lerp_affine M b x y t : affine M b (lerp x y t) = lerp (affine M b x) (affine M b y) t.
Proof. unfold affine, lerp; cbn [map nth]; repeat (apply f_equal2; [ring|]); reflexivity. Qed.
Lemma segment_affine M b x y n : segment (affine M b x) (affine M b y) n = map (affine M b) (segment x y n).
Proof. unfold segment; rewrite map_tab; apply tab_ext; intros i _; symmetry; apply lerp_affine. Qed.
Lemma first_affine M b (P : list (list R)) : (0 < length P)%nat -> nth 0 (map (affine M b) P) [] = affine M b (nth 0 P []).
Proof. intros H; rewrite (nth_indep _ [] (affine M b [])) by (rewrite map_length; exact H); apply map_nth. Qed.
Lemma last_affine M b (P : list (list R)) : (0 < length P)%nat -> last (map (affine M b) P) [] = affine M b (last P []).
Proof. intros H; rewrite !last_nth, map_length, (nth_indep _ [] (affine M b [])) by (rewrite map_length; lia); apply map_nth. Qed.

Section Curve.
Variables (sv sv' : solver Exact) (p : nat) (data : list (list R)) (M : nat -> nat -> R) (b : nat -> R).
Hypothesis (HS : least_squares sv) (HS' : least_squares sv') (Hp : (2 <= p)%nat) (HD : Forall (fun r => length r = 3%nat) data) (HM : orthogonal M).
Let data' := map (affine M b) data.

(** One projection of the data on the moved curve. *)
Lemma project_pair U P : clamped (Z.of_nat p) (len P) U -> strict (Z.of_nat p) (len P) U -> kn U (Z.of_nat p) = 0 -> kn U (len P) = 1 -> Forall (fun r => length r = 3%nat) P ->
  let run P data := parameterize_curve (beh_of_curve3 (curve_of (Z.of_nat p) U P 0)) (mkData 3 (fin2 data)) in
  (run P data = Err ValueError /\ run (map (affine M b) P) data' = Err ValueError) \/
  exists x x', run P data = Ok (fin2 x) /\ run (map (affine M b) P) data' = Ok (fin2 x') /\ Permutation x' (map (moved M b) x) /\
    Forall (fun r => length r = 4%nat /\ 0 <= nth 3 r 0 <= 1) x.
Proof.
  intros HC HT H0 H1 H3; cbv zeta.
  destruct (parameterize_curve_moved p U P 0 data M b HC HT H0 H1 Hp H3 HD HM) as [HE HO].
  destruct (param_outcome p U P 0 data HC HT H0 H1 Hp H3 HD) as [(x & E & _ & HF)|E]; [right|left; split; [exact E|exact (HE _ E)]].
  destruct (HO _ E) as (x0 & x' & E0 & E' & HP); apply fin2_inj in E0; subst x0.
  exists x, x'; auto.
Qed.
(** One fit to moved rows, in any order. *)
Lemma fit_pair U P x x' : clamped (Z.of_nat p) (len P) U -> strict (Z.of_nat p) (len P) U -> kn U (Z.of_nat p) = 0 -> kn U (len P) = 1 -> Forall (fun r => length r = 3%nat) P ->
  Forall (fun r => length r = 4%nat /\ 0 <= nth 3 r 0 <= 1) x -> Permutation x' (map (moved M b) x) -> enough p (len P) U x ->
  exists Q, single_fit_curve store_ctrl sv (curve_of (Z.of_nat p) U P 0) (fin2 x) = Ok (curve_of (Z.of_nat p) U Q 0) /\
    single_fit_curve store_ctrl sv' (curve_of (Z.of_nat p) U (map (affine M b) P) 0) (fin2 x') = Ok (curve_of (Z.of_nat p) U (map (affine M b) Q) 0) /\
    best_fit p U P x Q.
Proof.
  intros HC HT H0 H1 H3 HF HP HE.
  assert (HF' : Forall (fun r => length r = 4%nat /\ kn U (Z.of_nat p) <= nth 3 r 0 <= kn U (len P)) x) by (rewrite H0, H1; exact HF).
  destruct (single_fit_curve_exact sv (curve_of (Z.of_nat p) U P 0) p U P x HS (strict_tight _ _ _ HC HT ltac:(destruct HC as ((? & ? & _) & _); lia)) eq_refl eq_refl eq_refl H3 HF') as (Q & EQ & LQ & FQ & Q0 & Q1 & HQ).
  destruct (single_fit_curve_affine sv sv' (curve_of (Z.of_nat p) U P 0) (curve_of (Z.of_nat p) U (map (affine M b) P) 0) p U P x M b HS HS' HC HT ltac:(lia) eq_refl eq_refl eq_refl H3 eq_refl eq_refl eq_refl HF' HE)
    as (Q' & E1 & E2).
  rewrite EQ in E1; injection E1 as E1; apply fin2_inj in E1; subst Q'.
  destruct (single_fit_curve_order sv' sv' (curve_of (Z.of_nat p) U (map (affine M b) P) 0) (curve_of (Z.of_nat p) U (map (affine M b) P) 0) p U (map (affine M b) P) (map (moved M b) x) x') as (Q' & E3 & E4);
    try assumption; try reflexivity; rewrite ?len_moved; try assumption; try lia.
  - apply Forall_moved.
  - apply Forall_forall; intros r Hr; apply in_map_iff in Hr; destruct Hr as (r0 & <- & Hr); rewrite Forall_forall in HF'; destruct (HF' r0 Hr) as [L B].
    rewrite moved_length by lia; rewrite (moved_param M b r0 0 : nth 3 (moved M b r0) 0 = nth 3 r0 0); split; assumption.
  - intros s Hs; destruct (HE s Hs) as (us & Lu & Su & Fu); exists us; split; [exact Lu|]; split; [exact Su|]; revert Fu; apply Forall_impl; intros u (B & r & Hr & E).
    split; [exact B|]; exists (moved M b r); split; [apply in_map; exact Hr|]; rewrite (moved_param M b r 0 : nth 3 (moved M b r) 0 = nth 3 r 0); exact E.
  - rewrite E2 in E3; injection E3 as E3; apply fin2_inj in E3; rewrite <- E3 in E4.
    exists Q; split; [exact EQ|]; split; [exact E4|]; unfold best_fit; auto.
Qed.
(** Halving the spans of the moved curve. *)
Lemma halve_pair N Q : (1 <= N)%Z -> (N <= 49900)%Z -> len Q = (Z.of_nat p + N)%Z -> Forall (fun r => length r = 3%nat) Q ->
  let ins P := (let* knots := span_midpoints (Z.of_nat p) (fin (uniform (Z.of_nat p) (Z.of_nat p + N)) : list Exact) in
    for_range 0 (zlen knots) (fun i t => let* u := aget knots i in insert_knot_working t u) (curve_of (Z.of_nat p) (uniform (Z.of_nat p) (Z.of_nat p + N)) P 0)) in
  exists P, ins Q = Ok (curve_of (Z.of_nat p) (uniform (Z.of_nat p) (len P)) P 0) /\
    ins (map (affine M b) Q) = Ok (curve_of (Z.of_nat p) (uniform (Z.of_nat p) (len P)) (map (affine M b) P) 0) /\ len P = (Z.of_nat p + 2 * N)%Z /\ halved p Q P.
Proof.
  intros HN HB LQ FQ; cbv zeta; rewrite span_midpoints_uniform by lia; cbn [bind]; rewrite zlen_tab, Z2Nat.id by lia.
  destruct (insert_all (Z.of_nat p) N ltac:(lia) HN Q 0 HB LQ FQ) as (P & E & LP & FP & _ & _ & C).
  destruct (insert_all (Z.of_nat p) N ltac:(lia) HN (map (affine M b) Q) 0 HB ltac:(rewrite len_moved; exact LQ) (Forall_moved M b Q)) as (P' & E' & LP' & FP' & _ & _ & C').
  rewrite Nat2Z.id in C, C'.
  assert (X : forall u, curve_xyz (uniform (Z.of_nat p) (Z.of_nat p + 2 * N)) p P u = curve_xyz (uniform (Z.of_nat p) (Z.of_nat p + N)) p Q u)
    by (intros u; unfold curve_xyz; cbn [map]; rewrite !C by lia; reflexivity).
  assert (X' : forall u, curve_xyz (uniform (Z.of_nat p) (Z.of_nat p + 2 * N)) p P' u = curve_xyz (uniform (Z.of_nat p) (Z.of_nat p + N)) p (map (affine M b) Q) u)
    by (intros u; unfold curve_xyz; cbn [map]; rewrite !C' by lia; reflexivity).
  destruct (uniform_data p (Z.of_nat p + 2 * N) ltac:(lia) ltac:(lia)) as (UT & US & U0 & U1).
  destruct (uniform_data p (Z.of_nat p + N) ltac:(lia) ltac:(lia)) as (VT & VS & V0 & V1).
  assert (EP : map (affine M b) P = P').
  { apply (curve_unique p (uniform (Z.of_nat p) (Z.of_nat p + 2 * N))); rewrite ?len_moved, ?LP; try assumption; try lia.
    - apply UT.
    - rewrite map_length; unfold len in *; lia.
    - apply Forall_moved.
    - apply plenty_all; [exact US|]; intros s u Hs Hu.
      assert (B : 0 <= u <= 1).
      { destruct UT as ((KU & _) & _).
        split.
        - rewrite <- U0; apply Rle_trans with (kn (uniform (Z.of_nat p) (Z.of_nat p + 2 * N)) s); [|apply Hu]; apply kn_mono; [apply KU|lia].
        - rewrite <- U1; apply Rle_trans with (kn (uniform (Z.of_nat p) (Z.of_nat p + 2 * N)) (s + 1)); [apply Hu|]; apply kn_mono; [apply KU|lia]. }
      rewrite X', curve_xyz_affine, curve_xyz_affine, X by (rewrite ?LP, ?LQ; first [apply UT|apply VT|lra]); reflexivity. }
  exists P; rewrite LP; split; [exact E|]; split; [rewrite EP; exact E'|]; split; [reflexivity|].
  unfold halved; rewrite LP, LQ; split; [lia|]; split; [exact FP|exact X].
Qed.
Lemma loop_pair P0 num : (num <= Z.of_nat p + 65536)%Z ->
  (forall P x, visited p data num P0 P -> projected p (uniform (Z.of_nat p) (len P)) P data x -> enough p (len P) (uniform (Z.of_nat p) (len P)) x) ->
  forall fuel k P, visited p data num P0 P -> len P = (Z.of_nat p + 2 ^ Z.of_nat k)%Z -> Forall (fun r => length r = 3%nat) P ->
  let run sv P data := insertion_loop fuel working_class sv (mkData 3 (fin2 data)) num (curve_of (Z.of_nat p) (uniform (Z.of_nat p) (len P)) P 0) in
  (run sv P data = Diverge /\ run sv' (map (affine M b) P) data' = Diverge) \/
  (run sv P data = Err ValueError /\ run sv' (map (affine M b) P) data' = Err ValueError) \/
  exists Q, run sv P data = Ok (curve_of (Z.of_nat p) (uniform (Z.of_nat p) (len Q)) Q 0) /\
    run sv' (map (affine M b) P) data' = Ok (curve_of (Z.of_nat p) (uniform (Z.of_nat p) (len Q)) (map (affine M b) Q) 0) /\
    (Z.of_nat p + 1 <= len Q)%Z /\ Forall (fun r => length r = 3%nat) Q /\ (exists P1 x, visited p data num P0 P1 /\ len P1 = len Q /\ projected p (uniform (Z.of_nat p) (len Q)) P1 data x /\ best_fit p (uniform (Z.of_nat p) (len Q)) P1 x Q).
Proof.
  intros Hnum HE; induction fuel as [|fuel IH]; intros k P HV HP H3; [left; split; reflexivity|].
  assert (HN : (1 <= 2 ^ Z.of_nat k)%Z) by (pose proof (Z.pow_pos_nonneg 2 (Z.of_nat k)); lia).
  destruct (uniform_data p (len P) ltac:(lia) ltac:(lia)) as (UT & US & U0 & U1).
  cbv zeta; cbn [insertion_loop].
  change (cl_beh working_class) with (@beh_of_curve3 Exact); change (cl_set_ctrl working_class) with (@store_ctrl Exact).
  change (cl_insert working_class) with (@insert_knot_working Exact); rewrite !len_moved.
  destruct (project_pair _ P (proj1 UT) US U0 U1 H3) as [[E1 E2]|(x & x' & E1 & E2 & HX & HF)]; rewrite E1, E2; cbn [bind]; [right; left; split; reflexivity|].
  destruct (fit_pair _ P x x' (proj1 UT) US U0 U1 H3 HF HX (HE P x HV E1)) as (Q & F1 & F2 & HB); rewrite F1, F2; cbn [bind].
  pose proof HB as (LQ & FQ & _ & _ & _).
  assert (LQ' : len Q = len P) by (unfold len; congruence).
  cbn [curve_of c_ctrl]; rewrite !zlen_fin2, len_moved.
  destruct (Z.leb_spec num (len Q)) as [HL|HL].
  - right; right; exists Q; rewrite LQ'; split; [reflexivity|]; split; [reflexivity|]; split; [lia|]; split; [exact FQ|]; exists P, x; split; [exact HV|]; split; [reflexivity|]; split; [exact E1|exact HB].
  - unfold curve_fields; cbn [curve_of c_ctrl c_kv c_degree bind].
    assert (HB' : (2 ^ Z.of_nat k <= 49900)%Z).
    { assert (Hk16 : (k < 16)%nat).
      { destruct (Nat.lt_ge_cases k 16) as [|G]; [assumption|]; exfalso.
        pose proof (Z.pow_le_mono_r 2 16 (Z.of_nat k) ltac:(lia) ltac:(lia)) as HX'; change (2 ^ 16)%Z with 65536%Z in HX'; lia. }
      pose proof (Z.pow_le_mono_r 2 (Z.of_nat k) 15 ltac:(lia) ltac:(lia)) as HX'; change (2 ^ 15)%Z with 32768%Z in HX'; lia. }
    destruct (halve_pair (2 ^ Z.of_nat k) Q HN HB' ltac:(lia) FQ) as (P1 & I1 & I2 & LP1 & HH).
    rewrite <- HP in I1, I2.
    assert (V1 : visited p data num P0 P1) by (apply (visit_next p data num P0 P x Q P1 HV E1 HB HL HH)).
    destruct (span_midpoints (Z.of_nat p) (fin (uniform (Z.of_nat p) (len P)))) as [knots| |] eqn:EK; cbn [bind] in I1, I2 |- *; try discriminate.
    rewrite I1, I2; cbn [bind].
    assert (EK2 : (2 * 2 ^ Z.of_nat k = 2 ^ Z.of_nat (S k))%Z) by (rewrite Nat2Z.inj_succ, Z.pow_succ_r by lia; reflexivity).
    pose proof (IH (S k) P1 V1 ltac:(lia) ltac:(apply HH)) as H'; cbv beta zeta in H'; rewrite !len_moved in H'; exact H'.
Qed.

Lemma adaptive_pair P num d d' : (num <= Z.of_nat p + 65536)%Z -> Forall (fun r => length r = 3%nat) P -> length P = S p ->
  (forall P1 x, visited p data num P P1 -> projected p (uniform (Z.of_nat p) (len P1)) P1 data x -> enough p (len P1) (uniform (Z.of_nat p) (len P1)) x) ->
  let run sv P d data := fit_curve_knot_insertion working_class sv (curve_of (Z.of_nat p) (uniform (Z.of_nat p) (Z.of_nat p + 1)) P d) (mkData 3 (fin2 data)) num in
  (run sv P d data = Err ValueError /\ run sv' (map (affine M b) P) d' data' = Err ValueError) \/
  exists Q, run sv P d data = Ok (curve_of (Z.of_nat p) (uniform (Z.of_nat p) (len Q)) Q 0) /\
    run sv' (map (affine M b) P) d' data' = Ok (curve_of (Z.of_nat p) (uniform (Z.of_nat p) (len Q)) (map (affine M b) Q) 0) /\
    (Z.of_nat p + 1 <= len Q)%Z /\ Forall (fun r => length r = 3%nat) Q /\
    (exists P1 x, visited p data num P P1 /\ len P1 = len Q /\ projected p (uniform (Z.of_nat p) (len Q)) P1 data x /\ best_fit p (uniform (Z.of_nat p) (len Q)) P1 x Q).
Proof.
  intros Hnum H3 LP HE; cbv zeta; assert (LP' : len P = (Z.of_nat p + 1)%Z) by (unfold len; lia).
  pose proof (adaptive_outcome sv p num data P d HS Hp Hnum HD H3 LP) as OUT; cbv zeta in OUT.
  unfold fit_curve_knot_insertion, fit_curve_knot_insertion_fuel in OUT |- *.
  rewrite (copy_bezier p (Z.of_nat p + 1) P d _ ltac:(lia) ltac:(lia) LP' eq_refl) in OUT |- *; cbn [bind] in OUT |- *.
  rewrite (copy_bezier p (Z.of_nat p + 1) (map (affine M b) P) d' _ ltac:(lia) ltac:(lia) ltac:(rewrite len_moved; exact LP') eq_refl); cbn [bind].
  destruct (loop_pair P num Hnum HE (S (Z.to_nat num)) 0%nat P (visit_start p data num P) ltac:(cbn; exact LP') H3) as [[D _]|H]; [|exact H].
  rewrite D in OUT; destruct OUT as [(k & Q & H & _)|H]; discriminate H.
Qed.
(** A fit with a fixed number of control points. *)
Lemma fixed_pair n P d d' : (Z.of_nat p + 1 <= n)%Z -> len P = n -> Forall (fun r => length r = 3%nat) P ->
  let Bz := uniform (Z.of_nat p) (Z.of_nat p + 1) in let S0 := segment (nth 0 P []) (last P []) (Z.of_nat p + 1) in let U := uniform (Z.of_nat p) n in
  (forall x, projected p Bz S0 data x -> enough p (Z.of_nat p + 1) Bz x /\
    forall Q y, best_fit p Bz S0 x Q -> projected p Bz Q data y -> enough p n U y /\
    forall R z, best_fit p U P y R -> projected p U R data z -> enough p n U z) ->
  let run sv P d data := fit_curve_fixed_ctrlpts working_class sv (curve_of (Z.of_nat p) U P d) (mkData 3 (fin2 data)) in
  (run sv P d data = Err ValueError /\ run sv' (map (affine M b) P) d' data' = Err ValueError) \/
  exists Q, run sv P d data = Ok (curve_of (Z.of_nat p) U Q 0) /\ run sv' (map (affine M b) P) d' data' = Ok (curve_of (Z.of_nat p) U (map (affine M b) Q) 0) /\
    length Q = length P /\ Forall (fun r => length r = 3%nat) Q.
Proof.
  intros Hn LP H3 Bz S0 U HE; cbv zeta; unfold fit_curve_fixed_ctrlpts; cbn [curve_of c_ctrl c_degree].
  assert (P0 : (0 < length P)%nat) by (unfold len in LP; lia).
  destruct (ends_of P ltac:(lia)) as [E0 E1]; destruct (ends_3 P ltac:(lia) H3) as [L0 L1]; rewrite E0, E1; cbn [bind].
  destruct (ends_of (map (affine M b) P) ltac:(rewrite len_moved; lia)) as [E0' E1']; rewrite E0', E1'; cbn [bind]; rewrite first_affine, last_affine by exact P0.
  rewrite (init_bezier _ _ p ltac:(lia) L0 L1), (init_bezier _ _ p ltac:(lia) (affine_length M b _) (affine_length M b _)), segment_affine; cbn [bind curve_of c_ctrl].
  fold S0; assert (LS : len S0 = (Z.of_nat p + 1)%Z) by (apply segment_len; lia).
  assert (FS : Forall (fun r => length r = 3%nat) S0) by apply segment_3.
  rewrite !zlen_fin2, len_moved, LS.
  destruct (adaptive_pair S0 (Z.of_nat p + 1) 0 0 ltac:(lia) FS ltac:(unfold len in LS; lia)) as [[A1 A2]|(Q & A1 & A2 & LQ & FQ & P1 & x & HV & LP1 & EX & HB)].
  { intros P1 x HV EX.
    assert (P1 = S0) as ->.
    { destruct HV as [|P2 y Q2 P3 HV _ HB2 HL _]; [reflexivity|exfalso].
      assert (G : forall P2, visited p data (Z.of_nat p + 1) S0 P2 -> (Z.of_nat p + 1 <= len P2)%Z).
      { clear -LS HD; induction 1 as [|Pa ya Qa Pb _ IH _ (LQa & _) HLa _]; [lia|]; unfold len in *; lia. }
      specialize (G P2 HV); destruct HB2 as (LQ2 & _); unfold len in *; lia. }
    rewrite LS in EX |- *; apply HE; exact EX. }
  - rewrite A1, A2; left; split; reflexivity.
  - rewrite A1, A2; cbn [bind].
    assert (G : forall P2, visited p data (Z.of_nat p + 1) S0 P2 -> P2 = S0).
    { induction 1 as [|Pa ya Qa Pb _ IH _ (LQa & _) HLa _]; [reflexivity|]; exfalso; subst Pa; unfold len in *; lia. }
    apply G in HV; subst P1; rewrite <- LP1, LS in *; fold Bz in A1, A2, EX, HB |- *; destruct (HE x EX) as [_ HE2].
    destruct (uniform_data p (Z.of_nat p + 1) ltac:(lia) ltac:(lia)) as (BT & BS & B0 & B1); fold Bz in BT, BS, B0, B1.
    destruct (uniform_data p n ltac:(lia) Hn) as (UT & US & U0 & U1); fold U in UT, US, U0, U1.
    change (cl_beh working_class) with (@beh_of_curve3 Exact); change (cl_set_ctrl working_class) with (@store_ctrl Exact).
    destruct (project_pair Bz Q) as [[X1 X2]|(y & y' & X1 & X2 & HY & FY)]; rewrite <- ?LP1; try assumption; [apply BT| |].
    { rewrite X1, X2; left; split; reflexivity. }
    rewrite X1, X2; cbn [bind]; destruct (HE2 Q y HB X1) as [HEY HE3].
    assert (CU : copy_curve working_class (curve_of (Z.of_nat p) U P d) = Ok (curve_of (Z.of_nat p) U P 0)) by (unfold U; rewrite (copy_bezier p n P d _ ltac:(lia) Hn LP eq_refl), LP; reflexivity).
    assert (CU' : copy_curve working_class (curve_of (Z.of_nat p) U (map (affine M b) P) d') = Ok (curve_of (Z.of_nat p) U (map (affine M b) P) 0))
      by (unfold U; rewrite (copy_bezier p n (map (affine M b) P) d' _ ltac:(lia) Hn ltac:(rewrite len_moved; exact LP) eq_refl), len_moved, LP; reflexivity).
    rewrite CU, CU'; cbn [bind].
    destruct (fit_pair U P y y') as (R & R1 & R2 & HR); rewrite ?LP; try assumption; [apply UT|].
    rewrite R1, R2; cbn [bind]; pose proof HR as (LR & FR & _).
    assert (LR' : len R = n) by (unfold len in *; lia).
    destruct (project_pair U R) as [[X3 X4]|(z & z' & X3 & X4 & HZ & FZ)]; rewrite ?LR'; try assumption; [apply UT| |]; rewrite X3, X4; cbn [bind].
    { left; split; reflexivity. }
    destruct (fit_pair U R z z') as (W & W1 & W2 & HW); rewrite ?LR'; try assumption; [apply UT|apply (HE3 R z HR X3)|].
    rewrite W1, W2; right; exists W; split; [reflexivity|]; split; [reflexivity|]; destruct HW as (LW & FW & _); split; [congruence|exact FW].
Qed.
End Curve.

(** ** Surfaces *)
Lemma fit_surface_once sv p q nu nv U V P rows pts top bot : Forall (fun r => length r = 3%nat) rows -> dt_cols top = 4%Z -> dt_cols bot = 4%Z ->
  parameterize_surface (beh_of_surf (surf_of p q nu nv U V P)) (mkData 3 (fin2 rows)) = Ok (fin2 pts) ->
  fit_surface sv (surf_of p q nu nv U V P) (mkData 3 (fin2 rows)) (Some top) (Some bot) = single_fit_surface sv (surf_of p q nu nv U V P) (fin2 pts) /\
  Forall (fun r => length r = 5%nat /\ 0 <= nth 3 r 0 <= 1 /\ 0 <= nth 4 r 0 <= 1) pts.
Proof.
  intros HR Ht Hb E.
  destruct (parameterize_surface_sorted (beh_of_surf (surf_of p q nu nv U V P)) rows (fin2 pts) HR) as (uvs & pts' & HI & Ep & HPm & HSo); [| |exact E|].
  - intros u v m0; apply surf_point_unit.
  - intros u v m0; apply surf_derivatives_width.
  - apply fin2_inj in Ep; subst pts'.
    assert (HF : Forall (fun r => length r = 5%nat /\ 0 <= nth 3 r 0 <= 1 /\ 0 <= nth 4 r 0 <= 1) pts).
    { apply Forall_forall; intros r Hr; apply (Permutation_in _ HPm) in Hr; apply in_map_iff in Hr; destruct Hr as ([a b] & <- & Hab).
      cbn [fst snd].
      pose proof (proj1 (Forall_forall _ _) HR a (in_combine_l _ _ _ _ Hab)) as La; cbn beta in La.
      assert (HB : 0 <= fst b <= 1 /\ 0 <= snd b <= 1).
      { clear -HI Hab; induction HI as [|r uv rows uvs (_ & H) HI IH]; [contradiction|]; destruct Hab as [H'|H']; [injection H' as _ <-; exact H|auto]. }
      destruct a as [|a0 [|a1 [|a2 [|]]]]; try discriminate; split; [reflexivity|exact HB]. }
    assert (H5 : Forall (fun r => length r = 5%nat) pts) by (revert HF; apply Forall_impl; tauto).
    split; [|exact HF].
    unfold fit_surface; rewrite E; unfold vstack, append_column; cbn [bind fst forallb dt_cols]; rewrite Ht, Hb.
    change (4 + 1 =? 3 + 2)%Z with true; cbn [andb bind].
    pose proof (sort_view_sorted 5 [3%nat; 4%nat; 0%nat; 1%nat; 2%nat] pts ltac:(lia) H5 HSo) as ES.
    change (Z.of_nat 5) with 5%Z in ES; change (3 + 2)%Z with 5%Z; rewrite ES; reflexivity.
Qed.
Lemma surface_pair sv sv' p q nu nv U V P rows M b top bot top' bot' : least_squares sv -> least_squares sv' ->
  clamped (Z.of_nat p) (Z.of_nat nu) U -> clamped (Z.of_nat q) (Z.of_nat nv) V -> strict (Z.of_nat p) (Z.of_nat nu) U -> strict (Z.of_nat q) (Z.of_nat nv) V ->
  kn U (Z.of_nat p) = 0 -> kn U (Z.of_nat nu) = 1 -> kn V (Z.of_nat q) = 0 -> kn V (Z.of_nat nv) = 1 -> (2 <= p)%nat -> (2 <= q)%nat ->
  Forall (fun r => length r = 3%nat) P -> length P = (nu * nv)%nat -> Forall (fun r => length r = 3%nat) rows -> orthogonal M ->
  dt_cols top = 4%Z -> dt_cols bot = 4%Z -> dt_cols top' = 4%Z -> dt_cols bot' = 4%Z ->
  let s P := mkSurf (K := Exact) (Z.of_nat p) (Z.of_nat q) (Z.of_nat nu) (Z.of_nat nv) (fin2 P) (fin U) (fin V) in
  (forall x, parameterize_surface (beh_of_surf (s P)) (mkData 3 (fin2 rows)) = Ok (fin2 x) -> enough2 p q nu nv U V x) ->
  let run := fit_surface sv (s P) (mkData 3 (fin2 rows)) (Some top) (Some bot) in
  let run' := fit_surface sv' (s (map (affine M b) P)) (mkData 3 (fin2 (map (affine M b) rows))) (Some top') (Some bot') in
  (exists e, run = Err e /\ run' = Err e) \/ exists Q, run = Ok (s Q) /\ run' = Ok (s (map (affine M b) Q)).
Proof.
  intros HS HS' CU CV SU SV U0 U1 V0 V1 Hp Hq F3 LP HR HM Ht Hb Ht' Hb' s HE run run'.
  destruct (parameterize_surface_moved p q nu nv U V P rows M b CU CV SU SV U0 U1 V0 V1 Hp Hq F3 LP HR HM) as [ME MO].
  pose proof (strict_tight _ _ _ CU SU ltac:(destruct CU as ((? & ? & _) & _); lia)) as TU.
  pose proof (strict_tight _ _ _ CV SV ltac:(destruct CV as ((? & ? & _) & _); lia)) as TV.
  destruct (sparam_outcome p q nu nv U V rows TU TV SU SV U0 U1 V0 V1 Hp Hq HR P (conj LP F3)) as [(x & E & _)|E].
  - right; destruct (MO _ E) as (x0 & x' & E0 & E' & HP); apply fin2_inj in E0; subst x0.
    destruct (fit_surface_once sv p q nu nv U V P rows x top bot HR Ht Hb E) as [R1 FX].
    destruct (fit_surface_once sv' p q nu nv U V (map (affine M b) P) (map (affine M b) rows) x' top' bot' (Forall_moved M b rows) Ht' Hb' E') as [R2 _].
    assert (FX' : Forall (fun r => length r = 5%nat /\ kn U (Z.of_nat p) <= nth 3 r 0 <= kn U (Z.of_nat nu) /\ kn V (Z.of_nat q) <= nth 4 r 0 <= kn V (Z.of_nat nv)) x) by (rewrite U0, U1, V0, V1; exact FX).
    destruct (single_fit_surface_affine sv sv' p q nu nv U V P x M b HS HS' CU SU ltac:(lia) CV SV ltac:(lia) LP F3 FX' (HE x E)) as (Q & S1 & S2).
    destruct (single_fit_surface_order p q nu nv U V (map (affine M b) P) (map (moved M b) x)) with (sv := sv') (sv' := sv') (rows2 := x') as (Q' & S3 & S4); try assumption; try lia.
    + rewrite map_length; exact LP.
    + apply Forall_moved.
    + apply Forall_forall; intros r Hr; apply in_map_iff in Hr; destruct Hr as (r0 & <- & Hr); rewrite Forall_forall in FX'; destruct (FX' r0 Hr) as [L B].
      rewrite moved_length by lia; rewrite (moved_param M b r0 0 : nth 3 (moved M b r0) 0 = nth 3 r0 0), (moved_param M b r0 1 : nth 4 (moved M b r0) 0 = nth 4 r0 0); split; assumption.
    + intros t Ht2; destruct (HE x E t Ht2) as (vs & Lv & Sv & Fv); exists vs; split; [exact Lv|]; split; [exact Sv|]; revert Fv; apply Forall_impl; intros v (B & Hv).
      split; [exact B|]; intros i Hi; destruct (Hv i Hi) as (us & Lu & Su & Fu); exists us; split; [exact Lu|]; split; [exact Su|]; revert Fu; apply Forall_impl; intros u (B' & r & Hr & E3 & E4).
      split; [exact B'|]; exists (moved M b r); split; [apply in_map; exact Hr|].
      rewrite (moved_param M b r 0 : nth 3 (moved M b r) 0 = nth 3 r 0), (moved_param M b r 1 : nth 4 (moved M b r) 0 = nth 4 r 0); split; assumption.
    + exists Q; split; [exact (eq_trans R1 S1)|].
      rewrite S2 in S3; injection S3 as S3; apply fin2_inj in S3; rewrite <- S3 in S4; exact (eq_trans R2 S4).
  - left; exists LinAlgError; split; unfold run, run', fit_surface; [|pose proof (ME _ E) as E'].
    + exact (f_equal (fun x => bind x _) E).
    + exact (f_equal (fun x => bind x _) E').
Qed.
