(** Outcomes of curve fits (model: ModelFit.v), in exact arithmetic. *)
From Coq Require Import Permutation Sorted.
From Verif Require Import Py PyLemmas Num ModelKnots ModelBasis ModelCurve ModelSurface ModelInit ModelParam ModelFit Spec SpecFit SpecParam MathCox MathKnots
  ProofNum ProofSpan ProofSpan2 ProofKnots ProofCurve ProofCurve2 ProofSurface ProofInit ProofParam ProofParam2 ProofParam3 ProofParam4 ProofFit ProofFit2
  ProofFit3 ProofFit4 ProofFit5 ProofFit6 ProofFit7 ProofFit8 ProofData2 ProofParam5 ProofParam6 ProofLinear.
Open Scope Z_scope.

Lemma uniform_data p n : (1 <= p)%nat -> Z.of_nat p + 1 <= n -> let U := uniform (Z.of_nat p) n in
  tight (Z.of_nat p) n U /\ strict (Z.of_nat p) n U /\ kn U (Z.of_nat p) = 0%R /\ kn U n = 1%R.
Proof.
  intros Hp Hn; cbv zeta; replace n with (Z.of_nat p + (n - Z.of_nat p)) by lia.
  split; [apply uniform_tight; lia|]; split; [apply uniform_strict; lia|apply uniform_ends; lia].
Qed.
(** ** Ok or ValueError *)
Lemma param_outcome p U P d data : clamped (Z.of_nat p) (len P) U -> strict (Z.of_nat p) (len P) U ->
  kn U (Z.of_nat p) = 0%R -> kn U (len P) = 1%R -> (2 <= p)%nat -> Forall (fun r => length r = 3%nat) P -> Forall (fun r => length r = 3%nat) data ->
  (exists pts, parameterize_curve (beh_of_curve3 (curve_of (Z.of_nat p) U P d)) (mkData 3 (fin2 data)) = Ok (fin2 pts) /\
     length pts = length data /\ Forall (fun r => length r = 4%nat /\ (0 <= nth 3 r 0 <= 1)%R) pts) \/
  parameterize_curve (beh_of_curve3 (curve_of (Z.of_nat p) U P d)) (mkData 3 (fin2 data)) = Err ValueError.
Proof.
  intros HC HS H0 H1 Hp HF HD.
  destruct (parameterize_curve_outcome (beh_of_curve3 (curve_of (Z.of_nat p) U P d)) data ValueError HD) as [(out & E)|(E & _)].
  - intros r Hr; rewrite E_1em5.
    destruct (curve_inversion_outcome p U P d HC HS H0 H1 Hp HF r (1/100000) (1/100000) 100) as [(u & _ & E)|(E & _)];
      try lra; try lia; [apply (proj1 (Forall_forall _ _) HD r Hr)|left; exists (Fin u : Exact); exact E|right; exact E].
  - left; destruct (curve_rows_sorted _ _ _ HD E) as (pts & -> & H); exists pts; split; [exact E|exact H].
  - right; exact E.
Qed.
Lemma insertion_outcome sv data p num : least_squares sv -> (2 <= p)%nat -> num <= Z.of_nat p + 65536 ->
  Forall (fun r => length r = 3%nat) data ->
  forall fuel k P, len P = Z.of_nat p + 2 ^ Z.of_nat k -> Forall (fun r => length r = 3%nat) P ->
  (k = 0%nat \/ Z.of_nat p + 2 ^ Z.of_nat (k - 1) < num) -> num - len P < Z.of_nat fuel -> (0 < fuel)%nat ->
  let r := insertion_loop fuel working_class sv (mkData 3 (fin2 data)) num (curve_of (Z.of_nat p) (uniform (Z.of_nat p) (len P)) P 0) in
  (exists c, r = Ok c) \/ r = Err ValueError.
Proof.
  intros HS Hp Hnum HD; induction fuel as [|fuel IH]; intros k P HP H3 Hk Hfuel Hf; [lia|].
  assert (HN : 1 <= 2 ^ Z.of_nat k) by (pose proof (Z.pow_pos_nonneg 2 (Z.of_nat k)); lia).
  destruct (uniform_data p (len P) ltac:(lia) ltac:(lia)) as (UT & US & U0 & U1).
  cbv zeta; cbn [insertion_loop].
  change (cl_beh working_class) with (@beh_of_curve3 Exact); change (cl_set_ctrl working_class) with (@store_ctrl Exact).
  change (cl_insert working_class) with (@insert_knot_working Exact).
  destruct (param_outcome p _ P 0 data (proj1 UT) US U0 U1 Hp H3 HD) as [(pts & EP & _ & HF)|EP]; rewrite EP; cbn [bind]; [|right; reflexivity].
  destruct (round_fit sv p (2 ^ Z.of_nat k) P pts HS ltac:(lia) HN HP H3 HF) as (P' & EF & LP & F3 & N0 & N1 & _).
  rewrite <- HP in EF; rewrite EF; cbn [bind].
  assert (LP' : len P' = len P) by (unfold len; congruence).
  cbn [curve_of c_ctrl]; rewrite zlen_fin2.
  destruct (Z.leb_spec num (len P')) as [HL|HL]; [left; eexists; reflexivity|].
  unfold curve_fields; cbn [curve_of c_ctrl c_kv c_degree bind].
  rewrite HP, span_midpoints_uniform by lia; cbn [bind]; rewrite zlen_tab, Z2Nat.id by lia.
  assert (HB : 2 ^ Z.of_nat k <= 49900).
  { assert (Hk16 : (k < 16)%nat).
    { destruct (Nat.lt_ge_cases k 16) as [|G]; [assumption|]; exfalso.
      pose proof (Z.pow_le_mono_r 2 16 (Z.of_nat k) ltac:(lia) ltac:(lia)) as HX; change (2 ^ 16) with 65536 in HX; lia. }
    pose proof (Z.pow_le_mono_r 2 (Z.of_nat k) 15 ltac:(lia) ltac:(lia)) as HX; change (2 ^ 15) with 32768 in HX; lia. }
  destruct (insert_all (Z.of_nat p) (2 ^ Z.of_nat k) ltac:(lia) HN P' 0 HB ltac:(lia) F3) as (Q & EQ & LQ & FQ & Q0 & Q1 & _).
  change (@mkCurve Exact (Some (Z.of_nat p)) (Some (fin2 P')) (Some (fin (uniform (Z.of_nat p) (Z.of_nat p + 2 ^ Z.of_nat k)))) 0)
    with (curve_of (Z.of_nat p) (uniform (Z.of_nat p) (Z.of_nat p + 2 ^ Z.of_nat k)) P' 0).
  rewrite EQ; cbn [bind]; rewrite <- LQ.
  assert (EK : 2 * 2 ^ Z.of_nat k = 2 ^ Z.of_nat (S k)) by (rewrite Nat2Z.inj_succ, Z.pow_succ_r by lia; reflexivity).
  apply (IH (S k) Q); try assumption.
  - lia.
  - right; replace (S k - 1)%nat with k by lia; lia.
  - lia.
  - lia.
Qed.
Lemma copy_bezier p n P d c : (1 <= p)%nat -> Z.of_nat p + 1 <= n -> len P = n -> c = curve_of (Z.of_nat p) (uniform (Z.of_nat p) n) P d ->
  copy_curve working_class c = Ok (curve_of (Z.of_nat p) (uniform (Z.of_nat p) (len P)) P 0).
Proof.
  intros Hp Hn HL ->; unfold copy_curve; cbn [curve_of c_degree c_ctrl c_kv]; unfold set_degree; destruct (Z.ltb_spec (Z.of_nat p) 1); [lia|]; cbn [bind].
  change (cl_set_ctrl working_class) with (@store_ctrl Exact); unfold store_ctrl; cbn [bind].
  unfold set_knot_vector; cbn [c_degree c_ctrl c_kv c_dim]; rewrite zlen_fin2, check_clamped by (rewrite HL; apply uniform_clamped; lia); rewrite HL; reflexivity.
Qed.
Lemma adaptive_outcome sv p num data P d : least_squares sv -> (2 <= p)%nat -> num <= Z.of_nat p + 65536 ->
  Forall (fun r => length r = 3%nat) data -> Forall (fun r => length r = 3%nat) P -> length P = S p ->
  let r := fit_curve_knot_insertion working_class sv (curve_of (Z.of_nat p) (uniform (Z.of_nat p) (Z.of_nat p + 1)) P d) (mkData 3 (fin2 data)) num in
  (exists k Q, r = Ok (curve_of (Z.of_nat p) (uniform (Z.of_nat p) (len Q)) Q 0) /\ len Q = Z.of_nat p + 2 ^ Z.of_nat k /\
     Forall (fun r => length r = 3%nat) Q /\ (k = 0%nat \/ Z.of_nat p + 2 ^ Z.of_nat (k - 1) < num)) \/ r = Err ValueError.
Proof.
  intros HS Hp Hnum HD H3 LP; cbv zeta; assert (LP' : len P = Z.of_nat p + 1) by (unfold len; lia).
  unfold fit_curve_knot_insertion, fit_curve_knot_insertion_fuel.
  rewrite (copy_bezier p (Z.of_nat p + 1) P d _ ltac:(lia) ltac:(lia) LP' eq_refl); cbn [bind].
  destruct (insertion_outcome sv data p num HS Hp Hnum HD (S (Z.to_nat num)) 0%nat P) as [(c & E)|E];
    [cbn; exact LP'|assumption|left; reflexivity|lia|lia| |right; exact E].
  left; destruct (insertion_loop_exact sv data p num HS ltac:(lia) Hnum HD _ 0%nat P c ltac:(cbn; exact LP') H3 (or_introl eq_refl) E)
    as (k & P0 & Q & pts & -> & R1 & R2 & R3 & R4 & _).
  exists k, Q; auto.
Qed.
Lemma aget_last {X} (l : list X) d : 1 <= zlen l -> aget l (-1) = Ok (last l d).
Proof.
  intros H; unfold aget; destruct (Z.ltb_spec (-1) 0); [|lia]; cbv zeta.
  destruct (Z.leb_spec 0 (-1 + zlen l)); [|lia]; destruct (Z.ltb_spec (-1 + zlen l) (zlen l)); [|lia]; cbn [andb].
  rewrite last_nth; unfold zlen in *; rewrite (nth_error_nth' l d) by lia; do 2 f_equal; lia.
Qed.
Lemma ends_of (P : list (list R)) : 1 <= len P -> aget (fin2 P : list (list Exact)) 0 = Ok (fin (nth 0 P [])) /\ aget (fin2 P : list (list Exact)) (-1) = Ok (fin (last P [])).
Proof.
  intros H; rewrite (aget_nth _ _ (fin [] : list Exact)) by (rewrite zlen_fin2; lia); rewrite (aget_last _ (fin [] : list Exact)) by (rewrite zlen_fin2; lia).
  rewrite !last_nth; unfold fin2; rewrite !(map_nth (fin : list R -> list Exact)), map_length; split; reflexivity.
Qed.
Lemma ends_3 (P : list (list R)) : 1 <= len P -> Forall (fun r => length r = 3%nat) P -> length (nth 0 P []) = 3%nat /\ length (last P []) = 3%nat.
Proof.
  intros H HF; unfold len in H; rewrite last_nth; rewrite Forall_forall in HF; split; apply HF, nth_In; lia.
Qed.
Lemma init_bezier a b p : (1 <= p)%nat -> length a = 3%nat -> length b = 3%nat ->
  initialize_curve_with (cl_blank (working_class (K := Exact))) (cl_set_ctrl working_class) (fin a) (fin b) (Z.of_nat p) (Z.of_nat p + 1)
  = Ok (curve_of (Z.of_nat p) (uniform (Z.of_nat p) (Z.of_nat p + 1)) (segment a b (Z.of_nat p + 1)) 0).
Proof.
  intros Hp La Lb; exact (initialize_eq a b (Z.of_nat p) (Z.of_nat p + 1) ltac:(lia) ltac:(lia) ltac:(unfold len; lia) ltac:(unfold len; lia)).
Qed.
Lemma fixed_outcome sv p n P d data : least_squares sv -> (2 <= p)%nat -> Z.of_nat p + 1 <= n -> len P = n ->
  Forall (fun r => length r = 3%nat) data -> Forall (fun r => length r = 3%nat) P ->
  let r := fit_curve_fixed_ctrlpts working_class sv (curve_of (Z.of_nat p) (uniform (Z.of_nat p) n) P d) (mkData 3 (fin2 data)) in
  (exists Q, r = Ok (curve_of (Z.of_nat p) (uniform (Z.of_nat p) n) Q 0) /\ len Q = n /\ Forall (fun r => length r = 3%nat) Q) \/ r = Err ValueError.
Proof.
  intros HS Hp Hn LP HD H3; cbv zeta; unfold fit_curve_fixed_ctrlpts; cbn [curve_of c_ctrl c_degree].
  destruct (ends_of P ltac:(lia)) as [E0 E1]; destruct (ends_3 P ltac:(lia) H3) as [L0 L1]; rewrite E0, E1; cbn [bind].
  rewrite (init_bezier _ _ p ltac:(lia) L0 L1); cbn [bind curve_of c_ctrl].
  set (S := segment (nth 0 P []) (last P []) (Z.of_nat p + 1)).
  assert (LS : len S = Z.of_nat p + 1) by (apply segment_len; lia).
  rewrite zlen_fin2, LS.
  destruct (adaptive_outcome sv p (Z.of_nat p + 1) data S 0 HS Hp ltac:(lia) HD (segment_3 _ _ _) ltac:(unfold len in LS; lia)) as [(k & Q & E & LQ & FQ & _)|E];
    rewrite E; cbn [bind]; [|right; reflexivity].
  assert (HN : 1 <= 2 ^ Z.of_nat k) by (pose proof (Z.pow_pos_nonneg 2 (Z.of_nat k)); lia).
  destruct (uniform_data p (len Q) ltac:(lia) ltac:(lia)) as (QT & QS & Q0 & Q1).
  destruct (uniform_data p (len P) ltac:(lia) ltac:(lia)) as (UT & US & U0 & U1).
  change (cl_beh working_class) with (@beh_of_curve3 Exact); change (cl_set_ctrl working_class) with (@store_ctrl Exact).
  destruct (param_outcome p _ Q 0 data (proj1 QT) QS Q0 Q1 Hp FQ HD) as [(pts & EP & _ & HF)|EP]; rewrite EP; cbn [bind]; [|right; reflexivity].
  rewrite (copy_bezier p n P d _ ltac:(lia) Hn LP eq_refl); cbn [bind].
  assert (HP : len P = Z.of_nat p + (n - Z.of_nat p)) by lia.
  destruct (round_fit sv p (n - Z.of_nat p) P pts HS ltac:(lia) ltac:(lia) HP H3 HF) as (P1 & EF & M1 & F1 & _).
  rewrite <- HP in EF; rewrite EF; cbn [bind].
  assert (LP1 : len P1 = len P) by (unfold len; congruence); rewrite <- LP1 in *.
  destruct (param_outcome p _ P1 0 data (proj1 UT) US U0 U1 Hp F1 HD) as [(pts1 & EP1 & _ & HF1)|EP1]; rewrite EP1; cbn [bind]; [|right; reflexivity].
  destruct (round_fit sv p (n - Z.of_nat p) P1 pts1 HS ltac:(lia) ltac:(lia) HP F1 HF1) as (P2 & EF2 & M2 & F2 & _).
  rewrite <- HP in EF2; rewrite EF2; left; exists P2; split; [|split; [unfold len in *; lia|exact F2]].
  rewrite LP; reflexivity.
Qed.

(** ** Data that are samples of the curve *)
Section Samples.
Variables (sv : solver Exact) (p : nat) (data : list (list R)).
Hypotheses (HS : least_squares sv) (Hp : (2 <= p)%nat) (HD : Forall (fun r => length r = 3%nat) data).
Let U := uniform (Z.of_nat p) (Z.of_nat p + 1).
Let at_sample (k : Z) : R := (IZR k / IZR (2 * (Z.of_nat p + 1) - 1))%R.
Definition sampled (P : list (list R)) : Prop := len P = Z.of_nat p + 1 /\ Forall (fun r => length r = 3%nat) P /\
  forall r, In r data -> exists k, 0 <= k < 2 * (Z.of_nat p + 1) /\ curve_xyz U p P (at_sample k) = r.
Lemma bezier_point P d u : len P = Z.of_nat p + 1 -> Forall (fun r => length r = 3%nat) P -> (0 <= u <= 1)%R ->
  single_point (curve_of (Z.of_nat p) U P d) (Fin u : Exact) = Ok (fin (curve_xyz U p P u)).
Proof.
  intros LP H3 Hu; destruct (bezier_knots p ltac:(lia) _ LP) as (HC & HT & H0 & H1); rewrite LP in *.
  apply single_point_strict; rewrite ?LP; try assumption; try lia.
  intros _; replace (Z.of_nat p + 1 - 1) with (Z.of_nat p) by lia; unfold U; rewrite H0; lra.
Qed.
Lemma sum_zero (l : list R) : Forall (fun x => (0 <= x)%R) l -> (fold_right Rplus 0 l <= 0)%R -> Forall (fun x => x = 0%R) l.
Proof.
  intros H; assert (G : forall l, Forall (fun x => (0 <= x)%R) l -> (0 <= fold_right Rplus 0 l)%R).
  { clear; intros l H; induction H; cbn; lra. }
  induction H as [|x l Hx H IH]; intros HL; [constructor|]; cbn in HL; pose proof (G l H); constructor; [lra|apply IH; lra].
Qed.
Lemma point_err_nonneg q r : (0 <= point_err q r)%R.
Proof.
  unfold point_err; cbn; pose proof (Rle_0_sqr (nth 0 q 0%R - nth 0 r 0%R)); pose proof (Rle_0_sqr (nth 1 q 0%R - nth 1 r 0%R)); pose proof (Rle_0_sqr (nth 2 q 0%R - nth 2 r 0%R)).
  unfold Rsqr in *; lra.
Qed.
Lemma point_err_zero q r : (point_err q r = 0 -> forall c, (c < 3)%nat -> nth c q 0%R = nth c r 0%R)%R.
Proof.
  unfold point_err; cbn; intros H; pose proof (Rle_0_sqr (nth 0 q 0%R - nth 0 r 0%R)) as A; pose proof (Rle_0_sqr (nth 1 q 0%R - nth 1 r 0%R)) as B; pose proof (Rle_0_sqr (nth 2 q 0%R - nth 2 r 0%R)) as C.
  unfold Rsqr in *.
  assert (S0 : forall x, (x * x = 0 -> x = 0)%R) by (intros x; apply Rsqr_0_uniq).
  assert (E0 := S0 (nth 0 q 0%R - nth 0 r 0%R)%R ltac:(lra)); assert (E1 := S0 (nth 1 q 0%R - nth 1 r 0%R)%R ltac:(lra)); assert (E2 := S0 (nth 2 q 0%R - nth 2 r 0%R)%R ltac:(lra)).
  intros [|[|[|]]] Hc; [lra|lra|lra|lia].
Qed.
Lemma list3_ext (q r : list R) : length q = 3%nat -> length r = 3%nat -> (forall c, (c < 3)%nat -> nth c q 0%R = nth c r 0%R) -> q = r.
Proof.
  intros Lq Lr H; apply (nth_ext q r 0%R 0%R); [congruence|]; intros c Hc; apply H; lia.
Qed.
Lemma sampled_param P d : sampled P ->
  exists pts, parameterize_curve (beh_of_curve3 (curve_of (Z.of_nat p) U P d)) (mkData 3 (fin2 data)) = Ok (fin2 pts) /\
    Forall (fun r => length r = 4%nat /\ (0 <= nth 3 r 0 <= 1)%R) pts /\ curve_err U p P pts = 0%R /\
    forall r, In r data -> exists k, 0 <= k < 2 * (Z.of_nat p + 1) /\ curve_xyz U p P (at_sample k) = r /\ In (r ++ [at_sample k]) pts.
Proof.
  intros (LP & H3 & HK); destruct (bezier_knots p ltac:(lia) _ LP) as (HC & HT & H0 & H1).
  replace (uniform (Z.of_nat p) (len P)) with U in * by (rewrite LP; reflexivity).
  assert (R01 : forall k, 0 <= k < 2 * (Z.of_nat p + 1) -> (0 <= at_sample k <= 1)%R) by (intros; apply samples_range; lia).
  assert (HIT : forall r, In r data -> exists l, 0 <= l < 2 * (Z.of_nat p + 1) /\ curve_xyz U p P (at_sample l) = r /\
     curve_inversion (beh_of_curve3 (curve_of (Z.of_nat p) U P d)) (fin r) lit_1em5 lit_1em5 100 = Ok (Fin (at_sample l) : Exact)).
  { intros r Hr; destruct (HK r Hr) as (k & Hk & EK).
    destruct (curve_inversion_hit p U P d HC HT H0 H1 Hp H3 r (1/100000) (1/100000) 100 k) as (l & Hl & ES & EI); rewrite ?LP; try assumption; try lra;
      [apply (proj1 (Forall_forall _ _) HD r Hr)|rewrite bezier_point by (try assumption; apply R01; exact Hk); fold (at_sample k); rewrite EK; reflexivity|].
    rewrite LP in ES, EI; fold (at_sample l) in ES, EI; exists l; split; [lia|]; rewrite E_1em5; split; [|exact EI].
    rewrite bezier_point in ES by (try assumption; apply R01; lia).
    apply fin_inj; injection ES as ES; exact ES. }
  destruct (parameterize_curve_outcome (beh_of_curve3 (curve_of (Z.of_nat p) U P d)) data ValueError HD) as [(out & E)|(E & r & Hr & F)].
  - intros r Hr; destruct (HIT r Hr) as (l & _ & _ & EI); left; eexists; exact EI.
  - destruct (parameterize_curve_sorted (beh_of_curve3 (curve_of (Z.of_nat p) U P d)) data out HD) as (us & pts & HI & -> & HPm & _); [|exact E|].
    { intros u m; apply derivatives3_unit. }
    assert (HU : Forall2 (fun r u => exists l, 0 <= l < 2 * (Z.of_nat p + 1) /\ curve_xyz U p P (at_sample l) = r /\ u = at_sample l) data us).
    { clear -HI HIT; induction HI as [|r u data us (E & _) HI IH]; constructor.
      - destruct (HIT r ltac:(left; reflexivity)) as (l & Hl & EX & EI); rewrite E in EI; exists l; split; [exact Hl|]; split; [exact EX|congruence].
      - apply IH; intros; apply HIT; right; assumption. }
    assert (HR : forall x, In x pts -> exists r l, In r data /\ 0 <= l < 2 * (Z.of_nat p + 1) /\ curve_xyz U p P (at_sample l) = r /\ x = r ++ [at_sample l]).
    { intros x Hx; apply (Permutation_in _ HPm) in Hx; apply in_map_iff in Hx; destruct Hx as ([r u] & <- & Hx); cbn [fst snd].
      clear -HU Hx; induction HU as [|r' u' data us (l & Hl & EX & ->) HU IH]; [contradiction|]; destruct Hx as [Hx|Hx].
      - injection Hx as -> <-; exists r, l; split; [left; reflexivity|]; auto.
      - destruct (IH Hx) as (r2 & l2 & I2 & H2); exists r2, l2; split; [right; exact I2|exact H2]. }
    exists pts; split; [exact E|]; split; [|split].
    + apply Forall_forall; intros x Hx; destruct (HR x Hx) as (r & l & Hr & Hl & _ & ->).
      pose proof (proj1 (Forall_forall _ _) HD r Hr) as Lr; cbn beta in Lr.
      destruct r as [|r0 [|r1 [|r2 [|]]]]; try discriminate Lr; split; [reflexivity|apply R01; exact Hl].
    + unfold curve_err; assert (A0 : Forall (fun x => x = 0%R) (map (fun r => point_err (curve_xyz U p P (nth 3 r 0%R)) r) pts)).
      { apply Forall_forall; intros y Hy; apply in_map_iff in Hy; destruct Hy as (x & <- & Hx); destruct (HR x Hx) as (r & l & Hr & Hl & EX & ->).
        pose proof (proj1 (Forall_forall _ _) HD r Hr) as Lr; cbn beta in Lr.
        destruct r as [|r0 [|r1 [|r2 [|]]]]; try discriminate Lr; cbn [app nth]; rewrite EX; unfold point_err; cbn; ring. }
      clear -A0; induction A0; cbn; lra.
    + intros r Hr; assert (IR : exists l, 0 <= l < 2 * (Z.of_nat p + 1) /\ curve_xyz U p P (at_sample l) = r /\ In (r, at_sample l) (combine data us)).
      { clear -HU Hr; induction HU as [|r' u' data us (l & Hl & EX & ->) HU IH]; [contradiction|]; destruct Hr as [->|Hr].
        - exists l; split; [exact Hl|split; [exact EX|left; reflexivity]].
        - destruct (IH Hr) as (l2 & Hl2 & X2 & I2); exists l2; split; [exact Hl2|split; [exact X2|right; exact I2]]. }
      destruct IR as (l & Hl & XR & IR); exists l; split; [exact Hl|]; split; [exact XR|]; apply (Permutation_in _ (Permutation_sym HPm)); apply in_map_iff; exists (r, at_sample l); split; [reflexivity|exact IR].
  - exfalso; destruct (HIT r Hr) as (l & _ & _ & EI); rewrite EI in F; discriminate.
Qed.
Lemma sampled_fit P P0 : sampled P -> len P0 = Z.of_nat p + 1 -> Forall (fun r => length r = 3%nat) P0 -> nth 0 P [] = nth 0 P0 [] -> last P [] = last P0 [] ->
  exists pts P', parameterize_curve (beh_of_curve3 (curve_of (Z.of_nat p) U P 0)) (mkData 3 (fin2 data)) = Ok (fin2 pts) /\
    single_fit_curve store_ctrl sv (curve_of (Z.of_nat p) U P0 0) (fin2 pts) = Ok (curve_of (Z.of_nat p) U P' 0) /\ sampled P' /\
    nth 0 P' [] = nth 0 P [] /\ last P' [] = last P [] /\ curve_err U p P' pts = 0%R.
Proof.
  intros SP LP0 F0 EA EB; destruct (sampled_param P 0 SP) as (pts & EP & HF & EZ & HI); destruct SP as (LP & H3 & HK).
  destruct (round_fit sv p 1 P0 pts HS ltac:(lia) ltac:(lia) LP0 F0 HF) as (P' & EF & L' & F' & A' & B' & HO); fold U in EF, HO.
  assert (LE : (curve_err U p P' pts <= 0)%R) by (rewrite <- EZ; apply HO; [unfold len in *; lia|exact EA|exact EB]).
  assert (Z0 : Forall (fun x => x = 0%R) (map (fun r => point_err (curve_xyz U p P' (nth 3 r 0%R)) r) pts)).
  { apply sum_zero; [|exact LE]; apply Forall_forall; intros y Hy; apply in_map_iff in Hy; destruct Hy as (x & <- & _); apply point_err_nonneg. }
  exists pts, P'; split; [exact EP|]; split; [exact EF|]; split; [|split; [congruence|split; [congruence|]]].
  - split; [unfold len in *; congruence|]; split; [exact F'|]; intros r Hr; destruct (HI r Hr) as (k & Hk & _ & Ik); exists k; split; [exact Hk|].
    assert (PE : point_err (curve_xyz U p P' (nth 3 (r ++ [at_sample k]) 0%R)) (r ++ [at_sample k]) = 0%R).
    { apply (proj1 (Forall_forall _ _) Z0); apply in_map_iff; exists (r ++ [at_sample k]); split; [reflexivity|exact Ik]. }
    pose proof (proj1 (Forall_forall _ _) HD r Hr) as Lr; cbn beta in Lr.
    assert (E3 : nth 3 (r ++ [at_sample k]) 0%R = at_sample k) by (destruct r as [|r0 [|r1 [|r2 [|]]]]; try discriminate Lr; reflexivity).
    rewrite E3 in PE; apply list3_ext; [reflexivity|exact Lr|]; intros c Hc; rewrite (point_err_zero _ _ PE c Hc).
    apply app_nth1; lia.
  - unfold curve_err; clear -Z0; induction Z0; cbn; lra.
Qed.
(** The adaptive and the fixed fit. *)
Lemma sampled_adaptive P d num : num <= Z.of_nat p + 1 -> sampled P ->
  exists Q, fit_curve_knot_insertion working_class sv (curve_of (Z.of_nat p) U P d) (mkData 3 (fin2 data)) num = Ok (curve_of (Z.of_nat p) U Q 0) /\
    sampled Q /\ nth 0 Q [] = nth 0 P [] /\ last Q [] = last P [].
Proof.
  intros Hn SP; destruct (sampled_fit P P SP (proj1 SP) (proj1 (proj2 SP)) eq_refl eq_refl) as (pts & Q & EP & EF & SQ & A & B & _); exists Q; split; [|auto].
  unfold fit_curve_knot_insertion, fit_curve_knot_insertion_fuel.
  pose proof (proj1 SP) as LP; unfold U at 1; rewrite (copy_bezier p (Z.of_nat p + 1) P d _ ltac:(lia) ltac:(lia) LP eq_refl), LP; cbn [bind insertion_loop].
  change (cl_beh working_class) with (@beh_of_curve3 Exact); change (cl_set_ctrl working_class) with (@store_ctrl Exact); fold U.
  rewrite EP; cbn [bind]; rewrite EF; cbn [bind curve_of c_ctrl]; rewrite zlen_fin2, (proj1 SQ).
  destruct (Z.leb_spec num (Z.of_nat p + 1)); [reflexivity|lia].
Qed.
Lemma sampled_fixed P d : len P = Z.of_nat p + 1 -> Forall (fun r => length r = 3%nat) P -> sampled (segment (nth 0 P []) (last P []) (Z.of_nat p + 1)) ->
  exists Q, fit_curve_fixed_ctrlpts working_class sv (curve_of (Z.of_nat p) U P d) (mkData 3 (fin2 data)) = Ok (curve_of (Z.of_nat p) U Q 0) /\
    sampled Q /\ nth 0 Q [] = nth 0 P [] /\ last Q [] = last P [].
Proof.
  intros LP H3 SS; unfold fit_curve_fixed_ctrlpts; cbn [curve_of c_ctrl c_degree].
  destruct (ends_of P ltac:(lia)) as [E0 E1]; destruct (ends_3 P ltac:(lia) H3) as [L0 L1]; rewrite E0, E1; cbn [bind].
  rewrite (init_bezier _ _ p ltac:(lia) L0 L1); cbn [bind curve_of c_ctrl].
  set (S := segment (nth 0 P []) (last P []) (Z.of_nat p + 1)) in *; fold U.
  rewrite zlen_fin2, (proj1 SS).
  destruct (sampled_adaptive S 0 (Z.of_nat p + 1) ltac:(lia) SS) as (Q & E & SQ & A & B); rewrite E; cbn [bind].
  destruct (segment_ends (nth 0 P []) (last P []) (Z.of_nat p + 1) ltac:(lia) L0 L1) as [SA SB]; fold S in SA, SB.
  destruct (sampled_fit Q P SQ LP H3 ltac:(congruence) ltac:(congruence)) as (pts & P1 & EP & EF & S1 & A1 & B1 & _).
  change (cl_beh working_class) with (@beh_of_curve3 Exact); change (cl_set_ctrl working_class) with (@store_ctrl Exact).
  rewrite EP; cbn [bind].
  assert (EC : copy_curve working_class (curve_of (Z.of_nat p) U P d) = Ok (curve_of (Z.of_nat p) U P 0)).
  { unfold U; rewrite (copy_bezier p (Z.of_nat p + 1) P d _ ltac:(lia) ltac:(lia) LP eq_refl), LP; reflexivity. }
  rewrite EC; cbn [bind].
  rewrite EF; cbn [bind].
  destruct (sampled_fit P1 P1 S1 (proj1 S1) (proj1 (proj2 S1)) eq_refl eq_refl) as (pts2 & P2 & EP2 & EF2 & S2 & A2 & B2 & _).
  rewrite EP2; cbn [bind]; exists P2; split; [exact EF2|]; split; [exact S2|]; split; congruence.
Qed.
End Samples.
Lemma segment_xyz p a e u : (2 <= p)%nat -> length a = 3%nat -> length e = 3%nat -> (0 <= u <= 1)%R ->
  curve_xyz (uniform (Z.of_nat p) (Z.of_nat p + 1)) p (segment a e (Z.of_nat p + 1)) u = lerp a e u.
Proof.
  intros Hp La Le Hu.
  assert (LS : len (segment a e (Z.of_nat p + 1)) = Z.of_nat p + 1) by (apply segment_len; lia).
  destruct (bezier_knots p ltac:(lia) _ LS) as (HC & HT & H0 & H1).
  destruct (curve_rows_ok p _ _ 0 u HC HT H0 H1 Hp (segment_3 a e _) Hu) as [E _]; rewrite LS in E.
  rewrite (bezier_point p Hp _ 0 u LS (segment_3 a e _) Hu) in E.
  destruct (segment_rows p a e u ltac:(lia) La Le Hu) as (R0 & _); cbv zeta in R0.
  rewrite <- R0; apply fin_inj, ok_inj; exact E.
Qed.
Lemma segment_sampled p a e data : (2 <= p)%nat -> length a = 3%nat -> length e = 3%nat ->
  (forall r, In r data -> exists k, 0 <= k < 2 * (Z.of_nat p + 1) /\ r = lerp a e (IZR k / IZR (2 * (Z.of_nat p + 1) - 1))) ->
  sampled p data (segment a e (Z.of_nat p + 1)).
Proof.
  intros Hp La Le H; split; [apply segment_len; lia|]; split; [apply segment_3|].
  intros r Hr; destruct (H r Hr) as (k & Hk & ->); exists k; split; [exact Hk|].
  apply segment_xyz; try assumption; apply samples_range; lia.
Qed.
(** ** The first projection: on the segment, and on a point *)
Lemma segment_param p a e d data : (2 <= p)%nat -> length a = 3%nat -> length e = 3%nat -> a <> e -> Forall (fun r => length r = 3%nat) data ->
  exists pts, parameterize_curve (beh_of_curve3 (curve_of (Z.of_nat p) (uniform (Z.of_nat p) (Z.of_nat p + 1)) (segment a e (Z.of_nat p + 1)) d))
    (mkData 3 (fin2 data)) = Ok (fin2 pts) /\ Forall (fun r => length r = 4%nat /\ (0 <= nth 3 r 0 <= 1)%R) pts.
Proof.
  intros Hp La Le Hne HD.
  destruct (parameterize_curve_outcome (beh_of_curve3 (curve_of (Z.of_nat p) (uniform (Z.of_nat p) (Z.of_nat p + 1)) (segment a e (Z.of_nat p + 1)) d)) data ValueError HD) as [(out & E)|(E & r & Hr & F)].
  - intros r Hr; left; rewrite E_1em5.
    destruct (segment_inversion p a e d r (1/100000) (1/100000) 100 Hp La Le (proj1 (Forall_forall _ _) HD r Hr) Hne) as (u & _ & EI); try lra; try lia.
    exists (Fin u : Exact); exact EI.
  - destruct (curve_rows_sorted _ _ _ HD E) as (pts & -> & _ & H); exists pts; split; [exact E|exact H].
  - exfalso; rewrite E_1em5 in F.
    destruct (segment_inversion p a e d r (1/100000) (1/100000) 100 Hp La Le (proj1 (Forall_forall _ _) HD r Hr) Hne) as (u & _ & EI); try lra; try lia.
    rewrite EI in F; discriminate.
Qed.
Lemma point_param p U A n d data r : clamped (Z.of_nat p) (Z.of_nat n) U -> strict (Z.of_nat p) (Z.of_nat n) U ->
  kn U (Z.of_nat p) = 0%R -> kn U (Z.of_nat n) = 1%R -> (2 <= p)%nat -> length A = 3%nat ->
  Forall (fun r => length r = 3%nat) data -> In r data -> (1/100000 < distR A r)%R ->
  parameterize_curve (beh_of_curve3 (curve_of (Z.of_nat p) U (repeat A n) d)) (mkData 3 (fin2 data)) = Err ValueError.
Proof.
  intros HC HS H0 H1 Hp LA HD Hr Hfar.
  assert (LP : len (repeat A n) = Z.of_nat n) by (unfold len; rewrite repeat_length; reflexivity).
  assert (F3 : Forall (fun r => length r = 3%nat) (repeat A n)) by (apply Forall_forall; intros q Hq; apply repeat_spec in Hq; subst q; exact LA).
  assert (HP := param_outcome p U (repeat A n) d data); rewrite LP in HP; destruct (HP HC HS H0 H1 Hp F3 HD) as [(pts & E & _)|E]; [exfalso|exact E].
  destruct (parameterize_curve_sorted (beh_of_curve3 (curve_of (Z.of_nat p) U (repeat A n) d)) data (fin2 pts) HD) as (us & sorted & HI & _);
    [intros u m; apply derivatives3_unit|exact E|].
  assert (X : exists u, curve_inversion (beh_of_curve3 (curve_of (Z.of_nat p) U (repeat A n) d)) (fin r) lit_1em5 lit_1em5 100 = Ok u).
  { clear -HI Hr; induction HI as [|r' u data us (E & _) HI IH]; [contradiction|]; destruct Hr as [->|Hr]; [eexists; exact E|apply IH; exact Hr]. }
  destruct X as (u & EI); rewrite E_1em5, point_inversion in EI; try assumption; try discriminate; [apply (proj1 (Forall_forall _ _) HD r Hr)|lra].
Qed.
(** The fit with degree + 1 control points returns for every data. *)
Lemma segment_adaptive sv p a e d data num : least_squares sv -> (2 <= p)%nat -> length a = 3%nat -> length e = 3%nat -> a <> e ->
  Forall (fun r => length r = 3%nat) data -> num <= Z.of_nat p + 1 ->
  exists c, fit_curve_knot_insertion working_class sv (curve_of (Z.of_nat p) (uniform (Z.of_nat p) (Z.of_nat p + 1)) (segment a e (Z.of_nat p + 1)) d) (mkData 3 (fin2 data)) num = Ok c.
Proof.
  intros HS Hp La Le Hne HD Hn; destruct (segment_param p a e 0 data Hp La Le Hne HD) as (pts & EP & HF).
  assert (LS : len (segment a e (Z.of_nat p + 1)) = Z.of_nat p + 1) by (apply segment_len; lia).
  destruct (round_fit sv p 1 _ pts HS ltac:(lia) ltac:(lia) LS (segment_3 a e _) HF) as (Q & EF & LQ & _).
  unfold fit_curve_knot_insertion, fit_curve_knot_insertion_fuel.
  rewrite (copy_bezier p (Z.of_nat p + 1) _ d _ ltac:(lia) ltac:(lia) LS eq_refl), LS; cbn [bind insertion_loop].
  change (cl_beh working_class) with (@beh_of_curve3 Exact); change (cl_set_ctrl working_class) with (@store_ctrl Exact).
  rewrite EP; cbn [bind]; rewrite EF; cbn [bind curve_of c_ctrl]; rewrite zlen_fin2.
  assert (LQ' : len Q = Z.of_nat p + 1) by (unfold len in *; lia); rewrite LQ'.
  destruct (Z.leb_spec num (Z.of_nat p + 1)); [eexists; reflexivity|lia].
Qed.
