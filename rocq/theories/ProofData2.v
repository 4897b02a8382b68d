(** Fits of boundary problems in exact arithmetic. *)
From Verif Require Import Py PyLemmas Num ModelKnots ModelBasis ModelCurve ModelSurface ModelInit ModelParam ModelFit ModelIO ModelData Spec SpecFit SpecParam SpecData MathKnots ProofNum ProofSpan ProofSpan2 ProofKnots ProofCurve ProofCurve2 ProofInit ProofFit ProofFit2 ProofFit3 ProofFit4 ProofFit5 ProofFit6 ProofFit8 ProofData.
Open Scope Z_scope.

Lemma copy_exact p U P c : (1 <= p)%nat -> clamped (Z.of_nat p) (len P) U ->
  c_degree c = Some (Z.of_nat p) -> c_ctrl c = Some (fin2 P) -> c_kv c = Some (fin U) ->
  copy_curve working_class c = Ok (curve_of (Z.of_nat p) U P 0).
Proof.
  intros Hp HC Hd Hc Hk; unfold copy_curve; rewrite Hd, Hc, Hk; unfold set_degree; destruct (Z.ltb_spec (Z.of_nat p) 1); [lia|]; cbn [bind].
  change (cl_set_ctrl working_class) with (@store_ctrl Exact); unfold store_ctrl; cbn [bind].
  unfold set_knot_vector; cbn [c_degree c_ctrl c_kv c_dim]; rewrite zlen_fin2, check_clamped by exact HC; reflexivity.
Qed.

(** fit_curve_fixed_ctrlpts: the result is the optimum for the parameters of the last round. *)
Lemma fixed_fit_exact sv p U P data c c' : least_squares sv -> (1 <= p)%nat -> tight (Z.of_nat p) (len P) U ->
  kn U (Z.of_nat p) = 0%R -> kn U (len P) = 1%R ->
  Forall (fun r => length r = 3%nat) data -> Forall (fun r => length r = 3%nat) P ->
  c_degree c = Some (Z.of_nat p) -> c_ctrl c = Some (fin2 P) -> c_kv c = Some (fin U) ->
  fit_curve_fixed_ctrlpts working_class sv c (mkData 3 (fin2 data)) = Ok c' ->
  exists Q P0 pts,
    c' = mkCurve (K := Exact) (Some (Z.of_nat p)) (Some (fin2 Q)) (Some (fin U)) 0 /\
    length Q = length P /\ Forall (fun r => length r = 3%nat) Q /\ nth 0 Q [] = nth 0 P [] /\ last Q [] = last P [] /\
    parameterize_curve (beh_of_curve3 (mkCurve (K := Exact) (Some (Z.of_nat p)) (Some (fin2 P0)) (Some (fin U)) 0)) (mkData 3 (fin2 data)) = Ok (fin2 pts) /\
    forall W, length W = length P -> nth 0 W [] = nth 0 P [] -> last W [] = last P [] -> (curve_err U p Q pts <= curve_err U p W pts)%R.
Proof.
  intros HS Hp HT H0 H1 HD H3 Hd Hc Hk H; unfold fit_curve_fixed_ctrlpts in H; rewrite Hd, Hc in H.
  bind_inv H; bind_inv H; bind_inv H; destruct (c_ctrl a1) as [P0|]; [|discriminate]; bind_inv H; bind_inv H.
  rewrite (copy_exact p U P c Hp (proj1 HT) Hd Hc Hk) in H; cbn [bind] in H.
  change (cl_beh working_class) with (@beh_of_curve3 Exact) in *; change (cl_set_ctrl working_class) with (@store_ctrl Exact) in *.
  match goal with E : parameterize_curve _ _ = Ok a3 |- _ => destruct (curve_rows_sorted _ _ _ HD E) as (pts1 & -> & _ & HF1) end.
  assert (R1 : Forall (fun r => length r = 4%nat /\ (kn U (Z.of_nat p) <= nth 3 r 0 <= kn U (len P))%R) pts1) by (rewrite H0, H1; exact HF1).
  destruct (single_fit_curve_exact sv (curve_of (Z.of_nat p) U P 0) p U P pts1 HS HT eq_refl eq_refl eq_refl H3 R1) as (P1 & EF & L1 & F1 & A1 & B1 & _).
  rewrite EF in H; cbn [bind curve_of c_degree c_kv c_dim] in H.
  match type of H with bind ?m _ = _ => destruct m as [out2|e|] eqn:EQ; cbn [bind] in H; [|discriminate..] end.
  destruct (curve_rows_sorted _ _ _ HD EQ) as (pts2 & -> & _ & HF2).
  assert (L1' : len P1 = len P) by (unfold len; congruence).
  assert (R2 : Forall (fun r => length r = 4%nat /\ (kn U (Z.of_nat p) <= nth 3 r 0 <= kn U (len P1))%R) pts2) by (rewrite L1', H0, H1; exact HF2).
  destruct (single_fit_curve_exact sv (curve_of (Z.of_nat p) U P1 0) p U P1 pts2 HS ltac:(rewrite L1'; exact HT) eq_refl eq_refl eq_refl F1 R2) as (Q & EF2 & L2 & F2 & A2 & B2 & HO).
  unfold curve_of in EF2; cbn [c_degree c_kv c_dim] in EF2; rewrite EF2 in H; injection H as <-.
  exists Q, P1, pts2; repeat split; try congruence; try assumption.
  intros W LW W0 W1; apply HO; congruence.
Qed.

Lemma triple_eq (a b c a' b' c' : R) : a = a' -> b = b' -> c = c' -> [a; b; c] = [a'; b'; c'].
Proof. intros -> -> ->; reflexivity. Qed.
Lemma segment_ends a b n : 2 <= n -> length a = 3%nat -> length b = 3%nat -> nth 0 (segment a b n) [] = a /\ last (segment a b n) [] = b.
Proof.
  intros Hn La Lb; destruct a as [|a0 [|a1 [|a2 [|]]]]; try discriminate La; destruct b as [|b0 [|b1 [|b2 [|]]]]; try discriminate Lb.
  assert (Hp : (0 < IZR (n - 1))%R) by (apply IZR_lt; lia).
  split.
  - unfold segment; rewrite nth_tab by lia; unfold lerp; cbn [nth Z.of_nat].
    replace (0 / IZR (n - 1))%R with 0%R by (field; lra); apply triple_eq; ring.
  - rewrite last_nth; unfold segment; rewrite tab_length, nth_tab by lia; unfold lerp; cbn [nth].
    replace (Z.of_nat (Z.to_nat n - 1)) with (n - 1) by lia; replace (IZR (n - 1) / IZR (n - 1))%R with 1%R by (field; lra).
    apply triple_eq; ring.
Qed.

Lemma set_init_exact (b : bproblem Exact) a e p n : bp_start b = Some (fin a) -> bp_end b = Some (fin e) -> length a = 3%nat -> length e = 3%nat ->
  bp_degree b = Some (Z.of_nat p) -> (1 <= p)%nat -> (if bp_adaptive b then n = Z.of_nat p + 1 else bp_num b = Some n) -> Z.of_nat p + 1 <= n ->
  bp_set_init working_class b =
    (mkBP (bp_degree b) (bp_data b) (bp_start b) (bp_end b) (bp_num b) (bp_adaptive b)
       (Some (curve_of (Z.of_nat p) (uniform (Z.of_nat p) n) (segment a e n) 0)) (bp_param b) (bp_fit b), Ok tt).
Proof.
  intros Hs He La Le Hd Hp Hn Hpn; unfold bp_set_init.
  assert (EI : forall m, Z.of_nat p + 1 <= m -> initialize_curve_opt working_class (Some (fin a)) (Some (fin e)) (Some (Z.of_nat p)) (Some m)
               = Ok (curve_of (Z.of_nat p) (uniform (Z.of_nat p) m) (segment a e m) 0)).
  { intros m Hm; exact (initialize_eq a e (Z.of_nat p) m ltac:(lia) Hm ltac:(unfold len; lia) ltac:(unfold len; lia)). }
  destruct (bp_adaptive b) eqn:EA.
  - subst n; rewrite Hd, Hs, He, EI by lia; reflexivity.
  - rewrite Hd, Hs, He, Hn, EI by lia; reflexivity.
Qed.

Lemma problem_fit_exact sv (b b' : bproblem Exact) a e p n data : least_squares sv ->
  bp_init b = None -> bp_start b = Some (fin a) -> bp_end b = Some (fin e) -> length a = 3%nat -> length e = 3%nat ->
  bp_degree b = Some (Z.of_nat p) -> (1 <= p)%nat -> bp_num b = Some n -> Z.of_nat p + 1 <= n ->
  (bp_adaptive b = true -> n <= Z.of_nat p + 65536) ->
  bp_data b = Some (mkData 3 (fin2 data)) -> Forall (fun r => length r = 3%nat) data ->
  bp_fit_run working_class sv b = (b', Ok tt) ->
  exists c Q U P0 pts rows,
    bp_fit b' = Some c /\ c = mkCurve (K := Exact) (Some (Z.of_nat p)) (Some (fin2 Q)) (Some (fin U)) 0 /\
    bp_num b' = Some (len Q) /\
    (if bp_adaptive b then exists k, len Q = Z.of_nat p + 2 ^ Z.of_nat k /\ n <= len Q /\ (k = 0%nat \/ Z.of_nat p + 2 ^ Z.of_nat (k - 1) < n)
     else len Q = n) /\
    single_point c (Fin 0 : Exact) = Ok (fin a) /\ single_point c (Fin 1 : Exact) = Ok (fin e) /\
    parameterize_curve (beh_of_curve3 (mkCurve (K := Exact) (Some (Z.of_nat p)) (Some (fin2 P0)) (Some (fin U)) 0)) (mkData 3 (fin2 data)) = Ok (fin2 pts) /\
    (forall W, length W = length Q -> nth 0 W [] = a -> last W [] = e -> (curve_err U p Q pts <= curve_err U p W pts)%R) /\
    parameterize_curve (beh_of_curve3 c) (mkData 3 (fin2 data)) = Ok rows /\ bp_param b' = Some (mkData 4 rows).
Proof.
  intros HS HI Hs He La Le Hd Hp Hn Hpn Hcap Hda H3 H.
  set (m := if bp_adaptive b then Z.of_nat p + 1 else n).
  assert (Hm : Z.of_nat p + 1 <= m) by (unfold m; destruct (bp_adaptive b); lia).
  destruct (fit_cases _ _ _ _ _ H) as (b1 & r1 & E1 & _ & _ & _ & _ & C); unfold start_curve in E1; rewrite HI in E1.
  rewrite (set_init_exact b a e p m Hs He La Le Hd Hp) in E1; [|unfold m; destruct (bp_adaptive b); [reflexivity|exact Hn]|exact Hm].
  injection E1 as <- <-; destruct C as [(N & _)|(init & _ & EI & C)]; [congruence|]; cbn [bp_init] in EI; injection EI as <-.
  destruct C as [(_ & N)|(c & kv & d & EF & Ek & Ed & Ef & _ & _ & C)]; [congruence|].
  destruct C as [(_ & N & _)|(_ & EN & EP)]; [congruence|].
  rewrite Hd in Ed; injection Ed as <-; rewrite Hda, Hn in EF; rewrite Hda in EP; cbn [parameterize_curve_opt dt_cols] in EP.
  destruct (segment_ends a e m ltac:(lia) La Le) as [SA SE].
  assert (LS : len (segment a e m) = m) by (apply segment_len; lia).
  destruct (parameterize_curve (cl_beh working_class c) (mkData 3 (fin2 data))) as [rows| |] eqn:ER; cbn [bind] in EP; [|destruct EP as [EP _]; discriminate..].
  destruct EP as [_ EP].
  assert (KEY : exists Q U P0 pts, c = mkCurve (K := Exact) (Some (Z.of_nat p)) (Some (fin2 Q)) (Some (fin U)) 0 /\
    tight (Z.of_nat p) (len Q) U /\ kn U (Z.of_nat p) = 0%R /\ kn U (len Q) = 1%R /\ Forall (fun r => length r = 3%nat) Q /\
    nth 0 Q [] = a /\ last Q [] = e /\ len U = len Q + Z.of_nat p + 1 /\
    (if bp_adaptive b then exists k, len Q = Z.of_nat p + 2 ^ Z.of_nat k /\ n <= len Q /\ (k = 0%nat \/ Z.of_nat p + 2 ^ Z.of_nat (k - 1) < n)
     else len Q = n) /\
    parameterize_curve (beh_of_curve3 (mkCurve (K := Exact) (Some (Z.of_nat p)) (Some (fin2 P0)) (Some (fin U)) 0)) (mkData 3 (fin2 data)) = Ok (fin2 pts) /\
    (forall W, length W = length Q -> nth 0 W [] = a -> last W [] = e -> (curve_err U p Q pts <= curve_err U p W pts)%R)).
  { destruct (bp_adaptive b) eqn:EA; unfold m in *.
    - cbn [fit_curve_knot_insertion_opt] in EF.
      edestruct (adaptive_fit sv p n data) with (10 := EF) (P := segment a e (Z.of_nat p + 1))
        as (k & Q & U & P0 & pts & -> & R1 & R2 & R3 & R4 & R5 & R6 & R7 & R8 & R9 & R10);
        [exact HS|exact Hp|exact (Hcap eq_refl)|exact H3|apply segment_3|unfold len in LS; lia|reflexivity|reflexivity|rewrite repeat_uniform by exact Hp; reflexivity|].
      assert (HK : 1 <= 2 ^ Z.of_nat k) by (pose proof (Z.pow_pos_nonneg 2 (Z.of_nat k)); lia).
      assert (EU : U = uniform (Z.of_nat p) (Z.of_nat p + 2 ^ Z.of_nat k)).
      { apply (nth_ext _ _ 0%R 0%R); [unfold uniform; rewrite tab_length; unfold len in *; lia|].
        intros i Hi; assert (Hi' : 0 <= Z.of_nat i < len U) by (unfold len; lia); specialize (R8 _ Hi'); unfold kn in R8; rewrite Nat2Z.id in R8; rewrite (nth_indep U 0%R (last U 0%R)) by exact Hi; rewrite R8.
        rewrite uniform_eq by lia; rewrite nth_tab by (unfold len in *; lia); rewrite R1.
        destruct (Z.leb_spec (Z.of_nat i) (Z.of_nat p)); [reflexivity|]; destruct (Z.leb_spec (Z.of_nat p + 2 ^ Z.of_nat k) (Z.of_nat i)); [reflexivity|].
        replace (Z.of_nat p + 2 ^ Z.of_nat k - Z.of_nat p) with (2 ^ Z.of_nat k) by lia; reflexivity. }
      pose proof (uniform_tight (Z.of_nat p) (2 ^ Z.of_nat k) ltac:(lia) HK) as UT.
      destruct (uniform_ends (Z.of_nat p) (2 ^ Z.of_nat k) ltac:(lia) HK) as [U0 U1].
      exists Q, U, P0, pts; split; [reflexivity|].
      split; [rewrite R1, EU; exact UT|]; split; [rewrite EU; exact U0|]; split; [rewrite R1, EU; exact U1|].
      split; [exact R6|]; split; [congruence|]; split; [congruence|]; split; [exact R7|]; split; [exists k; auto|]; split; [exact R9|].
      intros W LW W0 W1; apply R10; congruence.
    - cbn [fit_curve_fixed_ctrlpts_opt] in EF.
      assert (HN : 1 <= n - Z.of_nat p) by lia.
      assert (EN' : n = Z.of_nat p + (n - Z.of_nat p)) by lia.
      pose proof (uniform_tight (Z.of_nat p) (n - Z.of_nat p) ltac:(lia) HN) as UT.
      destruct (uniform_ends (Z.of_nat p) (n - Z.of_nat p) ltac:(lia) HN) as [U0 U1]; rewrite <- EN' in *.
      edestruct (fixed_fit_exact sv p (uniform (Z.of_nat p) n) (segment a e n) data) with (11 := EF) as (Q & P0 & pts & -> & R1 & R2 & R3 & R4 & R5 & R6);
        try reflexivity; try assumption; try (rewrite LS; assumption); [apply segment_3|].
      assert (LQ : len Q = n) by (unfold len in *; lia).
      exists Q, (uniform (Z.of_nat p) n), P0, pts; rewrite LQ; split; [reflexivity|]; split; [exact UT|]; split; [exact U0|]; split; [exact U1|].
      split; [exact R2|]; split; [congruence|]; split; [congruence|]; split; [unfold uniform, len; rewrite tab_length; lia|]; split; [reflexivity|].
      split; [exact R5|]; intros W LW W0 W1; apply R6; congruence. }
  destruct KEY as (Q & U & P0 & pts & Ec & UT & U0 & U1 & Q3 & QA & QE & LU & LQ & PP & OPT).
  exists c, Q, U, P0, pts, rows; split; [exact Ef|]; split; [exact Ec|].
  destruct (single_point_ends p U Q 0 UT Q3 U0 U1) as [SP0 SP1]; rewrite QA in SP0; rewrite QE in SP1.
  assert (Ekv : kv = fin U) by (rewrite Ec in Ek; cbn in Ek; congruence).
  split; [rewrite EN, Ekv; f_equal; change (zlen (fin U)) with (zlen (fin U)); rewrite zlen_fin; lia|].
  split; [exact LQ|]; split; [rewrite Ec; exact SP0|]; split; [rewrite Ec; exact SP1|]; split; [exact PP|]; split; [exact OPT|].
  split; [exact ER|exact EP].
Qed.
