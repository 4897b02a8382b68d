(** Boundary problems of moved data (model: ModelData.v), in exact arithmetic. *)
From Coq Require Import Permutation Sorted.
From Verif Require Import Py PyLemmas Num ModelKnots ModelBasis ModelCurve ModelSurface ModelInit ModelParam ModelFit ModelIO ModelData Spec SpecFit SpecParam SpecSmooth SpecWhole MathKnots
  ProofNum ProofSpan ProofSpan2 ProofKnots ProofCurve ProofInit ProofFit4 ProofFit8 ProofFit9 ProofSmooth5 ProofSmooth7 ProofSmooth8 ProofData6 ProofData2 ProofSmooth3 ProofParam ProofFit9 ProofParam6  ProofWhole.
Open Scope R_scope.

Section Problem.
Variables (sv sv' : solver Exact) (pb pb' : bproblem Exact) (a e : list R) (p : nat) (n : Z) (data : list (list R)) (M : nat -> nat -> R) (b : nat -> R).
Hypotheses (HS : least_squares sv) (HS' : least_squares sv') (HI : bp_init pb = None) (Hs : bp_start pb = Some (fin a)) (He : bp_end pb = Some (fin e))
  (La : length a = 3%nat) (Le : length e = 3%nat) (Hd : bp_degree pb = Some (Z.of_nat p)) (Hp : (2 <= p)%nat)
  (Hn : bp_num pb = Some n) (Hpn : (Z.of_nat p + 1 <= n)%Z)
  (Hda : bp_data pb = Some (mkData 3 (fin2 data))) (HD : Forall (fun r => length r = 3%nat) data) (HM : orthogonal M)
  (HI' : bp_init pb' = None) (Hs' : bp_start pb' = Some (fin (affine M b a))) (He' : bp_end pb' = Some (fin (affine M b e)))
  (Hd' : bp_degree pb' = Some (Z.of_nat p)) (Hn' : bp_num pb' = Some n) (Had : bp_adaptive pb' = bp_adaptive pb)
  (Hda' : bp_data pb' = Some (mkData 3 (fin2 (map (affine M b) data))))
  (Hbig : bp_adaptive pb = true -> (n <= Z.of_nat p + 65536)%Z)
  (HE : dense_segment p n (bp_adaptive pb) a e data).
Lemma bp_pair : let c := bp_fit_run working_class sv pb in let c' := bp_fit_run working_class sv' pb' in
  snd c' = snd c /\ bp_num (fst c') = bp_num (fst c) /\
  (snd c = Ok tt -> exists Q rows rows', (let U := uniform (Z.of_nat p) (len Q) in
     bp_fit (fst c) = Some (curve_of (Z.of_nat p) U Q 0) /\ bp_fit (fst c') = Some (curve_of (Z.of_nat p) U (map (affine M b) Q) 0)) /\
     bp_param (fst c) = Some (mkData 4 (fin2 rows)) /\ bp_param (fst c') = Some (mkData 4 (fin2 rows')) /\ Permutation rows' (map (moved M b) rows)).
Proof.
  cbv zeta.
  pose proof (fit_run_eq sv pb a e p n data HI Hs He La Le Hd Hp Hn Hpn Hda) as R1.
  pose proof (fit_run_eq sv' pb' (affine M b a) (affine M b e) p n (map (affine M b) data) HI' Hs' He' (affine_length M b a) (affine_length M b e) Hd' Hp Hn' Hpn Hda') as R2.
  pose proof (fit_ok sv pb a e p n data HI Hs He La Le Hd Hp Hn Hpn Hda) as K1.
  pose proof (fit_ok sv' pb' (affine M b a) (affine M b e) p n (map (affine M b) data) HI' Hs' He' (affine_length M b a) (affine_length M b e) Hd' Hp Hn' Hpn Hda') as K2.
  cbv zeta in R1, R2, K1, K2; rewrite Had in R2, K2; rewrite !segment_affine in R2, K2.
  assert (OUT : let m := if bp_adaptive pb then (Z.of_nat p + 1)%Z else n in
    let fit sv P data := if bp_adaptive pb then fit_curve_knot_insertion working_class sv (curve_of (Z.of_nat p) (uniform (Z.of_nat p) m) P 0) (mkData 3 (fin2 data)) n
      else fit_curve_fixed_ctrlpts working_class sv (curve_of (Z.of_nat p) (uniform (Z.of_nat p) m) P 0) (mkData 3 (fin2 data)) in
    (fit sv (segment a e m) data = Err ValueError /\ fit sv' (map (affine M b) (segment a e m)) (map (affine M b) data) = Err ValueError) \/
    exists Q, fit sv (segment a e m) data = Ok (curve_of (Z.of_nat p) (uniform (Z.of_nat p) (len Q)) Q 0) /\
      fit sv' (map (affine M b) (segment a e m)) (map (affine M b) data) = Ok (curve_of (Z.of_nat p) (uniform (Z.of_nat p) (len Q)) (map (affine M b) Q) 0) /\
      (Z.of_nat p + 1 <= len Q)%Z /\ Forall (fun r => length r = 3%nat) Q).
  { cbv zeta; unfold dense_segment in HE; destruct (bp_adaptive pb).
    - destruct (adaptive_pair sv sv' p data M b HS HS' Hp HD HM (segment a e (Z.of_nat p + 1)) n 0 0 (Hbig eq_refl) (segment_3 a e _)) as [H|(Q & A & B & C & D & _)].
      + pose proof (segment_len a e (Z.of_nat p + 1) ltac:(lia)); unfold len in *; lia.
      + exact HE.
      + left; exact H.
      + right; exists Q; auto.
    - cbv zeta in HE.
      assert (LS : len (segment a e n) = n) by (apply segment_len; lia).
      destruct (segment_ends a e n ltac:(lia) La Le) as [A0 A1].
      destruct (fixed_pair sv sv' p data M b HS HS' Hp HD HM n (segment a e n) 0 0 Hpn LS (segment_3 a e _)) as [H|(Q & A & B & C & D)].
      + rewrite A0, A1; exact HE.
      + left; exact H.
      + right; exists Q; assert (LQ : len Q = n) by (unfold len in *; lia); rewrite LQ; auto. }
  cbv zeta in OUT.
  destruct OUT as [[E1 E2]|(Q & E1 & E2 & LQ & FQ)].
  - rewrite E1 in R1; rewrite E2 in R2; cbn [bind] in R1, R2; rewrite R1, R2; cbn [fst snd bp_num]; split; [reflexivity|]; split; [congruence|discriminate].
  - specialize (K1 Q E1 LQ); specialize (K2 (map (affine M b) Q)); rewrite len_moved in K2; specialize (K2 E2 LQ); rewrite K1, K2.
    destruct (uniform_data p (len Q) ltac:(lia) LQ) as (UT & US & U0 & U1).
    destruct (Z.leb_spec (len Q) 3); [cbn [fst snd bp_num]; split; [reflexivity|]; split; [congruence|discriminate]|].
    destruct (project_pair p data M b Hp HD HM _ Q (proj1 UT) US U0 U1 FQ) as [[X1 X2]|(x & x' & X1 & X2 & HX & _)]; rewrite X1, X2; cbn [fst snd bp_num bp_fit bp_param].
    + split; [reflexivity|]; split; [reflexivity|discriminate].
    + split; [reflexivity|]; split; [reflexivity|]; intros _; exists Q, x, x'; split; [split; reflexivity|]; split; [reflexivity|]; split; [reflexivity|exact HX].
Qed.
End Problem.

(** Data sampled from the first segment are dense enough. *)
Lemma lerp_inj a e u v : length a = 3%nat -> length e = 3%nat -> a <> e -> lerp a e u = lerp a e v -> u = v.
Proof.
  intros La Le Hne H; destruct a as [|a0 [|a1 [|a2 [|]]]], e as [|e0 [|e1 [|e2 [|]]]]; try discriminate; unfold lerp in H; cbn in H; injection H as H0 H1 H2.
  destruct (Req_dec u v) as [|Huv]; [assumption|exfalso; apply Hne].
  assert (K : forall x y, x + u * (y - x) = x + v * (y - x) -> x = y).
  { intros x y K; assert (Z : (u - v) * (y - x) = 0) by lra; apply Rmult_integral in Z; destruct Z; lra. }
  rewrite (K a0 e0), (K a1 e1), (K a2 e2) by assumption; reflexivity.
Qed.
Lemma sampled_dense p a e data ks m : (2 <= p)%nat -> length a = 3%nat -> length e = 3%nat -> a <> e ->
  Forall (fun r => length r = 3%nat) data ->
  (forall r, In r data -> exists k, (0 <= k < 2 * (Z.of_nat p + 1))%Z /\ r = lerp a e (IZR k / IZR (2 * (Z.of_nat p + 1) - 1))) ->
  length ks = S p -> StronglySorted Z.lt ks -> Forall (fun k => (0 <= k < 2 * (Z.of_nat p + 1))%Z /\ In (lerp a e (IZR k / IZR (2 * (Z.of_nat p + 1) - 1))) data) ks ->
  dense_segment p (Z.of_nat p + 1) m a e data.
Proof.
  intros Hp La Le Hne HD HK Lk Sk Fk; set (N := IZR (2 * (Z.of_nat p + 1) - 1)) in *; assert (HN : 0 < N) by (apply IZR_lt; lia).
  set (U := uniform (Z.of_nat p) (Z.of_nat p + 1)); set (S0 := segment a e (Z.of_nat p + 1)).
  assert (LS : len S0 = (Z.of_nat p + 1)%Z) by (apply segment_len; lia).
  assert (FS : Forall (fun r => length r = 3%nat) S0) by apply segment_3.
  destruct (uniform_data p (Z.of_nat p + 1) ltac:(lia) ltac:(lia)) as (UT & US & U0 & U1); fold U in UT, US, U0, U1.
  pose proof (segment_sampled p a e data Hp La Le HK) as SS; fold S0 in SS.
  destruct (sampled_param p data Hp HD S0 0 SS) as (pts & EP & FP & ERR & HT).
  assert (EN : enough p (Z.of_nat p + 1) U pts).
  { intros s Hs; assert (s = Z.of_nat p) by lia; subst s; exists (map (fun k => IZR k / N) ks); split; [rewrite map_length; exact Lk|]; split.
    - clear -Sk HN; induction Sk as [|k l _ IH F]; cbn [map]; constructor; [exact IH|].
      apply Forall_forall; intros y Hy; apply in_map_iff in Hy; destruct Hy as (j & <- & Hj); rewrite Forall_forall in F.
      apply Rmult_lt_compat_r; [apply Rinv_0_lt_compat; exact HN|apply IZR_lt, F; exact Hj].
    - apply Forall_forall; intros u Hu; apply in_map_iff in Hu; destruct Hu as (k & <- & Hk); rewrite Forall_forall in Fk; destruct (Fk k Hk) as [Bk Ik].
      assert (B : forall k, (0 <= k < 2 * (Z.of_nat p + 1))%Z -> 0 <= IZR k / N <= 1) by (intros; apply samples_range; lia).
      rewrite U0, U1; split; [apply B; exact Bk|].
      destruct (HT _ Ik) as (l & Bl & EX & IN); exists (lerp a e (IZR k / N) ++ [IZR l / N]); split; [exact IN|].
      assert (EX' : lerp a e (IZR l / N) = lerp a e (IZR k / N)) by (rewrite <- EX; symmetry; apply segment_xyz; try assumption; try lia; apply B; exact Bl).
      apply lerp_inj in EX'; try assumption; rewrite <- EX'; reflexivity. }
  assert (EX : forall x, projected p U S0 data x -> x = pts) by (intros x E; unfold projected in E; apply fin2_inj; apply ok_inj; rewrite <- E; exact EP).
  assert (EQ : forall Q, best_fit p U S0 pts Q -> Q = S0).
  { intros Q (LQ & FQ & Q0 & Q1 & HB); assert (LQ' : len Q = (Z.of_nat p + 1)%Z) by (unfold len in *; lia).
    apply (curve_fit_unique p U Q S0 pts (nth 0 S0 []) (last S0 [])); rewrite ?LQ'; try assumption; try reflexivity; try lia; [apply UT|intros Y LY; apply HB; congruence|].
    change (curve_err (uniform (Z.of_nat p) (Z.of_nat p + 1)) p S0 pts) with (curve_err U p S0 pts) in ERR; rewrite ERR.
    unfold curve_err; clear; induction pts as [|r l IH]; cbn [map fold_right]; [lra|]; pose proof (point_err_nonneg (curve_xyz U p Q (nth 3 r 0)) r); lra. }
  unfold dense_segment; cbv zeta; fold U; fold S0; destruct m.
  - intros P x HV HX; assert (P = S0) as ->.
    { clear HX; induction HV as [|Pa ya Qa Pb _ IH _ (LQa & _) HLa _]; [reflexivity|exfalso]; subst Pa; unfold len in *; lia. }
    rewrite LS in HX |- *; fold U in HX |- *; rewrite (EX x HX); exact EN.
  - intros x HX; rewrite (EX x HX); split; [exact EN|]; intros Q y HQ HY; rewrite (EQ Q HQ) in HY; rewrite (EX y HY); split; [exact EN|].
    intros R z HR HZ; rewrite (EQ R HR) in HZ; rewrite (EX z HZ); exact EN.
Qed.
