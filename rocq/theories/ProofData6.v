(** Outcomes of boundary fits (model: ModelData.v), in exact arithmetic. *)
From Verif Require Import Py PyLemmas Num ModelKnots ModelBasis ModelCurve ModelSurface ModelInit ModelParam ModelFit ModelIO ModelData Spec SpecFit SpecParam SpecData MathKnots
  ProofNum ProofSpan ProofSpan2 ProofKnots ProofCurve ProofCurve2 ProofInit ProofParam ProofFit ProofFit2 ProofFit3 ProofFit4 ProofFit5 ProofFit6 ProofFit7 ProofFit8
  ProofData ProofData2 ProofParam5 ProofParam6 ProofLinear ProofFit9.
Open Scope Z_scope.

Section Problem.
Variables (sv : solver Exact) (b : bproblem Exact) (a e : list R) (p : nat) (n : Z) (data : list (list R)).
Hypotheses (HS : least_squares sv) (HI : bp_init b = None) (Hs : bp_start b = Some (fin a)) (He : bp_end b = Some (fin e))
  (La : length a = 3%nat) (Le : length e = 3%nat) (Hd : bp_degree b = Some (Z.of_nat p)) (Hp : (2 <= p)%nat)
  (Hn : bp_num b = Some n) (Hpn : Z.of_nat p + 1 <= n)
  (Hda : bp_data b = Some (mkData 3 (fin2 data))) (HD : Forall (fun r => length r = 3%nat) data).
Let m := if bp_adaptive b then Z.of_nat p + 1 else n.
Let init := curve_of (Z.of_nat p) (uniform (Z.of_nat p) m) (segment a e m) 0.
Let b1 := mkBP (bp_degree b) (bp_data b) (bp_start b) (bp_end b) (bp_num b) (bp_adaptive b) (Some init) (bp_param b) (bp_fit b).
Let fit := if bp_adaptive b then fit_curve_knot_insertion working_class sv init (mkData 3 (fin2 data)) n
           else fit_curve_fixed_ctrlpts working_class sv init (mkData 3 (fin2 data)).
Lemma m_big : Z.of_nat p + 1 <= m.
Proof. unfold m; destruct (bp_adaptive b); lia. Qed.
Lemma fit_run_eq : bp_fit_run working_class sv b =
  match (let* c := fit in match c_kv c with Some kv => Ok (c, zlen kv - Z.of_nat p - 1) | None => Err TypeError end) with
  | Ok (c, k) =>
      andthen (bp_set_num (mkBP (bp_degree b) (bp_data b) (bp_start b) (bp_end b) (bp_num b) (bp_adaptive b) (Some init) (bp_param b) (Some c)) (VInt k))
        (bp_parameterize working_class)
  | Err x => (b1, Err x)
  | Diverge => (b1, Diverge)
  end.
Proof.
  unfold bp_fit_run; rewrite HI.
  rewrite (set_init_exact b a e p m Hs He La Le Hd ltac:(lia)); [|unfold m; destruct (bp_adaptive b); [reflexivity|exact Hn]|apply m_big].
  cbn [andthen bp_init bp_adaptive bp_data bp_num bp_degree bp_start bp_end bp_param bp_fit]; fold init; fold b1.
  rewrite Hda, Hn, Hd; cbn [fit_curve_knot_insertion_opt fit_curve_fixed_ctrlpts_opt]; unfold fit; unfold b1; rewrite Hda, Hn, Hd.
  destruct (bp_adaptive b); match goal with |- context [bind ?x _] => destruct x as [c|x0|] end; cbn [bind]; try reflexivity; destruct (c_kv c); reflexivity.
Qed.
Lemma fit_ok Q : fit = Ok (curve_of (Z.of_nat p) (uniform (Z.of_nat p) (len Q)) Q 0) -> Z.of_nat p + 1 <= len Q ->
  let b2 k par := mkBP (bp_degree b) (bp_data b) (bp_start b) (bp_end b) k (bp_adaptive b) (Some init) par
                    (Some (curve_of (Z.of_nat p) (uniform (Z.of_nat p) (len Q)) Q 0)) in
  bp_fit_run working_class sv b =
    if len Q <=? 3 then (b2 (bp_num b) (bp_param b), Err ValueError)
    else match parameterize_curve (beh_of_curve3 (curve_of (Z.of_nat p) (uniform (Z.of_nat p) (len Q)) Q 0)) (mkData 3 (fin2 data)) with
         | Ok rows => (b2 (Some (len Q)) (Some (mkData 4 rows)), Ok tt)
         | Err x => (b2 (Some (len Q)) (bp_param b), Err x)
         | Diverge => (b2 (Some (len Q)) (bp_param b), Diverge)
         end.
Proof.
  intros EF HQ; cbv zeta; rewrite fit_run_eq, EF; cbn [bind curve_of c_kv]; rewrite zlen_fin.
  assert (LU : len (uniform (Z.of_nat p) (len Q)) = len Q + Z.of_nat p + 1) by (unfold uniform, len; rewrite tab_length; lia).
  rewrite LU; replace (len Q + Z.of_nat p + 1 - Z.of_nat p - 1) with (len Q) by lia.
  unfold bp_set_num; cbn [to_int bind]; destruct (Z.leb_spec (len Q) 3); cbn [finish andthen bp_degree bp_data bp_start bp_end bp_num bp_adaptive bp_init bp_param bp_fit]; [reflexivity|].
  unfold bp_parameterize; cbn [bp_degree bp_data bp_start bp_end bp_num bp_adaptive bp_init bp_param bp_fit].
  unfold parameterize_curve_opt; rewrite Hda; change (cl_beh working_class) with (@beh_of_curve3 Exact).
  destruct (parameterize_curve _ _); cbn [bind finish dt_cols]; reflexivity.
Qed.
Lemma fit_outcome : (bp_adaptive b = true -> n <= Z.of_nat p + 65536) ->
  (exists Q, fit = Ok (curve_of (Z.of_nat p) (uniform (Z.of_nat p) (len Q)) Q 0) /\ Z.of_nat p + 1 <= len Q /\ Forall (fun r => length r = 3%nat) Q) \/ fit = Err ValueError.
Proof.
  intros Hbig; unfold fit, init, m; destruct (bp_adaptive b).
  - destruct (adaptive_outcome sv p n data (segment a e (Z.of_nat p + 1)) 0 HS Hp (Hbig eq_refl) HD (segment_3 a e _)) as [(k & Q & E & LQ & F & _)|E].
    + pose proof (segment_len a e (Z.of_nat p + 1) ltac:(lia)); unfold len in *; lia.
    + left; exists Q; split; [exact E|]; split; [|exact F]; pose proof (Z.pow_pos_nonneg 2 (Z.of_nat k)); lia.
    + right; exact E.
  - destruct (fixed_outcome sv p n (segment a e n) 0 data HS Hp Hpn (segment_len a e n ltac:(lia)) HD (segment_3 a e _)) as [(Q & E & LQ & F)|E].
    + left; exists Q; rewrite LQ; auto.
    + right; exact E.
Qed.
Lemma bp_outcome : (bp_adaptive b = true -> n <= Z.of_nat p + 65536) ->
  snd (bp_fit_run working_class sv b) = Ok tt \/ snd (bp_fit_run working_class sv b) = Err ValueError.
Proof.
  intros Hbig; destruct (fit_outcome Hbig) as [(Q & E & LQ & F)|E].
  - rewrite (fit_ok Q E LQ); destruct (Z.leb_spec (len Q) 3); [right; reflexivity|].
    destruct (uniform_data p (len Q) ltac:(lia) LQ) as (UT & US & U0 & U1).
    destruct (param_outcome p _ Q 0 data (proj1 UT) US U0 U1 Hp F HD) as [(pts & EP & _)|EP]; rewrite EP; [left|right]; reflexivity.
  - right; rewrite fit_run_eq, E; reflexivity.
Qed.
Lemma bp_closed r : e = a -> In r data -> (1/100000 < distR a r)%R -> bp_fit_run working_class sv b = (b1, Err ValueError).
Proof.
  intros Ea Hr Hfar.
  enough (E : fit = Err ValueError) by (rewrite fit_run_eq, E; reflexivity).
  assert (HC : forall d, parameterize_curve (beh_of_curve3 (curve_of (Z.of_nat p) (uniform (Z.of_nat p) (Z.of_nat p + 1)) (segment a a (Z.of_nat p + 1)) d)) (mkData 3 (fin2 data)) = Err ValueError).
  { intros d; rewrite segment_point by (lia || exact La).
    assert (LS : len (repeat a (S p)) = Z.of_nat p + 1) by (unfold len; rewrite repeat_length; lia).
    destruct (uniform_data p (Z.of_nat p + 1) ltac:(lia) ltac:(lia)) as (UT & US & U0 & U1).
    apply (point_param p _ a (S p) d data r); rewrite ?Nat2Z.inj_succ; try assumption; apply UT. }
  assert (HA : forall d k, fit_curve_knot_insertion working_class sv (curve_of (Z.of_nat p) (uniform (Z.of_nat p) (Z.of_nat p + 1)) (segment a a (Z.of_nat p + 1)) d) (mkData 3 (fin2 data)) k = Err ValueError).
  { intros d k; unfold fit_curve_knot_insertion, fit_curve_knot_insertion_fuel.
    assert (LS : len (segment a a (Z.of_nat p + 1)) = Z.of_nat p + 1) by (apply segment_len; lia).
    rewrite (copy_bezier p (Z.of_nat p + 1) _ d _ ltac:(lia) ltac:(lia) LS eq_refl), LS; cbn [bind insertion_loop].
    change (cl_beh working_class) with (@beh_of_curve3 Exact); rewrite HC; reflexivity. }
  unfold fit, init, m; rewrite Ea; destruct (bp_adaptive b); [apply HA|].
  unfold fit_curve_fixed_ctrlpts; cbn [curve_of c_ctrl c_degree].
  assert (LN : len (segment a a n) = n) by (apply segment_len; lia).
  destruct (ends_of (segment a a n) ltac:(lia)) as [E0 E1]; destruct (segment_ends a a n ltac:(lia) La La) as [A0 A1]; rewrite E0, E1, A0, A1; cbn [bind].
  rewrite (init_bezier _ _ p ltac:(lia) La La); cbn [bind curve_of c_ctrl]; rewrite HA; reflexivity.
Qed.
Lemma bp_sampled : (3 <= p)%nat -> n = Z.of_nat p + 1 ->
  (forall r, In r data -> exists k, 0 <= k < 2 * (Z.of_nat p + 1) /\ r = lerp a e (IZR k / IZR (2 * (Z.of_nat p + 1) - 1))) ->
  exists b' c rows, bp_fit_run working_class sv b = (b', Ok tt) /\ bp_fit b' = Some c /\ bp_num b' = Some n /\
    single_point c (Fin 0 : Exact) = Ok (fin a) /\ single_point c (Fin 1 : Exact) = Ok (fin e) /\
    bp_param b' = Some (mkData 4 (fin2 rows)) /\ length rows = length data /\
    (forall r, In r data -> exists u, (0 <= u <= 1)%R /\ single_point c (Fin u : Exact) = Ok (fin r) /\ In (r ++ [u]) rows).
Proof.
  intros Hp3 En HK.
  pose proof (segment_sampled p a e data Hp La Le HK) as SS.
  assert (LS : len (segment a e (Z.of_nat p + 1)) = Z.of_nat p + 1) by (apply segment_len; lia).
  destruct (segment_ends a e (Z.of_nat p + 1) ltac:(lia) La Le) as [A0 A1].
  assert (EF : exists Q, fit = Ok (curve_of (Z.of_nat p) (uniform (Z.of_nat p) (Z.of_nat p + 1)) Q 0) /\ sampled p data Q /\ nth 0 Q [] = a /\ last Q [] = e).
  { unfold fit, init, m; rewrite En; destruct (bp_adaptive b).
    - destruct (sampled_adaptive sv p data HS Hp HD _ 0 (Z.of_nat p + 1) ltac:(lia) SS) as (Q & E & SQ & B0 & B1); exists Q; split; [exact E|]; rewrite B0, B1; auto.
    - destruct (sampled_fixed sv p data HS Hp HD (segment a e (Z.of_nat p + 1)) 0 LS (segment_3 a e _)) as (Q & E & SQ & B0 & B1);
        [rewrite A0, A1; exact SS|]; exists Q; split; [exact E|]; rewrite B0, B1; auto. }
  destruct EF as (Q & EF & SQ & Q0 & Q1).
  destruct (sampled_param p data Hp HD Q 0 SQ) as (pts & EP & HF & _ & HT).
  destruct SQ as (LQ & F3 & HQ).
  pose proof (fit_ok Q) as G; rewrite LQ in G; specialize (G EF ltac:(lia)); cbv zeta in G.
  destruct (Z.leb_spec (Z.of_nat p + 1) 3); [lia|]; rewrite EP in G.
  eexists; exists (curve_of (Z.of_nat p) (uniform (Z.of_nat p) (Z.of_nat p + 1)) Q 0), pts; split; [exact G|].
  cbn [bp_fit bp_num bp_param]; split; [reflexivity|]; split; [rewrite En; reflexivity|].
  destruct (uniform_data p (Z.of_nat p + 1) ltac:(lia) ltac:(lia)) as (UT & US & U0 & U1); rewrite <- LQ in UT, US, U0, U1.
  destruct (single_point_ends p _ Q 0 UT F3 U0 U1) as [E0 E1]; rewrite LQ in E0, E1.
  rewrite E0, E1, Q0, Q1; split; [reflexivity|]; split; [reflexivity|]; split; [reflexivity|].
  destruct (param_outcome p _ Q 0 data (proj1 UT) US U0 U1 Hp F3 HD) as [(pts' & EP' & LP' & _)|EP']; rewrite LQ, EP in EP'; [|discriminate].
  apply ok_inj, fin2_inj in EP'; subst pts'; split; [exact LP'|].
  intros r Hr; destruct (HT r Hr) as (k & Hk & EX & IK); eexists; split; [apply (samples_range (Z.of_nat p + 1) k); lia|]; split; [|exact IK].
  rewrite (bezier_point p Hp Q 0 _ LQ F3) by (apply samples_range; lia); do 2 f_equal; exact EX.
Qed.
End Problem.
