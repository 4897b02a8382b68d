(** Fits of boundary problems on binary64 numbers, for any least-squares solver. *)
From Coq Require Import Reals Lra Lia ZArith List Floats Permutation Sorted.
From Flocq Require Import Core.Core IEEE754.BinarySingleNaN IEEE754.PrimFloat.
From Verif Require Import Py PyLemmas Num ModelKnots ModelBasis ModelCurve ModelSurface ModelInit ModelParam ModelFit ModelIO ModelData Spec SpecFit SpecParam SpecData SpecB64
  MathKnots ProofNum ProofKnots ProofFit4 ProofFit5 ProofFit6 ProofFit8 ProofData ProofB64 ProofB64Basis ProofB64Knots ProofB64Span ProofB64Sort ProofB64Guess ProofB64Init2 ProofB64Adapt ProofB64Ends.
Import ListNotations.
Open Scope R_scope.

Lemma ends_knots p (U : list PrimFloat.float) : len U = (2 * Z.of_nat p + 2)%Z ->
  (forall i, (0 <= i <= Z.of_nat p)%Z -> kn (values U) i = 0) -> (forall i, (Z.of_nat p + 1 <= i <= Z.of_nat p + 1 + Z.of_nat p)%Z -> kn (values U) i = 1) ->
  values U = repeat 0 (S p) ++ repeat 1 (S p).
Proof.
  intros L K0 K1; rewrite <- len_values in L; apply (nth_ext _ _ 0 0).
  - rewrite app_length, !repeat_length; unfold len in L; lia.
  - intros i Hi; assert (E : nth i (values U) 0 = kn (values U) (Z.of_nat i)).
    { unfold kn; rewrite Nat2Z.id; apply nth_indep; exact Hi. }
    rewrite E; unfold len in L; destruct (Nat.le_gt_cases (S p) i) as [G|G].
    + rewrite K1 by lia; rewrite app_nth2; rewrite repeat_length; [|exact G]; symmetry; apply (repeat_spec (S p)), nth_In; rewrite repeat_length; lia.
    + rewrite K0 by lia; rewrite app_nth1; [|rewrite repeat_length; exact G]; symmetry; apply nth_repeat.
Qed.
Lemma set_init64 (b : bproblem Binary64) (a e : list PrimFloat.float) p n M : bp_start b = Some a -> bp_end b = Some e -> length a = 3%nat -> length e = 3%nat ->
  within (- M) M a -> within (- M) M e -> 0 <= M <= 2 ^ 1000 ->
  bp_degree b = Some (Z.of_nat p) -> (1 <= p)%nat -> (if bp_adaptive b then n = (Z.of_nat p + 1)%Z else bp_num b = Some n) -> (Z.of_nat p + 1 <= n)%Z -> (n <= 2 ^ 49)%Z ->
  exists (U : list PrimFloat.float) (P : list (list PrimFloat.float)),
  bp_set_init working_class b =
    (mkBP (bp_degree b) (bp_data b) (bp_start b) (bp_end b) (bp_num b) (bp_adaptive b)
       (Some (mkCurve (K := Binary64) (Some (Z.of_nat p)) (Some P) (Some U) 0)) (bp_param b) (bp_fit b), Ok tt) /\
  generate_uniform (Z.of_nat p) n = Ok (U : list Binary64) /\ len P = n /\ Forall (fun r => length r = 3%nat) P /\
  values (nth 0 P []) = values a /\ last P [] = e.
Proof.
  intros Hs He La Le Wa We HM Hd Hp Hn Hpn Hb; unfold bp_set_init.
  destruct (initial_curve_b64 a e (Z.of_nat p) n M ltac:(lia) Hpn Hb ltac:(unfold len; lia) ltac:(unfold len; lia) Wa We HM) as (U & P & EI & EU & LP & NP & A & B & _).
  exists U, P; split; [|split; [exact EU|]; split; [exact LP|]; split].
  - assert (EO : initialize_curve_opt working_class (Some (a : list Binary64)) (Some (e : list Binary64)) (Some (Z.of_nat p)) (Some n)
               = Ok (mkCurve (K := Binary64) (Some (Z.of_nat p)) (Some P) (Some U) 0)) by exact EI.
    destruct (bp_adaptive b) eqn:EA.
    + subst n; rewrite Hd, Hs, He; match goal with |- finish b (bind ?m _) = _ => replace m with (Ok (mkCurve (K := Binary64) (Some (Z.of_nat p)) (Some P) (Some U) 0)) by (symmetry; exact EO) end; reflexivity.
    + rewrite Hd, Hs, He, Hn; match goal with |- finish b (bind ?m _) = _ => replace m with (Ok (mkCurve (K := Binary64) (Some (Z.of_nat p)) (Some P) (Some U) 0)) by (symmetry; exact EO) end; reflexivity.
  - apply Forall_forall; intros r Hr; apply (In_nth _ _ []) in Hr; destruct Hr as (i & Hi & <-).
    specialize (NP (Z.of_nat i) ltac:(unfold len in LP; lia)); rewrite Nat2Z.id in NP; exact (proj1 (proj2 (near_values _ _ _ NP))).
  - rewrite A, B, !firstn_all2; [split; reflexivity|lia|unfold values; rewrite map_length; lia].
Qed.

Lemma problem_fit64 sv (b b' : bproblem Binary64) (a e : list PrimFloat.float) p n M (data : list (list PrimFloat.float)) :
  bp_init b = None -> bp_start b = Some a -> bp_end b = Some e -> length a = 3%nat -> length e = 3%nat ->
  within (- M) M a -> within (- M) M e -> 0 <= M <= 2 ^ 1000 ->
  bp_degree b = Some (Z.of_nat p) -> (1 <= p)%nat -> bp_num b = Some n -> (Z.of_nat p + 1 <= n)%Z ->
  (if bp_adaptive b then n <= Z.of_nat p + 65536 /\ Z.of_nat p < 2 ^ 49 else n <= 2 ^ 49)%Z ->
  bp_data b = Some (mkData (K := Binary64) 3 data) -> Forall (fun r => length r = 3%nat /\ Forall finite64 r) data ->
  bp_fit_run working_class sv b = (b', Ok tt) ->
  exists (c : curve_obj Binary64) (Q : list (list PrimFloat.float)) (U : list PrimFloat.float) (rows : list (list PrimFloat.float)) (us : list PrimFloat.float),
    bp_fit b' = Some c /\ c = mkCurve (K := Binary64) (Some (Z.of_nat p)) (Some Q) (Some U) 0 /\ bp_num b' = Some (len Q) /\
    (if bp_adaptive b then exists k, (len Q = Z.of_nat p + 2 ^ Z.of_nat k)%Z /\ (n <= len Q)%Z /\ (k = 0%nat \/ (Z.of_nat p + 2 ^ Z.of_nat (k - 1) < n)%Z) /\
       Forall finite64 U /\ (len U = len Q + Z.of_nat p + 1)%Z /\
       (forall i, (0 <= i < len U)%Z ->
          kn (values U) i = if (i <=? Z.of_nat p)%Z then 0 else if (len Q <=? i)%Z then 1 else IZR (i - Z.of_nat p) / IZR (2 ^ Z.of_nat k))
     else len Q = n /\ generate_uniform (Z.of_nat p) n = Ok (U : list Binary64)) /\
    Forall (fun r => length r = 3%nat) Q /\ values (nth 0 Q []) = values a /\ last Q [] = e /\
    bp_param b' = Some (mkData (K := Binary64) 4 rows) /\
    Forall2 (fun (r : list PrimFloat.float) (u : PrimFloat.float) => curve_inversion (beh_of_curve3 c) (r : list Binary64) lit_1em5 lit_1em5 100 = Ok (u : Binary64) /\ unit64 u) data us /\
    Permutation rows (map (fun t => fst t ++ [snd t]) (combine data us)) /\
    StronglySorted (fun a b => lex_le [3%nat; 0%nat; 1%nat; 2%nat] (values a) (values b)) rows.
Proof.
  intros HI Hs He La Le Wa We HM Hd Hp Hn Hpn Hcap Hda H3 H.
  set (m := if bp_adaptive b then (Z.of_nat p + 1)%Z else n).
  assert (Hm : (Z.of_nat p + 1 <= m)%Z) by (unfold m; destruct (bp_adaptive b); lia).
  assert (Hm2 : (m <= 2 ^ 49)%Z) by (unfold m; destruct (bp_adaptive b); lia).
  destruct (fit_cases _ _ _ _ _ H) as (b1 & r1 & E1 & _ & _ & _ & _ & C); unfold start_curve in E1; rewrite HI in E1.
  destruct (set_init64 b a e p m M Hs He La Le Wa We HM Hd Hp ltac:(unfold m; destruct (bp_adaptive b); [reflexivity|exact Hn]) Hm Hm2)
    as (U0 & P & EI0 & EU & LP & P3 & PA & PE).
  rewrite EI0 in E1.
  injection E1 as <- <-; destruct C as [(N & _)|(init & _ & EI & C)]; [congruence|]; cbn [bp_init] in EI; injection EI as <-.
  destruct C as [(_ & N)|(c & kv & d & EF & Ek & Ed & Ef & _ & _ & C)]; [congruence|].
  destruct C as [(_ & N & _)|(_ & EN & EP)]; [congruence|].
  rewrite Hd in Ed; injection Ed as <-; rewrite Hda, Hn in EF; rewrite Hda in EP; cbn [parameterize_curve_opt dt_cols] in EP.
  change (cl_beh working_class c) with (beh_of_curve3 c) in EP.
  destruct (parameterize_curve (beh_of_curve3 c) (mkData (K := Binary64) 3 data)) as [rows| |] eqn:ER; cbn [bind] in EP; [|destruct EP as [EP _]; discriminate..].
  destruct EP as [_ EP].
  destruct (curve_sorted64 (beh_of_curve3 c) data rows H3 (fun u m => proj1 (curve_unit64 c u) m) ER) as (us & S1 & S2 & S3).
  assert (KEY : exists (Q : list (list PrimFloat.float)) (U : list PrimFloat.float), c = mkCurve (K := Binary64) (Some (Z.of_nat p)) (Some Q) (Some U) 0 /\
    (len U = len Q + Z.of_nat p + 1)%Z /\
    (if bp_adaptive b then exists k, (len Q = Z.of_nat p + 2 ^ Z.of_nat k)%Z /\ (n <= len Q)%Z /\ (k = 0%nat \/ (Z.of_nat p + 2 ^ Z.of_nat (k - 1) < n)%Z) /\
       Forall finite64 U /\ (len U = len Q + Z.of_nat p + 1)%Z /\
       (forall i, (0 <= i < len U)%Z ->
          kn (values U) i = if (i <=? Z.of_nat p)%Z then 0 else if (len Q <=? i)%Z then 1 else IZR (i - Z.of_nat p) / IZR (2 ^ Z.of_nat k))
     else len Q = n /\ generate_uniform (Z.of_nat p) n = Ok (U : list Binary64)) /\
    Forall (fun r => length r = 3%nat) Q /\ values (nth 0 Q []) = values a /\ last Q [] = e).
  { destruct (generate_uniform_b64 (Z.of_nat p) m ltac:(lia) Hm ltac:(lia)) as (U1 & EU1 & W1 & C1 & K0 & K1 & _).
    assert (E01 : U1 = U0) by (rewrite EU in EU1; injection EU1 as EU1; exact (eq_sym EU1)); subst U1.
    assert (LU0 : (len U0 = m + Z.of_nat p + 1)%Z) by (destruct (clamped_facts _ _ _ C1) as (_ & _ & L & _); rewrite len_values in L; exact L).
    destruct (bp_adaptive b) eqn:EA; unfold m in *.
    - cbn [fit_curve_knot_insertion_opt] in EF.
      destruct (adaptive_fit64 sv (mkData (K := Binary64) 3 data) p n (mkCurve (K := Binary64) (Some (Z.of_nat p)) (Some P) (Some U0) 0) c U0 P Hp (proj1 Hcap) P3
        ltac:(unfold len in LP; lia) (within_finite _ _ _ W1) (ends_knots p U0 ltac:(lia) K0 K1) eq_refl eq_refl eq_refl EF)
        as (k & T & Q & -> & L & G1 & G2 & A & B & F & FT & LT & HT).
      exists Q, T; split; [reflexivity|]; split; [exact LT|]; split; [exists k; auto 10|]; split; [exact F|].
      split; [exact (eq_trans (f_equal values A) PA)|exact (eq_trans B PE)].
    - cbn [fit_curve_fixed_ctrlpts_opt] in EF.
      destruct (fixed_ctrlpts_keeps sv (mkCurve (K := Binary64) (Some (Z.of_nat p)) (Some P) (Some U0) 0) c (mkData (K := Binary64) 3 data) (Z.of_nat p) P
        eq_refl eq_refl P3 EF) as (Q & kv' & Ekv & -> & L & F & A & B).
      cbn [c_kv] in Ekv; injection Ekv as <-.
      assert (LQ : @len (list PrimFloat.float) Q = n) by exact (eq_trans (f_equal Z.of_nat L) LP).
      exists Q, U0; split; [reflexivity|]; split; [rewrite LQ; exact LU0|]; split; [split; [exact LQ|exact EU]|]; split; [exact F|].
      split; [exact (eq_trans (f_equal values A) PA)|exact (eq_trans B PE)]. }
  destruct KEY as (Q & U & -> & LU & CS & F & A & B).
  cbn [c_kv] in Ek; injection Ek as <-.
  eexists; exists Q, U, rows, us; split; [exact Ef|]; split; [reflexivity|].
  split; [rewrite EN; f_equal; change (@zlen Binary64 U) with (len U); lia|].
  split; [exact CS|]; split; [exact F|]; split; [exact A|]; split; [exact B|]; split; [exact EP|]; split; [exact S1|]; split; [exact S2|exact S3].
Qed.

(** ** Uniform knots whose spacing is a power of two are exact. *)
Lemma generate_uniform_tab64 p n : (0 <= p)%Z -> (p + 1 <= n)%Z -> (n - p <= 2 ^ 49)%Z ->
  generate_uniform p n = Ok (tab (Z.to_nat (n + p + 1))
    (fun i => if (i <? p)%Z then (0%num : Binary64) else if (i <? n)%Z then mid64 (n - p) (i - p) else 1%num)).
Proof.
  intros Hp Hn Hb; set (m := (n - p)%Z); assert (Hm : (1 <= m <= 2 ^ 49)%Z) by (unfold m; lia).
  unfold generate_uniform; cbn zeta.
  replace (n + p + 1 - 2 * p)%Z with (m + 1)%Z by (unfold m; lia); rewrite linspace64 by exact Hm; cbn [bind].
  rewrite !(np_full_tab' p (Z.to_nat p)) by lia; cbn [bind]; apply (f_equal Ok).
  replace (Z.to_nat (n + p + 1)) with (Z.to_nat p + (Z.to_nat (m + 1) + Z.to_nat p))%nat by (unfold m; lia).
  rewrite !tab_app; f_equal; [|f_equal]; apply tab_ext; intros i Hi.
  - destruct (Z.ltb_spec i p); [reflexivity|lia].
  - destruct (Z.ltb_spec (Z.of_nat (Z.to_nat p) + i) p); [lia|].
    destruct (Z.ltb_spec i m); destruct (Z.ltb_spec (Z.of_nat (Z.to_nat p) + i) n); try (unfold m in *; lia); [|reflexivity].
    f_equal; lia.
  - destruct (Z.ltb_spec (Z.of_nat (Z.to_nat p) + (Z.of_nat (Z.to_nat (m + 1)) + i)) p); [lia|].
    destruct (Z.ltb_spec (Z.of_nat (Z.to_nat p) + (Z.of_nat (Z.to_nat (m + 1)) + i)) n); [unfold m in *; lia|reflexivity].
Qed.
Lemma generate_uniform_pow2 p n k (U : list PrimFloat.float) : (0 <= p)%Z -> (n = p + 2 ^ Z.of_nat k)%Z -> (k <= 49)%nat ->
  generate_uniform p n = Ok (U : list Binary64) ->
  Forall finite64 U /\ (len U = n + p + 1)%Z /\
  (forall i, (0 <= i < len U)%Z -> kn (values U) i = if (i <=? p)%Z then 0 else if (n <=? i)%Z then 1 else IZR (i - p) / IZR (2 ^ Z.of_nat k)).
Proof.
  intros Hp Hn Hk E.
  assert (P1 : (1 <= 2 ^ Z.of_nat k)%Z) by (pose proof (Z.pow_pos_nonneg 2 (Z.of_nat k)); lia).
  assert (P2 : (2 ^ Z.of_nat k <= 2 ^ 49)%Z) by (apply Z.pow_le_mono_r; lia).
  set (N := (2 ^ Z.of_nat k)%Z) in *; assert (Em : (n - p)%Z = N) by lia.
  assert (Hm : (1 <= N <= 2 ^ 49)%Z) by lia.
  destruct (generate_uniform_b64 p n Hp ltac:(lia) ltac:(lia)) as (U' & E' & W & C & K0 & K1 & _).
  assert (U' = U) as -> by (rewrite E in E'; injection E' as E'; exact (eq_sym E')).
  destruct (clamped_facts _ _ _ C) as (_ & _ & HL & _); rewrite len_values in HL.
  split; [exact (within_finite _ _ _ W)|]; split; [exact HL|]; intros i Hi.
  destruct (Z.leb_spec i p); [apply K0; lia|]; destruct (Z.leb_spec n i); [apply K1; lia|].
  rewrite generate_uniform_tab64 in E by lia; rewrite Em in E; injection E as EU.
  rewrite (kn_values U i 0%float) by lia.
  transitivity (value (nth (Z.to_nat i) (tab (Z.to_nat (n + p + 1))
    (fun i => if (i <? p)%Z then (0%num : Binary64) else if (i <? n)%Z then mid64 N (i - p) else 1%num)) (0%float : Binary64))); [exact (f_equal (fun l => value (nth (Z.to_nat i) l 0%float)) (eq_sym EU))|].
  rewrite nth_tab by lia; rewrite Z2Nat.id by lia.
  destruct (Z.ltb_spec i p); [lia|]; destruct (Z.ltb_spec i n); [|lia].
  rewrite (proj1 (proj2 (mid_ok N Hm (i - p)%Z ltac:(lia)))).
  assert (NP : IZR N = bpow radix2 (Z.of_nat k)) by (unfold N; rewrite <- (IZR_Zpower radix2) by lia; reflexivity).
  assert (NI : / IZR N = bpow radix2 (- Z.of_nat k)) by (rewrite NP, <- bpow_opp; reflexivity).
  assert (ES : value (step64 N) = / IZR N).
  { destruct (ofZ64 1 ltac:(lia)) as (F1 & V1); destruct (ofZ64 N ltac:(lia)) as (FN & VN).
    assert (IZR N <> 0) by (rewrite NP; pose proof (bpow_gt_0 radix2 (Z.of_nat k)); lra).
    assert (ER : rnd (IZR 1 / IZR N) = / IZR N) by (unfold Rdiv; rewrite Rmult_1_l, NI; apply rnd_fmt, fmt_bpow; lia).
    destruct (div64 (ofZ 1 : Binary64) (ofZ N : Binary64) F1 FN) as (F & V); rewrite ?V1, ?VN, ?ER in *; [assumption| |exact V].
    rewrite NI, Rabs_right by (pose proof (bpow_gt_0 radix2 (- Z.of_nat k)); lra); apply bpow_lt; lia. }
  rewrite ES; unfold Rdiv; apply rnd_fmt; rewrite NI.
  apply generic_format_FLT; exists (Float radix2 (i - p) (- Z.of_nat k)); [reflexivity| |cbn; lia].
  cbn [Fnum]; change (radix2 ^ 53)%Z with (2 ^ 53)%Z; lia.
Qed.

(** With knots that are exact multiples of 2^-k, the curve starts and ends at its
    first and last control point. *)
Lemma dyadic_ends64 p k (U : list PrimFloat.float) (Q : list (list PrimFloat.float)) d : (1 <= p)%nat -> (k <= 1000)%nat -> (len Q = Z.of_nat p + 2 ^ Z.of_nat k)%Z ->
  Forall finite64 U -> (len U = len Q + Z.of_nat p + 1)%Z ->
  (forall i, (0 <= i < len U)%Z ->
     kn (values U) i = if (i <=? Z.of_nat p)%Z then 0 else if (len Q <=? i)%Z then 1 else IZR (i - Z.of_nat p) / IZR (2 ^ Z.of_nat k)) ->
  Forall (fun r => length r = 3%nat /\ Forall finite64 r) Q ->
  let c := mkCurve (K := Binary64) (Some (Z.of_nat p)) (Some Q) (Some U) d in
  (exists y : list PrimFloat.float, single_point c 0%float = Ok y /\ Forall finite64 y /\ values y = values (nth 0 Q [])) /\
  (exists y : list PrimFloat.float, single_point c 1%float = Ok y /\ Forall finite64 y /\ values y = values (last Q [])).
Proof.
  intros Hp Hk LQ FU LU HU HQ; cbv zeta.
  assert (HN : (1 <= 2 ^ Z.of_nat k)%Z) by (pose proof (Z.pow_pos_nonneg 2 (Z.of_nat k)); lia).
  set (N := (2 ^ Z.of_nat k)%Z) in *; assert (NR : 0 < IZR N) by (apply IZR_lt; lia).
  assert (NP : IZR N = 2 ^ k) by (unfold N; rewrite <- (pow_IZR 2 k); reflexivity).
  assert (EU : values U = uniform (Z.of_nat p) (Z.of_nat p + N)).
  { apply (nth_ext _ _ 0 0); [unfold uniform; rewrite tab_length; rewrite <- len_values in LU; unfold len in *; lia|].
    intros i Hi; assert (Hi' : (0 <= Z.of_nat i < len U)%Z) by (rewrite <- len_values; unfold len; lia).
    specialize (HU _ Hi'); unfold kn in HU; rewrite Nat2Z.id in HU; rewrite (nth_indep (values U) 0 (last (values U) 0)) by exact Hi; rewrite HU.
    rewrite uniform_eq by lia; rewrite nth_tab by lia; rewrite LQ.
    destruct (Z.leb_spec (Z.of_nat i) (Z.of_nat p)); [reflexivity|]; destruct (Z.leb_spec (Z.of_nat p + N) (Z.of_nat i)); [reflexivity|].
    replace (Z.of_nat p + N - Z.of_nat p)%Z with N by lia; reflexivity. }
  assert (W : within 0 1 U).
  { apply Forall_forall; intros x Hx; split; [rewrite Forall_forall in FU; apply FU; exact Hx|].
    apply (In_nth _ _ 0%float) in Hx; destruct Hx as (i & Hi & <-).
    assert (Hi' : (0 <= Z.of_nat i < len U)%Z) by (unfold len; lia).
    replace (value (nth i U 0%float)) with (kn (values U) (Z.of_nat i)) by (rewrite (kn_values U _ 0%float) by exact Hi'; rewrite Nat2Z.id; reflexivity).
    rewrite HU by exact Hi'; destruct (Z.leb_spec (Z.of_nat i) (Z.of_nat p)); [lra|]; destruct (Z.leb_spec (len Q) (Z.of_nat i)); [lra|].
    assert (0 <= IZR (Z.of_nat i - Z.of_nat p) <= IZR N) by (split; apply IZR_le; lia).
    split; [apply Rmult_le_pos; [lra|apply Rlt_le, Rinv_0_lt_compat; lra]|].
    apply Rmult_le_reg_r with (IZR N); [lra|]; unfold Rdiv; rewrite Rmult_assoc, Rinv_l by lra; lra. }
  assert (CL : clamped (Z.of_nat p) (len Q) (values U)) by (rewrite EU, LQ; apply uniform_clamped; lia).
  assert (K0 : kn (values U) (Z.of_nat p) = 0) by (rewrite HU by lia; rewrite Z.leb_refl; reflexivity).
  assert (K1 : kn (values U) (len Q) = 1).
  { rewrite HU by lia; destruct (Z.leb_spec (len Q) (Z.of_nat p)); [lia|]; rewrite Z.leb_refl; reflexivity. }
  pose proof (pow2_good k Hk) as G.
  split.
  - apply curve_start64; try assumption.
    rewrite HU by lia; destruct (Z.leb_spec (Z.of_nat p + 1) (Z.of_nat p)); [lia|]; rewrite LQ.
    destruct (Z.leb_spec (Z.of_nat p + N) (Z.of_nat p + 1)) as [L|L].
    + replace 1 with (/ 2 ^ 0) by (cbn; lra); apply pow2_good; lia.
    + replace (Z.of_nat p + 1 - Z.of_nat p)%Z with 1%Z by lia; rewrite NP; unfold Rdiv; rewrite Rmult_1_l; exact G.
  - assert (W1 : 1 - kn (values U) (len Q - 1) = / 2 ^ k).
    { rewrite HU by lia; rewrite LQ; rewrite <- NP.
      destruct (Z.leb_spec (Z.of_nat p + N - 1) (Z.of_nat p)) as [L|L].
      - assert (N = 1%Z) as -> by lia; lra.
      - destruct (Z.leb_spec (Z.of_nat p + N) (Z.of_nat p + N - 1)); [lia|].
        replace (Z.of_nat p + N - 1 - Z.of_nat p)%Z with (N - 1)%Z by lia; rewrite minus_IZR; field; lra. }
    assert (FM : rnd (/ 2 ^ k) = / 2 ^ k).
    { apply rnd_fmt; replace (/ 2 ^ k) with (bpow radix2 (- Z.of_nat k)) by (rewrite bpow_opp, bpow_powerRZ, <- pow_powerRZ; reflexivity); apply fmt_bpow; lia. }
    apply curve_end64; try assumption; rewrite W1; [rewrite FM; exact G|exact (proj1 (proj1 G))].
Qed.

Lemma problem_ends64 sv (b b' : bproblem Binary64) (a e : list PrimFloat.float) p n M (data : list (list PrimFloat.float)) c (Q : list (list PrimFloat.float)) :
  bp_init b = None -> bp_start b = Some a -> bp_end b = Some e -> length a = 3%nat -> length e = 3%nat ->
  within (- M) M a -> within (- M) M e -> 0 <= M <= 2 ^ 1000 ->
  bp_degree b = Some (Z.of_nat p) -> (1 <= p)%nat -> bp_num b = Some n -> (Z.of_nat p + 1 <= n)%Z ->
  (if bp_adaptive b then (n <= Z.of_nat p + 65536)%Z /\ (Z.of_nat p < 2 ^ 49)%Z
   else (n <= 2 ^ 49)%Z /\ exists k, (n = Z.of_nat p + 2 ^ Z.of_nat k)%Z) ->
  bp_data b = Some (mkData (K := Binary64) 3 data) -> Forall (fun r => length r = 3%nat /\ Forall finite64 r) data ->
  bp_fit_run working_class sv b = (b', Ok tt) -> bp_fit b' = Some c -> c_ctrl c = Some Q -> Forall (Forall finite64) Q ->
  (exists y : list PrimFloat.float, single_point c 0%float = Ok y /\ Forall finite64 y /\ values y = values a) /\
  (exists y : list PrimFloat.float, single_point c 1%float = Ok y /\ Forall finite64 y /\ values y = values e).
Proof.
  intros HI Hs He La Le Wa We HM Hd Hp Hn Hpn HA Hda H3 H Hc HQ FQ.
  destruct (problem_fit64 sv b b' a e p n M data HI Hs He La Le Wa We HM Hd Hp Hn Hpn ltac:(destruct (bp_adaptive b); lia) Hda H3 H)
    as (c' & Q' & U & rows & us & Ef & -> & _ & CS & F & A & B & _).
  rewrite Ef in Hc; injection Hc as <-; cbn [c_ctrl] in HQ; injection HQ as <-.
  assert (D : exists k, (k <= 1000)%nat /\ (len Q' = Z.of_nat p + 2 ^ Z.of_nat k)%Z /\ Forall finite64 U /\ (len U = len Q' + Z.of_nat p + 1)%Z /\
    (forall i, (0 <= i < len U)%Z ->
      kn (values U) i = if (i <=? Z.of_nat p)%Z then 0 else if (len Q' <=? i)%Z then 1 else IZR (i - Z.of_nat p) / IZR (2 ^ Z.of_nat k))).
  { destruct (bp_adaptive b).
    - destruct CS as (k & LQ & G1 & G2 & FU & LU & HU); exists k; split; [|auto].
      destruct G2 as [->|G2]; [lia|]; destruct (Nat.le_gt_cases k 1000) as [|G]; [assumption|]; exfalso.
      pose proof (Z.pow_le_mono_r 2 17 (Z.of_nat (k - 1)) ltac:(lia) ltac:(lia)) as HX; change (2 ^ 17)%Z with 131072%Z in HX; lia.
    - destruct CS as (LQ & EU); destruct HA as (Hb & k & Hk).
      assert (K49 : (k <= 49)%nat).
      { destruct (Nat.le_gt_cases k 49) as [|G]; [assumption|]; exfalso.
        pose proof (Z.pow_lt_mono_r 2 49 (Z.of_nat k) ltac:(lia) ltac:(lia) ltac:(lia)); lia. }
      destruct (generate_uniform_pow2 (Z.of_nat p) n k U ltac:(lia) Hk K49 EU) as (FU & LU & HU).
      exists k; split; [lia|]; split; [exact (eq_trans LQ Hk)|]; split; [exact FU|]; rewrite LQ; split; [exact LU|exact HU]. }
  destruct D as (k & Hk & LQ & FU & LU & HU).
  destruct (dyadic_ends64 p k U Q' 0 Hp Hk LQ FU LU HU) as (S1 & S2).
  { rewrite Forall_forall in *; intros r Hr; split; [exact (F r Hr)|exact (FQ r Hr)]. }
  rewrite A in S1; rewrite B in S2; split; assumption.
Qed.
Lemma uniform_ends64 p n k (U : list PrimFloat.float) (Q : list (list PrimFloat.float)) d : (1 <= p)%nat -> (k <= 49)%nat -> (n = Z.of_nat p + 2 ^ Z.of_nat k)%Z ->
  generate_uniform (Z.of_nat p) n = Ok (U : list Binary64) -> len Q = n -> Forall (fun r => length r = 3%nat /\ Forall finite64 r) Q ->
  let c := mkCurve (K := Binary64) (Some (Z.of_nat p)) (Some Q) (Some U) d in
  (exists y : list PrimFloat.float, single_point c 0%float = Ok y /\ Forall finite64 y /\ values y = values (nth 0 Q [])) /\
  (exists y : list PrimFloat.float, single_point c 1%float = Ok y /\ Forall finite64 y /\ values y = values (last Q [])).
Proof.
  intros Hp Hk Hn EU LQ HQ; destruct (generate_uniform_pow2 (Z.of_nat p) n k U ltac:(lia) Hn Hk EU) as (FU & LU & HU).
  rewrite <- LQ in LU, HU; apply (dyadic_ends64 p k U Q d Hp ltac:(lia)); try assumption; lia.
Qed.
