(** Both number systems sort in one way, and whole fits of reordered data. *)
From Coq Require Import Permutation Sorted Floats Reals Lra.
From Flocq Require Import Core Plus_error BinarySingleNaN PrimFloat.
From Verif Require Import Py PyLemmas Num ModelKnots ModelBasis ModelCurve ModelSurface ModelInit ModelParam ModelFit ModelIO ModelData SpecB64 SpecSpecial SpecOrder
  ProofNum ProofCurve2 ProofParam2 ProofB64 ProofB64Span ProofSpecial ProofOrder.
Open Scope R_scope.

(** ** Exact numbers *)
Lemma exact_one_zero (x : Exact) : one_zero x.
Proof. unfold one_zero; destruct x as [r| | |]; cbn; try discriminate; unfold Reqb; destruct (Req_EM_T r 0); [intros _; subst; reflexivity|discriminate]. Qed.
Lemma sort_lt_x (x y : xr) : sort_lt (K := Exact) x y = match x, y with
  | NaN, _ => false | _, NaN => true | Fin a, Fin b => Rltb a b | Fin _, PInf => true | NInf, (Fin _ | PInf) => true | _, _ => false end.
Proof.
  unfold sort_lt; destruct x as [a| | |], y as [b| | |]; cbn; unfold Rltb, Reqb; repeat (destruct (Rlt_dec _ _) || destruct (Req_EM_T _ _)); try reflexivity; exfalso; lra.
Qed.
Lemma sortable_exact : sortable Exact.
Proof.
  split.
  - intros x y; rewrite !sort_lt_x; destruct x as [a| | |], y as [b| | |]; try discriminate; try reflexivity; unfold Rltb; destruct (Rlt_dec a b), (Rlt_dec b a); try discriminate; try reflexivity; exfalso; lra.
  - intros x y z; rewrite !sort_lt_x; destruct x as [a| | |], y as [b| | |], z as [c| | |]; try discriminate; try reflexivity; unfold Rltb; destruct (Rlt_dec a b), (Rlt_dec b c), (Rlt_dec a c); try discriminate; try reflexivity; exfalso; lra.
  - intros x y _ _; rewrite !sort_lt_x; destruct x as [a| | |], y as [b| | |]; try discriminate; try reflexivity; unfold Rltb; destruct (Rlt_dec a b), (Rlt_dec b a); try discriminate; intros _ _; f_equal; lra.
Qed.
Lemma tidy_exact : tidy Exact.
Proof. split; [exact sortable_exact|apply exact_one_zero|intros N; apply Forall_forall; intros; apply exact_one_zero|intros; apply exact_one_zero..]. Qed.

(** ** Doubles *)
Lemma one_zero64 (x : PrimFloat.float) : one_zero (K := Binary64) x <-> ~ negative_zero x.
Proof.
  unfold one_zero, negative_zero; change (neqb (n := Binary64) x (ofZ (n := Binary64) 0)) with (PrimFloat.eqb x 0%float); change (ofZ (n := Binary64) 0) with 0%float; rewrite FloatAxioms.eqb_spec; change (FloatOps.Prim2SF 0) with (S754_zero false); split.
  - intros H E; rewrite E in H; specialize (H eq_refl); rewrite H in E; discriminate.
  - intros H E; change (x = 0%float); apply FloatAxioms.Prim2SF_inj; change (FloatOps.Prim2SF 0) with (S754_zero false).
    destruct (FloatOps.Prim2SF x) as [[]|[]| |[] m e]; try discriminate; [exfalso; apply H; reflexivity|reflexivity].
Qed.
Lemma sort_lt_image (x y : PrimFloat.float) : sort_lt (K := Binary64) x y = sort_lt (K := Exact) (image x) (image y).
Proof.
  unfold sort_lt; change (PrimFloat.ltb x y || PrimFloat.eqb x x && negb (PrimFloat.eqb y y) = xltb (image x) (image y) || xeqb (image x) (image x) && negb (xeqb (image y) (image y)))%bool.
  destruct (image_compare x y) as (E1 & _ & _), (image_compare x x) as (_ & _ & E2), (image_compare y y) as (_ & _ & E3); rewrite E1, E2, E3; reflexivity.
Qed.
Lemma image_inj x y : ~ negative_zero x -> ~ negative_zero y -> image x = image y -> x = y.
Proof.
  intros Nx Ny E; apply FloatAxioms.Prim2SF_inj.
  destruct (image_compare x y) as (_ & _ & EQ); rewrite E, FloatAxioms.eqb_spec in EQ; revert E EQ; unfold negative_zero in *; unfold image.
  destruct (FloatOps.Prim2SF x) as [[]|[]| |s m e], (FloatOps.Prim2SF y) as [[]|[]| |s' m' e']; try congruence.
  - intros _ H; revert H; cbn [xeqb]; unfold Reqb; destruct (Req_EM_T _ _); [destruct s'; discriminate|exfalso; auto].
  - intros _ H; revert H; cbn [xeqb]; unfold Reqb; destruct (Req_EM_T _ _); [destruct s; discriminate|exfalso; auto].
  - intros _ H; revert H; cbn [xeqb]; unfold Reqb; destruct (Req_EM_T _ _); [|exfalso; auto]; intros H; unfold SFeqb, SFcompare in H.
    destruct s, s', (Z.compare_spec e e'); try discriminate; subst; change ((Pos.compare_cont Eq m m') ) with (Pos.compare m m') in H; destruct (Pos.compare_spec m m'); try discriminate; subst; reflexivity.
Qed.
Lemma sortable_b64 : sortable Binary64.
Proof.
  split.
  - intros x y; rewrite !sort_lt_image; apply (so_asym _ sortable_exact).
  - intros x y z; rewrite !sort_lt_image; apply (so_trans _ sortable_exact).
  - intros x y Hx Hy; rewrite !sort_lt_image; intros H1 H2; apply one_zero64 in Hx; apply one_zero64 in Hy; apply image_inj; [exact Hx|exact Hy|]; apply (so_eq _ sortable_exact); try assumption; apply exact_one_zero.
Qed.
(** Signs. *)
Definition upper (f : SpecFloat.spec_float) : Prop := match f with S754_zero s | S754_infinity s | S754_finite s _ _ => s = false | S754_nan => True end.
Lemma upper_round_aux prec emax m e l : upper (SpecFloat.binary_round_aux prec emax false m e l).
Proof.
  unfold SpecFloat.binary_round_aux; destruct (SpecFloat.shr_fexp _ _ _ _ _) as [mrs e']; destruct (SpecFloat.shr_fexp _ _ _ e' _) as [mrs' e'']; destruct (SpecFloat.shr_m mrs') as [|p|p]; cbn; try exact I; try reflexivity.
  destruct (_ <=? _)%Z; reflexivity.
Qed.
Lemma upper_ofZ n : (0 <= n)%Z -> upper (FloatOps.Prim2SF (b64_ofZ n)).
Proof.
  intros Hn; unfold b64_ofZ; destruct n as [|p|p]; [reflexivity| |lia].
  rewrite FloatAxioms.of_uint63_spec; generalize (Uint63.of_Z (Z.pos p)); intros i; pose proof (Uint63.to_Z_bounded i) as B; destruct (Uint63.to_Z i) as [|q|q]; [reflexivity| |lia].
  unfold SpecFloat.binary_normalize, SpecFloat.binary_round; match goal with |- context [let '(_, _) := ?t in _] => destruct t end; apply upper_round_aux.
Qed.
Lemma upper_mul x y : upper (FloatOps.Prim2SF x) -> upper (FloatOps.Prim2SF y) -> upper (FloatOps.Prim2SF (x * y)%float).
Proof.
  rewrite FloatAxioms.mul_spec; unfold SpecFloat.SFmul; destruct (FloatOps.Prim2SF x) as [s|s| |s m e], (FloatOps.Prim2SF y) as [s'|s'| |s' m' e']; cbn [upper]; try tauto; intros -> ->; try exact I; try reflexivity; apply upper_round_aux.
Qed.
Lemma upper_div x y : upper (FloatOps.Prim2SF x) -> upper (FloatOps.Prim2SF y) -> upper (FloatOps.Prim2SF (x / y)%float).
Proof.
  rewrite FloatAxioms.div_spec; unfold SF64div, SpecFloat.SFdiv; destruct (FloatOps.Prim2SF x) as [s|s| |s m e], (FloatOps.Prim2SF y) as [s'|s'| |s' m' e']; cbn [upper]; try tauto; intros -> ->; try exact I; try reflexivity.
  destruct (SpecFloat.SFdiv_core_binary FloatOps.prec FloatOps.emax (Z.pos m) e (Z.pos m') e') as [[q e''] l]; apply upper_round_aux.
Qed.
Lemma samples_one_zero64 N : Forall one_zero (samples (K := Binary64) N).
Proof.
  apply Forall_forall; intros x Hx; unfold samples in Hx; apply in_map_iff in Hx; destruct Hx as (i & <- & Hi); apply in_zrange in Hi; apply one_zero64.
  change (~ negative_zero (b64_ofZ 1 / b64_ofZ (N - 1) * b64_ofZ i)%float).
  assert (U : upper (FloatOps.Prim2SF (b64_ofZ 1 / b64_ofZ (N - 1) * b64_ofZ i)%float)) by (apply upper_mul; [apply upper_div; apply upper_ofZ; lia|apply upper_ofZ; lia]).
  unfold negative_zero; intros E; rewrite E in U; discriminate.
Qed.
Lemma prim_zero x : negative_zero x <-> Prim2B x = B754_zero true.
Proof.
  unfold negative_zero; rewrite <- (B2SF_Prim2B x); split.
  - intros E; destruct (Prim2B x) as [[]| | |]; try discriminate; reflexivity.
  - intros ->; reflexivity.
Qed.
Lemma plus_not_zero a b : fmt a -> fmt b -> a + b <> 0 -> rnd (a + b) <> 0.
Proof. intros Fa Fb; apply round_plus_neq_0; [typeclasses eauto..|exact Fa|exact Fb]. Qed.
Lemma sign_value x : is_finite (Prim2B x) = true -> Prim2B x <> B754_zero true -> Bsign (Prim2B x) = true -> B2R (Prim2B x) < 0.
Proof.
  destruct (Prim2B x) as [[]| | |[] m e B]; cbn [is_finite Bsign]; try discriminate; intros _ N _; [exfalso; apply N; reflexivity|].
  cbn [B2R cond_Zopp]; apply F2R_lt_0; cbn; lia.
Qed.
Lemma sign_value' x : is_finite (Prim2B x) = true -> Bsign (Prim2B x) = false -> 0 <= B2R (Prim2B x).
Proof.
  destruct (Prim2B x) as [[]| | |[] m e B]; cbn [is_finite Bsign]; try discriminate; intros _ _; cbn [B2R cond_Zopp]; [lra|apply F2R_ge_0; cbn; lia].
Qed.
Lemma sub_one_zero64 x y : ~ negative_zero x -> ~ negative_zero (x - y)%float.
Proof.
  intros Nx E; destruct (Bool.bool_dec (is_finite (Prim2B x) && is_finite (Prim2B y)) true) as [F|F].
  - apply andb_prop in F; destruct F as [Fx Fy]; apply prim_zero in E; rewrite prim_zero in Nx; rewrite sub_equiv in E.
    pose proof (Bminus_correct prec emax Hprec Hmax mode_NE _ _ Fx Fy) as H; rewrite E in H; destruct (Rlt_bool _ _); [|destruct H as [H _]; cbn in H; destruct (Bsign _); discriminate].
    destruct H as (HV & _ & HS); cbn [B2R Bsign] in HV, HS; rewrite fexp_FLT in HV; cbn [round_mode] in HV.
    destruct (Rcompare_spec (B2R (Prim2B x) - B2R (Prim2B y)) 0) as [L|L|L]; [|symmetry in HS; apply andb_prop in HS; destruct HS as [Sx Sy]|discriminate].
    + apply (plus_not_zero (B2R (Prim2B x)) (- B2R (Prim2B y))); [rewrite <- value_B; apply value_fmt|apply generic_format_opp; rewrite <- value_B; apply value_fmt|lra|symmetry; exact HV].
    + apply Bool.negb_true_iff in Sy; pose proof (sign_value _ Fx Nx Sx); pose proof (sign_value' _ Fy Sy); lra.
  - unfold negative_zero in E; rewrite FloatAxioms.sub_spec in E; rewrite <- (B2SF_Prim2B x), <- (B2SF_Prim2B y) in E.
    destruct (Prim2B x) as [|[]| |], (Prim2B y) as [|[]| |]; cbn in E, F; try discriminate; apply F; reflexivity.
Qed.
Lemma add_one_zero64 x y : ~ negative_zero y -> ~ negative_zero (x + y)%float.
Proof.
  intros Ny E; destruct (Bool.bool_dec (is_finite (Prim2B x) && is_finite (Prim2B y)) true) as [F|F].
  - apply andb_prop in F; destruct F as [Fx Fy]; apply prim_zero in E; rewrite prim_zero in Ny; rewrite add_equiv in E.
    pose proof (Bplus_correct prec emax Hprec Hmax mode_NE _ _ Fx Fy) as H; rewrite E in H; destruct (Rlt_bool _ _); [|destruct H as [H _]; cbn in H; destruct (Bsign _); discriminate].
    destruct H as (HV & _ & HS); cbn [B2R Bsign] in HV, HS; rewrite fexp_FLT in HV; cbn [round_mode] in HV.
    destruct (Rcompare_spec (B2R (Prim2B x) + B2R (Prim2B y)) 0) as [L|L|L]; [|symmetry in HS; apply andb_prop in HS; destruct HS as [Sx Sy]|discriminate].
    + apply (plus_not_zero (B2R (Prim2B x)) (B2R (Prim2B y))); [rewrite <- value_B; apply value_fmt|rewrite <- value_B; apply value_fmt|lra|symmetry; exact HV].
    + pose proof (sign_value _ Fy Ny Sy); destruct (Prim2B x) as [[]| | |[] m e B] eqn:EX; try discriminate; [cbn [B2R] in L; lra|].
      assert (B2R (Prim2B x) < 0) by (apply sign_value; rewrite EX; [reflexivity|discriminate|reflexivity]); rewrite EX in *; lra.
  - unfold negative_zero in E; rewrite FloatAxioms.add_spec in E; rewrite <- (B2SF_Prim2B x), <- (B2SF_Prim2B y) in E.
    destruct (Prim2B x) as [|[]| |], (Prim2B y) as [|[]| |]; cbn in E, F; try discriminate; apply F; reflexivity.
Qed.
Lemma tidy_b64 : tidy Binary64.
Proof.
  split; [exact sortable_b64|apply one_zero64; unfold negative_zero; cbn; discriminate|exact samples_one_zero64| |].
  - intros x y H; apply one_zero64 in H; apply one_zero64; exact (sub_one_zero64 x y H).
  - intros x y H; apply one_zero64 in H; apply one_zero64; exact (add_one_zero64 x y H).
Qed.
Lemma tidy_both K : K = Exact \/ K = Binary64 -> tidy K.
Proof. intros [->| ->]; [exact tidy_exact|exact tidy_b64]. Qed.

(** ** Fits *)
Section Fits.
Open Scope Z_scope.
Context {K : Num}.
Hypothesis TK : tidy K.
Variables (d d' : data_array K).
Hypothesis HD : reordered d d'.
Ltac step := match goal with |- context [bind ?m _] => let E := fresh "E" in destruct m eqn:E; cbn [bind]; try discriminate end.
Lemma loop_reordered cl (sv : solver K) num : forall fuel c r, insertion_loop fuel cl sv d num c = Ok r -> insertion_loop fuel cl sv d' num c = Ok r.
Proof.
  induction fuel as [|k IH]; intros c r; cbn [insertion_loop]; [discriminate|].
  destruct (parameterize_curve (cl_beh cl c) d) as [x|e|] eqn:E; cbn [bind]; try discriminate; rewrite (parameterize_reordered TK _ _ _ _ HD E); cbn [bind].
  destruct (single_fit_curve _ sv c x) as [t|e|]; cbn [bind]; try discriminate; destruct (c_ctrl t) as [P|]; [|discriminate].
  destruct (num <=? zlen P); [auto|]; destruct (curve_fields t) as [[[p P'] kv]|e|]; cbn [bind]; try discriminate.
  destruct (span_midpoints p kv) as [ks|e|]; cbn [bind]; try discriminate; destruct (for_range _ _ _ t) as [t'|e|]; cbn [bind]; try discriminate; apply IH.
Qed.
Lemma insertion_reordered cl (sv : solver K) c num r : fit_curve_knot_insertion cl sv c d num = Ok r -> fit_curve_knot_insertion cl sv c d' num = Ok r.
Proof. unfold fit_curve_knot_insertion, fit_curve_knot_insertion_fuel; destruct (copy_curve cl c) as [t|e|]; cbn [bind]; try discriminate; apply loop_reordered. Qed.
Lemma fixed_reordered cl (sv : solver K) c r : fit_curve_fixed_ctrlpts cl sv c d = Ok r -> fit_curve_fixed_ctrlpts cl sv c d' = Ok r.
Proof.
  unfold fit_curve_fixed_ctrlpts; destruct (c_ctrl c) as [P|]; [|discriminate]; destruct (aget P 0) as [a|e|]; cbn [bind]; try discriminate; destruct (aget P (-1)) as [b|e|]; cbn [bind]; try discriminate.
  destruct (c_degree c) as [p|]; [|discriminate]; destruct (initialize_curve_with _ _ _ _ _ _) as [i|e|]; cbn [bind]; try discriminate; destruct (c_ctrl i) as [P0|]; [|discriminate].
  destruct (fit_curve_knot_insertion cl sv i d (zlen P0)) as [f|e|] eqn:E1; cbn [bind]; try discriminate; rewrite (insertion_reordered _ _ _ _ _ E1); cbn [bind].
  destruct (parameterize_curve (cl_beh cl f) d) as [x|e|] eqn:E2; cbn [bind]; try discriminate; rewrite (parameterize_reordered TK _ _ _ _ HD E2); cbn [bind].
  destruct (copy_curve cl c) as [g|e|]; cbn [bind]; try discriminate; destruct (single_fit_curve _ sv g x) as [h|e|]; cbn [bind]; try discriminate.
  destruct (parameterize_curve (cl_beh cl h) d) as [y|e|] eqn:E3; cbn [bind]; try discriminate; rewrite (parameterize_reordered TK _ _ _ _ HD E3); auto.
Qed.
Lemma surface_reordered (sv : solver K) s top bot r : fit_surface sv s d top bot = Ok r -> fit_surface sv s d' top bot = Ok r.
Proof.
  unfold fit_surface; destruct (parameterize_surface (beh_of_surf s) d) as [x|e|] eqn:E; cbn [bind]; try discriminate; rewrite (parameterize2_reordered TK _ _ _ _ HD E); cbn [bind].
  destruct HD as (C & C' & _); rewrite C, C'; auto.
Qed.
Lemma bp_param_reordered cl b r : bp_data b = Some d -> bp_parameterize cl b = (r, Ok tt) -> bp_parameterize cl (with_points b d') = (with_points r d', Ok tt).
Proof.
  intros Eb; unfold bp_parameterize; cbn [with_points bp_init bp_fit].
  assert (ST : forall b0 c, bp_data b0 = Some d -> finish b0 (let* x := parameterize_curve_opt cl c (bp_data b0) in
      Ok (mkBP (bp_degree b0) (bp_data b0) (bp_start b0) (bp_end b0) (bp_num b0) (bp_adaptive b0) (bp_init b0) (Some x) (bp_fit b0))) = (r, Ok tt) ->
    finish (with_points b0 d') (let* x := parameterize_curve_opt cl c (Some d') in
      Ok (mkBP (bp_degree b0) (Some d') (bp_start b0) (bp_end b0) (bp_num b0) (bp_adaptive b0) (bp_init b0) (Some x) (bp_fit b0))) = (with_points r d', Ok tt)).
  { intros b0 c E0; rewrite E0; unfold parameterize_curve_opt; destruct c as [c|]; [|discriminate].
    destruct (parameterize_curve (cl_beh cl c) d) as [x|e|] eqn:E; cbn [bind finish]; try discriminate; rewrite (parameterize_reordered TK _ _ _ _ HD E); cbn [bind finish].
    destruct HD as (C & C' & _); rewrite C, C'; intros H; inversion H; reflexivity. }
  destruct (bp_init b) as [ci|] eqn:Ei, (bp_fit b) as [cf|] eqn:Ef;
    try (intros H; match type of H with context [parameterize_curve_opt _ ?c _] => pose proof (ST b c Eb) as X; unfold with_points in X; rewrite Ei, Ef in X; unfold with_points; rewrite ?Ei, ?Ef; exact (X H) end).
  unfold bp_set_init; cbn [with_points bp_adaptive bp_degree bp_start bp_end bp_num bp_data bp_param bp_fit].
  match goal with |- context [finish _ (bind ?m _)] => destruct m as [c|e|] end; cbn [bind finish andthen]; try discriminate.
  cbn [bp_init bp_data bp_degree bp_start bp_end bp_num bp_adaptive bp_fit]; intros H.
  exact (ST (mkBP (bp_degree b) (bp_data b) (bp_start b) (bp_end b) (bp_num b) (bp_adaptive b) (Some c) (bp_param b) (bp_fit b)) (Some c) Eb H).
Qed.
Lemma bp_fit_reordered cl sv b r : bp_data b = Some d -> bp_fit_run cl sv b = (r, Ok tt) -> bp_fit_run cl sv (with_points b d') = (with_points r d', Ok tt).
Proof.
  intros Eb; unfold bp_fit_run; cbn [with_points bp_init].
  set (rest := fun b0 : bproblem K => match bp_init b0 with
    | None => (b0, Err TypeError)
    | Some init =>
        match (let* c := (if bp_adaptive b0 then fit_curve_knot_insertion_opt cl sv init (bp_data b0) (bp_num b0) else fit_curve_fixed_ctrlpts_opt cl sv init (bp_data b0)) in
               match c_kv c, bp_degree b0 with Some kv, Some d0 => Ok (c, zlen kv - d0 - 1) | _, _ => Err TypeError end) with
        | Ok (c, num) => andthen (bp_set_num (mkBP (bp_degree b0) (bp_data b0) (bp_start b0) (bp_end b0) (bp_num b0) (bp_adaptive b0) (bp_init b0) (bp_param b0) (Some c)) (VInt num)) (bp_parameterize cl)
        | Err e => (b0, Err e)
        | Diverge => (b0, Diverge)
        end
    end).
  assert (RS : forall b0, bp_data b0 = Some d -> rest b0 = (r, Ok tt) -> rest (with_points b0 d') = (with_points r d', Ok tt)).
  { intros b0 E0; unfold rest; cbn [with_points bp_init bp_adaptive bp_num bp_data bp_degree bp_start bp_end bp_param]; rewrite E0; destruct (bp_init b0) as [i|]; [|discriminate].
    assert (FT : forall c, (if bp_adaptive b0 then fit_curve_knot_insertion_opt cl sv i (Some d) (bp_num b0) else fit_curve_fixed_ctrlpts_opt cl sv i (Some d)) = Ok c ->
      (if bp_adaptive b0 then fit_curve_knot_insertion_opt cl sv i (Some d') (bp_num b0) else fit_curve_fixed_ctrlpts_opt cl sv i (Some d')) = Ok c).
    { intros c; destruct (bp_adaptive b0); cbn [fit_curve_knot_insertion_opt fit_curve_fixed_ctrlpts_opt]; [|apply fixed_reordered].
      destruct (bp_num b0); [apply insertion_reordered|]; destruct (copy_curve cl i); cbn [bind]; try discriminate; destruct (parameterize_curve _ _); cbn [bind]; try discriminate; destruct (single_fit_curve _ _ _ _); discriminate. }
    destruct (if bp_adaptive b0 then fit_curve_knot_insertion_opt cl sv i (Some d) (bp_num b0) else fit_curve_fixed_ctrlpts_opt cl sv i (Some d)) as [c|e|]; cbn [bind]; try discriminate; rewrite (FT c eq_refl); cbn [bind].
    destruct (c_kv c) as [kv|]; [|discriminate]; destruct (bp_degree b0) as [dg|]; [|discriminate].
    unfold bp_set_num; cbn [to_int bind]; destruct (_ <=? 3); cbn [finish andthen]; try discriminate; cbn [bp_data bp_degree bp_start bp_end bp_adaptive bp_init bp_param bp_fit].
    intros H; apply bp_param_reordered in H; [exact H|reflexivity]. }
  destruct (bp_init b) as [i|] eqn:Ei; cbn [andthen].
  - fold (rest b); intros H; exact (RS b Eb H).
  - unfold bp_set_init; cbn [with_points bp_adaptive bp_degree bp_start bp_end bp_num bp_data bp_param bp_fit].
    match goal with |- context [finish _ (bind ?m _)] => destruct m as [c|e|] end; cbn [bind finish andthen]; try discriminate.
    intros H; exact (RS (mkBP (bp_degree b) (bp_data b) (bp_start b) (bp_end b) (bp_num b) (bp_adaptive b) (Some c) (bp_param b) (bp_fit b)) Eb H).
Qed.
Lemma ip_param_reordered new p r : ip_data p = Some d -> ip_parameterize new p = (r, Ok tt) -> ip_parameterize new (with_inner_points p d') = (with_inner_points r d', Ok tt).
Proof.
  intros Eb; unfold ip_parameterize; cbn [with_inner_points ip_init ip_fit].
  assert (ST : forall b0 c, ip_data b0 = Some d -> finish b0 (let* x := parameterize_surface_opt c (ip_data b0) in
      Ok (mkIP (ip_degree b0) (ip_data b0) (ip_num b0) (ip_top b0) (ip_bottom b0) (ip_init b0) (Some x) (ip_fit b0))) = (r, Ok tt) ->
    finish (with_inner_points b0 d') (let* x := parameterize_surface_opt c (Some d') in
      Ok (mkIP (ip_degree b0) (Some d') (ip_num b0) (ip_top b0) (ip_bottom b0) (ip_init b0) (Some x) (ip_fit b0))) = (with_inner_points r d', Ok tt)).
  { intros b0 c E0; rewrite E0; unfold parameterize_surface_opt; destruct c as [c|]; [|discriminate].
    destruct (parameterize_surface (beh_of_surf c) d) as [x|e|] eqn:E; cbn [bind finish]; try discriminate; rewrite (parameterize2_reordered TK _ _ _ _ HD E); cbn [bind finish].
    destruct HD as (C & C' & _); rewrite C, C'; intros H; inversion H; reflexivity. }
  destruct (ip_init p) as [ci|] eqn:Ei, (ip_fit p) as [cf|] eqn:Ef;
    try (intros H; match type of H with context [parameterize_surface_opt ?c _] => pose proof (ST p c Eb) as X; unfold with_inner_points in X; rewrite Ei, Ef in X; unfold with_inner_points; rewrite ?Ei, ?Ef; exact (X H) end).
  unfold ip_set_init; cbn [with_inner_points ip_degree ip_num ip_top ip_bottom ip_data ip_param ip_fit].
  match goal with |- context [finish _ (bind ?m _)] => destruct m as [c|e|] end; cbn [bind finish andthen]; try discriminate.
  cbn [ip_init ip_data ip_degree ip_num ip_top ip_bottom ip_fit]; intros H.
  exact (ST (mkIP (ip_degree p) (ip_data p) (ip_num p) (ip_top p) (ip_bottom p) (Some c) (ip_param p) (ip_fit p)) (Some c) Eb H).
Qed.
Lemma ip_fit_reordered new sv p r : ip_data p = Some d -> ip_fit_run new sv p = (r, Ok tt) -> ip_fit_run new sv (with_inner_points p d') = (with_inner_points r d', Ok tt).
Proof.
  intros Eb; unfold ip_fit_run; cbn [with_inner_points ip_init].
  set (rest := fun p : iproblem K => match ip_init p, ip_data p with
    | Some s, Some data =>
        match ip_top p, ip_bottom p with
        | Some t, Some b =>
            match fit_surface sv s data (bp_param t) (bp_param b) with
            | Ok s' => ip_parameterize new (mkIP (ip_degree p) (ip_data p) (ip_num p) (ip_top p) (ip_bottom p) (ip_init p) (ip_param p) (Some s'))
            | Err e => (p, Err e)
            | Diverge => (p, Diverge)
            end
        | _, _ => (p, Err AttributeError)
        end
    | _, _ => (p, Err TypeError)
    end).
  assert (RS : forall b0, ip_data b0 = Some d -> rest b0 = (r, Ok tt) -> rest (with_inner_points b0 d') = (with_inner_points r d', Ok tt)).
  { intros b0 E0; unfold rest; cbn [with_inner_points ip_init ip_data ip_top ip_bottom ip_degree ip_num ip_param]; rewrite E0; destruct (ip_init b0) as [i|]; [|discriminate].
    destruct (ip_top b0) as [t|]; [|discriminate]; destruct (ip_bottom b0) as [b|]; [|discriminate].
    destruct (fit_surface sv i d (bp_param t) (bp_param b)) as [s|e|] eqn:E; try discriminate; rewrite (surface_reordered _ _ _ _ _ E).
    intros H; apply ip_param_reordered in H; [exact H|reflexivity]. }
  destruct (ip_init p) as [i|] eqn:Ei; cbn [andthen].
  - fold (rest p); intros H; exact (RS p Eb H).
  - unfold ip_set_init; cbn [with_inner_points ip_degree ip_num ip_top ip_bottom ip_data ip_param ip_fit].
    match goal with |- context [finish _ (bind ?m _)] => destruct m as [c|e|] end; cbn [bind finish andthen]; try discriminate.
    intros H; exact (RS (mkIP (ip_degree p) (ip_data p) (ip_num p) (ip_top p) (ip_bottom p) (Some c) (ip_param p) (ip_fit p)) Eb H).
Qed.
End Fits.

(** ** Both orders *)
Section Both.
Context {K : Num}.
Hypothesis HK : K = Exact \/ K = Binary64.
Lemma reordered_sym (d d' : data_array K) : reordered d d' -> reordered d' d.
Proof.
  intros (C & C' & P & F); repeat split; try assumption; [apply Permutation_sym; exact P|].
  apply Forall_forall; intros r Hr; rewrite Forall_forall in F; apply F; apply (Permutation_in _ (Permutation_sym P)); exact Hr.
Qed.
Variables (d d' : data_array K).
Hypothesis HD : reordered d d'.
Let HD' := reordered_sym _ _ HD.
Let TK := tidy_both K HK.
Lemma order_parameterize (c : curve_beh K) out : parameterize_curve c d = Ok out <-> parameterize_curve c d' = Ok out.
Proof. split; apply parameterize_reordered; assumption. Qed.
Lemma order_parameterize2 (s : surf_beh K) out : parameterize_surface s d = Ok out <-> parameterize_surface s d' = Ok out.
Proof. split; apply parameterize2_reordered; assumption. Qed.
Lemma order_insertion cl (sv : solver K) c num r : fit_curve_knot_insertion cl sv c d num = Ok r <-> fit_curve_knot_insertion cl sv c d' num = Ok r.
Proof. split; apply insertion_reordered; assumption. Qed.
Lemma order_fixed cl (sv : solver K) c r : fit_curve_fixed_ctrlpts cl sv c d = Ok r <-> fit_curve_fixed_ctrlpts cl sv c d' = Ok r.
Proof. split; apply fixed_reordered; assumption. Qed.
Lemma order_surface (sv : solver K) s top bot r : fit_surface sv s d top bot = Ok r <-> fit_surface sv s d' top bot = Ok r.
Proof. split; apply surface_reordered; assumption. Qed.
Lemma order_boundary cl sv (b r : bproblem K) : 
  (bp_parameterize cl (with_points b d) = (with_points r d, Ok tt) <-> bp_parameterize cl (with_points b d') = (with_points r d', Ok tt)) /\
  (bp_fit_run cl sv (with_points b d) = (with_points r d, Ok tt) <-> bp_fit_run cl sv (with_points b d') = (with_points r d', Ok tt)).
Proof.
  split; split; intros H.
  - exact (bp_param_reordered TK _ _ HD cl (with_points b d) _ eq_refl H).
  - exact (bp_param_reordered TK _ _ HD' cl (with_points b d') _ eq_refl H).
  - exact (bp_fit_reordered TK _ _ HD cl sv (with_points b d) _ eq_refl H).
  - exact (bp_fit_reordered TK _ _ HD' cl sv (with_points b d') _ eq_refl H).
Qed.
Lemma order_interior new sv (p r : iproblem K) :
  (ip_parameterize new (with_inner_points p d) = (with_inner_points r d, Ok tt) <-> ip_parameterize new (with_inner_points p d') = (with_inner_points r d', Ok tt)) /\
  (ip_fit_run new sv (with_inner_points p d) = (with_inner_points r d, Ok tt) <-> ip_fit_run new sv (with_inner_points p d') = (with_inner_points r d', Ok tt)).
Proof.
  split; split; intros H.
  - exact (ip_param_reordered TK _ _ HD new (with_inner_points p d) _ eq_refl H).
  - exact (ip_param_reordered TK _ _ HD' new (with_inner_points p d') _ eq_refl H).
  - exact (ip_fit_reordered TK _ _ HD new sv (with_inner_points p d) _ eq_refl H).
  - exact (ip_fit_reordered TK _ _ HD' new sv (with_inner_points p d') _ eq_refl H).
Qed.
End Both.
(** A successful call leaves the data alone. *)
Lemma data_kept {K : Num} (HK : K = Exact \/ K = Binary64) (d : data_array K) (HD : reordered d d) :
  (forall cl b r, bp_parameterize cl (with_points b d) = (r, Ok tt) -> r = with_points r d) /\
  (forall cl sv b r, bp_fit_run cl sv (with_points b d) = (r, Ok tt) -> r = with_points r d) /\
  (forall new p r, ip_parameterize new (with_inner_points p d) = (r, Ok tt) -> r = with_inner_points r d) /\
  (forall new sv p r, ip_fit_run new sv (with_inner_points p d) = (r, Ok tt) -> r = with_inner_points r d).
Proof.
  pose proof (tidy_both K HK) as TK; repeat split; intros.
  - pose proof (bp_param_reordered TK _ _ HD cl (with_points b d) _ eq_refl H) as E; change (bp_parameterize cl (with_points b d) = (with_points r d, Ok tt)) in E; rewrite H in E; exact (f_equal fst E).
  - pose proof (bp_fit_reordered TK _ _ HD cl sv (with_points b d) _ eq_refl H) as E; change (bp_fit_run cl sv (with_points b d) = (with_points r d, Ok tt)) in E; rewrite H in E; exact (f_equal fst E).
  - pose proof (ip_param_reordered TK _ _ HD new (with_inner_points p d) _ eq_refl H) as E; change (ip_parameterize new (with_inner_points p d) = (with_inner_points r d, Ok tt)) in E; rewrite H in E; exact (f_equal fst E).
  - pose proof (ip_fit_reordered TK _ _ HD new sv (with_inner_points p d) _ eq_refl H) as E; change (ip_fit_run new sv (with_inner_points p d) = (with_inner_points r d, Ok tt)) in E; rewrite H in E; exact (f_equal fst E).
Qed.
(** The whole state: what a successful call leaves. *)
Lemma order_boundary_run {K : Num} (HK : K = Exact \/ K = Binary64) (d d' : data_array K) (HD : reordered d d') cl sv (b r : bproblem K) :
  (bp_parameterize cl (with_points b d) = (r, Ok tt) -> r = with_points r d /\ bp_parameterize cl (with_points b d') = (with_points r d', Ok tt)) /\
  (bp_fit_run cl sv (with_points b d) = (r, Ok tt) -> r = with_points r d /\ bp_fit_run cl sv (with_points b d') = (with_points r d', Ok tt)).
Proof.
  assert (DD : reordered d d) by (destruct HD as (C & _ & _ & F); repeat split; try assumption; apply Permutation_refl).
  destruct (data_kept HK d DD) as (A & B & _ & _); split; intros H.
  - pose proof (A _ _ _ H) as E; split; [exact E|]; apply (order_boundary HK d d' HD cl sv b r); rewrite <- E; exact H.
  - pose proof (B _ _ _ _ H) as E; split; [exact E|]; apply (order_boundary HK d d' HD cl sv b r); rewrite <- E; exact H.
Qed.
Lemma order_interior_run {K : Num} (HK : K = Exact \/ K = Binary64) (d d' : data_array K) (HD : reordered d d') new sv (p r : iproblem K) :
  (ip_parameterize new (with_inner_points p d) = (r, Ok tt) -> r = with_inner_points r d /\ ip_parameterize new (with_inner_points p d') = (with_inner_points r d', Ok tt)) /\
  (ip_fit_run new sv (with_inner_points p d) = (r, Ok tt) -> r = with_inner_points r d /\ ip_fit_run new sv (with_inner_points p d') = (with_inner_points r d', Ok tt)).
Proof.
  assert (DD : reordered d d) by (destruct HD as (C & _ & _ & F); repeat split; try assumption; apply Permutation_refl).
  destruct (data_kept HK d DD) as (_ & _ & A & B); split; intros H.
  - pose proof (A _ _ _ H) as E; split; [exact E|]; apply (order_interior HK d d' HD new sv p r); rewrite <- E; exact H.
  - pose proof (B _ _ _ _ H) as E; split; [exact E|]; apply (order_interior HK d d' HD new sv p r); rewrite <- E; exact H.
Qed.
Lemma reordered_both {K : Num} (d d' : data_array K) : reordered d d' <-> reordered d' d.
Proof. split; apply reordered_sym. Qed.
(** ** Any sorting algorithm *)
Lemma comes_first_lt {K : Num} (x y : K) : comes_first x y <-> sort_lt x y = true.
Proof.
  unfold comes_first, sort_lt, is_nan; destruct (x <? y)%num, (x =? x)%num, (y =? y)%num; cbn; intuition congruence.
Qed.
Lemma in_order_le {K : Num} o (a b : list K) : in_order o a b <-> rec_le o a b = true.
Proof.
  induction o as [|i o IH]; cbn [in_order rec_le]; [intuition|]; rewrite !comes_first_lt, IH.
  destruct (sort_lt (nth i a 0%num) (nth i b 0%num)), (sort_lt (nth i b 0%num) (nth i a 0%num)); intuition congruence.
Qed.
Lemma any_sort {K : Num} (HK : K = Exact \/ K = Binary64) w o (l s : list (list K)) : (forall i, (i < w)%nat -> In i o) ->
  Forall (fun r => length r = w /\ Forall one_zero r) l -> Permutation l s -> (StronglySorted (in_order o) s <-> s = rec_sort o l).
Proof.
  intros C F P; pose proof (ti_sort _ (tidy_both K HK)) as SK.
  assert (EQ : forall l : list (list K), StronglySorted (in_order o) l <-> StronglySorted (fun a b => rec_le o a b = true) l).
  { intros l0; split; induction 1 as [|r l1 S IH G]; constructor; try assumption; (eapply Forall_impl; [|exact G]); intros x; apply in_order_le. }
  rewrite EQ; split.
  - intros S; apply (sort_any SK w o C); [exact F|exact P|exact S].
  - intros E; rewrite E; apply (sort_is_sorted SK w); exact F.
Qed.
