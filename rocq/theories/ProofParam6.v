(** Projection on the package's own curves and surfaces: outcomes (models:
    ModelParam.v, ModelCurve.v, ModelSurface.v), in exact arithmetic. *)
From Verif Require Import Py PyLemmas Num ModelKnots ModelBasis ModelCurve ModelSurface ModelParam Spec SpecParam MathCox MathKnots MathDeriv
  ProofNum ProofSpan ProofBasis ProofSpan2 ProofKnots ProofInsert2 ProofDers ProofDers2 ProofCurve ProofCurve2 ProofSurface ProofSurface2 ProofInit
  ProofParam ProofParam2 ProofParam3 ProofParam4 ProofFit7 ProofParam5.
Open Scope R_scope.

Lemma ok_inj {X} (x y : X) : Ok x = Ok y -> x = y.
Proof. intros H; injection H as H; exact H. Qed.
Lemma fin_inj : forall a b : list R, (fin a : list Exact) = fin b -> a = b.
Proof. induction a as [|x a IH]; intros [|y b] H; try discriminate; [reflexivity|]; injection H as -> H; f_equal; apply IH; exact H. Qed.
Lemma fin2_inj : forall a b : list (list R), (fin2 a : list (list Exact)) = fin2 b -> a = b.
Proof.
  induction a as [|x a IH]; intros [|y b] H; try discriminate; [reflexivity|]; unfold fin2 in *; cbn [map] in H.
  injection H as Hx H; f_equal; [apply fin_inj; exact Hx|apply IH; exact H].
Qed.
Definition span_of (n p : Z) (U : list R) (u : R) : Z := match find_span n p (Fin u : Exact) (fin U) with Ok s => s | _ => 0%Z end.
Lemma span_of_ok p n U u : clamped p n U -> strict p n U -> kn U p = 0 -> kn U n = 1 -> 0 <= u <= 1 ->
  find_span n p (Fin u : Exact) (fin U) = Ok (span_of n p U u) /\ (p <= span_of n p U u < n)%Z /\
  kn U (span_of n p U u) < kn U (span_of n p U u + 1).
Proof.
  intros HC HS H0 H1 Hu; destruct (find_span_ok p n U u (proj1 HC)) as (s & E & Hs); [lra|].
  unfold span_of; rewrite E; split; [reflexivity|]; split; [lia|apply HS; lia].
Qed.
Definition curve_row (p : nat) (U : list R) (P : list (list R)) (k : Z) (u : R) : list R :=
  ders_row U (span_of (len P) (Z.of_nat p) U u) p P u k.
Lemma curve_rows_ok p U P d u : clamped (Z.of_nat p) (len P) U -> strict (Z.of_nat p) (len P) U ->
  kn U (Z.of_nat p) = 0 -> kn U (len P) = 1 -> (2 <= p)%nat -> Forall (fun row => length row = 3%nat) P -> 0 <= u <= 1 ->
  single_point (curve_of (Z.of_nat p) U P d) (Fin u : Exact) = Ok (fin (curve_row p U P 0 u)) /\
  derivatives3 (curve_of (Z.of_nat p) U P d) (Fin u : Exact) 2
  = Ok (fin2 [curve_row p U P 0 u; curve_row p U P 1 u; curve_row p U P 2 u]).
Proof.
  intros HC HS H0 H1 Hp HF Hu; destruct (span_of_ok _ _ U u HC HS H0 H1 Hu) as (E & Hs & Hlt).
  pose proof (derivatives3_ok p U P d u _ 2 (proj1 HC) HF Hu E Hs Hlt (le_n 2)) as ED; rewrite Nat.min_l in ED by exact Hp.
  split; [|exact ED].
  destruct (derivatives3_true p U P d u _ 2 (proj1 HC) HF Hu E Hs Hlt (le_n 2)) as (m & EM & _ & _ & ES & _).
  change (Z.of_nat 2) with 2%Z in *; rewrite ED in EM; rewrite ES; do 2 f_equal.
  assert (J : forall a b : list (list Exact), Ok a = Ok b -> a = b) by (intros a b H; injection H as H; exact H); apply J in EM.
  rewrite <- (fin2_inj _ _ EM); reflexivity.
Qed.
Lemma not_unit_rejected (c : curve_obj Exact) u o : ~ unit_fin u -> derivatives3 c u o = Err ValueError.
Proof.
  intros H; unfold derivatives3; destruct (validate_knot u) eqn:E; [|reflexivity]; exfalso; apply H, validate_unit; exact E.
Qed.
Lemma curve_proper p U P d : clamped (Z.of_nat p) (len P) U -> strict (Z.of_nat p) (len P) U ->
  kn U (Z.of_nat p) = 0 -> kn U (len P) = 1 -> (2 <= p)%nat -> Forall (fun row => length row = 3%nat) P ->
  proper_curve (beh_of_curve3 (curve_of (Z.of_nat p) U P d)) (curve_row p U P 0) (curve_row p U P 1) (curve_row p U P 2).
Proof.
  intros HC HS H0 H1 Hp HF; split; [|intros; apply not_unit_rejected; assumption].
  intros u Hu; destruct (curve_rows_ok p U P d u HC HS H0 H1 Hp HF Hu) as [E1 E2].
  split; [exact E1|]; split; [reflexivity|]; split; [reflexivity|]; split; [reflexivity|].
  exists []; exact E2.
Qed.
Lemma beh_count p U P d : cb_count (beh_of_curve3 (curve_of p U P d)) = len P.
Proof. cbn [beh_of_curve3 cb_count curve_of c_ctrl]; apply zlen_fin2. Qed.

(** ** Curves *)
Section Curves.
Variables (p : nat) (U : list R) (P : list (list R)) (d : Z).
Hypotheses (HC : clamped (Z.of_nat p) (len P) U) (HS : strict (Z.of_nat p) (len P) U) (H0 : kn U (Z.of_nat p) = 0) (H1 : kn U (len P) = 1)
  (Hp : (2 <= p)%nat) (HF : Forall (fun row => length row = 3%nat) P).
Let c := curve_of (Z.of_nat p) U P d.
Lemma count_pos : (1 <= len P)%Z.
Proof. destruct HC as ((? & ? & _) & _); lia. Qed.
Lemma curve_inversion_outcome Q e1 e2 mi : length Q = 3%nat -> 0 <= e1 -> 0 <= e2 -> (0 <= mi)%Z ->
  (exists u, 0 <= u <= 1 /\ curve_inversion (beh_of_curve3 c) (fin Q) (Fin e1 : Exact) (Fin e2 : Exact) mi = Ok (Fin u : Exact)) \/
  (curve_inversion (beh_of_curve3 c) (fin Q) (Fin e1 : Exact) (Fin e2 : Exact) mi = Err ValueError /\
   exists u m, 0 <= u <= 1 /\ derivatives3 c (Fin u : Exact) 2 = Ok (fin2 m) /\
     (forall k, nth k (nth 1 m []) 0 = 0) /\ dotR (nth 2 m []) (subR (nth 0 m []) Q) = 0).
Proof.
  intros LQ He1 He2 Hmi; pose proof (curve_proper p U P d HC HS H0 H1 Hp HF) as HP.
  destruct (inversion_total _ _ _ _ Q e1 e2 HP LQ He1 He2 mi Hmi) as [H|(E & u & Hu & Z1 & Z2)].
  - rewrite beh_count; apply count_pos.
  - left; exact H.
  - right; split; [exact E|]; exists u; eexists; split; [exact Hu|]; split; [apply curve_rows_ok; assumption|]; split; assumption.
Qed.
Lemma curve_inversion_hit Q e1 e2 mi k : length Q = 3%nat -> 0 <= e1 -> (0 <= k < 2 * len P)%Z ->
  single_point c (Fin (IZR k / IZR (2 * len P - 1)) : Exact) = Ok (fin Q) ->
  exists l, (0 <= l <= k)%Z /\ single_point c (Fin (IZR l / IZR (2 * len P - 1)) : Exact) = Ok (fin Q) /\
    curve_inversion (beh_of_curve3 c) (fin Q) (Fin e1 : Exact) (Fin e2 : Exact) mi = Ok (Fin (IZR l / IZR (2 * len P - 1)) : Exact).
Proof.
  intros LQ He1 Hk EQ; pose proof (curve_proper p U P d HC HS H0 H1 Hp HF) as HP.
  pose proof count_pos as HN.
  assert (R : forall i, (0 <= i < 2 * len P)%Z -> single_point c (Fin (IZR i / IZR (2 * len P - 1)) : Exact) = Ok (fin (curve_row p U P 0 (IZR i / IZR (2 * len P - 1))))).
  { intros i Hi; apply curve_rows_ok; try assumption; apply samples_range; lia. }
  rewrite R in EQ by exact Hk.
  assert (J : forall a b : list Exact, Ok a = Ok b -> a = b) by (intros a b H; injection H as H; exact H); apply J, fin_inj in EQ.
  destruct (inversion_sample _ _ _ _ Q e1 e2 HP LQ He1 mi k) as (l & Hl & El & E); rewrite ?beh_count; try assumption.
  rewrite beh_count in El, E.
  exists l; split; [exact Hl|]; split; [rewrite R, El by lia; reflexivity|exact E].
Qed.
End Curves.

(** ** Surfaces *)
Definition surf_row (p q nu nv : nat) (U V : list R) (P : list (list R)) (k : Z) (u v : R) : list R :=
  raw_row p q nu nv U V P u v (span_of (Z.of_nat nu) (Z.of_nat p) U u) (span_of (Z.of_nat nv) (Z.of_nat q) V v) 2 k.
Section Surfaces.
Variables (p q nu nv : nat) (U V : list R) (P : list (list R)).
Hypotheses (CU : clamped (Z.of_nat p) (Z.of_nat nu) U) (CV : clamped (Z.of_nat q) (Z.of_nat nv) V)
  (SU : strict (Z.of_nat p) (Z.of_nat nu) U) (SV : strict (Z.of_nat q) (Z.of_nat nv) V)
  (U0 : kn U (Z.of_nat p) = 0) (U1 : kn U (Z.of_nat nu) = 1) (V0 : kn V (Z.of_nat q) = 0) (V1 : kn V (Z.of_nat nv) = 1)
  (Hp : (2 <= p)%nat) (Hq : (2 <= q)%nat) (HF : Forall (fun row => length row = 3%nat) P) (HL : length P = (nu * nv)%nat).
Let s := surf_of p q nu nv U V P.
Let row := surf_row p q nu nv U V P.
Lemma surf_rows_ok u v : 0 <= u <= 1 -> 0 <= v <= 1 ->
  surf_point s (Fin u : Exact) (Fin v : Exact) = Ok (fin (row 0 u v)) /\
  surf_derivatives s (Fin u : Exact) (Fin v : Exact) 2 2 false = Ok (fin2 (tab 9 (fun k => row k u v))).
Proof.
  intros Hu Hv; destruct (span_of_ok _ _ U u CU SU U0 U1 Hu) as (Eu & Hsu & Lu); destruct (span_of_ok _ _ V v CV SV V0 V1 Hv) as (Ev & Hsv & Lv).
  pose proof (surf_derivatives_ok p q nu nv U V P u v _ _ 2 2 false HF HL (proj1 CU) (proj1 CV) Hsu Hsv 2 2 Hu Hv Eu Ev Lu Lv
    ltac:(lia) ltac:(lia)) as ED; change ((2 + 1) * (2 + 1))%nat with 9%nat in ED; cbn [finish] in ED.
  split; [|exact ED].
  destruct (surf_derivatives_true p q nu nv U V P u v _ _ 2 2 (proj1 CU) (proj1 CV) HF HL Hu Hv Eu Ev Hsu Hsv Lu Lv) as (m & EM & _ & _ & ES & _).
  change (Z.of_nat 2) with 2%Z in *.
  assert (J : forall a b : list (list Exact), Ok a = Ok b -> a = b) by (intros a b H; injection H as H; exact H).
  fold s in ED, EM, ES; rewrite ED in EM; apply J, fin2_inj in EM; rewrite ES, <- EM; reflexivity.
Qed.
Lemma surf_proper : proper_surface (beh_of_surf s) (row 0) (row 3) (row 1) (row 6) (row 2) (row 4).
Proof.
  intros u v Hu Hv; destruct (surf_rows_ok u v Hu Hv) as [E1 E2].
  split; [exact E1|]; split; [reflexivity|]; split; [reflexivity|]; split; [reflexivity|]; split; [reflexivity|]; split; [reflexivity|]; split; [reflexivity|].
  exists (row 0 u v), (row 5 u v), [row 7 u v; row 8 u v]; exact E2.
Qed.
Lemma counts_pos : (1 <= Z.of_nat nu)%Z /\ (1 <= Z.of_nat nv)%Z.
Proof. destruct CU as ((? & ? & _) & _), CV as ((? & ? & _) & _); lia. Qed.
Lemma surface_inversion_outcome Q (e1 e2 : Exact) mi : length Q = 3%nat -> (0 <= mi)%Z ->
  (exists u v, 0 <= u <= 1 /\ 0 <= v <= 1 /\ surface_inversion (beh_of_surf s) (fin Q) e1 e2 mi = Ok (Fin u : Exact, Fin v : Exact)) \/
  (surface_inversion (beh_of_surf s) (fin Q) e1 e2 mi = Err LinAlgError /\
   exists a b u v m w, 0 <= a <= 1 /\ 0 <= b <= 1 /\ 0 <= u <= 1 /\ 0 <= v <= 1 /\
     surf_derivatives s (Fin a : Exact) (Fin b : Exact) 2 2 false = Ok (fin2 m) /\
     surf_point s (Fin u : Exact) (Fin v : Exact) = Ok (fin w) /\
     (let r := subR w Q in
      (dotR (nth 3 m []) (nth 3 m []) + dotR r (nth 6 m [])) * (dotR (nth 1 m []) (nth 1 m []) + dotR r (nth 2 m []))
      - (dotR (nth 3 m []) (nth 1 m []) + dotR r (nth 4 m [])) * (dotR (nth 3 m []) (nth 1 m []) + dotR r (nth 4 m [])) = 0)).
Proof.
  intros LQ Hmi; destruct counts_pos as [Nu Nv].
  destruct (sinversion_total _ _ _ _ _ _ _ Q surf_proper LQ e1 e2 mi Hmi Nu Nv) as [(u & v & [Hu Hv] & E)|(E & a & b & u & v & [Ha Hb] & [Hu Hv] & D)].
  - left; exists u, v; auto.
  - right; split; [exact E|]; exists a, b, u, v, (tab 9 (fun k => row k a b)), (row 0 u v).
    split; [exact Ha|]; split; [exact Hb|]; split; [exact Hu|]; split; [exact Hv|].
    split; [apply surf_rows_ok; assumption|]; split; [apply surf_rows_ok; assumption|exact D].
Qed.
Lemma surface_inversion_hit Q e1 (e2 : Exact) mi i j : length Q = 3%nat -> 0 <= e1 ->
  (0 <= i < 2 * Z.of_nat nu)%Z -> (0 <= j < 2 * Z.of_nat nv)%Z ->
  surf_point s (Fin (IZR i / IZR (2 * Z.of_nat nu - 1)) : Exact) (Fin (IZR j / IZR (2 * Z.of_nat nv - 1)) : Exact) = Ok (fin Q) ->
  exists k l, (0 <= k < 2 * Z.of_nat nu)%Z /\ (0 <= l < 2 * Z.of_nat nv)%Z /\
    surf_point s (Fin (IZR k / IZR (2 * Z.of_nat nu - 1)) : Exact) (Fin (IZR l / IZR (2 * Z.of_nat nv - 1)) : Exact) = Ok (fin Q) /\
    surface_inversion (beh_of_surf s) (fin Q) (Fin e1 : Exact) e2 mi
    = Ok (Fin (IZR k / IZR (2 * Z.of_nat nu - 1)) : Exact, Fin (IZR l / IZR (2 * Z.of_nat nv - 1)) : Exact).
Proof.
  intros LQ He1 Hi Hj EQ; destruct counts_pos as [Nu Nv].
  assert (J : forall a b : list Exact, Ok a = Ok b -> a = b) by (intros a b H; injection H as H; exact H).
  rewrite (proj1 (surf_rows_ok _ _ (samples_range _ _ Nu Hi) (samples_range _ _ Nv Hj))) in EQ; apply J, fin_inj in EQ.
  destruct (sinversion_sample _ _ _ _ _ _ _ Q surf_proper LQ e1 e2 mi i j He1 Nu Nv Hi Hj EQ) as (k & l & Hk & Hl & EP & E).
  exists k, l; split; [exact Hk|]; split; [exact Hl|]; split; [|exact E].
  rewrite (proj1 (surf_rows_ok _ _ (samples_range _ _ Nu Hk) (samples_range _ _ Nv Hl))).
  cbn [beh_of_surf sb_nu sb_nv s surf_of s_nu s_nv] in EP; rewrite EP; reflexivity.
Qed.
End Surfaces.

(** ** Parameterisation *)
Lemma mapM_outcome {X Y} (f : X -> res Y) e l : (forall x, In x l -> (exists y, f x = Ok y) \/ f x = Err e) ->
  (exists ys, mapM f l = Ok ys) \/ (mapM f l = Err e /\ exists x, In x l /\ f x = Err e).
Proof.
  induction l as [|x l IH]; intros H; [left; eexists; reflexivity|]; cbn [mapM].
  destruct (H x ltac:(left; reflexivity)) as [(y & E)|E]; rewrite E; cbn [bind].
  - destruct IH as [(ys & E2)|(E2 & x2 & I2 & F2)]; [intros; apply H; right; assumption| |]; rewrite E2; cbn [bind].
    + left; eexists; reflexivity.
    + right; split; [reflexivity|]; exists x2; split; [right; exact I2|exact F2].
  - right; split; [reflexivity|]; exists x; split; [left; reflexivity|exact E].
Qed.
Lemma parameterize_curve_outcome (c : curve_beh Exact) rows e : Forall (fun r => length r = 3%nat) rows ->
  (forall r, In r rows -> (exists u, curve_inversion c (fin r) lit_1em5 lit_1em5 100 = Ok u) \/ curve_inversion c (fin r) lit_1em5 lit_1em5 100 = Err e) ->
  (exists out, parameterize_curve c (mkData 3 (fin2 rows)) = Ok out) \/
  (parameterize_curve c (mkData 3 (fin2 rows)) = Err e /\ exists r, In r rows /\ curve_inversion c (fin r) lit_1em5 lit_1em5 100 = Err e).
Proof.
  intros HF H; unfold parameterize_curve; cbn [dt_rows dt_cols].
  destruct (mapM_outcome (fun point => curve_inversion c point lit_1em5 lit_1em5 100) e (fin2 rows)) as [(us & E)|(E & x & I & F)].
  - intros x Hx; apply in_map_iff in Hx; destruct Hx as (r & <- & Hr); apply H; exact Hr.
  - left; rewrite E; cbn [bind]; change (3 + 1)%Z with (Z.of_nat 4); change 4%Z with (Z.of_nat 4); rewrite sort_view_rows; [eexists; reflexivity|lia|].
    apply Forall_forall; intros r Hr; apply in_map_iff in Hr; destruct Hr as ([a b] & <- & Hab).
    apply in_combine_l in Hab; apply in_map_iff in Hab; destruct Hab as (a' & <- & Ha).
    cbn [fst snd]; unfold fin; rewrite app_length, map_length, (proj1 (Forall_forall _ _) HF a' Ha); reflexivity.
  - right; rewrite E; split; [reflexivity|]; apply in_map_iff in I; destruct I as (r & <- & Hr); exists r; split; assumption.
Qed.
Lemma parameterize_surface_outcome (s : surf_beh Exact) rows e : Forall (fun r => length r = 3%nat) rows ->
  (forall r, In r rows -> (exists u, surface_inversion s (fin r) lit_1em5 lit_1em5 100 = Ok u) \/ surface_inversion s (fin r) lit_1em5 lit_1em5 100 = Err e) ->
  (exists out, parameterize_surface s (mkData 3 (fin2 rows)) = Ok out) \/
  (parameterize_surface s (mkData 3 (fin2 rows)) = Err e /\ exists r, In r rows /\ surface_inversion s (fin r) lit_1em5 lit_1em5 100 = Err e).
Proof.
  intros HF H; unfold parameterize_surface; cbn [dt_rows dt_cols].
  destruct (mapM_outcome (fun point => surface_inversion s point lit_1em5 lit_1em5 100) e (fin2 rows)) as [(us & E)|(E & x & I & F)].
  - intros x Hx; apply in_map_iff in Hx; destruct Hx as (r & <- & Hr); apply H; exact Hr.
  - left; rewrite E; cbn [bind]; change (3 + 2)%Z with (Z.of_nat 5); change 5%Z with (Z.of_nat 5); rewrite sort_view_rows; [eexists; reflexivity|lia|].
    apply Forall_forall; intros r Hr; apply in_map_iff in Hr; destruct Hr as ([a b] & <- & Hab).
    apply in_combine_l in Hab; apply in_map_iff in Hab; destruct Hab as (a' & <- & Ha).
    cbn [fst snd]; unfold fin; rewrite app_length, map_length, (proj1 (Forall_forall _ _) HF a' Ha); reflexivity.
  - right; rewrite E; split; [reflexivity|]; apply in_map_iff in I; destruct I as (r & <- & Hr); exists r; split; assumption.
Qed.
