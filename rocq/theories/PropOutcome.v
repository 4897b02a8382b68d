(** C71-C76: what projections and fits do on every input, in exact arithmetic. *)
From Coq Require Import Floats String.
From Verif Require Import Py Num ModelKnots ModelCurve ModelSurface ModelInit ModelParam ModelFit ModelIO ModelData Spec SpecFit SpecParam
  MathKnots MathLinear ProofInit ProofSpan2 ProofKnots ProofCurve ProofSurface Examples ProofParam5 ProofParam6 ProofLinear ProofFit9 ProofData6 ProofData7 PropParam PropFit PropData.
Open Scope R_scope.

(** ** C71: derivatives in all three coordinates *)
Theorem C71_derivatives : forall p U P d u s o, knots_for (Z.of_nat p) (len P) U -> Forall (fun row => length row = 3%nat) P ->
  0 <= u <= 1 -> find_span (len P) (Z.of_nat p) (Fin u : Exact) (fin U) = Ok s -> (Z.of_nat p <= s < len P)%Z ->
  kn U s < kn U (s + 1) -> (2 <= o)%nat ->
  exists m, derivatives3 (mkCurve (K := Exact) (Some (Z.of_nat p)) (Some (fin2 P)) (Some (fin U)) d) (Fin u : Exact) (Z.of_nat o) = Ok (fin2 m) /\
    length m = S (Nat.min o p) /\ Forall (fun row => length row = 3%nat) m /\
    single_point (mkCurve (K := Exact) (Some (Z.of_nat p)) (Some (fin2 P)) (Some (fin U)) d) (Fin u : Exact) = Ok (fin (nth 0 m [])) /\
    (forall k c, (k <= o)%nat -> (k <= p)%nat -> (c < 3)%nat ->
       exists G, nth_derivative k (curve_piece U s p (coords c P)) G /\ nth c (nth k m []) 0 = G u).
Proof. exact derivatives3_true. Qed.
Print Assumptions C71_derivatives.
(** With distinct inner knots there is such a span for every parameter in [0,1]. *)
Theorem C71_span : forall p n U u, clamped p n U -> strict p n U -> kn U p = 0 -> kn U n = 1 -> 0 <= u <= 1 ->
  exists s, find_span n p (Fin u : Exact) (fin U) = Ok s /\ (p <= s < n)%Z /\ kn U s < kn U (s + 1).
Proof. intros p n U u HC HS H0 H1 Hu; eexists; apply span_of_ok; assumption. Qed.
Print Assumptions C71_span.
Theorem C71_outside : forall (c : curve_obj Exact) u o, ~ unit_fin u -> derivatives3 c u o = Err ValueError.
Proof. exact not_unit_rejected. Qed.
Print Assumptions C71_outside.
Example C71_example : derivatives3 bowl (0.25%float : Binary64) 2 = Ok [[0.25; 0.75; 0]; [1; 2; 0]; [0; -8; 0]]%float /\
  single_point bowl (0.25%float : Binary64) = Ok [0.25; 0.75; 0]%float /\
  derivatives3 bowl (0.25%float : Binary64) 1 = Err ValueError /\ derivatives3 bowl (1.5%float : Binary64) 2 = Err ValueError.
Proof. repeat split; vm_compute; reflexivity. Qed.
Example C71_hypotheses : clamped 2 4 bU /\ strict 2 4 bU /\ kn bU 2 = 0 /\ kn bU 4 = 1 /\ len bT = 4%Z /\ Forall (fun row => length row = 3%nat) bT.
Proof.
  split; [unfold bU; solve_clamped|]; split; [|split; [reflexivity|split; [reflexivity|split; [reflexivity|repeat constructor]]]].
  intros i Hi; assert (E : i = 2%Z \/ i = 3%Z) by lia; destruct E as [->| ->]; unfold bU; kn_eval; lra.
Qed.

(** ** C72: outcomes of the projection on a curve *)
Theorem C72_outcome : forall p U P d Q e1 e2 mi,
  clamped (Z.of_nat p) (len P) U -> strict (Z.of_nat p) (len P) U -> kn U (Z.of_nat p) = 0 -> kn U (len P) = 1 ->
  (2 <= p)%nat -> Forall (fun row => length row = 3%nat) P -> length Q = 3%nat -> 0 <= e1 -> 0 <= e2 -> (0 <= mi)%Z ->
  let c := mkCurve (K := Exact) (Some (Z.of_nat p)) (Some (fin2 P)) (Some (fin U)) d in
  (exists u, 0 <= u <= 1 /\ curve_inversion (beh_of_curve3 c) (fin Q) (Fin e1 : Exact) (Fin e2 : Exact) mi = Ok (Fin u : Exact)) \/
  (curve_inversion (beh_of_curve3 c) (fin Q) (Fin e1 : Exact) (Fin e2 : Exact) mi = Err ValueError /\
   exists u m, 0 <= u <= 1 /\ derivatives3 c (Fin u : Exact) 2 = Ok (fin2 m) /\
     (forall k, nth k (nth 1 m []) 0 = 0) /\ dotR (nth 2 m []) (subR (nth 0 m []) Q) = 0).
Proof. intros p U P d Q e1 e2 mi HC HS H0 H1 Hp HF LQ E1 E2 Hm; exact (curve_inversion_outcome p U P d HC HS H0 H1 Hp HF Q e1 e2 mi LQ E1 E2 Hm). Qed.
Print Assumptions C72_outcome.
(** So on a curve whose tangent vanishes nowhere every point is projected. *)
Theorem C72_regular : forall p U P d Q e1 e2 mi,
  clamped (Z.of_nat p) (len P) U -> strict (Z.of_nat p) (len P) U -> kn U (Z.of_nat p) = 0 -> kn U (len P) = 1 ->
  (2 <= p)%nat -> Forall (fun row => length row = 3%nat) P -> length Q = 3%nat -> 0 <= e1 -> 0 <= e2 -> (0 <= mi)%Z ->
  let c := mkCurve (K := Exact) (Some (Z.of_nat p)) (Some (fin2 P)) (Some (fin U)) d in
  (forall u m, 0 <= u <= 1 -> derivatives3 c (Fin u : Exact) 2 = Ok (fin2 m) -> exists k, nth k (nth 1 m []) 0 <> 0) ->
  exists u, 0 <= u <= 1 /\ curve_inversion (beh_of_curve3 c) (fin Q) (Fin e1 : Exact) (Fin e2 : Exact) mi = Ok (Fin u : Exact).
Proof.
  intros p U P d Q e1 e2 mi HC HS H0 H1 Hp HF LQ E1 E2 Hm c HR.
  destruct (C72_outcome p U P d Q e1 e2 mi HC HS H0 H1 Hp HF LQ E1 E2 Hm) as [H|(_ & u & m & Hu & EM & HZ & _)]; [exact H|].
  destruct (HR u m Hu EM) as (k & Hk); destruct (Hk (HZ k)).
Qed.
Print Assumptions C72_regular.
(** The points tried first are found exactly. *)
Theorem C72_sample : forall p U P d Q e1 e2 mi k,
  clamped (Z.of_nat p) (len P) U -> strict (Z.of_nat p) (len P) U -> kn U (Z.of_nat p) = 0 -> kn U (len P) = 1 ->
  (2 <= p)%nat -> Forall (fun row => length row = 3%nat) P -> length Q = 3%nat -> 0 <= e1 -> (0 <= k < 2 * len P)%Z ->
  let c := mkCurve (K := Exact) (Some (Z.of_nat p)) (Some (fin2 P)) (Some (fin U)) d in
  single_point c (Fin (IZR k / IZR (2 * len P - 1)) : Exact) = Ok (fin Q) ->
  exists l, (0 <= l <= k)%Z /\ single_point c (Fin (IZR l / IZR (2 * len P - 1)) : Exact) = Ok (fin Q) /\
    curve_inversion (beh_of_curve3 c) (fin Q) (Fin e1 : Exact) (Fin e2 : Exact) mi = Ok (Fin (IZR l / IZR (2 * len P - 1)) : Exact).
Proof. intros p U P d Q e1 e2 mi k HC HS H0 H1 Hp HF LQ E1 Hk; exact (curve_inversion_hit p U P d HC HS H0 H1 Hp HF Q e1 e2 mi k LQ E1 Hk). Qed.
Print Assumptions C72_sample.
(** On a curve that is a single point no point further than the tolerance is. *)
Theorem C72_point_curve : forall p U A n d Q e1 e2 mi,
  clamped (Z.of_nat p) (Z.of_nat n) U -> strict (Z.of_nat p) (Z.of_nat n) U -> kn U (Z.of_nat p) = 0 -> kn U (Z.of_nat n) = 1 ->
  (2 <= p)%nat -> length A = 3%nat -> length Q = 3%nat -> (0 <= mi)%Z -> 0 <= e1 < distR A Q ->
  curve_inversion (beh_of_curve3 (mkCurve (K := Exact) (Some (Z.of_nat p)) (Some (fin2 (repeat A n))) (Some (fin U)) d))
    (fin Q) (Fin e1 : Exact) (Fin e2 : Exact) mi = Err ValueError.
Proof. exact point_inversion. Qed.
Print Assumptions C72_point_curve.
(** The whole data set. *)
Theorem C72_data : forall p U P d data,
  clamped (Z.of_nat p) (len P) U -> strict (Z.of_nat p) (len P) U -> kn U (Z.of_nat p) = 0 -> kn U (len P) = 1 ->
  (2 <= p)%nat -> Forall (fun r => length r = 3%nat) P -> Forall (fun r => length r = 3%nat) data ->
  let c := mkCurve (K := Exact) (Some (Z.of_nat p)) (Some (fin2 P)) (Some (fin U)) d in
  (exists pts, parameterize_curve (beh_of_curve3 c) (mkData 3 (fin2 data)) = Ok (fin2 pts) /\
     length pts = length data /\ Forall (fun r => length r = 4%nat /\ 0 <= nth 3 r 0 <= 1) pts) \/
  parameterize_curve (beh_of_curve3 c) (mkData 3 (fin2 data)) = Err ValueError.
Proof. exact param_outcome. Qed.
Print Assumptions C72_data.
(** In doubles: on [bowl] and on the curve that is the point (1, 2, 0). *)
Example C72_example :
  match curve_inversion (beh_of_curve3 bowl) [0.5; 3; 0]%float lit_1em5 lit_1em5 100 with Ok u => ((0 <=? u) && (u <=? 1))%float | _ => false end = true /\
  curve_inversion (beh_of_curve3 (mkCurve (K := Binary64) (Some 2%Z) (Some [[1; 2; 0]; [1; 2; 0]; [1; 2; 0]]%float) (Some [0; 0; 0; 1; 1; 1]%float) 3))
    [0; 2; 0]%float lit_1em5 lit_1em5 100 = Err ValueError /\
  curve_inversion (beh_of_curve3 bowl) [0; 0; 0]%float lit_1em5 lit_1em5 100 = Ok (0%float : Binary64).
Proof. repeat split; vm_compute; reflexivity. Qed.
(** In exact arithmetic: both outcomes occur. *)
Example C72_exact :
  (exists u, 0 <= u <= 1 /\
    curve_inversion (beh_of_curve3 (mkCurve (K := Exact) (Some 2%Z) (Some (fin2 [[0; 0; 0]; [1; 0; 0]; [2; 0; 0]])) (Some (fin [0; 0; 0; 1; 1; 1])) 0))
      (fin [1/3; 5; 7]) (Fin (1/100000) : Exact) (Fin (1/100000) : Exact) 100 = Ok (Fin u : Exact)) /\
  curve_inversion (beh_of_curve3 (mkCurve (K := Exact) (Some 2%Z) (Some (fin2 [[1; 2; 0]; [1; 2; 0]; [1; 2; 0]])) (Some (fin [0; 0; 0; 1; 1; 1])) 0))
    (fin [0; 2; 0]) (Fin (1/100000) : Exact) (Fin (1/100000) : Exact) 100 = Err ValueError.
Proof.
  split.
  - destruct (segment_inversion 2 [0; 0; 0] [2; 0; 0] 0 [1/3; 5; 7] (1/100000) (1/100000) 100) as (u & Hu & E); try reflexivity; try lra; try lia.
    { intros E; injection E as E; lra. }
    exists u; split; [exact Hu|]; rewrite <- E; do 2 f_equal.
    unfold curve_of; do 2 f_equal; unfold segment, uniform, lerp; change (Z.to_nat (Z.of_nat 2 + 1)) with 3%nat; cbn; repeat f_equal; lra.
  - apply (C72_point_curve 2 [0; 0; 0; 1; 1; 1] [1; 2; 0] 3 0 [0; 2; 0]); try reflexivity; try lia.
    + solve_clamped.
    + intros i Hi; assert (i = 2%Z) by lia; subst i; kn_eval; lra.
    + unfold distR, normR, dotR, subR; cbn.
      replace ((1 - 0) * (1 - 0) + ((2 - 2) * (2 - 2) + ((0 - 0) * (0 - 0) + 0))) with 1 by ring; rewrite sqrt_1; lra.
Qed.

(** ** C73: outcomes of the projection on a surface *)
Theorem C73_outcome : forall p q nu nv U V P Q (e1 e2 : Exact) mi,
  clamped (Z.of_nat p) (Z.of_nat nu) U -> clamped (Z.of_nat q) (Z.of_nat nv) V ->
  strict (Z.of_nat p) (Z.of_nat nu) U -> strict (Z.of_nat q) (Z.of_nat nv) V ->
  kn U (Z.of_nat p) = 0 -> kn U (Z.of_nat nu) = 1 -> kn V (Z.of_nat q) = 0 -> kn V (Z.of_nat nv) = 1 ->
  (2 <= p)%nat -> (2 <= q)%nat -> Forall (fun row => length row = 3%nat) P -> length P = (nu * nv)%nat ->
  length Q = 3%nat -> (0 <= mi)%Z ->
  let s := mkSurf (K := Exact) (Z.of_nat p) (Z.of_nat q) (Z.of_nat nu) (Z.of_nat nv) (fin2 P) (fin U) (fin V) in
  (exists u v, 0 <= u <= 1 /\ 0 <= v <= 1 /\ surface_inversion (beh_of_surf s) (fin Q) e1 e2 mi = Ok (Fin u : Exact, Fin v : Exact)) \/
  (surface_inversion (beh_of_surf s) (fin Q) e1 e2 mi = Err LinAlgError /\
   exists a b u v m w, 0 <= a <= 1 /\ 0 <= b <= 1 /\ 0 <= u <= 1 /\ 0 <= v <= 1 /\
     surf_derivatives s (Fin a : Exact) (Fin b : Exact) 2 2 false = Ok (fin2 m) /\
     surf_point s (Fin u : Exact) (Fin v : Exact) = Ok (fin w) /\
     (let r := subR w Q in
      (dotR (nth 3 m []) (nth 3 m []) + dotR r (nth 6 m [])) * (dotR (nth 1 m []) (nth 1 m []) + dotR r (nth 2 m []))
      - (dotR (nth 3 m []) (nth 1 m []) + dotR r (nth 4 m [])) * (dotR (nth 3 m []) (nth 1 m []) + dotR r (nth 4 m [])) = 0)).
Proof.
  intros p q nu nv U V P Q e1 e2 mi CU CV SU SV U0 U1 V0 V1 Hp Hq HF HL LQ Hm.
  exact (surface_inversion_outcome p q nu nv U V P CU CV SU SV U0 U1 V0 V1 Hp Hq HF HL Q e1 e2 mi LQ Hm).
Qed.
Print Assumptions C73_outcome.
Theorem C73_sample : forall p q nu nv U V P Q e1 (e2 : Exact) mi i j,
  clamped (Z.of_nat p) (Z.of_nat nu) U -> clamped (Z.of_nat q) (Z.of_nat nv) V ->
  strict (Z.of_nat p) (Z.of_nat nu) U -> strict (Z.of_nat q) (Z.of_nat nv) V ->
  kn U (Z.of_nat p) = 0 -> kn U (Z.of_nat nu) = 1 -> kn V (Z.of_nat q) = 0 -> kn V (Z.of_nat nv) = 1 ->
  (2 <= p)%nat -> (2 <= q)%nat -> Forall (fun row => length row = 3%nat) P -> length P = (nu * nv)%nat ->
  length Q = 3%nat -> 0 <= e1 -> (0 <= i < 2 * Z.of_nat nu)%Z -> (0 <= j < 2 * Z.of_nat nv)%Z ->
  let s := mkSurf (K := Exact) (Z.of_nat p) (Z.of_nat q) (Z.of_nat nu) (Z.of_nat nv) (fin2 P) (fin U) (fin V) in
  surf_point s (Fin (IZR i / IZR (2 * Z.of_nat nu - 1)) : Exact) (Fin (IZR j / IZR (2 * Z.of_nat nv - 1)) : Exact) = Ok (fin Q) ->
  exists k l, (0 <= k < 2 * Z.of_nat nu)%Z /\ (0 <= l < 2 * Z.of_nat nv)%Z /\
    surf_point s (Fin (IZR k / IZR (2 * Z.of_nat nu - 1)) : Exact) (Fin (IZR l / IZR (2 * Z.of_nat nv - 1)) : Exact) = Ok (fin Q) /\
    surface_inversion (beh_of_surf s) (fin Q) (Fin e1 : Exact) e2 mi
    = Ok (Fin (IZR k / IZR (2 * Z.of_nat nu - 1)) : Exact, Fin (IZR l / IZR (2 * Z.of_nat nv - 1)) : Exact).
Proof.
  intros p q nu nv U V P Q e1 e2 mi i j CU CV SU SV U0 U1 V0 V1 Hp Hq HF HL LQ E1 Hi Hj.
  exact (surface_inversion_hit p q nu nv U V P CU CV SU SV U0 U1 V0 V1 Hp Hq HF HL Q e1 e2 mi i j LQ E1 Hi Hj).
Qed.
Print Assumptions C73_sample.
(** In doubles: a point off [saddle], a sample of it, and a surface that is a
    single point. *)
Example C73_example :
  match surface_inversion (beh_of_surf saddle) [0.25; 0.375; 1]%float lit_1em5 lit_1em5 100 with
  | Ok (u, v) => ((0 <=? u) && (u <=? 1) && (0 <=? v) && (v <=? 1))%float | _ => false end = true /\
  surface_inversion (beh_of_surf saddle) [1; 0; 0]%float lit_1em5 lit_1em5 100 = Ok (1%float : Binary64, 0%float : Binary64) /\
  surface_inversion (beh_of_surf (mkSurf (K := Binary64) 2 2 3 3 (repeat [1; 2; 0]%float 9) [0; 0; 0; 1; 1; 1]%float [0; 0; 0; 1; 1; 1]%float))
    [0; 2; 0]%float lit_1em5 lit_1em5 100 = Err LinAlgError.
Proof. repeat split; vm_compute; reflexivity. Qed.

(** ** C74: outcomes of curve and boundary fits *)
Open Scope Z_scope.
Theorem C74_outcome : forall sv (b : bproblem Exact) a e p n data, least_squares sv ->
  bp_init b = None -> bp_start b = Some (fin a) -> bp_end b = Some (fin e) -> length a = 3%nat -> length e = 3%nat ->
  bp_degree b = Some (Z.of_nat p) -> (2 <= p)%nat -> bp_num b = Some n -> Z.of_nat p + 1 <= n ->
  bp_data b = Some (mkData 3 (fin2 data)) -> Forall (fun r => length r = 3%nat) data ->
  (bp_adaptive b = true -> n <= Z.of_nat p + 65536) ->
  snd (bp_fit_run working_class sv b) = Ok tt \/ snd (bp_fit_run working_class sv b) = Err ValueError.
Proof. exact bp_outcome. Qed.
Print Assumptions C74_outcome.
(** A closed boundary is not fitted, unless all the data are at its start. *)
Theorem C74_closed : forall sv (b : bproblem Exact) a e p n data r,
  bp_init b = None -> bp_start b = Some (fin a) -> bp_end b = Some (fin e) -> length a = 3%nat -> length e = 3%nat ->
  bp_degree b = Some (Z.of_nat p) -> (2 <= p)%nat -> bp_num b = Some n -> Z.of_nat p + 1 <= n ->
  bp_data b = Some (mkData 3 (fin2 data)) -> Forall (fun r => length r = 3%nat) data ->
  e = a -> In r data -> (1/100000 < distR a r)%R ->
  snd (bp_fit_run working_class sv b) = Err ValueError /\ bp_fit (fst (bp_fit_run working_class sv b)) = bp_fit b.
Proof.
  intros sv b a e p n data r HI Hs He La Le Hd Hp Hn Hpn Hda HD Ee Hr Hf.
  rewrite (bp_closed sv b a e p n data HI Hs He La Le Hd Hp Hn Hpn Hda HD r Ee Hr Hf); split; reflexivity.
Qed.
Print Assumptions C74_closed.
(** Data sampled from the segment between the ends are fitted without error. *)
Theorem C74_sampled : forall sv (b : bproblem Exact) a e p n data, least_squares sv ->
  bp_init b = None -> bp_start b = Some (fin a) -> bp_end b = Some (fin e) -> length a = 3%nat -> length e = 3%nat ->
  bp_degree b = Some (Z.of_nat p) -> (2 <= p)%nat -> bp_num b = Some n -> Z.of_nat p + 1 <= n ->
  bp_data b = Some (mkData 3 (fin2 data)) -> Forall (fun r => length r = 3%nat) data ->
  (3 <= p)%nat -> n = Z.of_nat p + 1 ->
  (forall r, In r data -> exists k, 0 <= k < 2 * (Z.of_nat p + 1) /\ r = lerp a e (IZR k / IZR (2 * (Z.of_nat p + 1) - 1))) ->
  exists b' c rows, bp_fit_run working_class sv b = (b', Ok tt) /\ bp_fit b' = Some c /\ bp_num b' = Some n /\
    single_point c (Fin 0 : Exact) = Ok (fin a) /\ single_point c (Fin 1 : Exact) = Ok (fin e) /\
    bp_param b' = Some (mkData 4 (fin2 rows)) /\ length rows = length data /\
    (forall r, In r data -> exists u, (0 <= u <= 1)%R /\ single_point c (Fin u : Exact) = Ok (fin r) /\ In (r ++ [u]) rows).
Proof. exact bp_sampled. Qed.
Print Assumptions C74_sampled.
(** An adaptive fit that needs no insertion returns whatever the data, unless
    the ends coincide. *)
Theorem C74_first_round : forall sv p a e d data num, least_squares sv -> (2 <= p)%nat -> length a = 3%nat -> length e = 3%nat -> a <> e ->
  Forall (fun r => length r = 3%nat) data -> num <= Z.of_nat p + 1 ->
  forall init, initialize_curve_with (cl_blank (working_class (K := Exact))) (cl_set_ctrl working_class) (fin a) (fin e) (Z.of_nat p) (Z.of_nat p + 1) = Ok init ->
  exists c, fit_curve_knot_insertion working_class sv (mkCurve (K := Exact) (c_degree init) (c_ctrl init) (c_kv init) d) (mkData 3 (fin2 data)) num = Ok c.
Proof.
  intros sv p a e d data num HS Hp La Le Hne HD Hn init EI.
  rewrite (init_bezier a e p ltac:(lia) La Le) in EI; injection EI as <-; exact (segment_adaptive sv p a e d data num HS Hp La Le Hne HD Hn).
Qed.
Print Assumptions C74_first_round.
Definition open_boundary (start : list R) (data : list (list R)) (m : bool) : bproblem Exact :=
  mkBP (K := Exact) (Some 3) (Some (mkData 3 (fin2 data))) (Some (fin start)) (Some (fin [1; 2; 3]%R)) (Some 4) m None None None.
(** In exact arithmetic, with the solver the model has: a fit that returns and
    one that fails. *)
Example C74_exact : forall m, snd (bp_fit_run working_class (gs_solver Exact) (open_boundary [0; 0; 0]%R [[1/7; 2/7; 3/7]; [6/7; 12/7; 18/7]]%R m)) = Ok tt /\
  snd (bp_fit_run working_class (gs_solver Exact) (open_boundary [1; 2; 3]%R [[1; 2; 3]; [0; 2; 3]]%R m)) = Err ValueError.
Proof.
  intros m; split.
  - edestruct (C74_sampled (gs_solver Exact)) with (b := open_boundary [0; 0; 0]%R [[1/7; 2/7; 3/7]; [6/7; 12/7; 18/7]]%R m) (a := [0; 0; 0]%R) (e := [1; 2; 3]%R) (p := 3%nat) (n := 4)
      as (b' & c & rows & E & _); [exact C52_solver|reflexivity..|lia|reflexivity|lia|reflexivity|repeat constructor|lia|reflexivity| |rewrite E; reflexivity].
    intros r [<-|[<-|[]]]; [exists 1|exists 6]; (split; [lia|]); unfold lerp; cbn; repeat (apply (f_equal2 cons); [lra|]); reflexivity.
  - eapply (C74_closed (gs_solver Exact)) with (a := [1; 2; 3]%R) (p := 3%nat) (n := 4) (r := [0; 2; 3]%R); try reflexivity; try lia.
    + repeat constructor.
    + right; left; reflexivity.
    + unfold distR, normR, dotR, subR; cbn.
      replace ((1 - 0) * (1 - 0) + ((2 - 2) * (2 - 2) + ((3 - 3) * (3 - 3) + 0)))%R with 1%R by ring; rewrite sqrt_1; lra.
Qed.
(** In doubles: the same data with a closed and with an open boundary. *)
Example C74_double :
  let ops stop := [BDegree (VInt 2); BData (Ok (Nd2 (mkData (K := Binary64) 3 [[1; 0.25; 0]; [1; 0.5; 0]; [1; 0.75; 0]]%float)));
                   BStart (point [0; 0; 0]%float); BEnd (point stop); BNum (VInt 4); BMethod (VStr (txt "adaptive"))] in
  snd (outcome (ops [0; 0; 0]%float) BFit) = Err ValueError /\ snd (outcome (ops [0; 1; 0]%float) BFit) = Ok tt.
Proof. split; vm_compute; reflexivity. Qed.
Open Scope R_scope.

(** ** C76: linear precision *)
(** Control points at the averages of [p] consecutive knots along a line. *)
Theorem C76_line : forall p U P A D d u, clamped (Z.of_nat p) (len P) U -> strict (Z.of_nat p) (len P) U ->
  kn U (Z.of_nat p) = 0 -> kn U (len P) = 1 -> (2 <= p)%nat -> 0 <= u <= 1 -> length A = 3%nat -> length D = 3%nat ->
  Forall (fun row => length row = 3%nat) P ->
  (forall i c, (0 <= i < len P)%Z -> (c < 3)%nat -> nth c (nth (Z.to_nat i) P []) 0 = nth c A 0 + zsum (i + 1) p (kn U) / INR p * nth c D 0) ->
  let c := mkCurve (K := Exact) (Some (Z.of_nat p)) (Some (fin2 P)) (Some (fin U)) d in
  let at_u := map (fun c => nth c A 0 + u * nth c D 0) [0%nat; 1%nat; 2%nat] in
  single_point c (Fin u : Exact) = Ok (fin at_u) /\ derivatives3 c (Fin u : Exact) 2 = Ok (fin2 [at_u; D; [0; 0; 0]]).
Proof.
  intros p U P A D d u HC HS H0 H1 Hp Hu LA LD HF HP.
  destruct (line_rows p U P A D u HC HS H0 H1 ltac:(lia) Hu LA LD HP) as (R0 & R1 & R2).
  destruct (curve_rows_ok p U P d u HC HS H0 H1 Hp HF Hu) as [E1 E2]; rewrite R0 in E1; rewrite R0, R1, R2 in E2.
  split; [exact E1|exact E2].
Qed.
Print Assumptions C76_line.
(** The initial curve with as few control points as the degree allows. *)
Theorem C76_initial : forall p a e u, (2 <= p)%nat -> length a = 3%nat -> length e = 3%nat -> 0 <= u <= 1 ->
  forall c, initialize_curve_with (cl_blank (working_class (K := Exact))) (cl_set_ctrl working_class) (fin a) (fin e) (Z.of_nat p) (Z.of_nat p + 1) = Ok c ->
  single_point c (Fin u : Exact) = Ok (fin (lerp a e u)) /\ derivatives3 c (Fin u : Exact) 2 = Ok (fin2 [lerp a e u; subR e a; [0; 0; 0]]).
Proof.
  intros p a e u Hp La Le Hu c EC; rewrite (init_bezier a e p ltac:(lia) La Le) in EC; injection EC as <-.
  assert (LS : len (segment a e (Z.of_nat p + 1)) = (Z.of_nat p + 1)%Z) by (apply segment_len; lia).
  destruct (bezier_knots p ltac:(lia) _ LS) as (HC & HT & H0 & H1).
  destruct (curve_rows_ok p _ _ 0 u HC HT H0 H1 Hp (segment_3 a e _) Hu) as [E1 E2].
  destruct (segment_rows p a e u ltac:(lia) La Le Hu) as (R0 & R1 & R2); cbv zeta in R0, R1, R2.
  rewrite LS in *; rewrite R0 in E1; rewrite R0, R1, R2 in E2; split; assumption.
Qed.
Print Assumptions C76_initial.
(** Knots 0, 0, 0, 1/2, 1, 1, 1: averages 0, 1/4, 3/4, 1. *)
Example C76_hypotheses : forall i c, (0 <= i < 4)%Z -> (c < 3)%nat ->
  nth c (nth (Z.to_nat i) [[1; 0; 0]; [2; 0; 1]; [4; 0; 3]; [5; 0; 4]] []) 0 = nth c [1; 0; 0] 0 + zsum (i + 1) 2 (kn bU) / INR 2 * nth c [4; 0; 4] 0.
Proof.
  intros i c Hi Hc; assert (E : i = 0%Z \/ i = 1%Z \/ i = 2%Z \/ i = 3%Z) by lia.
  destruct E as [->|[->|[->| ->]]]; destruct c as [|[|[|]]]; try lia; unfold bU; cbn [zsum]; kn_eval;
    try change (Z.to_nat 1) with 1%nat; try change (Z.to_nat 2) with 2%nat; try change (Z.to_nat 3) with 3%nat; cbn; lra.
Qed.
Example C76_example : let c := mkCurve (K := Binary64) (Some 2%Z) (Some [[1; 0; 0]; [2; 0; 1]; [4; 0; 3]; [5; 0; 4]]%float) (Some [0; 0; 0; 0.5; 1; 1; 1]%float) 3 in
  single_point c (0.125%float : Binary64) = Ok [1.5; 0; 0.5]%float /\ derivatives3 c (0.75%float : Binary64) 2 = Ok [[4; 0; 3]; [4; 0; 4]; [0; 0; 0]]%float.
Proof. split; vm_compute; reflexivity. Qed.

(** ** C75: outcomes of interior fits *)
Theorem C75_outcome : forall sv (ip : iproblem Exact) (t b : bproblem Exact) ct cb p q nu nv T B U data top bot, least_squares sv ->
  ip_init ip = None -> ip_top ip = Some t -> ip_bottom ip = Some b ->
  ip_degree ip = Some (Z.of_nat q) -> ip_num ip = Some (Z.of_nat nv) -> ip_data ip = Some (mkData 3 (fin2 data)) ->
  Forall (fun r => length r = 3%nat) data ->
  bp_degree t = Some (Z.of_nat p) -> bp_degree b = Some (Z.of_nat p) ->
  bp_num t = Some (Z.of_nat nu) -> bp_num b = Some (Z.of_nat nu) ->
  bp_fit t = Some ct -> bp_fit b = Some cb -> c_ctrl ct = Some (fin2 T) -> c_ctrl cb = Some (fin2 B) -> c_kv cb = Some (fin U) ->
  Forall (fun r => length r = 3%nat) T -> Forall (fun r => length r = 3%nat) B -> length T = nu -> length B = nu ->
  bp_param t = Some top -> bp_param b = Some bot -> dt_cols top = 4%Z -> dt_cols bot = 4%Z ->
  (2 <= p)%nat -> (2 <= q)%nat -> (q + 1 <= nv)%nat ->
  tight (Z.of_nat p) (Z.of_nat nu) U -> strict (Z.of_nat p) (Z.of_nat nu) U -> kn U (Z.of_nat p) = 0 -> kn U (Z.of_nat nu) = 1 ->
  snd (ip_fit_run working_surface sv ip) = Ok tt \/ snd (ip_fit_run working_surface sv ip) = Err LinAlgError.
Proof. exact ip_outcome. Qed.
Print Assumptions C75_outcome.
(** Data sampled from the initial surface are fitted without error. *)
Theorem C75_sampled : forall sv (ip : iproblem Exact) (t b : bproblem Exact) ct cb p q nu nv T B U data top bot, least_squares sv ->
  ip_init ip = None -> ip_top ip = Some t -> ip_bottom ip = Some b ->
  ip_degree ip = Some (Z.of_nat q) -> ip_num ip = Some (Z.of_nat nv) -> ip_data ip = Some (mkData 3 (fin2 data)) ->
  Forall (fun r => length r = 3%nat) data ->
  bp_degree t = Some (Z.of_nat p) -> bp_degree b = Some (Z.of_nat p) ->
  bp_num t = Some (Z.of_nat nu) -> bp_num b = Some (Z.of_nat nu) ->
  bp_fit t = Some ct -> bp_fit b = Some cb -> c_ctrl ct = Some (fin2 T) -> c_ctrl cb = Some (fin2 B) -> c_kv cb = Some (fin U) ->
  Forall (fun r => length r = 3%nat) T -> Forall (fun r => length r = 3%nat) B -> length T = nu -> length B = nu ->
  bp_param t = Some top -> bp_param b = Some bot -> dt_cols top = 4%Z -> dt_cols bot = 4%Z ->
  (2 <= p)%nat -> (2 <= q)%nat -> (q + 1 <= nv)%nat ->
  tight (Z.of_nat p) (Z.of_nat nu) U -> strict (Z.of_nat p) (Z.of_nat nu) U -> kn U (Z.of_nat p) = 0 -> kn U (Z.of_nat nu) = 1 ->
  (Z.of_nat nu <= 490000)%Z -> (Z.of_nat nv <= 490000)%Z ->
  (forall S0 r, init_surface working_surface (Some t) (Some b) (Some (Z.of_nat q)) (Some (Z.of_nat nv)) = Ok S0 -> In r data ->
     exists i j, (0 <= i < 2 * Z.of_nat nu)%Z /\ (0 <= j < 2 * Z.of_nat nv)%Z /\
       surf_point S0 (Fin (IZR i / IZR (2 * Z.of_nat nu - 1)) : Exact) (Fin (IZR j / IZR (2 * Z.of_nat nv - 1)) : Exact) = Ok (fin r)) ->
  exists ip' S rows, ip_fit_run working_surface sv ip = (ip', Ok tt) /\ ip_fit ip' = Some S /\ ip_param ip' = Some (mkData 5 (fin2 rows)) /\
    length rows = length data /\
    (forall r, In r data -> exists u v, 0 <= u <= 1 /\ 0 <= v <= 1 /\ surf_point S (Fin u : Exact) (Fin v : Exact) = Ok (fin r) /\ In (r ++ [u; v]) rows).
Proof. exact ip_sampled. Qed.
Print Assumptions C75_sampled.
(** A unit strip, twice as long as wide, and two points on its long edges. *)
Definition strip_curve (y : R) : curve_obj Exact :=
  mkCurve (K := Exact) (Some 2%Z) (Some (fin2 [[0; y; 0]; [1; y; 0]; [2; y; 0]])) (Some (fin [0; 0; 0; 1; 1; 1])) 3.
Definition strip_edge (y : R) : bproblem Exact :=
  mkBP (K := Exact) (Some 2%Z) None None None (Some 3%Z) false None (Some (mkData 4 [])) (Some (strip_curve y)).
Definition strip (data : list (list R)) : iproblem Exact :=
  mkIP (K := Exact) (Some 2%Z) (Some (mkData 3 (fin2 data))) (Some 3%Z) (Some (strip_edge 1)) (Some (strip_edge 0)) None None None.
Lemma strip_knots : tight 2 3 [0; 0; 0; 1; 1; 1] /\ strict 2 3 [0; 0; 0; 1; 1; 1].
Proof.
  split; [split; [solve_clamped|split; kn_eval; lra]|].
  intros i Hi; assert (i = 2%Z) by lia; subst i; kn_eval; lra.
Qed.
Lemma strip_edge_point y u : 0 <= u <= 1 ->
  single_point (strip_curve y) (Fin u : Exact) = Ok (fin [2 * u; y; 0]).
Proof.
  intros Hu; destruct (C76_line 2 [0; 0; 0; 1; 1; 1] [[0; y; 0]; [1; y; 0]; [2; y; 0]] [0; y; 0] [2; 0; 0] 3 u) as [E _]; try reflexivity; try lia; try assumption; try apply strip_knots.
  - repeat constructor.
  - intros i c Hi Hc; change (len [[0; y; 0]; [1; y; 0]; [2; y; 0]]) with 3%Z in Hi.
    assert (D : i = 0%Z \/ i = 1%Z \/ i = 2%Z) by lia; destruct D as [->|[->| ->]]; destruct c as [|[|[|]]]; try lia; cbn [zsum]; kn_eval;
      try change (Z.to_nat 1) with 1%nat; try change (Z.to_nat 2) with 2%nat; cbn; lra.
  - change (Z.of_nat 2) with 2%Z in E; fold (strip_curve y) in E; rewrite E; cbn; f_equal; repeat (apply (f_equal2 cons); [f_equal; lra|]); reflexivity.
Qed.
Example C75_exact : snd (ip_fit_run working_surface (gs_solver Exact) (strip [[4/5; 0; 0]; [6/5; 1; 0]])) = Ok tt.
Proof.
  destruct strip_knots as [ST SS].
  destruct (C59_ruled_surface (strip_edge 1) (strip_edge 0) (strip_curve 1) (strip_curve 0) 2 2 3 3 [[0; 1; 0]; [1; 1; 0]; [2; 1; 0]] [[0; 0; 0]; [1; 0; 0]; [2; 0; 0]] [0; 0; 0; 1; 1; 1] 3)
    as (V & P & phi & S & ES & _ & _ & _ & _ & _ & _ & HE & _); try reflexivity; try lia; try exact ST; try (repeat constructor).
  assert (F3 : forall y, Forall (fun r : list R => length r = 3%nat) [[0; y; 0]; [1; y; 0]; [2; y; 0]]) by (intros; repeat constructor).
  assert (FD : Forall (fun r : list R => length r = 3%nat) [[4/5; 0; 0]; [6/5; 1; 0]]) by repeat constructor.
  assert (H2 : (2 <= 2)%nat) by lia; assert (H3 : (2 + 1 <= 3)%nat) by lia; assert (H4 : (Z.of_nat 3 <= 490000)%Z) by lia.
  destruct (C75_sampled (gs_solver Exact) (strip [[4/5; 0; 0]; [6/5; 1; 0]]) (strip_edge 1) (strip_edge 0) (strip_curve 1) (strip_curve 0) 2 2 3 3
    [[0; 1; 0]; [1; 1; 0]; [2; 1; 0]] [[0; 0; 0]; [1; 0; 0]; [2; 0; 0]] [0; 0; 0; 1; 1; 1] [[4/5; 0; 0]; [6/5; 1; 0]] (mkData (K := Exact) 4 []) (mkData (K := Exact) 4 [])
    C52_solver eq_refl eq_refl eq_refl eq_refl eq_refl eq_refl FD eq_refl eq_refl eq_refl eq_refl eq_refl eq_refl eq_refl eq_refl eq_refl
    (F3 1) (F3 0) eq_refl eq_refl eq_refl eq_refl eq_refl eq_refl H2 H2 H3 ST SS eq_refl eq_refl H4 H4) as (ip' & S' & rows & E & _); [|rewrite E; reflexivity].
  intros S0 r E0; change (Some (Z.of_nat 2)) with (Some 2%Z) in E0, ES; rewrite ES in E0; injection E0 as <-.
  assert (EP : forall u, 0 <= u <= 1 -> surf_point S (Fin u : Exact) (Fin 0 : Exact) = Ok (fin [2 * u; 0; 0]) /\ surf_point S (Fin u : Exact) (Fin 1 : Exact) = Ok (fin [2 * u; 1; 0])).
  { intros u Hu; destruct (C71_span 2 3 [0; 0; 0; 1; 1; 1] u (proj1 ST) SS) as (s & EF & _ & HL); try (kn_eval; lra); try exact Hu.
    destruct (HE u s Hu EF HL) as [E0 E1]; rewrite E0, E1; split; [exact (strip_edge_point 0 u Hu)|exact (strip_edge_point 1 u Hu)]. }
  intros [<-|[<-|[]]]; [exists 2%Z, 0%Z|exists 3%Z, 5%Z]; (split; [lia|]); (split; [lia|]).
  - change (IZR (2 * Z.of_nat 3 - 1)) with 5; replace (0 / 5) with 0 by lra; rewrite (proj1 (EP (2/5) ltac:(lra))); do 2 f_equal; repeat (apply (f_equal2 cons); [lra|]); reflexivity.
  - change (IZR (2 * Z.of_nat 3 - 1)) with 5; replace (5 / 5) with 1 by lra; rewrite (proj2 (EP (3/5) ltac:(lra))); do 2 f_equal; repeat (apply (f_equal2 cons); [lra|]); reflexivity.
Qed.
