(** C120: whole fits of moved data. *)
From Coq Require Import Floats Permutation Sorted.
From Verif Require Import Py Num ModelKnots ModelBasis ModelCurve ModelSurface ModelInit ModelParam ModelFit ModelIO ModelData Spec SpecParam SpecFit SpecSmooth SpecWhole
  ProofNum ProofKnots ProofCurve ProofSurface ProofInit ProofFit3 ProofFit9 ProofData3 ProofData7 ProofWhole ProofWhole2 ProofWhole3 PropData ProofSmooth3 ProofSmooth9 MathKnots ProofSpan2 ProofParam6 Examples PropFit PropOutcome PropSmooth.
Open Scope R_scope.

(** ** C120: rotating, reflecting and shifting the input of a fit *)
(** fit_curve_knot_insertion. *)
Theorem C120_adaptive : forall sv sv' p data M b, least_squares sv -> least_squares sv' -> (2 <= p)%nat -> Forall (fun r => length r = 3%nat) data -> orthogonal M ->
  forall P num d d', (num <= Z.of_nat p + 65536)%Z -> Forall (fun r => length r = 3%nat) P -> length P = S p ->
  (forall P1 x, visited p data num P P1 -> projected p (uniform (Z.of_nat p) (len P1)) P1 data x -> enough p (len P1) (uniform (Z.of_nat p) (len P1)) x) ->
  let run sv P d data := fit_curve_knot_insertion working_class sv (curve_of (Z.of_nat p) (uniform (Z.of_nat p) (Z.of_nat p + 1)) P d) (mkData 3 (fin2 data)) num in
  (run sv P d data = Err ValueError /\ run sv' (map (affine M b) P) d' (map (affine M b) data) = Err ValueError) \/
  exists Q, run sv P d data = Ok (curve_of (Z.of_nat p) (uniform (Z.of_nat p) (len Q)) Q 0) /\
    run sv' (map (affine M b) P) d' (map (affine M b) data) = Ok (curve_of (Z.of_nat p) (uniform (Z.of_nat p) (len Q)) (map (affine M b) Q) 0) /\
    (Z.of_nat p + 1 <= len Q)%Z /\ Forall (fun r => length r = 3%nat) Q /\
    (exists P1 x, visited p data num P P1 /\ len P1 = len Q /\ projected p (uniform (Z.of_nat p) (len Q)) P1 data x /\ best_fit p (uniform (Z.of_nat p) (len Q)) P1 x Q).
Proof. exact adaptive_pair. Qed.
Print Assumptions C120_adaptive.
(** fit_curve_fixed_ctrlpts: three projections and fits. *)
Theorem C120_fixed : forall sv sv' p data M b, least_squares sv -> least_squares sv' -> (2 <= p)%nat -> Forall (fun r => length r = 3%nat) data -> orthogonal M ->
  forall n P d d', (Z.of_nat p + 1 <= n)%Z -> len P = n -> Forall (fun r => length r = 3%nat) P ->
  let Bz := uniform (Z.of_nat p) (Z.of_nat p + 1) in let S0 := segment (nth 0 P []) (last P []) (Z.of_nat p + 1) in let U := uniform (Z.of_nat p) n in
  (forall x, projected p Bz S0 data x -> enough p (Z.of_nat p + 1) Bz x /\
    forall Q y, best_fit p Bz S0 x Q -> projected p Bz Q data y -> enough p n U y /\
    forall R z, best_fit p U P y R -> projected p U R data z -> enough p n U z) ->
  let run sv P d data := fit_curve_fixed_ctrlpts working_class sv (curve_of (Z.of_nat p) U P d) (mkData 3 (fin2 data)) in
  (run sv P d data = Err ValueError /\ run sv' (map (affine M b) P) d' (map (affine M b) data) = Err ValueError) \/
  exists Q, run sv P d data = Ok (curve_of (Z.of_nat p) U Q 0) /\ run sv' (map (affine M b) P) d' (map (affine M b) data) = Ok (curve_of (Z.of_nat p) U (map (affine M b) Q) 0) /\
    length Q = length P /\ Forall (fun r => length r = 3%nat) Q.
Proof. exact fixed_pair. Qed.
Print Assumptions C120_fixed.
(** fit_surface. *)
Theorem C120_surface : forall sv sv' p q nu nv U V P rows M b top bot top' bot', least_squares sv -> least_squares sv' ->
  clamped (Z.of_nat p) (Z.of_nat nu) U -> clamped (Z.of_nat q) (Z.of_nat nv) V -> strict (Z.of_nat p) (Z.of_nat nu) U -> strict (Z.of_nat q) (Z.of_nat nv) V ->
  kn U (Z.of_nat p) = 0 -> kn U (Z.of_nat nu) = 1 -> kn V (Z.of_nat q) = 0 -> kn V (Z.of_nat nv) = 1 -> (2 <= p)%nat -> (2 <= q)%nat ->
  Forall (fun r => length r = 3%nat) P -> length P = (nu * nv)%nat -> Forall (fun r => length r = 3%nat) rows -> orthogonal M ->
  dt_cols top = 4%Z -> dt_cols bot = 4%Z -> dt_cols top' = 4%Z -> dt_cols bot' = 4%Z ->
  let s P := mkSurf (K := Exact) (Z.of_nat p) (Z.of_nat q) (Z.of_nat nu) (Z.of_nat nv) (fin2 P) (fin U) (fin V) in
  (forall x, parameterize_surface (beh_of_surf (s P)) (mkData 3 (fin2 rows)) = Ok (fin2 x) -> enough2 p q nu nv U V x) ->
  let run := fit_surface sv (s P) (mkData 3 (fin2 rows)) (Some top) (Some bot) in
  let run' := fit_surface sv' (s (map (affine M b) P)) (mkData 3 (fin2 (map (affine M b) rows))) (Some top') (Some bot') in
  (exists e, run = Err e /\ run' = Err e) \/ exists Q, run = Ok (s Q) /\ run' = Ok (s (map (affine M b) Q)).
Proof. exact surface_pair. Qed.
Print Assumptions C120_surface.
(** Boundary problems: outcome, curve, size and parameterised data. *)
Theorem C120_boundary : forall sv sv' (pb pb' : bproblem Exact) a e p n data M b, least_squares sv -> least_squares sv' ->
  bp_init pb = None -> bp_start pb = Some (fin a) -> bp_end pb = Some (fin e) -> length a = 3%nat -> length e = 3%nat ->
  bp_degree pb = Some (Z.of_nat p) -> (2 <= p)%nat -> bp_num pb = Some n -> (Z.of_nat p + 1 <= n)%Z ->
  bp_data pb = Some (mkData 3 (fin2 data)) -> Forall (fun r => length r = 3%nat) data -> orthogonal M ->
  bp_init pb' = None -> bp_start pb' = Some (fin (affine M b a)) -> bp_end pb' = Some (fin (affine M b e)) ->
  bp_degree pb' = Some (Z.of_nat p) -> bp_num pb' = Some n -> bp_adaptive pb' = bp_adaptive pb ->
  bp_data pb' = Some (mkData 3 (fin2 (map (affine M b) data))) ->
  (bp_adaptive pb = true -> (n <= Z.of_nat p + 65536)%Z) -> dense_segment p n (bp_adaptive pb) a e data ->
  let c := bp_fit_run working_class sv pb in let c' := bp_fit_run working_class sv' pb' in
  snd c' = snd c /\ bp_num (fst c') = bp_num (fst c) /\
  (snd c = Ok tt -> exists Q rows rows', (let U := uniform (Z.of_nat p) (len Q) in
     bp_fit (fst c) = Some (curve_of (Z.of_nat p) U Q 0) /\ bp_fit (fst c') = Some (curve_of (Z.of_nat p) U (map (affine M b) Q) 0)) /\
     bp_param (fst c) = Some (mkData 4 (fin2 rows)) /\ bp_param (fst c') = Some (mkData 4 (fin2 rows')) /\ Permutation rows' (map (moved M b) rows)).
Proof. exact bp_pair. Qed.
Print Assumptions C120_boundary.
(** Interior problems: outcome, surfaces and parameterised data. *)
Theorem C120_interior : forall sv sv' (ip ip' : iproblem Exact) (t b t' b' : bproblem Exact) ct cb ct' cb' top bot top' bot' p q nu nv T B data U M s, least_squares sv -> least_squares sv' ->
  ip_init ip = None -> ip_top ip = Some t -> ip_bottom ip = Some b -> ip_degree ip = Some (Z.of_nat q) -> ip_num ip = Some (Z.of_nat nv) ->
  ip_data ip = Some (mkData 3 (fin2 data)) -> Forall (fun r => length r = 3%nat) data ->
  bp_degree t = Some (Z.of_nat p) -> bp_degree b = Some (Z.of_nat p) -> bp_num t = Some (Z.of_nat nu) -> bp_num b = Some (Z.of_nat nu) ->
  bp_fit t = Some ct -> bp_fit b = Some cb -> c_ctrl ct = Some (fin2 T) -> c_ctrl cb = Some (fin2 B) -> c_kv cb = Some (fin U) ->
  bp_param t = Some top -> bp_param b = Some bot -> dt_cols top = 4%Z -> dt_cols bot = 4%Z ->
  Forall (fun r => length r = 3%nat) T -> Forall (fun r => length r = 3%nat) B -> length T = nu -> length B = nu ->
  (2 <= p)%nat -> (2 <= q)%nat -> (q + 1 <= nv)%nat ->
  clamped (Z.of_nat p) (Z.of_nat nu) U -> strict (Z.of_nat p) (Z.of_nat nu) U -> kn U (Z.of_nat p) = 0 -> kn U (Z.of_nat nu) = 1 -> orthogonal M ->
  ip_init ip' = None -> ip_top ip' = Some t' -> ip_bottom ip' = Some b' -> ip_degree ip' = Some (Z.of_nat q) -> ip_num ip' = Some (Z.of_nat nv) ->
  ip_data ip' = Some (mkData 3 (fin2 (map (affine M s) data))) ->
  bp_degree t' = Some (Z.of_nat p) -> bp_degree b' = Some (Z.of_nat p) -> bp_num t' = Some (Z.of_nat nu) -> bp_num b' = Some (Z.of_nat nu) ->
  bp_fit t' = Some ct' -> bp_fit b' = Some cb' -> c_ctrl ct' = Some (fin2 (map (affine M s) T)) -> c_ctrl cb' = Some (fin2 (map (affine M s) B)) -> c_kv cb' = Some (fin U) ->
  bp_param t' = Some top' -> bp_param b' = Some bot' -> dt_cols top' = 4%Z -> dt_cols bot' = 4%Z ->
  let V := uniform (Z.of_nat q) (Z.of_nat nv) in
  let surface P := mkSurf (K := Exact) (Z.of_nat p) (Z.of_nat q) (Z.of_nat nu) (Z.of_nat nv) (fin2 P) (fin U) (fin V) in
  (forall S0 x, init_surface working_surface (Some t) (Some b) (Some (Z.of_nat q)) (Some (Z.of_nat nv)) = Ok S0 ->
     parameterize_surface (beh_of_surf S0) (mkData 3 (fin2 data)) = Ok (fin2 x) -> enough2 p q nu nv U V x) ->
  let c := ip_fit_run working_surface sv ip in let c' := ip_fit_run working_surface sv' ip' in
  snd c' = snd c /\
  (exists P, ip_init (fst c) = Some (surface P) /\ ip_init (fst c') = Some (surface (map (affine M s) P))) /\
  (snd c = Ok tt -> exists Q rows rows', ip_fit (fst c) = Some (surface Q) /\ ip_fit (fst c') = Some (surface (map (affine M s) Q)) /\
     ip_param (fst c) = Some (mkData 5 (fin2 rows)) /\ ip_param (fst c') = Some (mkData 5 (fin2 rows')) /\ Permutation rows' (map (moved M s) rows)).
Proof. exact ip_pair. Qed.
Print Assumptions C120_interior.

(** With data that leave the fit open the result depends on the origin: a point
    (0, 1, 0) and the segment from (0, 0, 0) to (1, 0, 0), and both shifted by 1. *)
Definition near_line (x : float) : curve_obj Binary64 :=
  mkCurve (K := Binary64) (Some 2%Z) (Some [[x; 0; 0]; [x + 0.5; 0; 0]; [x + 1; 0; 0]]%float) (Some [0; 0; 0; 1; 1; 1]%float) 3.
Definition near_fit (x : float) : option (list (list Binary64)) :=
  match fit_curve_knot_insertion working_class (gs_solver Binary64) (near_line x) (mkData (K := Binary64) 3 [[x; 1; 0]]%float) 3 with Ok c => c_ctrl c | _ => None end.
Theorem C120_sparse_refuted : exists x y : float, (y = x + 1)%float /\
  near_fit x = Some [[0; 0; 0]; [0; 0; 0]; [1; 0; 0]]%float /\ near_fit y = Some [[1; 0; 0]; [0; 0; 0]; [2; 0; 0]]%float.
Proof. exists 0%float, 1%float; split; [reflexivity|]; split; vm_compute; reflexivity. Qed.
Print Assumptions C120_sparse_refuted.

(** Example: a quarter turn and a shift, four points on the segment from (0, 0, 0)
    to (7, 14, 0), with either kind of fit. *)
Definition quarter (i j : nat) : R := match i, j with 0%nat, 1%nat => -1 | 1%nat, 0%nat => 1 | 2%nat, 2%nat => 1 | _, _ => 0 end.
Definition shift (i : nat) : R := match i with 0%nat => 5 | _ => 1 end.
Lemma quarter_orthogonal : orthogonal quarter.
Proof.
  split; intros i j Hi Hj; (assert (i = 0 \/ i = 1 \/ i = 2)%nat as [->|[->| ->]] by lia); (assert (j = 0 \/ j = 1 \/ j = 2)%nat as [->|[->| ->]] by lia); cbn; lra.
Qed.
Definition posts : list (list R) := [[6; 12; 0]; [1; 2; 0]; [3; 6; 0]; [4; 8; 0]].
Definition fence (m : bool) (M : list R -> list R) : bproblem Exact :=
  mkBP (K := Exact) (Some 3%Z) (Some (mkData 3 (fin2 (map M posts)))) (Some (fin (M [0; 0; 0]))) (Some (fin (M [7; 14; 0]))) (Some 4%Z) m None None None.
Lemma posts_dense m : dense_segment 3 4 m [0; 0; 0] [7; 14; 0] posts.
Proof.
  apply (sampled_dense 3 [0; 0; 0] [7; 14; 0] posts [1; 3; 4; 6]%Z m); try reflexivity; try lia.
  - intros E; injection E as E; lra.
  - repeat constructor.
  - intros r [<-|[<-|[<-|[<-|[]]]]]; [exists 6%Z|exists 1%Z|exists 3%Z|exists 4%Z]; (split; [lia|]); unfold lerp; cbn; repeat (apply (f_equal2 cons); [lra|]); reflexivity.
  - repeat constructor.
  - repeat (constructor; [split; [lia|]|]); [| | | |constructor].
    + right; left; unfold lerp; cbn; repeat (apply (f_equal2 cons); [lra|]); reflexivity.
    + right; right; left; unfold lerp; cbn; repeat (apply (f_equal2 cons); [lra|]); reflexivity.
    + right; right; right; left; unfold lerp; cbn; repeat (apply (f_equal2 cons); [lra|]); reflexivity.
    + left; unfold lerp; cbn; repeat (apply (f_equal2 cons); [lra|]); reflexivity.
Qed.
Example C120_example : forall m, exists Q c c',
  bp_fit_run working_class (gs_solver Exact) (fence m (fun r => r)) = (c, Ok tt) /\ bp_fit_run working_class (gs_solver Exact) (fence m (affine quarter shift)) = (c', Ok tt) /\
  bp_fit c = Some (curve_of 3 (uniform 3 (len Q)) Q 0) /\ bp_fit c' = Some (curve_of 3 (uniform 3 (len Q)) (map (affine quarter shift) Q) 0).
Proof.
  intros m.
  destruct (C120_boundary (gs_solver Exact) (gs_solver Exact) (fence m (fun r => r)) (fence m (affine quarter shift)) [0; 0; 0] [7; 14; 0] 3 4 posts quarter shift) as (E & _ & H);
    try reflexivity; try exact C52_solver; try lia; try exact quarter_orthogonal; try exact (posts_dense m); [repeat constructor|].
  assert (OK : snd (bp_fit_run working_class (gs_solver Exact) (fence m (fun r => r))) = Ok tt).
  { destruct (C74_sampled (gs_solver Exact) (fence m (fun r => r)) [0; 0; 0] [7; 14; 0] 3 4 posts) as (b' & c & rows & E1 & _); try reflexivity; try exact C52_solver; try lia; [repeat constructor| |rewrite E1; reflexivity].
    intros r [<-|[<-|[<-|[<-|[]]]]]; [exists 6%Z|exists 1%Z|exists 3%Z|exists 4%Z]; (split; [lia|]); unfold lerp; cbn; repeat (apply (f_equal2 cons); [lra|]); reflexivity. }
  destruct (H OK) as (Q & _ & _ & (F & F') & _); rewrite OK in E.
  destruct (bp_fit_run working_class (gs_solver Exact) (fence m (fun r => r))) as [c r]; destruct (bp_fit_run working_class (gs_solver Exact) (fence m (affine quarter shift))) as [c' r'].
  cbn [snd fst] in *; subst r r'; exists Q, c, c'; auto.
Qed.
(** Example: 18 samples of the surface [gS] of PropSmooth.v. *)
Lemma gS_point u v : 0 <= u <= 1 -> 0 <= v <= 1 -> surface_xyz bU gV 2 2 4 3 gS u v = [u; v; u * v].
Proof.
  intros Ru Rv.
  destruct (C109_bilinear 2 2 4 3 bU gV gS [0; 0; 0] [1; 0; 0] [0; 1; 0] [0; 0; 1] u v 0 0 bU_clamped gV_clamped bU_strict gV_strict eq_refl eq_refl eq_refl eq_refl ltac:(lia) ltac:(lia) gS_3 eq_refl Ru Rv C109_example) as [E _].
  rewrite (surf_point_wide 2 2 4 3 bU gV gS u v bU_clamped ltac:(lia) bU_strict eq_refl eq_refl bU_wide gV_clamped ltac:(lia) gV_strict eq_refl eq_refl gV_wide gS_3 eq_refl Ru Rv) in E.
  apply ok_inj, fin_inj in E; rewrite E; cbn [map nth bilinear_row]; repeat (apply (f_equal2 cons); [ring|]); reflexivity.
Qed.
Definition grid_u : list Z := [1; 2; 3; 4; 5; 6]%Z.
Definition grid_v : list Z := [1; 2; 3]%Z.
Definition gT : list (list R) := flat_map (fun i => map (fun j => [IZR i / 7; IZR j / 5; IZR i / 7 * (IZR j / 5)]) grid_v) grid_u.
Lemma gT_in r : In r gT <-> exists i j, In i grid_u /\ In j grid_v /\ r = [IZR i / 7; IZR j / 5; IZR i / 7 * (IZR j / 5)].
Proof.
  unfold gT; rewrite in_flat_map; split.
  - intros (i & Hi & H); apply in_map_iff in H; destruct H as (j & <- & Hj); eauto.
  - intros (i & j & Hi & Hj & ->); exists i; split; [exact Hi|]; apply in_map_iff; exists j; split; [reflexivity|exact Hj].
Qed.
Lemma gT_3 : Forall (fun r => length r = 3%nat) gT.
Proof. apply Forall_forall; intros r Hr; apply gT_in in Hr; destruct Hr as (i & j & _ & _ & ->); reflexivity. Qed.
Lemma gT_sampled : ssampled 2 2 4 3 bU gV gT gS.
Proof.
  split; [split; [reflexivity|exact gS_3]|]; intros r Hr; apply gT_in in Hr; destruct Hr as (i & j & Hi & Hj & ->); exists i, j.
  assert (Bi : (1 <= i <= 6)%Z) by (cbn [In grid_u] in Hi; intuition lia); assert (Bj : (1 <= j <= 3)%Z) by (cbn [In grid_v] in Hj; intuition lia).
  split; [lia|]; split; [lia|]; change (IZR (2 * Z.of_nat 4 - 1)) with 7; change (IZR (2 * Z.of_nat 3 - 1)) with 5.
  apply gS_point; (split; [apply Rmult_le_pos; [apply IZR_le|]; lra || lia|]); apply (Rmult_le_reg_r 35); try lra; [assert (IZR i <= 6) by (apply IZR_le; lia)|assert (IZR j <= 3) by (apply IZR_le; lia)]; lra.
Qed.
Lemma gT_dense x : parameterize_surface (beh_of_surf (surf_of 2 2 4 3 bU gV gS)) (mkData 3 (fin2 gT)) = Ok (fin2 x) -> enough2 2 2 4 3 bU gV x.
Proof.
  intros E; pose proof (strict_tight _ _ _ bU_clamped bU_strict ltac:(lia)) as TU; pose proof (strict_tight _ _ _ gV_clamped gV_strict ltac:(lia)) as TV.
  destruct (ssampled_param 2 2 4 3 bU gV gT TU TV bU_strict gV_strict eq_refl eq_refl eq_refl eq_refl ltac:(lia) ltac:(lia) gT_3 ltac:(lia) ltac:(lia) gS gT_sampled) as (pts & EP & _ & _ & H).
  rewrite E in EP; apply ok_inj, fin2_inj in EP; subst pts.
  change (IZR (2 * Z.of_nat 4 - 1)) with 7 in H; change (IZR (2 * Z.of_nat 3 - 1)) with 5 in H.
  assert (G : forall i j, In i grid_u -> In j grid_v -> exists r, In r x /\ nth 3 r 0 = IZR i / 7 /\ nth 4 r 0 = IZR j / 5).
  { intros i j Hi Hj; destruct (H [IZR i / 7; IZR j / 5; IZR i / 7 * (IZR j / 5)] ltac:(apply gT_in; eauto)) as (k & l & Hk & Hl & EX & IN).
    assert (Rk : 0 <= IZR k / 7 <= 1) by (assert (0 <= IZR k <= 7) by (split; apply IZR_le; lia); lra).
    assert (Rl : 0 <= IZR l / 5 <= 1) by (assert (0 <= IZR l <= 5) by (split; apply IZR_le; lia); lra).
    rewrite gS_point in EX by assumption; injection EX as E1 E2 _; exists ([IZR i / 7; IZR j / 5; IZR i / 7 * (IZR j / 5)] ++ [IZR k / 7; IZR l / 5]); split; [exact IN|]; cbn [app nth]; split; assumption. }
  intros s Hs; assert (s = 2)%Z as -> by lia; exists [1/5; 2/5; 3/5]; split; [reflexivity|]; split; [repeat constructor; lra|].
  assert (HV : forall j, In j grid_v -> kn gV 2 <= IZR j / 5 <= kn gV (2 + 1) /\ plenty 3 (Z.of_nat 2) (Z.of_nat 4) bU (fun u => exists r, In r x /\ nth 3 r 0 = u /\ nth 4 r 0 = IZR j / 5)).
  { intros j Hj; split; [unfold gV; kn_eval; assert (1 <= IZR j <= 3) by (split; apply IZR_le; cbn [In grid_v] in Hj; intuition lia); lra|].
    intros t Ht; assert (t = 2 \/ t = 3)%Z as [->| ->] by lia; [exists [1/7; 2/7; 3/7]|exists [4/7; 5/7; 6/7]]; (split; [reflexivity|]); (split; [repeat constructor; lra|]);
      repeat (constructor; [split; [unfold bU; kn_eval; lra|apply G; [cbn [In grid_u]; tauto|exact Hj]]|]); constructor. }
  repeat (constructor; [apply HV; cbn [In grid_v]; tauto|]); constructor.
Qed.
Example C120_surface_example : exists Q, let d := mkData (K := Exact) 4 [] in
  fit_surface (gs_solver Exact) (surf_of 2 2 4 3 bU gV gS) (mkData 3 (fin2 gT)) (Some d) (Some d) = Ok (surf_of 2 2 4 3 bU gV Q) /\
  fit_surface (gs_solver Exact) (surf_of 2 2 4 3 bU gV (map (affine quarter shift) gS)) (mkData 3 (fin2 (map (affine quarter shift) gT))) (Some d) (Some d) = Ok (surf_of 2 2 4 3 bU gV (map (affine quarter shift) Q)).
Proof.
  set (d := mkData (K := Exact) 4 []).
  destruct (C120_surface (gs_solver Exact) (gs_solver Exact) 2 2 4 3 bU gV gS gT quarter shift d d d d C52_solver C52_solver bU_clamped gV_clamped bU_strict gV_strict
    eq_refl eq_refl eq_refl eq_refl ltac:(lia) ltac:(lia) gS_3 eq_refl gT_3 quarter_orthogonal eq_refl eq_refl eq_refl eq_refl gT_dense) as [(e & E & _)|(Q & E1 & E2)]; [exfalso|exists Q; split; assumption].
  pose proof (strict_tight _ _ _ bU_clamped bU_strict ltac:(lia)) as TU; pose proof (strict_tight _ _ _ gV_clamped gV_strict ltac:(lia)) as TV.
  destruct (ssampled_fit 2 2 4 3 bU gV gT TU TV bU_strict gV_strict eq_refl eq_refl eq_refl eq_refl ltac:(lia) ltac:(lia) gT_3 ltac:(lia) ltac:(lia) (gs_solver Exact) gS d d C52_solver eq_refl eq_refl gT_sampled) as (Q & EQ & _).
  pose proof (eq_trans (eq_sym E) EQ) as X; discriminate X.
Qed.
(** Example: the surface [gS] between its two edges, as an interior problem. *)
Definition edge (z : R) : list (list R) := map (fun x => [x; z; x * z]) [0; 1/4; 3/4; 1].
Definition edge_fit (z : R) (M : list R -> list R) : bproblem Exact :=
  mkBP (K := Exact) (Some 2%Z) None None None (Some 4%Z) false None (Some (mkData 4 [])) (Some (curve_of 2 bU (map M (edge z)) 0)).
Definition patch (M : list R -> list R) : iproblem Exact :=
  mkIP (K := Exact) (Some 2%Z) (Some (mkData 3 (fin2 (map M gT)))) (Some 3%Z) (Some (edge_fit 1 M)) (Some (edge_fit 0 M)) None None None.
Lemma patch_start S0 : init_surface working_surface (Some (edge_fit 1 (fun r => r))) (Some (edge_fit 0 (fun r => r))) (Some (Z.of_nat 2)) (Some (Z.of_nat 3)) = Ok S0 ->
  S0 = surf_of 2 2 4 3 bU gV gS.
Proof.
  intros E; rewrite (init_surface_ruled (edge_fit 1 (fun r => r)) (edge_fit 0 (fun r => r)) (curve_of 2 bU (map (fun r => r) (edge 1)) 0) (curve_of 2 bU (map (fun r => r) (edge 0)) 0) 2 2 4 3 (edge 1) (edge 0) bU) in E;
    try reflexivity; try lia; try (repeat constructor).
  apply ok_inj in E; subst S0; f_equal.
  unfold ruled; assert (EL : list_prod (zrange 0 (Z.of_nat 4)) (zrange 0 (Z.of_nat 3)) = [(0, 0); (0, 1); (0, 2); (1, 0); (1, 1); (1, 2); (2, 0); (2, 1); (2, 2); (3, 0); (3, 1); (3, 2)]%Z) by reflexivity; rewrite EL.
  assert (ET : forall i, nth (Z.to_nat i) (edge 1) [] = nth (Z.to_nat i) [[0; 1; 0]; [1/4; 1; 1/4]; [3/4; 1; 3/4]; [1; 1; 1]] []) by (intros i; unfold edge; cbn [map]; rewrite !Rmult_1_r; reflexivity).
  assert (EB : forall i, nth (Z.to_nat i) (edge 0) [] = nth (Z.to_nat i) [[0; 0; 0]; [1/4; 0; 0]; [3/4; 0; 0]; [1; 0; 0]] []) by (intros i; unfold edge; cbn [map]; rewrite !Rmult_0_r; reflexivity).
  cbn [map]; unfold ruled_row; cbn [fst snd]; rewrite !ET, !EB; unfold gS, lerp; change (Z.to_nat 0) with 0%nat; change (Z.to_nat 1) with 1%nat; change (Z.to_nat 2) with 2%nat; change (Z.to_nat 3) with 3%nat; cbn; repeat (apply (f_equal2 cons); [repeat (apply (f_equal2 cons); [lra|]); reflexivity|]); reflexivity.
Qed.
Example C120_interior_example : exists Q c c',
  ip_fit_run working_surface (gs_solver Exact) (patch (fun r => r)) = (c, Ok tt) /\ ip_fit_run working_surface (gs_solver Exact) (patch (affine quarter shift)) = (c', Ok tt) /\
  ip_fit c = Some (surf_of 2 2 4 3 bU gV Q) /\ ip_fit c' = Some (surf_of 2 2 4 3 bU gV (map (affine quarter shift) Q)).
Proof.
  assert (EV : uniform (Z.of_nat 2) (Z.of_nat 3) = gV) by reflexivity.
  assert (FE : forall z, Forall (fun r => length r = 3%nat) (edge z)) by (intros; repeat constructor).
  assert (EM : map (fun r : list R => r) gT = gT) by apply map_id.
  destruct (C120_interior (gs_solver Exact) (gs_solver Exact) (patch (fun r => r)) (patch (affine quarter shift)) (edge_fit 1 (fun r => r)) (edge_fit 0 (fun r => r)) (edge_fit 1 (affine quarter shift)) (edge_fit 0 (affine quarter shift))
    (curve_of 2 bU (edge 1) 0) (curve_of 2 bU (edge 0) 0) (curve_of 2 bU (map (affine quarter shift) (edge 1)) 0) (curve_of 2 bU (map (affine quarter shift) (edge 0)) 0)
    (mkData 4 []) (mkData 4 []) (mkData 4 []) (mkData 4 []) 2 2 4 3 (edge 1) (edge 0) gT bU quarter shift) as (E & _ & H);
    try reflexivity; try lia; try exact C52_solver; try exact quarter_orthogonal; try apply FE; try exact gT_3; try exact bU_clamped; try exact bU_strict.
  - intros S0 x ES; apply patch_start in ES; subst S0; rewrite EV; apply gT_dense.
  - assert (OK : snd (ip_fit_run working_surface (gs_solver Exact) (patch (fun r => r))) = Ok tt).
    { destruct (C75_sampled (gs_solver Exact) (patch (fun r => r)) (edge_fit 1 (fun r => r)) (edge_fit 0 (fun r => r)) (curve_of 2 bU (edge 1) 0) (curve_of 2 bU (edge 0) 0) 2 2 4 3 (edge 1) (edge 0) bU gT (mkData 4 []) (mkData 4 [])) as (c & S & rows & E1 & _);
        try reflexivity; try lia; try exact C52_solver; try apply FE; try exact gT_3; try exact bU_strict; try exact (strict_tight _ _ _ bU_clamped bU_strict ltac:(lia)).
      - intros S0 r ES Hr; apply patch_start in ES; subst S0; destruct gT_sampled as [_ HK]; destruct (HK r Hr) as (i & j & Hi & Hj & EX); exists i, j; split; [exact Hi|]; split; [exact Hj|].
        rewrite <- EX; apply (surf_point_wide 2 2 4 3 bU gV gS _ _ bU_clamped ltac:(lia) bU_strict eq_refl eq_refl bU_wide gV_clamped ltac:(lia) gV_strict eq_refl eq_refl gV_wide gS_3 eq_refl).
        + change (IZR (2 * Z.of_nat 4 - 1)) with 7; assert (0 <= IZR i <= 7) by (split; apply IZR_le; lia); lra.
        + change (IZR (2 * Z.of_nat 3 - 1)) with 5; assert (0 <= IZR j <= 5) by (split; apply IZR_le; lia); lra.
      - rewrite E1; reflexivity. }
    destruct (H OK) as (Q & _ & _ & F & F' & _); rewrite OK in E; rewrite EV in F, F'.
    destruct (ip_fit_run working_surface (gs_solver Exact) (patch (fun r => r))) as [c r]; destruct (ip_fit_run working_surface (gs_solver Exact) (patch (affine quarter shift))) as [c' r'].
    cbn [snd fst] in *; subst r r'; exists Q, c, c'; auto.
Qed.
