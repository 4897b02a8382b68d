(** What the VTK export writes and what reading a JSON file does. *)
From Coq Require Import Reals Lra String.
From Verif Require Import Py PyLemmas Num ModelKnots ModelBasis ModelCurve ModelSurface ModelIO ModelParam ModelFit ModelData Spec MathKnots ProofNum ProofSpan2 ProofKnots
  ProofCurve ProofCurve2 ProofSurface ProofIO ProofIO2 ProofIO3.
Open Scope Z_scope.

(** ** surf_to_vtk *)
Lemma mapM_all {X Y} (f : X -> res Y) (g : X -> Y) l : (forall x, In x l -> f x = Ok (g x)) -> mapM f l = Ok (map g l).
Proof.
  induction l as [|x l IH]; intros H; [reflexivity|]; cbn [mapM map]; rewrite (H x (or_introl eq_refl)); cbn [bind].
  rewrite IH by (intros y Hy; apply H; right; exact Hy); reflexivity.
Qed.
Lemma vtk_written {T} (dl : list (list Exact) -> res T) mw (point : Exact -> Exact -> res (list Exact)) (q : Z -> Z -> list R) n name d :
  1 <= n ->
  (forall i j, 0 <= i <= n -> 0 <= j <= n -> length (q i j) = 3%nat /\
     point (Fin (IZR i / IZR n) : Exact) (Fin (IZR j / IZR n) : Exact) = Ok (fin (q i j))) ->
  let grid := list_prod (zrange 0 (n + 1)) (zrange 0 (n + 1)) in
  surf_to_vtk dl mw (Some point) name n d =
    match dl (map (fun ij => [Fin (IZR (fst ij) / IZR n); Fin (IZR (snd ij) / IZR n)]) grid) with
    | Ok simplices => mw name (map (fun ij => fin (q (fst ij) (snd ij))) grid) simplices d
    | Err e => (d, Err e)
    | Diverge => (d, Diverge)
    end.
Proof.
  intros Hn Hq grid; unfold surf_to_vtk, ibind, ret; rewrite vtk_grid_exact by exact Hn; fold grid.
  assert (R : forall ij, In ij grid -> 0 <= fst ij <= n /\ 0 <= snd ij <= n).
  { intros [i j] H; unfold grid in H; apply in_prod_iff in H; destruct H as (H1 & H2); apply PyLemmas.in_zrange in H1, H2; cbn; lia. }
  rewrite (mapM_all _ (fun ij => fin (q (fst ij) (snd ij)) ++ [Fin (IZR (fst ij) / IZR n); Fin (IZR (snd ij) / IZR n)])).
  2: { intros ij H; destruct (R ij H) as (H1 & H2); destruct (Hq _ _ H1 H2) as (L & E); cbn zeta; rewrite E; cbn [bind].
       unfold broadcast, zlen; rewrite app_length; unfold fin; rewrite map_length, L; reflexivity. }
  cbn beta iota; rewrite mapM_compose, (mapM_all _ (fun ij => [Fin (IZR (fst ij) / IZR n); Fin (IZR (snd ij) / IZR n)])).
  2: { intros ij H; destruct (R ij H) as (H1 & H2); destruct (Hq _ _ H1 H2) as (L & _).
       destruct (q (fst ij) (snd ij)) as [|x [|y [|z [|w t]]]]; try discriminate L; reflexivity. }
  cbn beta iota; destruct (dl _); cbn beta iota; try reflexivity; f_equal.
  rewrite map_map; apply map_ext_in; intros ij H; destruct (R ij H) as (H1 & H2); destruct (Hq _ _ H1 H2) as (L & _).
  destruct (q (fst ij) (snd ij)) as [|x [|y [|z [|w t]]]]; try discriminate L; reflexivity.
Qed.
(** A grid line is at the end of [0,1] or out of reach of the end tolerance. *)
Lemma grid_line n i k : 1 <= n <= 900000 -> 0 <= i <= n -> (k <= 1)%R ->
  (0 <= IZR i / IZR n <= 1)%R /\ (close (1/1000000) (1/100000000) (IZR i / IZR n) 1 -> (k <= IZR i / IZR n)%R).
Proof.
  intros Hn Hi Hk; assert (N : (0 < IZR n)%R) by (apply IZR_lt; lia); assert (N' : (IZR n <= 900000)%R) by (apply IZR_le; lia).
  assert (I0 : (0 <= IZR i)%R) by (apply IZR_le; lia); assert (I1 : (IZR i <= IZR n)%R) by (apply IZR_le; lia).
  assert (E : (IZR i = IZR i / IZR n * IZR n)%R) by (field; lra).
  assert (B : (0 <= IZR i / IZR n <= 1)%R) by (split; [apply Rmult_le_reg_r with (IZR n); lra|apply Rmult_le_reg_r with (IZR n); lra]).
  split; [exact B|]; intros C; destruct (Z.eq_dec i n) as [->|D]; [replace (IZR n / IZR n)%R with 1%R by (field; lra); exact Hk|].
  exfalso; assert (I2 : (IZR i <= IZR n - 1)%R) by (rewrite <- minus_IZR; apply IZR_le; lia).
  unfold close in C; rewrite Rabs_left1 in C by lra; rewrite Rabs_right in C by lra.
  assert ((1 - IZR i / IZR n) * IZR n <= (1/100000000 + 1/1000000 * 1) * IZR n)%R by (apply Rmult_le_compat_r; lra).
  nra.
Qed.
(** Exporting a surface. *)
Lemma vtk_surface {T} (dl : list (list Exact) -> res T) mw p q nu nv U V P n name d :
  clamped (Z.of_nat p) (Z.of_nat nu) U -> clamped (Z.of_nat q) (Z.of_nat nv) V -> (1 <= p)%nat -> (1 <= q)%nat ->
  Forall (fun row => length row = 3%nat) P -> length P = (nu * nv)%nat ->
  kn U (Z.of_nat p) = 0%R -> kn U (Z.of_nat nu) = 1%R -> strict (Z.of_nat p) (Z.of_nat nu) U ->
  kn V (Z.of_nat q) = 0%R -> kn V (Z.of_nat nv) = 1%R -> strict (Z.of_nat q) (Z.of_nat nv) V -> 1 <= n <= 900000 ->
  let grid := list_prod (zrange 0 (n + 1)) (zrange 0 (n + 1)) in
  surf_to_vtk dl mw (Some (surf_point (surf_of p q nu nv U V P))) name n d =
    match dl (map (fun ij => [Fin (IZR (fst ij) / IZR n); Fin (IZR (snd ij) / IZR n)]) grid) with
    | Ok simplices => mw name (map (fun ij => fin (surface_xyz U V p q nu nv P (IZR (fst ij) / IZR n) (IZR (snd ij) / IZR n))) grid) simplices d
    | Err e => (d, Err e)
    | Diverge => (d, Diverge)
    end.
Proof.
  intros CU CV Hp Hq W L U0 U1 SU V0 V1 SV Hn grid.
  apply (vtk_written dl mw _ (fun i j => surface_xyz U V p q nu nv P (IZR i / IZR n) (IZR j / IZR n)) n name d); [lia|].
  intros i j Hi Hj; split; [reflexivity|].
  assert (KU : (kn U (Z.of_nat nu - 1) <= 1)%R) by (rewrite <- U1; destruct CU as ((? & ? & HL & ND) & _); apply ND; lia).
  assert (KV : (kn V (Z.of_nat nv - 1) <= 1)%R) by (rewrite <- V1; destruct CV as ((? & ? & HL & ND) & _); apply ND; lia).
  destruct (grid_line n i _ Hn Hi KU) as (A1 & A2); destruct (grid_line n j _ Hn Hj KV) as (B1 & B2).
  apply surf_point_strict; assumption.
Qed.

(** ** Reading JSON files *)
Lemma curve_read_all {K : Num} load (cs : class_state K) name d :
  (supported name = false -> curve_read load cs name d = (d, cs, Err ValueError)) /\
  (supported name = true ->
    (forall e, f_ropen d name = Some e -> curve_read load cs name d = (d, cs, Err e)) /\
    (f_ropen d name = None -> f_files d name = None -> curve_read load cs name d = (d, cs, Err FileNotFoundError)) /\
    (forall s, f_ropen d name = None -> f_files d name = Some s ->
      (forall e, load s = Err e -> curve_read load cs name d = (d, cs, Err e)) /\
      (forall data, load s = Ok data ->
        ((forall k, In k (d_keys data) <-> (k = KDegree \/ k = KKnotVector \/ k = KControlPoints)) ->
           exists cs', curve_read load cs name d = (d, cs', Ok None) /\ k_ctrl cs' = Some (d_ctrl data) /\ k_kv cs' = Some (d_kv data)) /\
        (~ (forall k, In k (d_keys data) <-> (k = KDegree \/ k = KKnotVector \/ k = KControlPoints)) ->
           curve_read load cs name d = (d, cs, Err ValueError))))).
Proof.
  split; [intros H; unfold curve_read; rewrite H; reflexivity|intros H].
  unfold curve_read; rewrite H; unfold ibind, open_r, ret; repeat split.
  - intros e ->; reflexivity.
  - intros -> ->; reflexivity.
  - intros e E; rewrite H0, H1, E; reflexivity.
  - intros Hk; rewrite H0, H1, H2; destruct (from_dict_spec K cs data) as (F & _); destruct (F Hk) as (cs' & E & C1 & C2); rewrite E; exists cs'; auto.
  - intros Hk; rewrite H0, H1, H2; destruct (from_dict_spec K cs data) as (_ & F); rewrite (F Hk); reflexivity.
Qed.
(** ** Exporting the fit surface of an interior problem *)
Lemma vtk_interior {T} (dl : list (list Exact) -> res T) mw (ip : iproblem Exact) p q nu nv U V P name d :
  ip_fit ip = Some (surf_of p q nu nv U V P) ->
  clamped (Z.of_nat p) (Z.of_nat nu) U -> clamped (Z.of_nat q) (Z.of_nat nv) V -> (1 <= p)%nat -> (1 <= q)%nat ->
  Forall (fun row => length row = 3%nat) P -> length P = (nu * nv)%nat ->
  kn U (Z.of_nat p) = 0%R -> kn U (Z.of_nat nu) = 1%R -> strict (Z.of_nat p) (Z.of_nat nu) U ->
  kn V (Z.of_nat q) = 0%R -> kn V (Z.of_nat nv) = 1%R -> strict (Z.of_nat q) (Z.of_nat nv) V ->
  let grid := list_prod (zrange 0 101) (zrange 0 101) in
  ip_vtk dl mw ip name d =
    match dl (map (fun ij => [Fin (IZR (fst ij) / 100); Fin (IZR (snd ij) / 100)]) grid) with
    | Ok simplices => mw name (map (fun ij => fin (surface_xyz U V p q nu nv P (IZR (fst ij) / 100) (IZR (snd ij) / 100))) grid) simplices d
    | Err e => (d, Err e)
    | Diverge => (d, Diverge)
    end.
Proof.
  intros E; intros; unfold ip_vtk; rewrite E; cbn [option_map].
  exact (vtk_surface dl mw p q nu nv U V P 100 name d ltac:(assumption) ltac:(assumption) ltac:(assumption) ltac:(assumption) ltac:(assumption)
    ltac:(assumption) ltac:(assumption) ltac:(assumption) ltac:(assumption) ltac:(assumption) ltac:(assumption) ltac:(assumption) ltac:(lia)).
Qed.
