(** Further facts about curve objects (model: ModelCurve.v). *)
From Verif Require Import Py PyLemmas Num ModelKnots ModelBasis ModelCurve Spec MathCox MathKnots MathJoin ProofNum ProofSpan ProofBasis ProofSpan2 ProofKnots ProofInsert2 ProofCurve.
Open Scope R_scope.

(** ** Bounding box *)
Lemma span_sum_between U s p c u lo hi : nondecreasing U -> kn U s < kn U (s + 1) -> kn U s <= u <= kn U (s + 1) ->
  (forall m, (s - Z.of_nat p <= m <= s)%Z -> lo <= nth (Z.to_nat m) c 0 <= hi) ->
  lo <= span_sum U s p c u <= hi.
Proof.
  intros HU Hs Hu HB; unfold span_sum.
  pose proof (piece_unity U s p u HU Hs) as E.
  split.
  - replace lo with (lo * zsum (s - Z.of_nat p) (S p) (fun i => piece U s p i u)) by (rewrite E; ring).
    rewrite <- zsum_scal; apply zsum_le; intros i Hi.
    pose proof (piece_nonneg U s p u i HU Hs Hu); rewrite (Rmult_comm lo); apply Rmult_le_compat_l; [assumption|].
    apply HB; lia.
  - replace hi with (hi * zsum (s - Z.of_nat p) (S p) (fun i => piece U s p i u)) by (rewrite E; ring).
    rewrite <- zsum_scal; apply zsum_le; intros i Hi.
    pose proof (piece_nonneg U s p u i HU Hs Hu); rewrite (Rmult_comm hi); apply Rmult_le_compat_l; [assumption|].
    apply HB; lia.
Qed.
Lemma nth_map3 {A} (f : nat -> A) c d : (c < 3)%nat -> nth c (map f [0%nat; 1%nat; 2%nat]) d = f c.
Proof. destruct c as [|[|[|]]]; try lia; reflexivity. Qed.

Lemma single_point_box p U P d u s : knots_for (Z.of_nat p) (len P) U -> Forall (fun row => length row = 3%nat) P ->
  0 <= u <= 1 -> find_span (len P) (Z.of_nat p) (Fin u : Exact) (fin U) = Ok s -> (Z.of_nat p <= s < len P)%Z ->
  kn U s < kn U (s + 1) -> kn U s <= u <= kn U (s + 1) ->
  exists v, single_point (curve_of (Z.of_nat p) U P d) (Fin u : Exact) = Ok (fin v) /\ length v = 3%nat /\
    forall c lo hi, (c < 3)%nat ->
      (forall m, (s - Z.of_nat p <= m <= s)%Z -> lo <= nth c (nth (Z.to_nat m) P []) 0 <= hi) -> lo <= nth c v 0 <= hi.
Proof.
  intros (Hp & Hn & HL & HU) HF Hu E Hs Hlt Hc; rewrite single_point_inside by exact Hu.
  rewrite (curve_point_span p U P u s) by assumption.
  exists (span_xyz U s p P u); split; [reflexivity|]; split; [reflexivity|].
  intros c lo hi Hc3 HB; unfold span_xyz; rewrite nth_map3 by exact Hc3.
  apply span_sum_between; try assumption; intros m Hm; rewrite nth_coords; apply HB; exact Hm.
Qed.

(** ** Affine maps *)
Lemma span_sum_affine U s p P M b u c : nondecreasing U -> kn U s < kn U (s + 1) ->
  (Z.of_nat p <= s < len P)%Z -> (c < 3)%nat ->
  span_sum U s p (coords c (map (affine M b) P)) u
  = M c 0%nat * span_sum U s p (coords 0 P) u + M c 1%nat * span_sum U s p (coords 1 P) u
    + M c 2%nat * span_sum U s p (coords 2 P) u + b c.
Proof.
  intros HU Hs Hsn Hc; unfold span_sum.
  pose proof (piece_unity U s p u HU Hs) as E.
  replace (b c) with (b c * zsum (s - Z.of_nat p) (S p) (fun i => piece U s p i u)) by (rewrite E; ring).
  rewrite <- !zsum_scal, <- !zsum_plus; apply zsum_ext; intros i Hi.
  rewrite !nth_coords.
  rewrite (nth_indep _ [] (affine M b [])) by (rewrite map_length; unfold len in *; lia).
  rewrite map_nth; unfold affine at 1; rewrite nth_map3 by exact Hc; ring.
Qed.
Lemma single_point_affine p U P d u s M b : knots_for (Z.of_nat p) (len P) U -> Forall (fun row => length row = 3%nat) P ->
  0 <= u <= 1 -> find_span (len P) (Z.of_nat p) (Fin u : Exact) (fin U) = Ok s -> (Z.of_nat p <= s < len P)%Z ->
  kn U s < kn U (s + 1) ->
  exists v, single_point (curve_of (Z.of_nat p) U P d) (Fin u : Exact) = Ok (fin v) /\
    single_point (curve_of (Z.of_nat p) U (map (affine M b) P) d) (Fin u : Exact) = Ok (fin (affine M b v)).
Proof.
  intros (Hp & Hn & HL & HU) HF Hu E Hs Hlt; rewrite !single_point_inside by exact Hu.
  rewrite (curve_point_span p U P u s) by assumption.
  assert (LM : len (map (affine M b) P) = len P) by (unfold len; rewrite map_length; reflexivity).
  rewrite (curve_point_span p U (map (affine M b) P) u s); rewrite ?LM; try assumption.
  - exists (span_xyz U s p P u); split; [reflexivity|]; do 2 f_equal; unfold span_xyz at 1, affine at 2; apply map_ext_in; intros c Hc.
    rewrite span_sum_affine; try assumption; [reflexivity|].
    cbn [In] in Hc; lia.
  - rewrite Forall_map; apply Forall_forall; reflexivity.
Qed.

(** ** Locality *)
Lemma slice_outside {A} (l l' : list A) (i a b : Z) (dflt : A) : length l = length l' -> (0 <= a <= b)%Z -> (b <= zlen l)%Z ->
  (forall j, j <> Z.to_nat i -> nth j l dflt = nth j l' dflt) -> (i < a \/ b <= i)%Z -> (0 <= i)%Z -> slice l a b = slice l' a b.
Proof.
  intros HL Ha Hb HE Hi Hi0; unfold zlen in Hb.
  rewrite (list_as_tab l dflt), (list_as_tab l' dflt), <- HL, !slice_tab by lia.
  apply tab_ext; intros j Hj; apply HE; lia.
Qed.
Lemma single_point_local p U P P' d u i : knots_for (Z.of_nat p) (len P) U -> length P = length P' ->
  (0 <= i < len P)%Z -> (forall j, j <> Z.to_nat i -> nth j P [] = nth j P' []) ->
  0 <= u <= 1 -> kn U (Z.of_nat p) = 0 -> kn U (len P) = 1 ->
  (close (1/1000000) (1/100000000) u 1 -> kn U (len P - 1) <= u) ->
  u < kn U i \/ kn U (i + Z.of_nat p + 1) < u ->
  single_point (curve_of (Z.of_nat p) U P d) (Fin u : Exact) = single_point (curve_of (Z.of_nat p) U P' d) (Fin u : Exact).
Proof.
  intros HK HL Hi HE Hu H0 H1 Ht Ho; rewrite !single_point_inside by exact Hu; unfold curve_point.
  pose proof HK as (_ & Hn & HLU & HU).
  rewrite !zlen_fin2; replace (len P') with (len P) by (unfold len; rewrite HL; reflexivity).
  destruct (find_span_ok _ _ U u HK ltac:(lra)) as (s & E & Hs); rewrite E; cbn [bind].
  destruct (basis_functions s (Fin u : Exact) (Z.of_nat p) (fin U)) as [b| |]; cbn [bind]; try reflexivity.
  rewrite (slice_outside (fin2 P) (fin2 P') i _ _ []); [reflexivity| | | | | |].
  - unfold fin2; rewrite !map_length; exact HL.
  - lia.
  - rewrite zlen_fin2; lia.
  - intros j Hj; unfold fin2; change (@nil (carrier Exact)) with (fin []); rewrite !map_nth, HE by exact Hj; reflexivity.
  - destruct (find_span_contains _ _ U u s HK ltac:(lra) E) as [[C ->]|C].
    + rewrite H1 in C; specialize (Ht C).
      destruct (Z_lt_dec i (len P - 1 - Z.of_nat p)); [left; lia|].
      exfalso; destruct Ho as [Ho|Ho].
      * pose proof (kn_mono U HU i (len P - 1) ltac:(lia)); lra.
      * pose proof (kn_mono U HU (len P) (i + Z.of_nat p + 1) ltac:(lia)); lra.
    + destruct (Z_lt_dec i (s - Z.of_nat p)); [left; lia|].
      destruct (Z_le_dec (s + 1) i); [right; lia|].
      exfalso; destruct Ho as [Ho|Ho].
      * pose proof (kn_mono U HU i s ltac:(lia)); lra.
      * pose proof (kn_mono U HU (s + 1) (i + Z.of_nat p + 1) ltac:(lia)); lra.
  - lia.
Qed.

(** ** points *)
Lemma mapM_spec {X Y} (f : X -> res Y) l ys : mapM f l = Ok ys <-> Forall2 (fun x y => f x = Ok y) l ys.
Proof.
  revert ys; induction l as [|x t IH]; intros ys; cbn [mapM].
  - split; [intros H; injection H as <-; constructor|intros H; inversion H; reflexivity].
  - destruct (f x) as [y| |] eqn:E; cbn [bind].
    + destruct (mapM f t) as [ys'| |] eqn:E'; cbn [bind]; (split; [|intros H; inversion H; subst]).
      * intros H; injection H as <-; constructor; [exact E|apply IH; reflexivity].
      * match goal with H : Forall2 _ t _ |- _ => apply IH in H; injection H as <- end.
        congruence.
      * discriminate.
      * match goal with H : Forall2 _ t _ |- _ => apply IH in H; discriminate end.
      * discriminate.
      * match goal with H : Forall2 _ t _ |- _ => apply IH in H; discriminate end.
    + split; [discriminate|intros H; inversion H; congruence].
    + split; [discriminate|intros H; inversion H; congruence].
Qed.
(** The exception is that of the first element that raises. *)
Lemma mapM_err {X Y} (f : X -> res Y) l e : mapM f l = Err e <->
  exists l1 x l2 ys, l = l1 ++ x :: l2 /\ mapM f l1 = Ok ys /\ f x = Err e.
Proof.
  split.
  - induction l as [|x t IH]; cbn [mapM]; [discriminate|].
    destruct (f x) as [y| |] eqn:E; cbn [bind].
    + destruct (mapM f t) as [ys'| |] eqn:E'; cbn [bind]; try discriminate.
      intros H; destruct (IH H) as (l1 & x' & l2 & ys & -> & E1 & E2).
      exists (x :: l1), x', l2, (y :: ys); split; [reflexivity|]; split; [|exact E2].
      cbn [mapM]; rewrite E, E1; reflexivity.
    + intros H; injection H as ->; exists [], x, t, []; auto.
    + discriminate.
  - intros (l1 & x & l2 & ys & -> & E1 & E2); revert ys E1; induction l1 as [|y l1 IH]; intros ys E1; cbn [app mapM].
    + rewrite E2; reflexivity.
    + cbn [mapM] in E1; destruct (f y) as [z| |]; cbn [bind] in *; try discriminate.
      destruct (mapM f l1) as [zs| |]; cbn [bind] in *; try discriminate.
      rewrite (IH zs eq_refl); reflexivity.
Qed.
Lemma points_spec (K : Num) (c : curve_obj K) (l : list K) rows :
  points c (ND1 l) = Ok rows <-> Forall2 (fun u row => single_point c u = Ok row) l rows.
Proof. apply mapM_spec. Qed.
Lemma points_raise (K : Num) (c : curve_obj K) (l : list K) e :
  points c (ND1 l) = Err e <->
  exists l1 u l2 rows, l = l1 ++ u :: l2 /\ points c (ND1 l1) = Ok rows /\ single_point c u = Err e.
Proof. apply mapM_err. Qed.
Lemma points_rank (K : Num) (c : curve_obj K) (a : ndarray K) :
  (forall l, a <> ND1 l) -> points c a = Err ValueError.
Proof. destruct a; intros H; try reflexivity; exfalso; eapply H; reflexivity. Qed.

(** ** derivatives *)
Lemma ders_negative_degree (K : Num) s (u : K) p kv o x : (p < 0)%Z -> basis_function_ders s u p kv o <> Ok x.
Proof.
  intros Hp; unfold basis_function_ders.
  destruct (np_full2 (p + 1) (o + 1) (0 : K)%num); cbn [bind]; try discriminate.
  unfold np_full2; destruct (Z.ltb_spec (p + 1) 0); cbn [orb bind]; [discriminate|].
  replace (p + 1)%Z with 0%Z by lia; discriminate.
Qed.
Lemma derivatives_fail (K : Num) (c : curve_obj K) (u : K) order nrm x : derivatives c u order nrm <> Ok x.
Proof.
  unfold derivatives.
  destruct (validate_knot u); cbn [negb]; [|discriminate].
  destruct (Z.leb_spec order 1); [discriminate|].
  destruct (curve_fields c) as [[[p P] kv]| |]; cbn [bind]; try discriminate.
  destruct (find_span (zlen P) p u kv) as [s| |]; cbn [bind]; try discriminate.
  destruct (basis_function_ders s u p kv (Z.min order p)) as [ders| |] eqn:ED; cbn [bind]; try discriminate.
  destruct (Z_lt_dec p 0) as [Hp|Hp]; [exfalso; exact (ders_negative_degree K _ _ _ _ _ _ Hp ED)|].
  destruct (np_full2 (Z.min order p + 1) 3 (0 : K)%num) as [d| |] eqn:EF; cbn [bind]; try discriminate.
  rewrite (np_full2_tab (Z.to_nat (Z.min order p + 1)) 3) in EF by lia; injection EF as <-.
  unfold tab2 at 1; rewrite zlen_tab, for_range_step by lia; unfold curve_deriv_row.
  destruct (acol ders 0) as [b| |]; cbn [bind]; try discriminate.
  destruct (acol (slice P (s - p) (s + 1)) 1) as [c1| |]; cbn [bind]; try discriminate.
  destruct (matmul11 b c1) as [v1| |]; cbn [bind]; try discriminate.
  destruct (acol (slice P (s - p) (s + 1)) 2) as [c2| |]; cbn [bind]; try discriminate.
  destruct (matmul11 b c2) as [v2| |]; cbn [bind]; try discriminate.
  rewrite andb_false_r; unfold aset_row at 1; unfold tab2; rewrite aget_tab by lia; cbn [bind].
  unfold broadcast; rewrite zlen_tab; discriminate.
Qed.
(** For well-formed curves the exception is the width mismatch. *)
Lemma derivatives_order (K : Num) (c : curve_obj K) (u : K) order nrm : (order <= 1)%Z ->
  derivatives c u order nrm = Err ValueError.
Proof.
  intros H; unfold derivatives; destruct (validate_knot u); cbn [negb]; [|reflexivity].
  destruct (Z.leb_spec order 1); [reflexivity|lia].
Qed.

(** ** Setters *)
Lemma step_keeps_none (K : Num) (c : curve_obj K) o : c_ctrl c = None -> c_kv c = None ->
  c_ctrl (fst (curve_step c o)) = None /\ c_kv (fst (curve_step c o)) = None.
Proof.
  intros H1 H2; destruct o as [d|a|kv|u]; unfold curve_step.
  - unfold set_degree; destruct (d <? 1)%Z; cbn; auto.
  - unfold set_control_points; destruct (c_degree c); [|cbn; auto]; destruct (negb _); cbn; auto.
  - unfold set_knot_vector; rewrite H1; destruct (c_degree c); cbn; auto.
  - cbn; auto.
Qed.
Lemma run_keeps_none (K : Num) ops : forall c : curve_obj K, c_ctrl c = None -> c_kv c = None ->
  c_ctrl (curve_run c ops) = None /\ c_kv (curve_run c ops) = None.
Proof.
  induction ops as [|o ops IH]; intros c H1 H2; [auto|]; cbn [curve_run fold_left].
  destruct (step_keeps_none K c o H1 H2); apply IH; assumption.
Qed.
Lemma history_curve (K : Num) (degree dimension : option Z) (ops : list (curve_op K)) (u : K) :
  let c := curve_run (curve_init degree dimension) ops in
  c_ctrl c = None /\ c_kv c = None /\
  (validate_knot u = true -> single_point c u = Err TypeError).
Proof.
  cbn zeta; destruct (run_keeps_none K ops (curve_init degree dimension) eq_refl eq_refl) as [H1 H2].
  split; [exact H1|]; split; [exact H2|]; intros Hv.
  unfold single_point, curve_fields; rewrite Hv, H1; reflexivity.
Qed.
(** A degree below 1 never gets in through the setter. *)
Lemma history_degree (K : Num) (dimension : option Z) (ops : list (curve_op K)) d :
  c_degree (curve_run (curve_init None dimension) ops) = Some d -> (1 <= d)%Z.
Proof.
  assert (G : forall (ops : list (curve_op K)) (c : curve_obj K), (forall d, c_degree c = Some d -> (1 <= d)%Z) ->
     forall d, c_degree (curve_run c ops) = Some d -> (1 <= d)%Z).
  { clear; induction ops as [|o ops IH]; intros c H d; [apply H|]; cbn [curve_run fold_left]; apply IH; clear IH.
    destruct o as [x|a|kv|u]; unfold curve_step.
    - unfold set_degree; destruct (Z.ltb_spec x 1); cbn [fst]; [exact H|].
      intros d' E; cbn in E; injection E as <-; lia.
    - unfold set_control_points; destruct (c_degree c) eqn:EQ; [|cbn [fst]; rewrite EQ; exact H].
      destruct (negb _); cbn [fst]; rewrite EQ; exact H.
    - unfold set_knot_vector; destruct (c_degree c) eqn:EQ; [|cbn [fst]; rewrite EQ; exact H].
      destruct (c_ctrl c); [|cbn [fst]; rewrite EQ; exact H].
      destruct (check_knot_vector _ _ _) as [[]| |]; cbn [bind fst]; try (rewrite EQ; exact H).
      cbn; rewrite ?EQ; exact H.
    - exact H. }
  apply G; cbn; discriminate.
Qed.
Lemma setter_guards (K : Num) (c : curve_obj K) :
  (forall d, (d < 1)%Z -> curve_step c (OpDegree d) = (c, Some ValueError)) /\
  (forall d, (1 <= d)%Z -> curve_step c (OpDegree d) = (mkCurve (Some d) (c_ctrl c) (c_kv c) (c_dim c), None)) /\
  (c_degree c = None -> forall a, curve_step c (OpControlPoints a) = (c, Some ValueError)) /\
  (forall a, width a <> c_dim c -> curve_step c (OpControlPoints a) = (c, Some ValueError)) /\
  (forall a, width a = c_dim c -> c_degree c <> None -> curve_step c (OpControlPoints a) = (c, None)) /\
  (c_degree c = None \/ c_ctrl c = None -> forall kv, curve_step c (OpKnotVector kv) = (c, Some ValueError)) /\
  (forall p P kv, c_degree c = Some p -> c_ctrl c = Some P -> check_knot_vector p kv (zlen P) = Ok false ->
     curve_step c (OpKnotVector kv) = (c, None)) /\
  (forall p P l, c_degree c = Some p -> c_ctrl c = Some P -> check_knot_vector p (NdArray l) (zlen P) = Ok true ->
     curve_step c (OpKnotVector (NdArray l)) = (mkCurve (Some p) (Some P) (Some l) (c_dim c), None)).
Proof.
  unfold curve_step; repeat match goal with |- _ /\ _ => split end.
  - intros d Hd; unfold set_degree; destruct (Z.ltb_spec d 1); [reflexivity|lia].
  - intros d Hd; unfold set_degree; destruct (Z.ltb_spec d 1); [lia|reflexivity].
  - intros H a; unfold set_control_points; rewrite H; reflexivity.
  - intros a H; unfold set_control_points; destruct (c_degree c); [|reflexivity].
    destruct (Z.eqb_spec (width a) (c_dim c)); [contradiction|reflexivity].
  - intros a H H'; unfold set_control_points; destruct (c_degree c); [|contradiction].
    rewrite H, Z.eqb_refl; reflexivity.
  - intros H kv; unfold set_knot_vector; destruct H as [H|H]; rewrite H; [reflexivity|destruct (c_degree c); reflexivity].
  - intros p P kv H1 H2 H3; unfold set_knot_vector; rewrite H1, H2, H3; reflexivity.
  - intros p P l H1 H2 H3; unfold set_knot_vector; rewrite H1, H2, H3; reflexivity.
Qed.
Lemma constructor_unchecked (K : Num) d : c_degree (curve_init (K := K) (Some d) None) = Some d.
Proof. reflexivity. Qed.
Lemma insert_knot_fails (K : Num) (c : curve_obj K) u : curve_step c (OpInsertKnot u) = (c, Some UnboundLocalError).
Proof. reflexivity. Qed.

(** Renaming the parameter would not have helped: the assignments at the end
    do not reach the object. *)
Lemma for_range_pres {S} (Q : S -> Prop) a b (f : Z -> S -> res S) s s' :
  (forall i s s', f i s = Ok s' -> Q s -> Q s') -> for_range a b f s = Ok s' -> Q s -> Q s'.
Proof.
  intros HF; unfold for_range; generalize (zrange a b); intros l; revert s.
  induction l as [|i l IH]; intros s; cbn [for_list].
  - intros E; injection E as <-; auto.
  - destruct (f i s) as [s1| |] eqn:E1; cbn [bind]; try discriminate.
    intros E2 HQ; apply (IH s1 E2); exact (HF _ _ _ E1 HQ).
Qed.
Lemma upd_length' {A} (l : list A) n v : length (upd l n v) = length l.
Proof. revert n; induction l as [|x t IH]; intros [|n]; cbn; auto. Qed.
Lemma aset_len {A} (l : list A) i v l' : aset l i v = Ok l' -> zlen l' = zlen l.
Proof.
  unfold aset; destruct (andb _ _); intros E; [injection E as <-|discriminate].
  unfold zlen; rewrite upd_length'; reflexivity.
Qed.
Ltac bind_inv H := let E := fresh "E" in
  match type of H with bind ?m _ = Ok _ => destruct m eqn:E; cbn [bind] in H; try discriminate H end.
Lemma insertion_length (K : Num) p (kv : list K) P x r kv' P' : curve_knot_insertion p kv P x r = Ok (kv', P') ->
  zlen kv' = (zlen kv + r)%Z.
Proof.
  unfold curve_knot_insertion; cbv zeta; intros H; repeat bind_inv H.
  injection H as <- _.
  match goal with E : np_full _ _ = Ok ?a |- _ => assert (HA : zlen a = (zlen kv + r)%Z) end.
  { unfold np_full in E0; destruct (Z.ltb_spec (zlen kv + r) 0); [discriminate|]; injection E0 as <-.
    unfold zlen; rewrite repeat_length; unfold zlen in *; lia. }
  set (Q := fun a : list K => zlen a = (zlen kv + r)%Z).
  assert (Q1 : Q a3).
  { refine (for_range_pres Q _ _ _ _ _ _ E3 HA); intros i s0 s' H1 HQ.
    bind_inv H1; apply aset_len in H1; unfold Q in *; lia. }
  assert (Q2 : Q a4).
  { refine (for_range_pres Q _ _ _ _ _ _ E4 Q1); intros i s0 s' H1 HQ.
    apply aset_len in H1; unfold Q in *; lia. }
  refine (for_range_pres Q _ _ _ _ _ _ E5 Q2); intros i s0 s' H1 HQ.
  bind_inv H1; apply aset_len in H1; unfold Q in *; lia.
Qed.
Lemma insert_knot_body_unchanged (K : Num) (c c' : curve_obj K) knot_val knot p P kv :
  c_degree c = Some p -> c_ctrl c = Some P -> c_kv c = Some kv -> zlen kv = (zlen P + p + 1)%Z ->
  insert_knot_body c knot_val knot = Ok c' -> c' = c.
Proof.
  intros H1 H2 H3 HL; unfold insert_knot_body, curve_fields; rewrite H1, H2, H3; cbn [bind].
  destruct (validate_knot knot); cbn [negb]; [|discriminate].
  destruct (curve_knot_insertion p kv P knot_val 1) as [[kv' P']| |] eqn:E; cbn [bind fst snd]; try discriminate.
  unfold set_control_points; rewrite H1; destruct (negb _); cbn [bind]; [discriminate|].
  unfold set_knot_vector; rewrite H1, H2; unfold check_knot_vector.
  apply insertion_length in E.
  destruct (normalize (NdArray kv')) as [nv| |] eqn:EN; cbn [bind]; try discriminate.
  assert (zlen nv = zlen kv').
  { unfold normalize in EN; repeat bind_inv EN; injection EN as <-; unfold zlen; rewrite !map_length; reflexivity. }
  destruct (Z.eqb_spec (zlen nv) (zlen P + p + 1)); cbn [negb bind]; [lia|].
  intros H'; injection H' as <-; reflexivity.
Qed.

(** ** Dictionaries *)
Lemma key_eqb_eq a b : key_eqb a b = true <-> a = b.
Proof.
  destruct a, b; cbn; split; intros H; try reflexivity; try discriminate.
  - apply Z.eqb_eq in H; subst; reflexivity.
  - injection H as ->; apply Z.eqb_refl.
Qed.
Lemma same_keys_spec ks : same_keys ks = true <-> forall k, In k ks <-> (k = KDegree \/ k = KKnotVector \/ k = KControlPoints).
Proof.
  unfold same_keys; rewrite andb_true_iff, !forallb_forall; split.
  - intros [H1 H2] k; split.
    + intros Hk; specialize (H2 k Hk); apply existsb_exists in H2; destruct H2 as (k' & Hk' & E).
      apply key_eqb_eq in E; subst k'; cbn in Hk'; intuition.
    + intros Hk; specialize (H1 k ltac:(cbn; intuition)); apply existsb_exists in H1; destruct H1 as (k' & Hk' & E).
      apply key_eqb_eq in E; subst k'; exact Hk'.
  - intros H; split; intros k Hk; apply existsb_exists; exists k; (split; [|apply key_eqb_eq; reflexivity]).
    + apply H; cbn in Hk; intuition.
    + apply H in Hk; cbn; intuition.
Qed.
Lemma from_dict_spec (K : Num) (cs : class_state K) (d : dict K) :
  ((forall k, In k (d_keys d) <-> (k = KDegree \/ k = KKnotVector \/ k = KControlPoints)) ->
     exists cs', from_dict cs d = (cs', Ok TheClass) /\
       handle_ctrl cs' TheClass = Some (d_ctrl d) /\ handle_kv cs' TheClass = Some (d_kv d)) /\
  (~ (forall k, In k (d_keys d) <-> (k = KDegree \/ k = KKnotVector \/ k = KControlPoints)) ->
     from_dict cs d = (cs, Err ValueError)).
Proof.
  unfold from_dict; split; intros H.
  - rewrite (proj2 (same_keys_spec _) H); eexists; repeat split.
  - destruct (same_keys (d_keys d)) eqn:E; [exfalso; apply H, same_keys_spec, E|reflexivity].
Qed.
Lemma from_dict_aliases (K : Num) (cs cs1 cs2 : class_state K) d1 d2 h1 h2 :
  from_dict cs d1 = (cs1, Ok h1) -> from_dict cs1 d2 = (cs2, Ok h2) ->
  handle_ctrl cs2 h1 = Some (d_ctrl d2) /\ handle_ctrl cs2 h2 = Some (d_ctrl d2) /\
  handle_kv cs2 h1 = Some (d_kv d2) /\ handle_kv cs2 h2 = Some (d_kv d2).
Proof.
  unfold from_dict; destruct (same_keys (d_keys d1)); cbn [negb]; intros E1; [|discriminate].
  destruct (same_keys (d_keys d2)); cbn [negb]; intros E2; [|discriminate].
  apply (f_equal fst) in E2; cbn [fst] in E2; subst cs2; auto.
Qed.
Lemma to_dict_fails (K : Num) (c : curve_obj K) : to_dict c = Err AttributeError.
Proof. unfold to_dict; destruct (c_kv c); reflexivity. Qed.
