(** The initial curve (model: ModelInit.v) in exact arithmetic. *)
From Verif Require Import Py PyLemmas Num ModelKnots ModelBasis ModelCurve ModelInit Spec MathCox MathKnots ProofNum ProofSpan ProofBasis ProofKnots ProofCurve.
Open Scope R_scope.

Lemma linspace_eq a b n : (2 <= n)%Z ->
  np_linspace (Fin a : Exact) (Fin b : Exact) n
  = Ok (fin (tab (Z.to_nat n) (fun i => a + IZR i / IZR (n - 1) * (b - a)))).
Proof.
  intros Hn; set (m := (n - 1)%Z).
  assert (0 < IZR m) by (apply IZR_lt; unfold m; lia).
  unfold np_linspace; destruct (Z.ltb_spec n 0); [lia|]; cbn zeta.
  fold m; destruct (Z.ltb_spec 0 m); [|unfold m in *; lia].
  rewrite !E_ofZ, E_sub, E_div by lra; rewrite E_eqb.
  assert (EZ : zrange 0 n = tab (Z.to_nat n) (fun i => i)) by (rewrite <- zrange_tab, Z2Nat.id by lia; reflexivity).
  destruct (Reqb ((b - a) / IZR m) 0) eqn:E.
  - apply Reqb_true in E.
    assert (Eb : b = a) by (replace b with (a + (b - a) / IZR m * IZR m) by (field; lra); rewrite E; ring).
    rewrite EZ, !map_tab, aset_tab_neg by lia; f_equal.
    rewrite fin_tab_fun; apply tab_ext; intros i Hi; unfold fupd.
    destruct (Z.eqb_spec i (Z.of_nat (Z.to_nat n) + -1)) as [Ei|Ei].
    + f_equal; rewrite Eb; ring.
    + rewrite E_ofZ, E_div, E_mul, E_add by lra; f_equal; field; lra.
  - rewrite EZ, !map_tab, aset_tab_neg by lia; f_equal.
    rewrite fin_tab_fun; apply tab_ext; intros i Hi; unfold fupd.
    destruct (Z.eqb_spec i (Z.of_nat (Z.to_nat n) + -1)) as [Ei|Ei].
    + f_equal; replace i with m by (unfold m; lia); field; lra.
    + rewrite E_ofZ, E_mul, E_add; f_equal; field; lra.
Qed.

(** The control points. *)
Definition segment (a b : list R) (n : Z) : list (list R) :=
  tab (Z.to_nat n) (fun i => lerp a b (IZR i / IZR (n - 1))).

Lemma column_stack3_tab {K : Num} m (f g h : Z -> K) :
  column_stack3 (tab m f) (tab m g) (tab m h) = tab m (fun i => [f i; g i; h i]).
Proof. unfold column_stack3; rewrite !combine_tab, map_tab; reflexivity. Qed.

Lemma segment_fin a b n :
  column_stack3 (K := Exact)
    (fin (tab (Z.to_nat n) (fun i => nth 0 a 0 + IZR i / IZR (n - 1) * (nth 0 b 0 - nth 0 a 0))))
    (fin (tab (Z.to_nat n) (fun i => nth 1 a 0 + IZR i / IZR (n - 1) * (nth 1 b 0 - nth 1 a 0))))
    (fin (tab (Z.to_nat n) (fun i => nth 2 a 0 + IZR i / IZR (n - 1) * (nth 2 b 0 - nth 2 a 0))))
  = fin2 (segment a b n).
Proof.
  rewrite !fin_tab_fun, column_stack3_tab; unfold segment, fin2; rewrite map_tab; reflexivity.
Qed.
Lemma segment_len a b n : (0 <= n)%Z -> len (segment a b n) = n.
Proof. intros H; unfold segment; rewrite len_tab; lia. Qed.
Lemma segment_3 a b n : Forall (fun row => length row = 3%nat) (segment a b n).
Proof. apply Forall_tab; intros; reflexivity. Qed.

Lemma aget_fin a i : (Z.of_nat i < len a)%Z -> aget (fin a) (Z.of_nat i) = Ok (Fin (nth i a 0) : Exact).
Proof.
  intros H; unfold len in H; rewrite (aget_nth _ _ (Fin 0 : Exact)) by (rewrite zlen_fin; unfold len; lia).
  rewrite Nat2Z.id; unfold fin; rewrite (map_nth (Fin : R -> Exact)); reflexivity.
Qed.

Lemma coords_tab c n f : coords c (tab n f) = tab n (fun i => nth c (f i) 0).
Proof. unfold coords; apply map_tab. Qed.

Lemma initialize_eq a b p n : (1 <= p)%Z -> (p + 1 <= n)%Z -> (3 <= len a)%Z -> (3 <= len b)%Z ->
  initialize_curve (fin a) (fin b) p n = Ok (curve_of p (uniform p n) (segment a b n) 0).
Proof.
  intros Hp Hn Ha Hb; unfold initialize_curve, initialize_curve_with.
  destruct (Z.leb_spec p n); [cbn [negb]|lia]; unfold set_degree; destruct (Z.ltb_spec p 1); [lia|]; cbn [bind].
  change 0%Z with (Z.of_nat 0); change 1%Z with (Z.of_nat 1); change 2%Z with (Z.of_nat 2).
  rewrite !aget_fin by lia; cbn [bind]; rewrite !linspace_eq by lia; cbn [bind].
  rewrite segment_fin; unfold store_ctrl; cbn [bind c_degree c_kv c_dim curve_init].
  rewrite zlen_fin2, segment_len by lia; rewrite generate_uniform_eq by lia; cbn [bind].
  unfold set_knot_vector; cbn [c_degree c_ctrl]; rewrite zlen_fin2, segment_len by lia.
  rewrite check_clamped by (apply uniform_clamped; lia); cbn [bind]; reflexivity.
Qed.

Lemma initialize_spec a b p n : (1 <= p)%Z -> (p + 1 <= n)%Z -> (3 <= len a)%Z -> (3 <= len b)%Z ->
  exists c U P, initialize_curve (fin a) (fin b) p n = Ok c /\
    c_degree c = Some p /\ c_kv c = Some (fin U) /\ c_ctrl c = Some (fin2 P) /\
    clamped p n U /\ (forall i, (p <= i <= n)%Z -> kn U i = (IZR i - IZR p) / (IZR n - IZR p)) /\
    len P = n /\ (forall i, (0 <= i < n)%Z -> nth (Z.to_nat i) P [] = lerp a b (IZR i / IZR (n - 1))).
Proof.
  intros Hp Hn Ha Hb; assert (Hnp : IZR p + 1 <= IZR n) by (rewrite <- plus_IZR; apply IZR_le; lia).
  eexists _, (uniform p n), (segment a b n); split; [apply initialize_eq; assumption|].
  split; [reflexivity|]; split; [reflexivity|]; split; [reflexivity|].
  split; [apply uniform_clamped; lia|]; split.
  { intros i Hi; unfold uniform; rewrite kn_tab by lia.
    destruct (Z.leb_spec i p); [replace i with p by lia; field; lra|].
    destruct (Z.leb_spec n i); [replace i with n by lia; field; lra|reflexivity]. }
  split; [apply segment_len; lia|].
  intros i Hi; unfold segment; rewrite nth_tab by lia; do 3 f_equal; lia.
Qed.

(** Curve with control points affine in their index. *)
Lemma curve_sum_affine p n U a d u w : clamped (Z.of_nat p) (Z.of_nat n) U ->
  kn U (Z.of_nat p) <= u <= kn U (Z.of_nat n) ->
  curve_sum U p (tab n (fun i => a + w i * d)) u = a + zsum 0 n (fun i => bspline U p i u * w i) * d.
Proof.
  intros HC Hu; unfold curve_sum; rewrite tab_length.
  rewrite (zsum_ext _ _ _ (fun i => bspline U p i u * a + bspline U p i u * w i * d)).
  - rewrite zsum_plus, !zsum_scal_r, bspline_unity by assumption; ring.
  - intros i Hi; rewrite nth_tab by lia; replace (Z.of_nat (Z.to_nat i)) with i by lia; ring.
Qed.

Lemma uniform_strict p n : (0 <= p)%Z -> (p + 1 <= n)%Z -> strict p n (uniform p n).
Proof.
  intros Hp Hn i Hi; assert (Hnp : IZR p + 1 <= IZR n) by (rewrite <- plus_IZR; apply IZR_le; lia).
  assert (K : forall i, (p <= i <= n)%Z -> kn (uniform p n) i = (IZR i - IZR p) * / (IZR n - IZR p)).
  { intros k Hk; unfold uniform; rewrite kn_tab by lia.
    destruct (Z.leb_spec k p); [replace k with p by lia; field; lra|].
    destruct (Z.leb_spec n k); [replace k with n by lia; field; lra|reflexivity]. }
  rewrite !K by lia; apply Rmult_lt_compat_r; [apply Rinv_0_lt_compat; lra|rewrite plus_IZR; lra].
Qed.

Lemma uniform_end p n u : (0 <= p)%Z -> (p + 1 <= n)%Z -> (n - p <= 900000)%Z -> 0 <= u <= 1 ->
  close (1/1000000) (1/100000000) u 1 -> kn (uniform p n) (n - 1) <= u.
Proof.
  intros Hp Hn Hb Hu H; assert (Hnp : IZR p + 1 <= IZR n) by (rewrite <- plus_IZR; apply IZR_le; lia).
  assert (B : IZR n - IZR p <= 900000) by (rewrite <- minus_IZR; apply IZR_le; lia).
  unfold close in H; rewrite (Rabs_right 1) in H by lra; rewrite Rabs_left1 in H by lra.
  assert (E : kn (uniform p n) (n - 1) = 1 - / (IZR n - IZR p)).
  { unfold uniform; rewrite kn_tab by lia; destruct (Z.leb_spec (n - 1) p).
    - replace n with (p + 1)%Z by lia; rewrite plus_IZR; field; lra.
    - destruct (Z.leb_spec n (n - 1)); [lia|]; rewrite minus_IZR; field; lra. }
  rewrite E; pose proof (Rinv_le_contravar (IZR n - IZR p) 900000 ltac:(lra) B); lra.
Qed.

Lemma initialize_segment a b p n c : (1 <= p)%Z -> (p + 1 <= n)%Z -> (n - p <= 900000)%Z ->
  (3 <= len a)%Z -> (3 <= len b)%Z -> initialize_curve (fin a) (fin b) p n = Ok c ->
  (forall u, 0 <= u <= 1 -> exists t, 0 <= t <= 1 /\ single_point c (Fin u : Exact) = Ok (fin (lerp a b t))) /\
  single_point c (Fin 0 : Exact) = Ok (fin (lerp a b 0)) /\ single_point c (Fin 1 : Exact) = Ok (fin (lerp a b 1)).
Proof.
  intros Hp Hn Hb La Lb E; rewrite initialize_eq in E by assumption; injection E as <-.
  pose proof (uniform_clamped p n ltac:(lia) Hn) as HC; pose proof (uniform_strict p n ltac:(lia) Hn) as HS.
  assert (K0 : kn (uniform p n) p = 0) by (unfold uniform; rewrite kn_tab by lia; destruct (Z.leb_spec p p); [reflexivity|lia]).
  assert (K1 : kn (uniform p n) n = 1).
  { unfold uniform; rewrite kn_tab by lia; destruct (Z.leb_spec n p); [lia|]; destruct (Z.leb_spec n n); [reflexivity|lia]. }
  assert (HL : len (segment a b n) = n) by (apply segment_len; lia).
  assert (EP : curve_of p (uniform p n) (segment a b n) 0 = curve_of (Z.of_nat (Z.to_nat p)) (uniform p n) (segment a b n) 0)
    by (rewrite Z2Nat.id by lia; reflexivity).
  rewrite EP; split; [|split].
  - intros u Hu.
    exists (zsum 0 (Z.to_nat n) (fun i => bspline (uniform p n) (Z.to_nat p) i u * (IZR i / IZR (n - 1)))).
    assert (Hm : 0 < IZR (n - 1)) by (apply IZR_lt; lia).
    assert (W : forall i, (0 <= i < n)%Z -> 0 <= IZR i / IZR (n - 1) <= 1).
    { intros i Hi; split.
      - apply Rmult_le_pos; [apply IZR_le; lia|left; apply Rinv_0_lt_compat; exact Hm].
      - apply (Rmult_le_reg_r (IZR (n - 1))); [exact Hm|].
        unfold Rdiv; rewrite Rmult_assoc, Rinv_l, Rmult_1_r, Rmult_1_l by lra; apply IZR_le; lia. }
    assert (HC' : clamped (Z.of_nat (Z.to_nat p)) (Z.of_nat (Z.to_nat n)) (uniform p n)) by (rewrite !Z2Nat.id by lia; exact HC).
    assert (Hu' : kn (uniform p n) (Z.of_nat (Z.to_nat p)) <= u <= kn (uniform p n) (Z.of_nat (Z.to_nat n))) by (rewrite !Z2Nat.id by lia; lra).
    split; [split|].
    + apply zsum_nonneg; intros i Hi; apply Rmult_le_pos; [apply bspline_nonneg; apply HC|apply W; lia].
    + rewrite <- (bspline_unity (Z.to_nat p) (Z.to_nat n) (uniform p n) u HC' Hu'); apply zsum_le; intros i Hi.
      rewrite <- (Rmult_1_r (bspline (uniform p n) (Z.to_nat p) i u)) at 2; apply Rmult_le_compat_l; [apply bspline_nonneg; apply HC|apply W; lia].
    + rewrite single_point_strict; rewrite ?HL, ?Z2Nat.id by lia; try assumption; try lia; [|apply segment_3|apply uniform_end; lia || assumption].
      assert (EC : forall k, (k < 3)%nat -> coords k (segment a b n)
        = tab (Z.to_nat n) (fun i => nth k a 0 + IZR i / IZR (n - 1) * (nth k b 0 - nth k a 0))).
      { intros k Hk; unfold segment; rewrite coords_tab; destruct k as [|[|[|]]]; [reflexivity..|lia]. }
      unfold curve_xyz, lerp; cbn [map]; rewrite !EC by lia; rewrite !curve_sum_affine by assumption; reflexivity.
  - destruct (single_point_ends (Z.to_nat p) (uniform p n) (segment a b n) 0) as [E0 E1];
      [rewrite HL, Z2Nat.id by lia; split; [exact HC|]|apply segment_3|rewrite Z2Nat.id by lia; exact K0|rewrite HL; exact K1|].
    + split; [apply HS; lia|pose proof (HS (n - 1)%Z ltac:(lia)) as HS1; replace (n - 1 + 1)%Z with n in HS1 by lia; exact HS1].
    + rewrite E0; do 2 f_equal; unfold segment; rewrite nth_tab by lia; f_equal.
      change (Z.of_nat 0) with 0%Z; unfold Rdiv; ring.
  - destruct (single_point_ends (Z.to_nat p) (uniform p n) (segment a b n) 0) as [E0 E1];
      [rewrite HL, Z2Nat.id by lia; split; [exact HC|]|apply segment_3|rewrite Z2Nat.id by lia; exact K0|rewrite HL; exact K1|].
    + split; [apply HS; lia|pose proof (HS (n - 1)%Z ltac:(lia)) as HS1; replace (n - 1 + 1)%Z with n in HS1 by lia; exact HS1].
    + rewrite E1; do 2 f_equal; rewrite last_nth; unfold segment; rewrite tab_length, nth_tab by lia; f_equal.
      replace (Z.of_nat (Z.to_nat n - 1)) with (n - 1)%Z by lia; apply Rinv_r; apply not_0_IZR; lia.
Qed.

(** ** Failures *)
Lemma initialize_small (K : Num) (a b : list K) p n : (n < p \/ p < 1)%Z -> initialize_curve a b p n = Err ValueError.
Proof.
  intros H; unfold initialize_curve, initialize_curve_with.
  destruct (Z.leb_spec p n); [cbn [negb]|reflexivity].
  unfold set_degree; destruct (Z.ltb_spec p 1); [reflexivity|lia].
Qed.
Lemma linspace_num (K : Num) (a b : K) n : (1 <= n)%Z -> exists l, np_linspace a b n = Ok l /\ zlen l = n.
Proof.
  intros Hn; unfold np_linspace; destruct (Z.ltb_spec n 0); [lia|]; cbn zeta.
  assert (EZ : zrange 0 n = tab (Z.to_nat n) (fun i => i)) by (rewrite <- zrange_tab, Z2Nat.id by lia; reflexivity).
  rewrite EZ; destruct (Z.ltb_spec 0 (n - 1)).
  - destruct (_ =? _)%num; rewrite !map_tab, aset_tab_neg by lia; eexists; (split; [reflexivity|rewrite zlen_tab; lia]).
  - rewrite !map_tab; eexists; (split; [reflexivity|rewrite zlen_tab; lia]).
Qed.
(** A point with fewer than three coordinates. *)
Lemma initialize_planar (K : Num) (a b : list K) p n : (1 <= p <= n)%Z -> (zlen a < 3 \/ zlen b < 3)%Z ->
  initialize_curve a b p n = Err IndexError.
Proof.
  intros Hp H; unfold initialize_curve, initialize_curve_with.
  destruct (Z.leb_spec p n); [cbn [negb]|lia].
  unfold set_degree; destruct (Z.ltb_spec p 1); [lia|]; cbn [bind].
  assert (G : forall (l : list K) i, (0 <= i)%Z -> (exists x, aget l i = Ok x /\ (i < zlen l)%Z) \/ (aget l i = Err IndexError /\ (zlen l <= i)%Z)).
  { intros l i Hi; destruct (Z_lt_dec i (zlen l)).
    - destruct l as [|x t]; [unfold zlen in *; cbn in *; lia|]; left; exists (nth (Z.to_nat i) (x :: t) x); split; [apply aget_nth; lia|assumption].
    - right; split; [apply aget_out; lia|lia]. }
  destruct (G a 0%Z ltac:(lia)) as [(x0 & -> & L0)|(-> & L0)]; cbn [bind]; [|reflexivity].
  destruct (G b 0%Z ltac:(lia)) as [(y0 & -> & M0)|(-> & M0)]; cbn [bind]; [|reflexivity].
  destruct (linspace_num K x0 y0 n ltac:(lia)) as (l0 & -> & _); cbn [bind].
  destruct (G a 1%Z ltac:(lia)) as [(x1 & -> & L1)|(-> & L1)]; cbn [bind]; [|reflexivity].
  destruct (G b 1%Z ltac:(lia)) as [(y1 & -> & M1)|(-> & M1)]; cbn [bind]; [|reflexivity].
  destruct (linspace_num K x1 y1 n ltac:(lia)) as (l1 & -> & _); cbn [bind].
  destruct (G a 2%Z ltac:(lia)) as [(x2 & -> & L2)|(-> & L2)]; cbn [bind]; [|reflexivity].
  destruct (G b 2%Z ltac:(lia)) as [(y2 & -> & M2)|(-> & M2)]; cbn [bind]; [|reflexivity].
  lia.
Qed.
(** As many control points as the degree: the knot vector is silently refused. *)
Lemma initialize_equal a b p : (1 <= p)%Z -> (3 <= len a)%Z -> (3 <= len b)%Z ->
  exists c P, initialize_curve (fin a : list Exact) (fin b) p p = Ok c /\
    c_degree c = Some p /\ c_ctrl c = Some P /\ zlen P = p /\ c_kv c = None.
Proof.
  intros Hp Ha Hb; unfold initialize_curve, initialize_curve_with.
  destruct (Z.leb_spec p p); [cbn [negb]|lia]; unfold set_degree; destruct (Z.ltb_spec p 1); [lia|]; cbn [bind].
  change 0%Z with (Z.of_nat 0); change 1%Z with (Z.of_nat 1); change 2%Z with (Z.of_nat 2).
  rewrite !aget_fin by lia; cbn [bind].
  destruct (linspace_num Exact (Fin (nth 0 a 0)) (Fin (nth 0 b 0)) p ltac:(lia)) as (l0 & -> & L0); cbn [bind].
  destruct (linspace_num Exact (Fin (nth 1 a 0)) (Fin (nth 1 b 0)) p ltac:(lia)) as (l1 & -> & L1); cbn [bind].
  destruct (linspace_num Exact (Fin (nth 2 a 0)) (Fin (nth 2 b 0)) p ltac:(lia)) as (l2 & -> & L2); cbn [bind].
  set (P := column_stack3 l0 l1 l2).
  assert (LP : zlen P = p).
  { unfold P, column_stack3, zlen in *; rewrite map_length, !combine_length; lia. }
  unfold store_ctrl; cbn [bind c_degree c_kv c_dim curve_init]; rewrite LP.
  pose proof (uniform_rejected p Hp) as R.
  destruct (generate_uniform p p) as [kv|e|]; cbn [bind] in R |- *; try discriminate R.
  unfold set_knot_vector; cbn [c_degree c_ctrl]; rewrite LP, R; cbn [bind].
  eexists _, P; repeat split; assumption.
Qed.
(** With the repository's own curve class nothing can be initialised. *)
Lemma initialize_repo (K : Num) (a b : list K) p n c : initialize_curve_repo a b p n <> Ok c.
Proof.
  unfold initialize_curve_repo, initialize_curve_with; intros H.
  destruct (negb (p <=? n)%Z); [discriminate|]; unfold set_degree in H.
  destruct (p <? 1)%Z; cbn [bind] in H; [discriminate|].
  repeat match type of H with
  | (let* _ := aget ?l ?i in _) = _ => destruct (aget l i); cbn [bind] in H; [|discriminate..]
  | (let* _ := np_linspace ?x ?y ?m in _) = _ => destruct (np_linspace x y m); cbn [bind] in H; [|discriminate..]
  end.
  unfold set_control_points in H; cbn [c_degree c_ctrl curve_init c_dim] in H.
  destruct (negb _); cbn [bind] in H; [discriminate|].
  destruct (generate_uniform _ _); cbn [bind] in H; [|discriminate..].
  unfold set_knot_vector in H; cbn in H; discriminate.
Qed.
