(** Lemmas about [single_fit_curve] over any numbers, and [single_fit_surface]. *)
From Verif Require Import Py PyLemmas Num ModelKnots ModelBasis ModelCurve ModelSurface ModelInit ModelParam ModelFit Spec SpecFit MathCox MathKnots ProofNum ProofOneBasis ProofCurve2 ProofParam ProofFit ProofFit2 ProofFit3 ProofFit4.
Open Scope Z_scope.

Section Any.
Context {K : Num}.

Lemma linear_fit_keeps sv (R : list (list K)) Q P mask lg x : length mask = length P -> linear_fit_fixed sv R Q P mask lg = Ok x ->
  length x = length P /\ forall i d, nth i mask false = true -> nth i x d = nth i P d.
Proof.
  intros HM H; apply linear_fit_fixed_result in H; rewrite (firstn_full mask (length P) HM) in H.
  destruct H as (_ & [(-> & _)|(A & b & y & _ & Hy & ->)]); [auto|].
  split; [apply merge_length; [exact HM|lia]|]; intros i d Hi; apply merge_nth; [exact HM|lia|exact Hi].
Qed.
Lemma column_stack3_nth (x y z : list K) i d : length x = length y -> length y = length z -> (i < length x)%nat ->
  nth i (column_stack3 x y z) [] = [nth i x d; nth i y d; nth i z d].
Proof.
  intros H1 H2 Hi; unfold column_stack3.
  rewrite (nth_indep _ [] ((fun t : K * K * K => [fst (fst t); snd (fst t); snd t]) (d, d, d))) by (rewrite map_length, !combine_length; lia).
  rewrite (map_nth (fun t : K * K * K => [fst (fst t); snd (fst t); snd t])), !combine_nth by (rewrite ?combine_length; lia); reflexivity.
Qed.
Lemma acol_length (m : list (list K)) j c : acol m j = Ok c -> length c = length m.
Proof.
  unfold acol; revert c; induction m as [|r m IH]; cbn; intros c H; [injection H as <-; reflexivity|].
  apply bind_Ok in H; destruct H as (x & _ & H); apply bind_Ok in H; destruct H as (xs & E & H); injection H as <-; cbn; f_equal; auto.
Qed.
Lemma acol_nth (m : list (list K)) j c : acol m j = Ok c -> forall i d, (i < length m)%nat -> aget (nth i m []) j = Ok (nth i c d).
Proof.
  unfold acol; revert c; induction m as [|r m IH]; cbn [mapM length]; intros c H i d Hi; [lia|].
  apply bind_Ok in H; destruct H as (x & Ex & H); apply bind_Ok in H; destruct H as (xs & E & H); injection H as <-.
  destruct i; cbn; [exact Ex|]; apply IH; [exact E|lia].
Qed.
Lemma fit_coordinates_any sv (N rows P Q : list (list K)) mask : length mask = length P -> Forall (fun r => length r = 3%nat) P ->
  fit_coordinates sv N rows P mask = Ok Q ->
  length Q = length P /\ Forall (fun r => length r = 3%nat) Q /\ forall i, nth i mask false = true -> nth i Q [] = nth i P [].
Proof.
  intros HM H3 H; unfold fit_coordinates in H.
  apply bind_Ok in H; destruct H as (q0 & _ & H); apply bind_Ok in H; destruct H as (p0 & E0 & H); apply bind_Ok in H; destruct H as (x & Ex & H).
  apply bind_Ok in H; destruct H as (q1 & _ & H); apply bind_Ok in H; destruct H as (p1 & E1 & H); apply bind_Ok in H; destruct H as (y & Ey & H).
  apply bind_Ok in H; destruct H as (q2 & _ & H); apply bind_Ok in H; destruct H as (p2 & E2 & H); apply bind_Ok in H; destruct H as (z & Ez & H).
  injection H as <-.
  pose proof (acol_length _ _ _ E0) as L0; pose proof (acol_length _ _ _ E1) as L1; pose proof (acol_length _ _ _ E2) as L2.
  destruct (linear_fit_keeps sv N q0 p0 mask 1 x ltac:(congruence) Ex) as (Lx & Kx).
  destruct (linear_fit_keeps sv N q1 p1 mask 1 y ltac:(congruence) Ey) as (Ly & Ky).
  destruct (linear_fit_keeps sv N q2 p2 mask 1 z ltac:(congruence) Ez) as (Lz & Kz).
  split; [unfold column_stack3; rewrite map_length, !combine_length; lia|].
  split; [unfold column_stack3; rewrite Forall_map; apply Forall_forall; reflexivity|].
  intros i Hi.
  assert (Hin : (i < length P)%nat).
  { destruct (Nat.lt_ge_cases i (length P)); [assumption|]; rewrite nth_overflow in Hi by lia; discriminate. }
  rewrite (column_stack3_nth x y z i (0 : K)%num) by lia.
  rewrite Kx, Ky, Kz by exact Hi.
  pose proof (acol_nth _ _ _ E0 i (0 : K)%num Hin) as A0; pose proof (acol_nth _ _ _ E1 i (0 : K)%num Hin) as A1; pose proof (acol_nth _ _ _ E2 i (0 : K)%num Hin) as A2.
  pose proof (proj1 (Forall_forall _ _) H3 _ (nth_In P [] Hin)) as L; cbn beta in L.
  destruct (nth i P []) as [|a [|b [|c [|]]]]; try discriminate.
  change (Ok a = Ok (nth i p0 (0 : K)%num)) in A0; change (Ok b = Ok (nth i p1 (0 : K)%num)) in A1; change (Ok c = Ok (nth i p2 (0 : K)%num)) in A2; congruence.
Qed.

Lemma curve_mask_inv (n : Z) m : 0 <= n -> curve_mask n = Ok m -> 1 <= n.
Proof.
  intros Hn; unfold curve_mask; intros H; destruct (Z.eq_dec n 0) as [->|]; [discriminate|lia].
Qed.
Lemma single_fit_curve_any sv (c c' : curve_obj K) rows P : c_ctrl c = Some P -> Forall (fun r => length r = 3%nat) P ->
  single_fit_curve store_ctrl sv c rows = Ok c' ->
  exists Q, c' = mkCurve (c_degree c) (Some Q) (c_kv c) (c_dim c) /\
    length Q = length P /\ Forall (fun r => length r = 3%nat) Q /\ nth 0 Q [] = nth 0 P [] /\ last Q [] = last P [].
Proof.
  intros HP H3; unfold single_fit_curve; intros H; apply bind_Ok in H; destruct H as (us & _ & H).
  apply bind_Ok in H; destruct H as ([[p P'] kv] & HF & H).
  unfold curve_fields in HF; rewrite HP in HF; destruct (c_kv c) eqn:EK; [|discriminate]; destruct (c_degree c) eqn:ED; [|discriminate].
  injection HF as <- <- <-.
  apply bind_Ok in H; destruct H as (N & _ & H); apply bind_Ok in H; destruct H as (_u & _ & H).
  apply bind_Ok in H; destruct H as (mask & HM & H); apply bind_Ok in H; destruct H as (Q & HQ & H).
  injection H as <-; exists Q; unfold store_ctrl; rewrite ?EK, ?ED.
  assert (Hn : (1 <= length P)%nat) by (apply curve_mask_inv in HM; unfold zlen in *; lia).
  unfold zlen in HM; rewrite (curve_mask_tab _ Hn) in HM; injection HM as <-.
  destruct (fit_coordinates_any _ _ _ _ _ _ (tab_length _ _) H3 HQ) as (LQ & F3 & KQ).
  split; [reflexivity|]; split; [exact LQ|]; split; [exact F3|].
  assert (LN : forall (A : list (list K)), length A = length P -> last A [] = nth (length P - 1) A []).
  { intros A HA; destruct (exists_last (l := A) ltac:(intros ->; cbn in HA; lia)) as (A' & x & ->).
    rewrite last_last, app_length in *; cbn in HA; rewrite app_nth2, <- HA by lia.
    replace (length A' + 1 - 1 - length A')%nat with 0%nat by lia; reflexivity. }
  split; [|rewrite !LN by auto]; apply KQ; rewrite nth_tab by lia; apply Bool.orb_true_iff; rewrite !Z.eqb_eq; lia.
Qed.
Lemma single_fit_curve_repo sv (c c' : curve_obj K) rows : single_fit_curve set_control_points sv c rows = Ok c' -> c' = c.
Proof.
  unfold single_fit_curve; intros H; apply bind_Ok in H; destruct H as (us & _ & H).
  apply bind_Ok in H; destruct H as ([[p P'] kv] & HF & H).
  apply bind_Ok in H; destruct H as (N & _ & H); apply bind_Ok in H; destruct H as (_u & _ & H).
  apply bind_Ok in H; destruct H as (mask & HM & H); apply bind_Ok in H; destruct H as (Q & HQ & H).
  unfold set_control_points in H; destruct (c_degree c); [|discriminate]; destruct (negb _); [discriminate|]; congruence.
Qed.

(** ** The mask of a net *)
Lemma fill_slice_tab {A} n (f : Z -> A) a b v : fill_slice (tab n f) a b v =
  tab n (fun i => if (slice_bound (Z.of_nat n) a <=? i) && (i <? slice_bound (Z.of_nat n) b) then v else f i).
Proof. unfold fill_slice; rewrite zlen_tab, zrange_tab, combine_tab, map_tab; reflexivity. Qed.

Lemma surf_mask_tab nu nv : (1 <= nu)%nat -> (1 <= nv)%nat ->
  exists m, surf_mask (Z.of_nat (nu * nv)) (Z.of_nat nu) (Z.of_nat nv) = Ok m /\ length m = (nu * nv)%nat /\
    forall i j, (i < nu)%nat -> (j < nv)%nat ->
      (nth (i * nv + j) m false = true <-> i = 0%nat \/ i = (nu - 1)%nat \/ j = 0%nat \/ j = (nv - 1)%nat).
Proof.
  intros Hu Hv; unfold surf_mask; rewrite np_full_tab; cbn [bind].
  rewrite !fill_slice_tab.
  set (n := (nu * nv)%nat); assert (Hn : (nv <= n)%nat) by (unfold n; nia).
  unfold slice_bound.
  destruct (Z.ltb_spec 0 0); [lia|]; destruct (Z.ltb_spec (Z.of_nat nv) 0); [lia|].
  destruct (Z.ltb_spec (-1 * Z.of_nat nv) 0); [|lia]; destruct (Z.ltb_spec (Z.of_nat n) 0); [lia|].
  rewrite (Z.min_l 0) by lia; rewrite (Z.min_l (Z.of_nat nv)) by lia; rewrite (Z.max_r 0) by lia; rewrite Z.min_id.
  set (base := fun i => (i <? Z.of_nat nv) || (Z.of_nat n - Z.of_nat nv <=? i)).
  rewrite (tab_ext n _ base).
  2: { intros i Hi; unfold base; destruct (Z.leb_spec (Z.of_nat n + -1 * Z.of_nat nv) i), (Z.leb_spec (Z.of_nat n - Z.of_nat nv) i), (Z.ltb_spec i (Z.of_nat n)), (Z.leb_spec 0 i), (Z.ltb_spec i (Z.of_nat nv)); cbn; try lia; reflexivity. }
  set (I := fun s m => exists f, m = tab n f /\ forall i, 0 <= i < Z.of_nat n -> (f i = true <->
    base i = true \/ exists t, 1 <= t < s /\ (i = t * Z.of_nat nv \/ i = t * Z.of_nat nv + Z.of_nat nv - 1))).
  assert (HI : exists m, for_range 1 (Z.of_nat nu - 1) (fun step fixed => let* fixed := aset fixed (step * Z.of_nat nv) true in
       aset fixed (step * Z.of_nat nv + Z.of_nat nv - 1) true) (tab n base) = Ok m /\
     (I (Z.max 1 (Z.of_nat nu - 1)) m)).
  { destruct (Z.le_gt_cases 1 (Z.of_nat nu - 1)) as [HG|HG].
    - rewrite Z.max_r by lia; apply (for_range_inv I); [lia| |].
      + exists base; split; [reflexivity|]; intros i Hi; split; [auto|intros [?|(t & ? & _)]; [assumption|lia]].
      + intros s m Hs (f & -> & Hf).
        assert (0 <= s * Z.of_nat nv /\ s * Z.of_nat nv + Z.of_nat nv - 1 < Z.of_nat n) by (unfold n; nia).
        rewrite aset_tab by lia; cbn [bind]; rewrite aset_tab by lia; eexists; split; [reflexivity|].
        eexists; split; [reflexivity|]; intros i Hi; unfold fupd.
        destruct (Z.eqb_spec i (s * Z.of_nat nv + Z.of_nat nv - 1)) as [->|N1].
        { split; [intros _; right; exists s; split; [lia|auto]|reflexivity]. }
        destruct (Z.eqb_spec i (s * Z.of_nat nv)) as [->|N2].
        { split; [intros _; right; exists s; split; [lia|auto]|reflexivity]. }
        rewrite Hf by exact Hi; split; intros [?|(t & Ht & E)]; try tauto.
        * right; exists t; split; [lia|exact E].
        * right; exists t; split; [|exact E]; assert (t <> s) by (intros ->; tauto); lia.
    - rewrite for_range_empty by lia; exists (tab n base); split; [reflexivity|].
      exists base; split; [reflexivity|]; intros i Hi; split; [auto|intros [?|(t & ? & _)]; [assumption|lia]]. }
  destruct HI as (m & Em & f & -> & Hf); exists (tab n f); split; [exact Em|]; split; [apply tab_length|].
  intros i j Hi Hj.
  assert (B : (i * nv + j < n)%nat) by (unfold n; nia).
  rewrite nth_tab by exact B; rewrite Hf by lia; unfold base; rewrite Bool.orb_true_iff, Z.ltb_lt, Z.leb_le.
  split.
  - intros [[H'|H']|(t & Ht & [E|E])].
    + left; nia.
    + right; left; destruct (Nat.eq_dec i (nu - 1)) as [|NE]; [assumption|exfalso].
      assert (HX : (i * nv + nv + nv <= n)%nat) by (replace (i * nv + nv + nv)%nat with ((i + 2) * nv)%nat by ring; apply Nat.mul_le_mono_r; lia).
      clear -H' HX Hj; lia.
    + right; right; left.
      assert (ET : (t - Z.of_nat i) * Z.of_nat nv = Z.of_nat j) by (clear -E; nia).
      assert (t - Z.of_nat i = 0) by (clear -ET Hj; nia); nia.
    + right; right; right.
      assert (ET : (t - Z.of_nat i) * Z.of_nat nv = Z.of_nat j - (Z.of_nat nv - 1)) by (clear -E; nia).
      assert (t - Z.of_nat i = 0) by (clear -ET Hj; nia); nia.
  - intros [->|[->|[->| ->]]].
    + left; left; lia.
    + left; right; unfold n; assert (nu * nv = (nu - 1) * nv + nv)%nat by nia; lia.
    + destruct (Nat.eq_dec i 0) as [->|]; [left; left; lia|].
      destruct (Nat.eq_dec i (nu - 1)) as [->|]; [left; right; unfold n; assert (nu * nv = (nu - 1) * nv + nv)%nat by nia; lia|].
      right; exists (Z.of_nat i); split; [lia|left; lia].
    + destruct (Nat.eq_dec i 0) as [->|]; [left; left; lia|].
      destruct (Nat.eq_dec i (nu - 1)) as [->|]; [left; right; unfold n; assert (nu * nv = (nu - 1) * nv + nv)%nat by nia; lia|].
      right; exists (Z.of_nat i); split; [lia|right; lia].
Qed.

(** ** The matrix of products of basis values *)
Lemma surf_matrix_tab (s : surf K) us vs m nu nv (Bu Bv : Z -> Z -> K) :
  zlen us = Z.of_nat m -> zlen vs = Z.of_nat m -> s_nu s = Z.of_nat nu -> s_nv s = Z.of_nat nv -> zlen (s_ctrl s) = Z.of_nat (nu * nv) ->
  (forall i j e, 0 <= i < Z.of_nat m -> 0 <= j < Z.of_nat nu -> aget us i = Ok e -> one_basis_function (s_pu s) (s_ku s) j e = Ok (Bu i j)) ->
  (forall i j e, 0 <= i < Z.of_nat m -> 0 <= j < Z.of_nat nv -> aget vs i = Ok e -> one_basis_function (s_pv s) (s_kv s) j e = Ok (Bv i j)) ->
  surf_matrix s us vs (Z.of_nat m)
  = Ok (tab2 m (nu * nv) (fun a b => (Bu a (b / Z.of_nat nv)%Z * Bv a (b mod Z.of_nat nv)%Z)%num)).
Proof.
  intros Hus Hvs Hnu Hnv Hn HU HV; unfold surf_matrix; rewrite Hn, Hnu, Hnv.
  rewrite (np_full2_tab m (nu * nv)) by auto; cbn [bind]; rewrite Hus.
  set (B := fun a b => (Bu a (b / Z.of_nat nv)%Z * Bv a (b mod Z.of_nat nv)%Z)%num).
  assert (AG : forall (l : list K) i, zlen l = Z.of_nat m -> 0 <= i < Z.of_nat m -> exists e, aget l i = Ok e).
  { intros [|d l] i Hl Hi; [unfold zlen in Hl; cbn in Hl; lia|exists (nth (Z.to_nat i) (d :: l) d); apply aget_nth; lia]. }
  set (G := fun i c => (tab2 m (nu * nv) (fun a b => if (a <? i) || ((a =? i) && (b <? c)) then B a b else (0 : K)%num), i, c)).
  rewrite (for_range_fun (fun i => G i 0)); [| lia | |].
  - cbn [bind fst G]; f_equal; apply tab2_ext; intros a b Ha Hb; destruct (Z.ltb_spec a (Z.of_nat m)); [reflexivity|lia].
  - unfold G; do 2 f_equal; apply tab2_ext; intros a b Ha Hb; destruct (Z.ltb_spec a 0), (Z.eqb_spec a 0), (Z.ltb_spec b 0); cbn; try lia; reflexivity.
  - intros i Hi.
    destruct (AG us i Hus ltac:(lia)) as [eu Eu]; destruct (AG vs i Hvs ltac:(lia)) as [ev Ev].
    rewrite (for_range_fun (fun j => G i (j * Z.of_nat nv))); [| lia | reflexivity |].
    + cbn [bind G]; unfold G; do 3 f_equal; apply tab2_ext; intros a b Ha Hb.
      destruct (Z.ltb_spec a i), (Z.ltb_spec a (i + 1)), (Z.eqb_spec a i), (Z.eqb_spec a (i + 1)), (Z.ltb_spec b (Z.of_nat nu * Z.of_nat nv)), (Z.ltb_spec b 0); cbn; try lia; reflexivity.
    + intros j Hj.
      rewrite (for_range_fun (fun k => G i (j * Z.of_nat nv + k))); [| lia | f_equal; lia | ].
      { f_equal; f_equal; lia. }
      intros k Hk; unfold G at 1; rewrite Eu; cbn [bind]; rewrite (HU i j eu) by (auto; lia); cbn [bind].
      rewrite Ev; cbn [bind]; rewrite (HV i k ev) by (auto; lia); cbn [bind].
      assert (Hc : 0 <= j * Z.of_nat nv + k < Z.of_nat (nu * nv)) by nia.
      rewrite aset2_tab2 by lia; cbn [bind]; unfold G.
      replace (j * Z.of_nat nv + (k + 1)) with (j * Z.of_nat nv + k + 1) by lia.
      do 3 f_equal; apply tab2_ext; intros a b Ha Hb; unfold fupd2.
      destruct (Z.eqb_spec a i), (Z.eqb_spec b (j * Z.of_nat nv + k)), (Z.ltb_spec a i), (Z.ltb_spec b (j * Z.of_nat nv + k + 1)), (Z.ltb_spec b (j * Z.of_nat nv + k)); cbn [andb orb]; try lia; try reflexivity.
      subst a b; unfold B; rewrite Z.div_add_l, Z.div_small, Z.add_0_r by lia.
      rewrite Z.add_comm, Z_mod_plus_full, Z.mod_small by lia; reflexivity.
Qed.
End Any.

Open Scope R_scope.
Lemma zsum_flat nu nv f : zsum 0 (nu * nv) f = zsum 0 nu (fun i => zsum 0 nv (fun j => f (i * Z.of_nat nv + j)%Z)).
Proof.
  induction nu as [|nu IH]; [reflexivity|].
  replace (S nu * nv)%nat with (nu * nv + nv)%nat by lia; rewrite zsum_app, IH; cbn [zsum]; f_equal.
  replace (0 + Z.of_nat (nu * nv))%Z with (0 + Z.of_nat nu * Z.of_nat nv)%Z by lia.
  rewrite zsum_shift; apply zsum_ext; intros j Hj; f_equal; lia.
Qed.
Definition net_row_values U V p q nv u v : Z -> R := fun c => bspline U p (c / Z.of_nat nv) u * bspline V q (c mod Z.of_nat nv) v.
Lemma net_index i j nv : (0 <= j < nv)%Z -> ((i * nv + j) / nv = i /\ (i * nv + j) mod nv = j)%Z.
Proof.
  intros H; split; [rewrite Z.div_add_l, Z.div_small by lia; lia|].
  rewrite Z.add_comm, Z_mod_plus_full, Z.mod_small by lia; reflexivity.
Qed.
Lemma surface_sum_dot U V p q nu nv c u v : length c = (nu * nv)%nat ->
  dotR (tab (nu * nv) (net_row_values U V p q nv u v)) c = surface_sum U V p q nu nv c u v.
Proof.
  intros Hc; rewrite (dotR_zsum (nu * nv)) by (auto; apply tab_length); rewrite zsum_flat; unfold surface_sum.
  apply zsum_ext; intros i Hi; apply zsum_ext; intros j Hj.
  rewrite nth_tab by nia; rewrite Z2Nat.id by nia; unfold net_row_values.
  destruct (net_index i j (Z.of_nat nv) ltac:(lia)) as [-> ->]; reflexivity.
Qed.
Lemma surface_err_sq U V p q nu nv P rows : length P = (nu * nv)%nat ->
  surface_err U V p q nu nv P rows
  = sq_err3 (map (fun r => tab (nu * nv) (net_row_values U V p q nv (nth 3 r 0) (nth 4 r 0))) rows) rows P.
Proof.
  intros HP; unfold surface_err, sq_err3, sq_err; induction rows as [|r rows IH]; [cbn; ring|].
  change (coords 0 (r :: rows)) with (nth 0 r 0 :: coords 0 rows).
  change (coords 1 (r :: rows)) with (nth 1 r 0 :: coords 1 rows).
  change (coords 2 (r :: rows)) with (nth 2 r 0 :: coords 2 rows).
  cbn [map combine fold_right fst snd]; rewrite IH.
  rewrite !surface_sum_dot by (rewrite coords_length; exact HP).
  unfold point_err, surface_xyz; cbn [map fold_right nth]; ring.
Qed.

Lemma single_fit_surface_gen sv p q nu nv U V P rows :
  tight (Z.of_nat p) (Z.of_nat nu) U -> tight (Z.of_nat q) (Z.of_nat nv) V ->
  length P = (nu * nv)%nat -> Forall (fun r => length r = 3%nat) P -> Forall (fun r => length r = 5%nat) rows ->
  let strays := INR (surf_strays U V (Z.of_nat p) (Z.of_nat q) (Z.of_nat nu) (Z.of_nat nv) rows) in
  let allowed := 1/100000000 + 1/100000 * INR (length rows) in
  let run := single_fit_surface sv (mkSurf (Z.of_nat p) (Z.of_nat q) (Z.of_nat nu) (Z.of_nat nv) (fin2 P) (fin U) (fin V)) (fin2 rows) in
  (allowed < strays -> run = Err ValueError) /\
  (strays <= allowed -> forall e, (forall M, sv_cond sv M = Err e) -> run = Err e) /\
  (strays <= allowed -> least_squares sv ->
   exists P', run = Ok (mkSurf (Z.of_nat p) (Z.of_nat q) (Z.of_nat nu) (Z.of_nat nv) (fin2 P') (fin U) (fin V)) /\
    length P' = length P /\ Forall (fun r => length r = 3%nat) P' /\
    (forall i j, (i < nu)%nat -> (j < nv)%nat -> i = 0%nat \/ i = (nu - 1)%nat \/ j = 0%nat \/ j = (nv - 1)%nat ->
       nth (i * nv + j) P' [] = nth (i * nv + j) P []) /\
    forall Z, length Z = length P ->
      (forall i j, (i < nu)%nat -> (j < nv)%nat -> i = 0%nat \/ i = (nu - 1)%nat \/ j = 0%nat \/ j = (nv - 1)%nat ->
         nth (i * nv + j) Z [] = nth (i * nv + j) P []) ->
      surface_err U V p q nu nv P' rows <= surface_err U V p q nu nv Z rows).
Proof.
  intros (HCu & HU1 & HU2) (HCv & HV1 & HV2) HP H3 HR5 strays allowed run.
  set (m := length rows).
  assert (Hnu : (1 <= nu)%nat) by (destruct HCu as ((? & ? & _) & _); lia).
  assert (Hnv : (1 <= nv)%nat) by (destruct HCv as ((? & ? & _) & _); lia).
  set (us := coords 3 rows); set (vs := coords 4 rows).
  set (Bu := fun i j => bspline U p j (nth 3 (nth (Z.to_nat i) rows []) 0)).
  set (Bv := fun i j => bspline V q j (nth 4 (nth (Z.to_nat i) rows []) 0)).
  set (B := fun a b => Bu a (b / Z.of_nat nv)%Z * Bv a (b mod Z.of_nat nv)%Z).
  assert (EN : map (fun r => tab (nu * nv) (net_row_values U V p q nv (nth 3 r 0) (nth 4 r 0))) rows = tab2 m (nu * nv) B)
    by (rewrite (map_as_tab _ rows []); reflexivity).
  assert (ET : zsum 0 m (fun i => zsum 0 (nu * nv) (B i)) = INR m - strays).
  { unfold strays, surf_strays, m.
    rewrite <- (zsum_strays (fun r => zsum 0 nu (fun a => bspline U p a (nth 3 r 0)) * zsum 0 nv (fun b => bspline V q b (nth 4 r 0)))).
    - apply zsum_ext; intros i Hi; rewrite zsum_flat, Rmult_comm, <- zsum_scal; apply zsum_ext; intros a Ha.
      rewrite Rmult_comm, <- zsum_scal; apply zsum_ext; intros b Hb; unfold B.
      destruct (net_index a b (Z.of_nat nv) ltac:(lia)) as [-> ->]; reflexivity.
    - intros r _; rewrite !bspline_row_sum by assumption.
      destruct (outsideb _ _ (nth 3 r 0)), (outsideb _ _ (nth 4 r 0)); cbn [orb]; ring. }
  assert (EC : close (1/100000) (1/100000000) (INR m - strays) (IZR (Z.of_nat m)) <-> strays <= allowed) by (apply strays_close, filter_le).
  destruct (surf_mask_tab nu nv Hnu Hnv) as (mask & EM & LM & HM).
  assert (ER : run = let* _ := check_unity sv (Z.of_nat (nu * nv)) (fin2 (tab2 m (nu * nv) B)) (Z.of_nat m) in
     let* mask := surf_mask (Z.of_nat (nu * nv)) (Z.of_nat nu) (Z.of_nat nv) in
     let* new := fit_coordinates sv (fin2 (tab2 m (nu * nv) B)) (fin2 rows) (fin2 P) mask in
     Ok (mkSurf (Z.of_nat p) (Z.of_nat q) (Z.of_nat nu) (Z.of_nat nv) new (fin U) (fin V))).
  { unfold run, single_fit_surface; cbn [s_pu s_pv s_nu s_nv s_ctrl s_ku s_kv].
  change 3%Z with (Z.of_nat 3); rewrite (acol_fin2 rows 5 3 HR5) by lia; cbn [bind].
  change 4%Z with (Z.of_nat 4); rewrite (acol_fin2 rows 5 4 HR5) by lia; cbn [bind].
  replace (zlen (fin2 rows)) with (Z.of_nat m) by (unfold zlen, fin2; rewrite map_length; reflexivity).
  assert (AF : forall k i e, (0 <= i < Z.of_nat m)%Z -> aget (fin (coords k rows) : list Exact) i = Ok e -> e = Fin (nth k (nth (Z.to_nat i) rows []) 0)).
  { intros k i e Hi He; rewrite (aget_nth _ _ (Fin 0 : Exact)) in He by (rewrite zlen_fin; unfold len; rewrite coords_length; exact Hi).
    injection He as <-; unfold fin; rewrite (map_nth (Fin : R -> Exact)), nth_coords; reflexivity. }
  rewrite (surf_matrix_tab _ _ _ m nu nv (fun i j => Fin (Bu i j) : Exact) (fun i j => Fin (Bv i j) : Exact)); cbn [s_pu s_pv s_nu s_nv s_ctrl s_ku s_kv]; auto.
  2,3: rewrite zlen_fin; unfold len; rewrite coords_length; reflexivity.
  2: rewrite zlen_fin2; unfold len; rewrite HP; reflexivity.
  2: { intros i j e Hi Hj He; rewrite (AF _ _ _ Hi He); apply (one_basis_function_bspline U p (Z.of_nat nu)); auto. }
  2: { intros i j e Hi Hj He; rewrite (AF _ _ _ Hi He); apply (one_basis_function_bspline V q (Z.of_nat nv)); auto. }
  cbn [bind].
  assert (EB : tab2 m (nu * nv) (fun a b => ((Fin (Bu a (b / Z.of_nat nv)%Z) : Exact) * (Fin (Bv a (b mod Z.of_nat nv)%Z) : Exact))%num) = fin2 (tab2 m (nu * nv) B))
    by (rewrite fin2_tab2; reflexivity).
  rewrite EB.
  replace (zlen (fin2 P)) with (Z.of_nat (nu * nv)) by (rewrite zlen_fin2; unfold len; rewrite HP; reflexivity).
  reflexivity. }
  clearbody run; subst run.
  split; [intros H; rewrite check_unity_bad by (rewrite ET, EC; lra); reflexivity|].
  split; [intros H e He; destruct (check_unity_good sv m (nu * nv) B) as [G EG]; [rewrite ET, EC; exact H|]; rewrite EG, He; reflexivity|].
  intros H HS; destruct (check_unity_good sv m (nu * nv) B) as [G EG]; [rewrite ET, EC; exact H|].
  destruct (proj2 HS G) as [cnd ECd]; rewrite EG, ECd; cbn [bind].
  rewrite EM; cbn [bind].
  destruct (fit_coordinates_exact sv (tab2 m (nu * nv) B) rows P mask (nu * nv) 5 HS (proj2 (tab2_matrix m (nu * nv) B))) as (P' & E & LP & F3 & KP & OP);
    auto; [apply tab_length|].
  exists P'; rewrite E; cbn [bind]; split; [reflexivity|]; split; [congruence|]; split; [exact F3|]; split.
  - intros i j Hi Hj Hij; apply KP, HM; assumption.
  - intros Z LZ HZ; rewrite !surface_err_sq by congruence; rewrite EN; apply OP; [congruence|].
    intros i Hi.
    assert (Hin : (i < nu * nv)%nat).
    { destruct (Nat.lt_ge_cases i (nu * nv)); [assumption|]; rewrite nth_overflow in Hi by lia; discriminate. }
    pose proof (Nat.div_mod i nv ltac:(lia)) as DM.
    pose proof (Nat.mod_upper_bound i nv ltac:(lia)) as MB.
    assert (DB : (i / nv < nu)%nat) by (apply Nat.div_lt_upper_bound; lia).
    assert (Ei : i = (i / nv * nv + i mod nv)%nat) by lia.
    rewrite Ei; apply HZ; [exact DB|exact MB|]; apply HM; [exact DB|exact MB|]; rewrite <- Ei; exact Hi.
Qed.
Lemma surf_strays_none U V p q nu nv rows :
  Forall (fun r => kn U p <= nth 3 r 0 <= kn U nu /\ kn V q <= nth 4 r 0 <= kn V nv) rows -> surf_strays U V p q nu nv rows = 0%nat.
Proof.
  unfold surf_strays; induction 1 as [|r l Hr _ IH]; [reflexivity|]; cbn [filter]; unfold outsideb at 1 2.
  destruct (Rlt_dec _ _); [lra|]; destruct (Rlt_dec _ _); [lra|]; destruct (Rlt_dec _ _); [lra|]; destruct (Rlt_dec _ _); [lra|]; exact IH.
Qed.
Lemma single_fit_surface_exact sv p q nu nv U V P rows : least_squares sv ->
  tight (Z.of_nat p) (Z.of_nat nu) U -> tight (Z.of_nat q) (Z.of_nat nv) V ->
  length P = (nu * nv)%nat -> Forall (fun r => length r = 3%nat) P ->
  Forall (fun r => length r = 5%nat /\ kn U (Z.of_nat p) <= nth 3 r 0 <= kn U (Z.of_nat nu) /\ kn V (Z.of_nat q) <= nth 4 r 0 <= kn V (Z.of_nat nv)) rows ->
  exists P', single_fit_surface sv (mkSurf (Z.of_nat p) (Z.of_nat q) (Z.of_nat nu) (Z.of_nat nv) (fin2 P) (fin U) (fin V)) (fin2 rows)
      = Ok (mkSurf (Z.of_nat p) (Z.of_nat q) (Z.of_nat nu) (Z.of_nat nv) (fin2 P') (fin U) (fin V)) /\
    length P' = length P /\ Forall (fun r => length r = 3%nat) P' /\
    (forall i j, (i < nu)%nat -> (j < nv)%nat -> i = 0%nat \/ i = (nu - 1)%nat \/ j = 0%nat \/ j = (nv - 1)%nat ->
       nth (i * nv + j) P' [] = nth (i * nv + j) P []) /\
    forall Z, length Z = length P ->
      (forall i j, (i < nu)%nat -> (j < nv)%nat -> i = 0%nat \/ i = (nu - 1)%nat \/ j = 0%nat \/ j = (nv - 1)%nat ->
         nth (i * nv + j) Z [] = nth (i * nv + j) P []) ->
      surface_err U V p q nu nv P' rows <= surface_err U V p q nu nv Z rows.
Proof.
  intros HS HU HV HP H3 HR; destruct (single_fit_surface_gen sv p q nu nv U V P rows HU HV HP H3) as (_ & _ & H).
  - revert HR; apply Forall_impl; tauto.
  - apply H; [|exact HS]; rewrite surf_strays_none by (revert HR; apply Forall_impl; tauto); pose proof (pos_INR (length rows)); cbn [INR]; lra.
Qed.
