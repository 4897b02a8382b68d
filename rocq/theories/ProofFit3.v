(** Least squares in exact arithmetic. *)
From Verif Require Import Py PyLemmas Num ModelKnots ModelCurve ModelParam ModelFit Spec SpecFit MathCox ProofNum ProofCurve2 ProofParam ProofFit ProofFit2.
Open Scope R_scope.

(** ** Masks and dot products *)
Lemma free_fin mask r : free mask (fin r) = fin (free mask r).
Proof. apply pick_map. Qed.
Lemma dotR_cons x a y b : dotR (x :: a) (y :: b) = x * y + dotR a b.
Proof. reflexivity. Qed.
Lemma kdot_fin mask r P : length mask = length r -> length r = length P ->
  kdot mask (fin r) (fin P) = (Fin (dotR (kept mask r) (kept mask P)) : Exact).
Proof.
  intros H1 H2; unfold kdot.
  assert (E : forall acc, fold_left (fun s rp => (s + fst rp * snd rp)%num) (pick true mask (combine (fin r) (fin P))) (Fin acc : Exact)
    = Fin (acc + dotR (kept mask r) (kept mask P))).
  { revert r P H1 H2; induction mask as [|m mask IH]; intros [|x r] [|y P] H1 H2 acc; try discriminate.
    - cbn; f_equal; unfold dotR; cbn; ring.
    - cbn in H1, H2; cbn [fin map combine pick].
      destruct m; cbn [Bool.eqb fold_left fst snd kept pick].
      + rewrite E_mul, E_add; fold (fin r) (fin P); rewrite IH by congruence; unfold kept; rewrite dotR_cons; f_equal; ring.
      + fold (fin r) (fin P); apply IH; congruence. }
  change (0 : Exact)%num with (Fin 0 : Exact); rewrite E; f_equal; ring.
Qed.
Lemma dotR_merge mask r P y : length mask = length r -> length r = length P -> length y = picks false mask ->
  dotR r (merge mask P y) = dotR (free mask r) y + dotR (kept mask r) (kept mask P).
Proof.
  unfold free, kept, picks; revert r P y; induction mask as [|m mask IH]; intros [|x r] [|p P] y H1 H2 H3; try discriminate.
  - unfold dotR; cbn; ring.
  - cbn in H1, H2; destruct m; cbn [merge pick Bool.eqb]; cbn in H3.
    + rewrite !dotR_cons, IH by congruence; ring.
    + destruct y as [|v y]; [discriminate|]; rewrite !dotR_cons, IH by (cbn in H3; congruence); ring.
Qed.

Lemma sq_err_merge mask R Q P y : Forall (fun r => length r = length mask) R -> length mask = length P ->
  length R = length Q -> length y = picks false mask ->
  sq_err (map (free mask) R) (subR Q (map (fun r => dotR (kept mask r) (kept mask P)) R)) y = sq_err R Q (merge mask P y).
Proof.
  intros HR HP HQ Hy; revert Q HQ; induction R as [|r R IH]; intros [|q Q] HQ; try discriminate; [reflexivity|].
  inversion HR as [|? ? Hr HR']; subst; cbn in HQ.
  unfold sq_err, subR in *; cbn [map combine fold_right fst snd].
  rewrite IH by (auto; congruence); f_equal.
  rewrite dotR_merge by congruence; ring.
Qed.
Lemma vmap2_sub_fin Q V : vmap2 nsub (fin Q) (fin V) = (fin (subR Q V) : list Exact).
Proof. apply E_vmap2; reflexivity. Qed.

Lemma gram_fin n M : Forall (fun r => length r = n) M -> exists G, gram (Z.of_nat n) (fin2 M : list (list Exact)) = Ok (fin2 G).
Proof.
  intros HM; unfold gram.
  set (cols := map (fun j => map (fun r => nth (Z.to_nat j) r 0) M) (zrange 0 (Z.of_nat n))).
  assert (E : mapM (acol (fin2 M : list (list Exact))) (zrange 0 (Z.of_nat n)) = Ok (map fin cols)).
  { unfold cols; rewrite map_map; apply mapM_ok; intros j Hj; apply in_zrange in Hj.
    rewrite (acol_map _ n j (Fin 0 : Exact)); [|unfold fin2; rewrite Forall_map; revert HM; apply Forall_impl; intros r Hr; unfold fin; rewrite map_length; exact Hr|lia].
    f_equal; unfold fin2, fin; rewrite !map_map; apply map_ext; intros r; apply (map_nth (Fin : R -> Exact)). }
  rewrite E; cbn [bind]; exists (map (fun a => map (rdot a) cols) cols); f_equal.
  unfold fin2; rewrite !map_map; apply map_ext; intros a; rewrite map_map.
  unfold fin at 3; rewrite map_map; apply map_ext; intros b; apply E_vdot.
Qed.

Lemma linear_fit_fixed_exact sv R Q P fixed lg n : least_squares sv ->
  Forall (fun r => length r = n) R -> length R = length Q -> length P = n -> (n <= length fixed)%nat ->
  exists x, linear_fit_fixed sv (fin2 R) (fin Q) (fin P) fixed lg = Ok (fin x) /\ length x = n /\
    kept (firstn n fixed) x = kept (firstn n fixed) P /\
    forall z, length z = n -> kept (firstn n fixed) z = kept (firstn n fixed) P -> sq_err R Q x <= sq_err R Q z.
Proof.
  intros [HS HC] HR HQ HP HF; set (mask := firstn n fixed).
  assert (HM : length mask = n) by (unfold mask; rewrite firstn_length; lia).
  rewrite (linear_fit_fixed_eq _ _ _ _ _ _ n).
  2: { unfold fin2; rewrite Forall_map; revert HR; apply Forall_impl; intros r Hr; unfold fin; rewrite map_length; exact Hr. }
  2: { unfold fin2, fin; rewrite !map_length; exact HQ. }
  2: { unfold fin; rewrite map_length; exact HP. }
  2: exact HF.
  fold mask; cbv zeta.
  assert (HRm : Forall (fun r => length r = length mask) R) by (rewrite HM; exact HR).
  destruct (Nat.eqb_spec (picks false mask) 0) as [E0|E0].
  - exists P; split; [reflexivity|]; split; [exact HP|]; split; [reflexivity|].
    intros z Hz HK; right; f_equal.
    assert (EF : merge mask P (free mask P) = z).
    { transitivity (merge mask P (free mask z)).
      - f_equal; assert (L1 : length (free mask P) = 0%nat) by (unfold free; rewrite pick_length; congruence).
        assert (L2 : length (free mask z) = 0%nat) by (unfold free; rewrite pick_length; congruence).
        destruct (free mask P), (free mask z); cbn in *; congruence.
      - apply merge_self; congruence. }
    rewrite <- EF; symmetry; apply merge_self; congruence.
  - assert (EA : map (free mask) (fin2 R : list (list Exact)) = fin2 (map (free mask) R)).
    { unfold fin2; rewrite !map_map; apply map_ext; intros r; apply free_fin. }
    assert (HA : Forall (fun r => length r = picks false mask) (map (free mask) R)).
    { rewrite Forall_map; revert HRm; apply Forall_impl; intros r Hr; apply pick_length; congruence. }
    rewrite EA.
    assert (EC : (if (2 <=? lg)%Z then let* a := gram (Z.of_nat (picks false mask)) (fin2 (map (free mask) R)) in let* _ := sv_cond sv a in Ok tt else Ok tt) = Ok tt).
    { destruct (2 <=? lg)%Z; [|reflexivity].
      destruct (gram_fin _ _ HA) as [G ->]; cbn [bind]; destruct (HC G) as [c ->]; reflexivity. }
    rewrite EC; cbn [bind].
    assert (EB : map (fun r => kdot mask r (fin P)) (fin2 R : list (list Exact)) = fin (map (fun r => dotR (kept mask r) (kept mask P)) R)).
    { unfold fin2 at 1; unfold fin at 3; rewrite !map_map; apply map_ext_in; intros r Hr; apply kdot_fin;
        pose proof (proj1 (Forall_forall _ _) HRm r Hr); congruence. }
    rewrite EB, vmap2_sub_fin.
    set (Q' := subR Q (map (fun r => dotR (kept mask r) (kept mask P)) R)).
    destruct (HS (length R) (picks false mask) (map (free mask) R) Q') as (y & Ey & Ly & Hy).
    { split; [apply map_length|exact HA]. }
    { unfold Q'; rewrite subR_length; rewrite ?map_length; auto. }
    rewrite Ey; cbn [bind].
    rewrite (proj2 (Nat.leb_le _ _)) by (unfold fin; rewrite map_length; lia).
    exists (merge mask P y); split.
    { f_equal; clear; unfold fin; revert P y; induction mask as [|[|] m IH]; intros [|p P] y; try reflexivity; cbn.
      - f_equal; apply IH.
      - destruct y; [reflexivity|]; cbn; f_equal; apply IH. }
    split; [rewrite merge_length; [exact HP|congruence|lia]|].
    split; [apply merge_kept; [congruence|lia]|].
    intros z Hz HK.
    rewrite <- (merge_self mask P z) by congruence.
    rewrite <- (sq_err_merge mask R Q P y HRm) by congruence.
    rewrite <- (sq_err_merge mask R Q P (free mask z) HRm) by (try congruence; unfold free; rewrite pick_length; congruence).
    apply Hy; unfold free; rewrite pick_length; congruence.
Qed.

Lemma linear_fit_fixed_quiet {K : Num} c1 c2 l (R : list (list K)) Q P fixed lg : (lg < 2)%Z ->
  linear_fit_fixed (mkSolver c1 l) R Q P fixed lg = linear_fit_fixed (mkSolver c2 l) R Q P fixed lg.
Proof. intros H; unfold linear_fit_fixed; rewrite (proj2 (Z.leb_gt _ _)) by exact H; reflexivity. Qed.
Lemma linear_fit_fixed_cond sv R Q P fixed lg n e : (2 <= lg)%Z -> (forall M, sv_cond sv M = Err e) ->
  Forall (fun r => length r = n) R -> length R = length Q -> length P = n -> (n <= length fixed)%nat ->
  In false (firstn n fixed) -> linear_fit_fixed sv (fin2 R) (fin Q) (fin P) fixed lg = Err e.
Proof.
  intros Hl HC HR HQ HP HF HI; set (mask := firstn n fixed) in *.
  assert (HM : length mask = n) by (unfold mask; rewrite firstn_length; lia).
  rewrite (linear_fit_fixed_eq _ _ _ _ _ _ n).
  2: { unfold fin2; rewrite Forall_map; revert HR; apply Forall_impl; intros r Hr; unfold fin; rewrite map_length; exact Hr. }
  2: { unfold fin2, fin; rewrite !map_length; exact HQ. }
  2: { unfold fin; rewrite map_length; exact HP. }
  2: exact HF.
  fold mask; cbv zeta.
  destruct (Nat.eqb_spec (picks false mask) 0) as [E0|E0].
  { exfalso; unfold picks in E0; apply length_zero_iff_nil in E0.
    assert (In false (filter (Bool.eqb false) mask)) by (apply filter_In; auto); rewrite E0 in *; auto. }
  assert (EA : map (free mask) (fin2 R : list (list Exact)) = fin2 (map (free mask) R)).
  { unfold fin2; rewrite !map_map; apply map_ext; intros r; apply free_fin. }
  assert (HA : Forall (fun r => length r = picks false mask) (map (free mask) R)).
  { rewrite Forall_map; revert HR; apply Forall_impl; intros r Hr; apply pick_length; congruence. }
  rewrite EA, (proj2 (Z.leb_le _ _)) by exact Hl.
  destruct (gram_fin _ _ HA) as [G ->]; cbn [bind]; rewrite HC; reflexivity.
Qed.

(** ** The Gram-Schmidt solver *)
Lemma dotR_zsum m a b : length a = m -> length b = m ->
  dotR a b = zsum 0 m (fun i => nth (Z.to_nat i) a 0 * nth (Z.to_nat i) b 0).
Proof.
  revert a b; induction m as [|m IH]; intros [|x a] [|y b] Ha Hb; try discriminate; [reflexivity|].
  rewrite dotR_cons, (IH a b) by (cbn in *; congruence).
  rewrite zsum_first; f_equal; rewrite zsum_shift; apply zsum_ext; intros i Hi.
  replace (Z.to_nat (i + 1)) with (S (Z.to_nat i)) by lia; reflexivity.
Qed.
(** Row [i] of the matrix with columns [cols], times [c]. *)
Fixpoint rowsum (c : list R) (cols : list (list R)) (i : nat) : R :=
  match c, cols with
  | t :: c, v :: vs => t * nth i v 0 + rowsum c vs i
  | _, _ => 0
  end.
Lemma rowsum_lin c d cols t i : length c = length cols -> length d = length cols ->
  rowsum (map (fun cd => fst cd - t * snd cd) (combine c d)) cols i = rowsum c cols i - t * rowsum d cols i.
Proof.
  revert c d; induction cols as [|v vs IH]; intros [|x c] [|y d] Hc Hd; try discriminate; [cbn; ring|].
  cbn [combine map rowsum fst snd]; rewrite IH by (cbn in *; congruence); ring.
Qed.
Lemma rowsum_orth m r d cols : length d = length cols -> (forall v, In v cols -> zsum 0 m (fun i => r i * nth (Z.to_nat i) v 0) = 0) ->
  zsum 0 m (fun i => r i * rowsum d cols (Z.to_nat i)) = 0.
Proof.
  revert d; induction cols as [|v vs IH]; intros [|t d] Hd HO; try discriminate.
  - apply zsum_0; intros; cbn; ring.
  - cbn [rowsum]; rewrite (zsum_ext _ _ _ (fun i => t * (r i * nth (Z.to_nat i) v 0) + r i * rowsum d vs (Z.to_nat i))) by (intros; ring).
    rewrite zsum_plus, zsum_scal, HO by (left; reflexivity).
    rewrite IH; [ring|cbn in Hd; congruence|intros; apply HO; right; assumption].
Qed.
Lemma zsum_sq_0 m f : zsum 0 m (fun i => f i * f i) = 0 -> forall i, (0 <= i < Z.of_nat m)%Z -> f i = 0.
Proof.
  induction m as [|m IH]; intros H i Hi; [lia|].
  cbn [zsum] in H.
  assert (P1 : 0 <= zsum 0 m (fun i => f i * f i)) by (apply zsum_nonneg; intros; apply Rle_0_sqr).
  pose proof (Rle_0_sqr (f (0 + Z.of_nat m)%Z)) as P2; unfold Rsqr in P2.
  destruct (Z.eq_dec i (Z.of_nat m)) as [->|].
  - apply Rsqr_0_uniq; unfold Rsqr; rewrite Z.add_0_l in *; lra.
  - apply IH; [lra|lia].
Qed.

Lemma gs_columns_spec m cols b : Forall (fun v => length v = m) cols -> length b = m ->
  exists c r, gs_columns (map fin cols : list (list Exact)) (fin b) = (fin c, fin r) /\
    length c = length cols /\ length r = m /\
    (forall i, (i < m)%nat -> nth i r 0 = nth i b 0 - rowsum c cols i) /\
    (forall v, In v cols -> zsum 0 m (fun i => nth (Z.to_nat i) r 0 * nth (Z.to_nat i) v 0) = 0).
Proof.
  revert b; induction cols as [|v vs IH]; intros b HV Hb.
  - exists [], b; repeat split; auto; [intros; cbn; ring|intros ? []].
  - pose proof (Forall_inv HV) as Hv; pose proof (Forall_inv_tail HV) as HVs; cbn beta in Hv.
    destruct (IH v HVs Hv) as (d & w & Ed & Ld & Lw & Hw & Ow).
    destruct (IH b HVs Hb) as (c & r & Ec & Lc & Lr & Hr & Or).
    cbn [map gs_columns]; rewrite Ed, Ec; cbn [fst snd].
    rewrite !E_vdot; change (0 : Exact)%num with (Fin 0 : Exact); rewrite E_eqb.
    assert (EW : rdot w w = zsum 0 m (fun i => nth (Z.to_nat i) w 0 * nth (Z.to_nat i) w 0)) by (apply dotR_zsum; assumption).
    assert (EV : forall s, (forall x, In x vs -> zsum 0 m (fun i => s i * nth (Z.to_nat i) x 0) = 0) ->
      zsum 0 m (fun i => s i * nth (Z.to_nat i) v 0) = zsum 0 m (fun i => s i * nth (Z.to_nat i) w 0)).
    { intros s Hs; rewrite (zsum_ext _ _ _ (fun i => s i * nth (Z.to_nat i) w 0 + s i * rowsum d vs (Z.to_nat i))).
      - rewrite zsum_plus, (rowsum_orth _ s d vs Ld Hs); ring.
      - intros i Hi; rewrite (Hw (Z.to_nat i)) by lia; ring. }
    destruct (Reqb (rdot w w) 0) eqn:EQ.
    + apply Reqb_true in EQ; exists (0 :: c), r; split; [reflexivity|]; cbn [length]; split; [congruence|]; split; [exact Lr|]; split.
      * intros i Hi; cbn [rowsum]; rewrite Hr by exact Hi; ring.
      * intros x [<-|Hx]; [|exact (Or x Hx)].
        rewrite EV by exact Or; apply zsum_0; intros i Hi.
        rewrite EW in EQ; rewrite (zsum_sq_0 _ (fun i => nth (Z.to_nat i) w 0) EQ i) by lia; ring.
    + apply Reqb_false in EQ; rewrite E_div by exact EQ.
      set (t := rdot r w / rdot w w).
      rewrite (E_vmap2 (fun c0 d0 => (c0 - (Fin t : Exact) * d0)%num) (fun x y => x - t * y)) by reflexivity.
      rewrite (E_vmap2 (fun r0 w0 => (r0 - (Fin t : Exact) * w0)%num) (fun x y => x - t * y)) by reflexivity.
      exists (t :: map (fun xy => fst xy - t * snd xy) (combine c d)), (map (fun xy => fst xy - t * snd xy) (combine r w)).
      split; [reflexivity|]; cbn [length]; split; [rewrite map_length, combine_length; lia|].
      split; [rewrite map_length, combine_length; lia|].
      assert (EN : forall i, nth i (map (fun xy => fst xy - t * snd xy) (combine r w)) 0 = nth i r 0 - t * nth i w 0).
      { intros i; replace 0 with ((fun xy => fst xy - t * snd xy) (0, 0)) at 1 by (cbn; ring).
        rewrite (map_nth (fun xy => fst xy - t * snd xy)), combine_nth by congruence; reflexivity. }
      assert (OV : forall x, In x vs -> zsum 0 m (fun i => (nth (Z.to_nat i) r 0 - t * nth (Z.to_nat i) w 0) * nth (Z.to_nat i) x 0) = 0).
      { intros x Hx; rewrite (zsum_ext _ _ _ (fun i => nth (Z.to_nat i) r 0 * nth (Z.to_nat i) x 0 - t * (nth (Z.to_nat i) w 0 * nth (Z.to_nat i) x 0))) by (intros; ring).
        rewrite zsum_minus, zsum_scal, (Or x Hx), (Ow x Hx); ring. }
      split.
      * intros i Hi; rewrite EN; cbn [rowsum]; rewrite rowsum_lin by congruence; rewrite (Hr i Hi), (Hw i) by lia; ring.
      * intros x Hx; rewrite (zsum_ext _ _ _ (fun i => (nth (Z.to_nat i) r 0 - t * nth (Z.to_nat i) w 0) * nth (Z.to_nat i) x 0)) by (intros; rewrite EN; reflexivity).
        destruct Hx as [<-|Hx]; [|exact (OV x Hx)].
        rewrite EV by exact OV.
        rewrite (zsum_ext _ _ _ (fun i => nth (Z.to_nat i) r 0 * nth (Z.to_nat i) w 0 - t * (nth (Z.to_nat i) w 0 * nth (Z.to_nat i) w 0))) by (intros; ring).
        rewrite zsum_minus, zsum_scal, <- EW.
        replace (zsum 0 m (fun i => nth (Z.to_nat i) r 0 * nth (Z.to_nat i) w 0)) with (rdot r w) by (apply dotR_zsum; assumption).
        unfold t; field; exact EQ.
Qed.

Lemma dotR_rowsum x : forall k r M i, length r = (k + length x)%nat -> nth i M [] = r -> (i < length M)%nat ->
  dotR (skipn k r) x = rowsum x (map (fun j => map (fun r => nth j r 0) M) (seq k (length x))) i.
Proof.
  induction x as [|t x IH]; intros k r M i Hr HM Hi.
  - destruct (skipn k r); reflexivity.
  - cbn [length seq map rowsum].
    assert (ES : skipn k r = nth k r 0 :: skipn (S k) r).
    { clear -Hr; revert r Hr; induction k as [|k IH]; intros [|y r] Hr; cbn in Hr; try lia; [reflexivity|].
      cbn [nth skipn]; rewrite IH by (cbn; lia); reflexivity. }
    rewrite ES, dotR_cons, (IH (S k) r M i) by (auto; cbn in *; lia).
    f_equal; assert (EN : nth i (map (fun r => nth k r 0) M) 0 = nth k r 0).
    { rewrite <- HM, <- (map_nth (fun r => nth k r 0)); f_equal; destruct k; reflexivity. }
    rewrite EN; ring.
Qed.
Lemma sq_err_zsum M Q x : length M = length Q ->
  sq_err M Q x = zsum 0 (length M) (fun i => (dotR (nth (Z.to_nat i) M []) x - nth (Z.to_nat i) Q 0) * (dotR (nth (Z.to_nat i) M []) x - nth (Z.to_nat i) Q 0)).
Proof.
  revert Q; induction M as [|r M IH]; intros [|q Q] HL; try discriminate; [reflexivity|].
  unfold sq_err in *; cbn [combine map fold_right fst snd length]; rewrite IH by (cbn in HL; congruence).
  rewrite zsum_first; f_equal; rewrite zsum_shift; apply zsum_ext; intros i Hi.
  replace (Z.to_nat (i + 1)) with (S (Z.to_nat i)) by lia; reflexivity.
Qed.

Lemma gs_solver_least_squares : least_squares (gs_solver Exact).
Proof.
  split; [|intros M; eexists; reflexivity].
  intros m n M Q [HM HR] HQ.
  set (cols := map (fun j => map (fun r => nth j r 0) M) (seq 0 n)).
  assert (HC : Forall (fun v => length v = m) cols).
  { unfold cols; rewrite Forall_map; apply Forall_forall; intros j _; rewrite map_length; exact HM. }
  destruct (gs_columns_spec m cols Q HC HQ) as (x & e & E & Lx & Le & He & Oe).
  assert (Lx' : length x = n) by (rewrite Lx; unfold cols; rewrite map_length, seq_length; reflexivity).
  exists x; split.
  - cbn [sv_lstsq gs_solver]; rewrite Nat2Z.id.
    replace (map (fun j => map (fun r => nth j r (0 : Exact)%num) (fin2 M)) (seq 0 n)) with (map fin cols : list (list Exact)).
    + rewrite E; reflexivity.
    + unfold cols; rewrite map_map; apply map_ext; intros j; unfold fin2, fin; rewrite !map_map; apply map_ext; intros r.
      symmetry; apply (map_nth (Fin : R -> Exact)).
  - split; [exact Lx'|]; intros z Lz.
    assert (RS : forall y, length y = n -> forall i, (0 <= i < Z.of_nat m)%Z -> dotR (nth (Z.to_nat i) M []) y = rowsum y cols (Z.to_nat i)).
    { intros y Ly i Hi; unfold cols; rewrite <- Ly.
      rewrite <- (dotR_rowsum y 0 (nth (Z.to_nat i) M []) M (Z.to_nat i)); [reflexivity| |reflexivity|lia].
      rewrite (proj1 (Forall_forall _ _) HR); [lia|apply nth_In; lia]. }
    rewrite !sq_err_zsum by congruence; rewrite HM.
    rewrite (zsum_ext _ _ _ (fun i => nth (Z.to_nat i) e 0 * nth (Z.to_nat i) e 0)).
    2: { intros i Hi; rewrite (RS x) by (auto; lia); rewrite He by lia; ring. }
    set (D := fun i => rowsum x cols (Z.to_nat i) - rowsum z cols (Z.to_nat i)).
    rewrite (zsum_ext _ _ (fun i => (dotR (nth (Z.to_nat i) M []) z - _) * _)
      (fun i => nth (Z.to_nat i) e 0 * nth (Z.to_nat i) e 0 + (2 * (nth (Z.to_nat i) e 0 * rowsum x cols (Z.to_nat i)) - 2 * (nth (Z.to_nat i) e 0 * rowsum z cols (Z.to_nat i)) + D i * D i))).
    2: { intros i Hi; rewrite (RS z) by (auto; lia); rewrite He by lia; unfold D; ring. }
    rewrite zsum_plus, zsum_plus, zsum_minus, !zsum_scal.
    rewrite (rowsum_orth m (fun i => nth (Z.to_nat i) e 0) x cols Lx Oe).
    rewrite (rowsum_orth m (fun i => nth (Z.to_nat i) e 0) z cols) by (rewrite ?Lz; unfold cols; rewrite ?map_length, ?seq_length; auto).
    assert (0 <= zsum 0 m (fun i => D i * D i)) by (apply zsum_nonneg; intros; apply Rle_0_sqr).
    lra.
Qed.
