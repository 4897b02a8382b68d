(** Knot insertion in exact arithmetic: the code performs repeated Boehm
    insertion, so the curve is unchanged. *)
From Coq Require Import Permutation.
From Verif Require Import Py PyLemmas Num ModelKnots Spec MathCox MathKnots MathBoehm ProofNum ProofSpan ProofBasis ProofKnots ProofSpan2 ProofInsert.
Open Scope R_scope.

Section RealInsert.
Variables (U : list R) (n p : nat) (k s : Z) (x : R).
Notation zn := (Z.of_nat n).
Notation zp := (Z.of_nat p).
Hypothesis HU : nondecreasing U.
Hypothesis HL : len U = (zn + zp + 1)%Z.
Hypothesis Hk : (zp <= k < zn)%Z.

(** Knots after [j] insertions. *)
Definition rknot (j : nat) (i : Z) : R :=
  if (i <=? k)%Z then kn U i else if (i <=? k + Z.of_nat j)%Z then x else kn U (i - Z.of_nat j).
Definition Tj (j : nat) : list R := tab (n + p + 1 + j) (rknot j).

Lemma len_Tj j : len (Tj j) = (zn + zp + 1 + Z.of_nat j)%Z.
Proof. unfold Tj; rewrite len_tab; lia. Qed.
Lemma last_Tj j : last (Tj j) 0 = last U 0.
Proof.
  unfold Tj; rewrite last_tab by lia; unfold rknot.
  destruct (Z.leb_spec (Z.of_nat (n + p + 1 + j) - 1) k); [lia|].
  destruct (Z.leb_spec (Z.of_nat (n + p + 1 + j) - 1) (k + Z.of_nat j)); [lia|].
  apply kn_big; lia.
Qed.
Lemma kn_Tj j i : kn (Tj j) i = rknot j i.
Proof.
  destruct (Z_lt_dec i 0) as [Hi|Hi].
  - rewrite kn_neg by lia; unfold Tj; rewrite kn_tab by lia; unfold rknot.
    destruct (Z.leb_spec 0 k); [|lia]; destruct (Z.leb_spec i k); [|lia]; rewrite (kn_neg U i) by lia; reflexivity.
  - destruct (Z_lt_dec i (zn + zp + 1 + Z.of_nat j)) as [Hi'|Hi'].
    + unfold Tj; apply kn_tab; lia.
    + rewrite kn_big by (rewrite len_Tj; lia); rewrite last_Tj; unfold rknot.
      destruct (Z.leb_spec i k); [lia|]; destruct (Z.leb_spec i (k + Z.of_nat j)); [lia|].
      symmetry; apply kn_big; lia.
Qed.
Lemma Tj_0 : Tj 0 = U.
Proof.
  unfold Tj; replace (n + p + 1 + 0)%nat with (length U) by (unfold len in HL; lia).
  rewrite (list_as_tab U (last U 0)) at 2; apply tab_ext; intros i Hi; unfold rknot.
  destruct (Z.leb_spec i k); [reflexivity|]; destruct (Z.leb_spec i (k + Z.of_nat 0)); [lia|].
  unfold kn; f_equal; lia.
Qed.

Lemma rknot_mono j : kn U k <= x <= kn U (k + 1) -> forall a b, (a <= b)%Z -> rknot j a <= rknot j b.
Proof.
  intros Hx a b Hab; unfold rknot; pose proof (kn_mono U HU) as M.
  destruct (Z.leb_spec a k); destruct (Z.leb_spec b k); try lia.
  - apply M; lia.
  - destruct (Z.leb_spec b (k + Z.of_nat j)).
    + pose proof (M a k ltac:(lia)); lra.
    + apply M; lia.
  - destruct (Z.leb_spec a (k + Z.of_nat j)); destruct (Z.leb_spec b (k + Z.of_nat j)); try lia; try lra.
    + pose proof (M (k + 1)%Z (b - Z.of_nat j)%Z ltac:(lia)); lra.
    + apply M; lia.
Qed.
Lemma Tj_nondecreasing j : kn U k <= x <= kn U (k + 1) -> nondecreasing (Tj j).
Proof. intros Hx a b Hab _; rewrite !kn_Tj; apply rknot_mono; [exact Hx|lia]. Qed.

Lemma rknot_low j i : (i <= k + Z.of_nat j)%Z -> rknot (S j) i = rknot j i.
Proof.
  intros H; unfold rknot; destruct (Z.leb_spec i k); [reflexivity|].
  destruct (Z.leb_spec i (k + Z.of_nat (S j))); [|lia]; destruct (Z.leb_spec i (k + Z.of_nat j)); [reflexivity|lia].
Qed.
Lemma rknot_mid j : rknot (S j) (k + Z.of_nat j + 1) = x.
Proof.
  unfold rknot; destruct (Z.leb_spec (k + Z.of_nat j + 1) k); [lia|].
  destruct (Z.leb_spec (k + Z.of_nat j + 1) (k + Z.of_nat (S j))); [reflexivity|lia].
Qed.
Lemma rknot_high j i : (k + Z.of_nat j + 1 < i)%Z -> rknot (S j) i = rknot j (i - 1).
Proof.
  intros H; unfold rknot; destruct (Z.leb_spec i k); [lia|]; destruct (Z.leb_spec (i - 1) k); [lia|].
  destruct (Z.leb_spec i (k + Z.of_nat (S j))); [lia|]; destruct (Z.leb_spec (i - 1) (k + Z.of_nat j)); [lia|].
  f_equal; lia.
Qed.

Hypothesis Hx : kn U k <= x < kn U (k + 1).
Lemma rknot_here j : rknot j (k + Z.of_nat j) <= x < rknot j (k + Z.of_nat j + 1).
Proof.
  unfold rknot; destruct (Z.leb_spec (k + Z.of_nat j) k).
  - replace (k + Z.of_nat j)%Z with k by lia.
    destruct (Z.leb_spec (k + 1) k); [lia|]; destruct (Z.leb_spec (k + 1) k); [lia|].
    replace (k + 1 - Z.of_nat j)%Z with (k + 1)%Z by lia; exact Hx.
  - destruct (Z.leb_spec (k + Z.of_nat j) (k + Z.of_nat j)); [|lia].
    destruct (Z.leb_spec (k + Z.of_nat j + 1) k); [lia|].
    destruct (Z.leb_spec (k + Z.of_nat j + 1) (k + Z.of_nat j)); [lia|].
    replace (k + Z.of_nat j + 1 - Z.of_nat j)%Z with (k + 1)%Z by lia; lra.
Qed.

Section Step.
Variables (j : nat) (u : R).
Let kj := (k + Z.of_nat j)%Z.
Lemma base_low i : (i < kj)%Z -> base (Tj j) u i = base (Tj (S j)) u i.
Proof.
  intros H; unfold base; rewrite !kn_Tj, !last_Tj, !rknot_low by (unfold kj in H; lia); reflexivity.
Qed.
Lemma base_high i : (kj < i)%Z -> base (Tj j) u i = base (Tj (S j)) u (i + 1).
Proof.
  intros H; unfold base; rewrite !kn_Tj, !last_Tj, !rknot_high by (unfold kj in H; lia).
  replace (i + 1 - 1)%Z with i by lia; replace (i + 1 + 1 - 1)%Z with (i + 1)%Z by lia; reflexivity.
Qed.
Lemma base_mid : base (Tj j) u kj = base (Tj (S j)) u kj + base (Tj (S j)) u (kj + 1).
Proof.
  unfold base; rewrite !kn_Tj, !last_Tj.
  pose proof (rknot_here j) as H; fold kj in H.
  rewrite (rknot_low j kj) by (unfold kj; lia).
  replace (rknot (S j) (kj + 1)) with x by (symmetry; apply rknot_mid).
  rewrite (rknot_high j (kj + 1 + 1)) by (unfold kj; lia).
  replace (kj + 1 + 1 - 1)%Z with (kj + 1)%Z by lia.
  assert (HE : rknot j (kj + 1) <= last U 0).
  { rewrite <- (last_Tj j), <- kn_last, kn_Tj, len_Tj; apply rknot_mono; [lra|unfold kj; lia]. }
  set (a := rknot j kj) in *; set (b := rknot j (kj + 1)) in *; set (e := last U 0) in *.
  destruct (Rle_dec a u); destruct (Rlt_dec u b); destruct (Rle_dec x u); destruct (Rlt_dec u x); try lra;
    destruct (Rlt_dec a x); destruct (Req_EM_T u x); destruct (Req_EM_T u e); try lra;
    destruct (Rlt_dec a b); destruct (Req_EM_T u b); destruct (Rlt_dec x b); try lra.
Qed.
Lemma base_empty i : rknot (S j) (i + 1) = rknot (S j) i -> base (Tj (S j)) u i = 0.
Proof.
  intros H; unfold base; rewrite !kn_Tj, H.
  destruct (Rle_dec _ _); [|reflexivity]; destruct (Rlt_dec u _); [lra|].
  destruct (Rlt_dec _ _); [lra|reflexivity].
Qed.

Lemma step_sum (P : Z -> R) :
  zsum 0 (n + j) (fun i => bspline (Tj j) p i u * P i)
  = zsum 0 (S (n + j)) (fun i => bspline (Tj (S j)) p i u * boehm_ctrl (rknot j) kj x p P i).
Proof.
  assert (E : forall m i, bspline (Tj m) p i u = cox (base (Tj m) u) (rknot m) p i u).
  { intros m i; apply cox_ext; intros; [reflexivity|apply kn_Tj]. }
  rewrite (zsum_ext 0 (n + j) _ (fun i => cox (base (Tj j) u) (rknot j) p i u * P i)) by (intros; rewrite E; reflexivity).
  rewrite (zsum_ext 0 (S (n + j)) _ (fun i => cox (base (Tj (S j)) u) (rknot (S j)) p i u
     * boehm_ctrl (rknot j) kj x p P i)) by (intros; rewrite E; reflexivity).
  apply boehm_sum.
  - intros i Hi; apply rknot_low; exact Hi.
  - apply rknot_mid.
  - intros i Hi; apply rknot_high; exact Hi.
  - apply rknot_mono; lra.
  - apply base_low.
  - apply base_mid.
  - apply base_high.
  - apply base_empty.
  - apply rknot_here.
  - unfold kj; lia.
  - unfold kj; lia.
Qed.
End Step.

(** Control values after [j] insertions. *)
Hypothesis Hs0 : (0 <= s)%Z.
Hypothesis Hs : forall i, (k - s < i <= k)%Z -> kn U i = x.
Definition ralpha (j : nat) (i : Z) : R := (x - kn U i) / (kn U (i + zp - Z.of_nat j) - kn U i).
Fixpoint rctrl (P : Z -> R) (j : nat) (i : Z) : R :=
  match j with
  | O => P i
  | S j' =>
      if (i <=? k - zp + Z.of_nat j')%Z then rctrl P j' i
      else if (i <=? k - s)%Z then
        ralpha j' i * rctrl P j' i + (1 - ralpha j' i) * rctrl P j' (i - 1)
      else rctrl P j' (i - 1)
  end.

Lemma ralpha_den j i : (k - zp + Z.of_nat j < i <= k)%Z -> kn U i <= x < kn U (i + zp - Z.of_nat j).
Proof.
  intros Hi; pose proof (kn_mono U HU i k ltac:(lia)); pose proof (kn_mono U HU (k + 1) (i + zp - Z.of_nat j) ltac:(lia)); lra.
Qed.
Lemma ralpha_01 j i : (k - zp + Z.of_nat j < i <= k)%Z -> 0 <= ralpha j i <= 1.
Proof.
  intros Hi; pose proof (ralpha_den j i Hi); unfold ralpha; apply rescale_range; lra.
Qed.

Lemma rctrl_boehm P j i : (s + Z.of_nat (S j) <= zp)%Z ->
  boehm_ctrl (rknot j) (k + Z.of_nat j) x p (rctrl P j) i = rctrl P (S j) i.
Proof.
  intros Hr; unfold boehm_ctrl, alpha; cbn [rctrl].
  replace (k + Z.of_nat j - zp)%Z with (k - zp + Z.of_nat j)%Z by lia.
  destruct (Z.leb_spec i (k - zp + Z.of_nat j)); [ring|].
  destruct (Z.leb_spec i (k - s)).
  - destruct (Z.leb_spec i (k + Z.of_nat j)); [|lia].
    replace (sdiv (x - rknot j i) (rknot j (i + zp) - rknot j i)) with (ralpha j i); [reflexivity|].
    unfold rknot, ralpha.
    destruct (Z.leb_spec i k); [|lia]; destruct (Z.leb_spec (i + zp) k); [lia|].
    destruct (Z.leb_spec (i + zp) (k + Z.of_nat j)); [lia|].
    pose proof (ralpha_den j i ltac:(lia)); rewrite sdiv_nz by lra; reflexivity.
  - destruct (Z.leb_spec i (k + Z.of_nat j)); [|ring].
    replace (rknot j i) with x.
    + unfold Rminus; rewrite Rplus_opp_r; unfold sdiv at 1 2; destruct (Req_EM_T _ 0); [ring|unfold Rdiv; ring].
    + unfold rknot; destruct (Z.leb_spec i k); [symmetry; apply Hs; lia|].
      destruct (Z.leb_spec i (k + Z.of_nat j)); [reflexivity|lia].
Qed.

Lemma insert_sum P r u : (s + Z.of_nat r <= zp)%Z ->
  zsum 0 (n + r) (fun i => bspline (Tj r) p i u * rctrl P r i) = zsum 0 n (fun i => bspline U p i u * P i).
Proof.
  induction r as [|r IH]; intros Hr.
  - rewrite Tj_0, Nat.add_0_r; reflexivity.
  - rewrite <- IH by lia; rewrite (step_sum r), Nat.add_succ_r.
    apply zsum_ext; intros i _; rewrite rctrl_boehm by lia; reflexivity.
Qed.

(** Each new value is a convex combination of the r+1 old ones around it. *)
Lemma rctrl_between P lo hi : forall j i, (s + Z.of_nat j <= zp)%Z ->
  (0 <= i < zn + Z.of_nat j)%Z ->
  (forall m, (i - Z.of_nat j <= m <= i)%Z -> (0 <= m < zn)%Z -> lo <= P m <= hi) -> lo <= rctrl P j i <= hi.
Proof.
  induction j as [|j IH]; intros i Hj Hi HB; cbn [rctrl]; [apply HB; lia|].
  destruct (Z.leb_spec i (k - zp + Z.of_nat j)); [apply IH; try lia; intros; apply HB; lia|].
  destruct (Z.leb_spec i (k - s)); [|apply IH; try lia; intros; apply HB; lia].
  pose proof (ralpha_01 j i ltac:(lia)) as [A0 A1].
  assert (B1 : lo <= rctrl P j i <= hi) by (apply IH; try lia; intros; apply HB; lia).
  assert (B2 : lo <= rctrl P j (i - 1) <= hi) by (apply IH; try lia; intros; apply HB; lia).
  destruct B1, B2.
  pose proof (Rmult_le_compat_l _ _ _ A0 H1); pose proof (Rmult_le_compat_l _ _ _ A0 H2).
  assert (A0' : 0 <= 1 - ralpha j i) by lra.
  pose proof (Rmult_le_compat_l _ _ _ A0' H3); pose proof (Rmult_le_compat_l _ _ _ A0' H4); lra.
Qed.
Lemma rctrl_low P j i : (i <= k - zp)%Z -> rctrl P j i = P i.
Proof.
  induction j as [|j IH]; intros H; cbn [rctrl]; [reflexivity|].
  destruct (Z.leb_spec i (k - zp + Z.of_nat j)); [auto|lia].
Qed.
Lemma rctrl_high P j i : (s + Z.of_nat j <= zp)%Z -> (k - s <= i)%Z -> rctrl P j (i + Z.of_nat j) = P i.
Proof.
  induction j as [|j IH]; intros H Hi; cbn [rctrl]; [f_equal; lia|].
  destruct (Z.leb_spec (i + Z.of_nat (S j)) (k - zp + Z.of_nat j)); [lia|].
  destruct (Z.leb_spec (i + Z.of_nat (S j)) (k - s)); [lia|].
  rewrite <- IH by lia; f_equal; lia.
Qed.

(** The model's rows are these values. *)
Lemma QX_rctrl (a b c : Z -> R) : forall j i, (s + Z.of_nat j <= zp)%Z ->
  QX (K := Exact) p k s (fun i => Fin (kn U i)) (Fin x) (fun i => fin [a i; b i; c i]) j i
  = fin [rctrl a j i; rctrl b j i; rctrl c j i].
Proof.
  induction j as [|j IH]; intros i Hj; cbn [QX rctrl]; [reflexivity|].
  destruct (Z.leb_spec i (k - zp + Z.of_nat j)); [apply IH; lia|].
  destruct (Z.leb_spec i (k - s)); [|apply IH; lia].
  pose proof (ralpha_den j i ltac:(lia)).
  assert (E : ins_alpha p (fun i => Fin (kn U i) : Exact) (Fin x) j i = Fin (ralpha j i)).
  { unfold ins_alpha, ralpha; rewrite !E_sub, E_div by lra; reflexivity. }
  rewrite E, !IH by lia; reflexivity.
Qed.
End RealInsert.

(** ** Knots with a given value are the last ones not after it. *)
Lemma count_tail x (l : list R) : (forall i j, (0 <= i <= j)%Z -> (j < len l)%Z -> kn l i <= kn l j) ->
  (forall y, In y l -> y <= x) ->
  forall i, (len l - Z.of_nat (count_occ Req_EM_T l x) <= i < len l)%Z -> kn l i = x.
Proof.
  induction l as [|y l IH] using rev_ind; intros HM HB i Hi.
  - unfold len in Hi; cbn in Hi; lia.
  - assert (KA : forall i, (0 <= i < len l)%Z -> kn (l ++ [y]) i = kn l i).
    { intros m Hm; unfold len in Hm; rewrite !kn_nth by (unfold len; rewrite ?app_length; cbn; lia).
      apply app_nth1; lia. }
    assert (KY : kn (l ++ [y]) (len l) = y).
    { rewrite kn_nth by (unfold len; rewrite app_length; cbn; lia).
      unfold len; rewrite app_nth2 by lia; rewrite Nat2Z.id, Nat.sub_diag; reflexivity. }
    rewrite count_occ_app in Hi; cbn [count_occ] in Hi.
    assert (HL : len (l ++ [y]) = (len l + 1)%Z) by (unfold len; rewrite app_length; cbn; lia).
    destruct (Req_EM_T y x) as [->|N].
    + destruct (Z.eq_dec i (len l)) as [->|]; [exact KY|].
      destruct (Z_lt_dec i 0) as [Hneg|].
      { pose proof (count_occ_bound Req_EM_T x l); unfold len in *; lia. }
      rewrite KA by lia; apply IH; [|intros; apply HB, in_or_app; auto|lia].
      intros a b Hab Hb; rewrite <- !KA by lia; apply HM; lia.
    + assert (C0 : count_occ Req_EM_T l x = O).
      { apply count_occ_not_In; intros HI; destruct (In_kn l x HI) as (m & Hm & E).
        assert (y <= x) by (apply HB, in_or_app; right; left; reflexivity).
        pose proof (HM m (len l) ltac:(lia) ltac:(lia)) as H1; rewrite KY, KA, E in H1 by lia; lra. }
      rewrite C0, HL in Hi; lia.
Qed.
Lemma count_span U k x : nondecreasing U -> (0 <= k)%Z -> (k + 1 < len U)%Z -> kn U k <= x < kn U (k + 1) ->
  forall i, (k - Z.of_nat (count_occ Req_EM_T U x) < i <= k)%Z -> kn U i = x.
Proof.
  intros HU Hk HkL Hx i Hi.
  set (m := Z.to_nat (k + 1)).
  assert (Lf : length (firstn m U) = m) by (apply firstn_length_le; unfold len, m in *; lia).
  assert (KF : forall i, (0 <= i <= k)%Z -> kn (firstn m U) i = kn U i).
  { intros j Hj; rewrite !kn_nth by (unfold len in *; rewrite ?Lf; unfold m; lia).
    rewrite <- (firstn_skipn m U) at 2; rewrite app_nth1 by (rewrite Lf; unfold m; lia); reflexivity. }
  assert (EC : count_occ Req_EM_T U x = count_occ Req_EM_T (firstn m U) x).
  { rewrite <- (firstn_skipn m U) at 1; rewrite count_occ_app.
    rewrite (proj1 (count_occ_not_In Req_EM_T (skipn m U) x)); [lia|].
    intros HI; destruct (In_nth _ _ 0 HI) as (j & Hj & E); rewrite skipn_length in Hj.
    assert (E2 : kn U (k + 1 + Z.of_nat j) = x).
    { rewrite kn_nth by (unfold len, m in *; lia); rewrite <- E.
      rewrite <- (firstn_skipn m U) at 1; rewrite app_nth2 by (rewrite Lf; unfold m; lia).
      f_equal; rewrite Lf; unfold m; lia. }
    pose proof (kn_mono U HU (k + 1) (k + 1 + Z.of_nat j) ltac:(lia)); lra. }
  pose proof (count_occ_bound Req_EM_T x (firstn m U)) as CB; rewrite Lf in CB.
  assert (Em : Z.of_nat m = (k + 1)%Z) by (unfold m; lia).
  rewrite EC in Hi; rewrite <- KF by lia.
  apply count_tail.
  - intros a b Ha Hb; unfold len in Hb; rewrite Lf in Hb; rewrite !KF by lia.
    apply kn_mono; [exact HU|lia].
  - intros y Hy; destruct (In_kn _ _ Hy) as (j & Hj & <-); unfold len in Hj; rewrite Lf in Hj.
    rewrite KF by lia; pose proof (kn_mono U HU j k ltac:(lia)); lra.
  - unfold len; rewrite Lf; lia.
Qed.

(** ** Statements over lists *)
Lemma nth_coords c P i : nth i (coords c P) 0 = nth c (nth i P []) 0.
Proof.
  revert i; induction P as [|v P IH]; intros [|i]; cbn; try reflexivity; try (destruct c; reflexivity); apply IH.
Qed.
Lemma list_rows (P : list (list R)) : Forall (fun row => length row = 3%nat) P ->
  fin2 P = tab (length P) (fun i => fin [nth (Z.to_nat i) (coords 0 P) 0; nth (Z.to_nat i) (coords 1 P) 0; nth (Z.to_nat i) (coords 2 P) 0] : list Exact).
Proof.
  intros HF; rewrite (list_as_tab P []) at 1; unfold fin2; rewrite map_tab; apply tab_ext; intros i Hi.
  rewrite !nth_coords.
  pose proof (proj1 (Forall_forall _ _) HF (nth (Z.to_nat i) P []) ltac:(apply nth_In; lia)) as H3.
  destruct (nth (Z.to_nat i) P []) as [|a [|b [|c [|]]]]; try discriminate; reflexivity.
Qed.

(** Over any numbers: which knots and how many points come out. *)
Lemma tab_new_knot {K : Num} (kv : list K) (x : K) (k : Z) (r : nat) (d : K) :
  (0 <= k)%Z -> (k + 1 <= zlen kv)%Z ->
  tab (length kv + r) (new_knot r k (fun i => nth (Z.to_nat i) kv d) x)
  = firstn (Z.to_nat (k + 1)) kv ++ repeat x r ++ skipn (Z.to_nat (k + 1)) kv.
Proof.
  intros Hk HkL; unfold zlen in HkL.
  set (m := Z.to_nat (k + 1)); assert (Em : Z.of_nat m = (k + 1)%Z) by (unfold m; lia).
  assert (Lf : length (firstn m kv) = m) by (apply firstn_length_le; lia).
  rewrite (list_as_tab (firstn m kv ++ repeat x r ++ skipn m kv) d).
  rewrite !app_length, repeat_length, skipn_length, Lf.
  replace (length kv + r)%nat with (m + (r + (length kv - m)))%nat by lia.
  apply tab_ext; intros i Hi; unfold new_knot.
  destruct (Z.leb_spec i k).
  - rewrite app_nth1 by lia; rewrite <- (firstn_skipn m kv) at 1; rewrite app_nth1 by lia; reflexivity.
  - rewrite app_nth2 by lia; rewrite Lf; destruct (Z.leb_spec i (k + Z.of_nat r)).
    + rewrite app_nth1 by (rewrite repeat_length; lia); rewrite (nth_indep _ d x), nth_repeat by (rewrite repeat_length; lia); reflexivity.
    + rewrite app_nth2 by (rewrite repeat_length; lia); rewrite repeat_length.
      rewrite <- (firstn_skipn m kv) at 1; rewrite app_nth2 by lia; rewrite Lf; f_equal; lia.
Qed.

Lemma insertion_shape (K : Num) (kv : list K) (P : list (list K)) (x : K) (p r k : Z) :
  find_span (zlen P) p x kv = Ok k -> (p <= k < zlen P)%Z -> zlen kv = (zlen P + p + 1)%Z ->
  (0 <= p)%Z -> (0 <= r)%Z -> (find_multiplicity x kv + r <= p)%Z -> Forall (fun row => zlen row = 3%Z) P ->
  exists Q, curve_knot_insertion p kv P x r
      = Ok (firstn (Z.to_nat (k + 1)) kv ++ repeat x (Z.to_nat r) ++ skipn (Z.to_nat (k + 1)) kv, Q) /\
    zlen Q = (zlen P + r)%Z /\ Forall (fun row => zlen row = 3%Z) Q.
Proof.
  intros Hspan Hk HL Hp Hr Hm HF; unfold zlen in *.
  assert (Ek : kv = tab (length P + Z.to_nat p + 1) (fun i => nth (Z.to_nat i) kv x)).
  { replace (length P + Z.to_nat p + 1)%nat with (length kv) by lia; apply list_as_tab. }
  assert (EP : P = tab (length P) (fun i => nth (Z.to_nat i) P [])) by apply list_as_tab.
  assert (HW : forall i, (0 <= i < Z.of_nat (length P))%Z -> zlen (nth (Z.to_nat i) P []) = 3%Z).
  { intros i Hi; apply (proj1 (Forall_forall _ _) HF), nth_In; lia. }
  assert (Hm0 : (0 <= find_multiplicity x kv)%Z).
  { clear; induction kv as [|y t IH]; cbn [find_multiplicity]; [lia|destruct (isclose x y); lia]. }
  pose proof (insertion_tables (length P) (Z.to_nat p) (Z.to_nat r) k (find_multiplicity x kv)
    (fun i => nth (Z.to_nat i) kv x) x (fun i => nth (Z.to_nat i) P []) ltac:(lia) Hm0 ltac:(lia) HW) as H.
  rewrite <- Ek, <- EP in H; rewrite !Z2Nat.id in H by lia.
  specialize (H Hspan eq_refl).
  eexists; split; [rewrite H; do 2 f_equal|split].
  - rewrite <- (tab_new_knot kv x k (Z.to_nat r) x) by (unfold zlen; lia).
    f_equal; lia.
  - rewrite tab_length; lia.
  - apply Forall_tab; intros i Hi; apply (QX_width (length P) _ (Z.to_nat r)); [|exact Hm0|exact HW|]; lia.
Qed.

Lemma perm_insert {A} (l : list A) m w : Permutation (firstn m l ++ w ++ skipn m l) (l ++ w).
Proof.
  rewrite <- (firstn_skipn m l) at 3; rewrite <- app_assoc; apply Permutation_app_head, Permutation_app_comm.
Qed.
Lemma rows_fin2 (P : list (list R)) : Forall (fun row => length row = 3%nat) P ->
  Forall (fun row : list Exact => zlen row = 3%Z) (fin2 P).
Proof.
  intros H; unfold fin2; rewrite Forall_map; eapply Forall_impl; [|exact H].
  intros row E; cbn beta; unfold fin, zlen; rewrite map_length, E; reflexivity.
Qed.
Lemma Tj_list U n p k x r : len U = (Z.of_nat n + Z.of_nat p + 1)%Z -> (Z.of_nat p <= k < Z.of_nat n)%Z ->
  Tj U n p k x r = firstn (Z.to_nat (k + 1)) U ++ repeat x r ++ skipn (Z.to_nat (k + 1)) U.
Proof.
  intros HL Hk; pose proof HL as HL'; unfold len in HL'.
  set (m := Z.to_nat (k + 1)); assert (Em : Z.of_nat m = (k + 1)%Z) by (unfold m; lia).
  assert (Lf : length (firstn m U) = m) by (apply firstn_length_le; lia).
  set (d := last U 0).
  rewrite (list_as_tab (firstn m U ++ repeat x r ++ skipn m U) d).
  rewrite !app_length, repeat_length, skipn_length, Lf; unfold Tj.
  replace (n + p + 1 + r)%nat with (m + (r + (length U - m)))%nat by lia.
  apply tab_ext; intros i Hi; unfold rknot, kn; fold d.
  destruct (Z.leb_spec i k).
  - rewrite app_nth1 by lia; rewrite <- (firstn_skipn m U) at 1; rewrite app_nth1 by lia; reflexivity.
  - rewrite app_nth2 by lia; rewrite Lf; destruct (Z.leb_spec i (k + Z.of_nat r)).
    + rewrite app_nth1 by (rewrite repeat_length; lia).
      rewrite (nth_indep _ d x), nth_repeat by (rewrite repeat_length; lia); reflexivity.
    + rewrite app_nth2 by (rewrite repeat_length; lia); rewrite repeat_length.
      rewrite <- (firstn_skipn m U) at 1; rewrite app_nth2 by lia; rewrite Lf; f_equal; lia.
Qed.

Lemma insertion_knots p r U P x k : knots_for p (len P) U -> Forall (fun row => length row = 3%nat) P ->
  find_span (len P) p (Fin x : Exact) (fin U) = Ok k -> (p <= k < len P)%Z ->
  (0 <= r)%Z -> (find_multiplicity (Fin x : Exact) (fin U) + r <= p)%Z ->
  exists T Q, curve_knot_insertion p (fin U) (fin2 P) (Fin x : Exact) r = Ok (fin T, Q) /\
    zlen Q = (len P + r)%Z /\ Forall (fun row => zlen row = 3%Z) Q /\
    Permutation T (U ++ repeat x (Z.to_nat r)) /\
    (kn U k <= x <= kn U (k + 1) -> nondecreasing T) /\
    (forall i, (i <= p)%Z -> kn T i = kn U i) /\
    (forall i, (len P <= i)%Z -> kn T (i + r) = kn U i).
Proof.
  intros (Hp & Hn & HL & HU) HF Hspan Hk Hr Hm.
  destruct (insertion_shape Exact (fin U) (fin2 P) (Fin x) p r k) as (Q & E & HQ & HQF);
    rewrite ?zlen_fin2, ?zlen_fin; try assumption; [apply rows_fin2; exact HF|].
  set (n := length P) in *; set (q := Z.to_nat p).
  assert (HL' : len U = (Z.of_nat n + Z.of_nat q + 1)%Z) by (unfold len in *; fold n in HL; unfold q; lia).
  assert (Hk' : (Z.of_nat q <= k < Z.of_nat n)%Z) by (unfold len in *; unfold q; lia).
  exists (Tj U n q k x (Z.to_nat r)), Q; split; [|split; [|split; [|split; [|split; [|split]]]]].
  - rewrite E; do 2 f_equal; rewrite Tj_list by assumption.
    unfold fin; rewrite !map_app, firstn_map, skipn_map; do 2 f_equal.
    rewrite !repeat_tab, map_tab; reflexivity.
  - rewrite HQ, zlen_fin2; reflexivity.
  - exact HQF.
  - rewrite Tj_list by assumption; apply perm_insert.
  - intros Hx; apply Tj_nondecreasing; assumption.
  - intros i Hi; rewrite kn_Tj by assumption; unfold rknot; destruct (Z.leb_spec i k); [reflexivity|lia].
  - intros i Hi; rewrite kn_Tj by assumption; unfold rknot.
    destruct (Z.leb_spec (i + r) k); [unfold len in *; lia|].
    destruct (Z.leb_spec (i + r) (k + Z.of_nat (Z.to_nat r))); [unfold len in *; lia|f_equal; lia].
Qed.

Lemma insertion_exact p r U P x k : knots_for p (len P) U -> Forall (fun row => length row = 3%nat) P ->
  find_span (len P) p (Fin x : Exact) (fin U) = Ok k -> (p <= k < len P)%Z ->
  kn U k <= x < kn U (k + 1) ->
  (forall y, In y U -> y <> x -> ~ close (1/100000) (1/100000000) x y) ->
  (0 <= r)%Z -> (Z.of_nat (count_occ Req_EM_T U x) + r <= p)%Z ->
  exists T Q, curve_knot_insertion p (fin U) (fin2 P) (Fin x : Exact) r = Ok (fin T, fin2 Q) /\
    len Q = (len P + r)%Z /\ Forall (fun row => length row = 3%nat) Q /\
    forall c, (c < 3)%nat ->
    (forall u, curve_sum T (Z.to_nat p) (coords c Q) u = curve_sum U (Z.to_nat p) (coords c P) u) /\
    (forall i lo hi, (0 <= i < len Q)%Z ->
      (forall m, (i - r <= m <= i)%Z -> (0 <= m < len P)%Z -> lo <= nth (Z.to_nat m) (coords c P) 0 <= hi) ->
      lo <= nth (Z.to_nat i) (coords c Q) 0 <= hi) /\
    (forall i, (0 <= i <= k - p)%Z -> nth (Z.to_nat i) (coords c Q) 0 = nth (Z.to_nat i) (coords c P) 0) /\
    (forall i, (k - Z.of_nat (count_occ Req_EM_T U x) <= i < len P)%Z ->
       nth (Z.to_nat (i + r)) (coords c Q) 0 = nth (Z.to_nat i) (coords c P) 0).
Proof.
  intros (Hp & Hn & HL & HU) HF Hspan Hk Hx Hc Hr Hm.
  set (s := Z.of_nat (count_occ Req_EM_T U x)) in *.
  set (n := length P) in *; set (q := Z.to_nat p); set (m := Z.to_nat r).
  assert (Eq : Z.of_nat q = p) by (unfold q; lia); assert (Em : Z.of_nat m = r) by (unfold m; lia).
  assert (En : len P = Z.of_nat n) by reflexivity.
  assert (HL' : len U = (Z.of_nat n + Z.of_nat q + 1)%Z) by lia.
  assert (Hk' : (Z.of_nat q <= k < Z.of_nat n)%Z) by lia.
  assert (Hs : forall i, (k - s < i <= k)%Z -> kn U i = x).
  { intros i Hi; apply (count_span U k x); try assumption; lia. }
  set (f := fun c i => nth (Z.to_nat i) (coords c P) 0).
  set (Q := tab (n + m) (fun i => [rctrl U q k s x (f 0%nat) m i; rctrl U q k s x (f 1%nat) m i; rctrl U q k s x (f 2%nat) m i])).
  assert (HQ : forall c i, (c < 3)%nat -> (0 <= i < Z.of_nat (n + m))%Z ->
    nth (Z.to_nat i) (coords c Q) 0 = rctrl U q k s x (f c) m i).
  { intros c i Hc' Hi; rewrite nth_coords; unfold Q; rewrite nth_tab by lia; rewrite Z2Nat.id by lia.
    destruct c as [|[|[|]]]; try lia; reflexivity. }
  assert (LQ : length Q = (n + m)%nat) by apply tab_length.
  exists (Tj U n q k x m), Q; split; [|split; [|split]].
  - pose proof (insertion_tables n q m k s (fun i => Fin (kn U i) : Exact) (Fin x)
      (fun i => fin [f 0%nat i; f 1%nat i; f 2%nat i] : list Exact) Hk' ltac:(lia) ltac:(lia)
      ltac:(intros; reflexivity)) as H.
    rewrite Eq, Em, <- En in H.
    replace (tab (n + q + 1) (fun i => Fin (kn U i) : Exact)) with (fin U : list Exact) in H
      by (rewrite fin_tab; f_equal; unfold len in HL'; lia).
    replace (tab n _) with (fin2 P : list (list Exact)) in H
      by (rewrite list_rows by assumption; reflexivity).
    rewrite H; [|exact Hspan|apply find_multiplicity_exact; exact Hc].
    do 2 f_equal.
    + unfold Tj; rewrite fin_tab_fun; apply tab_ext; intros i Hi; unfold new_knot, rknot.
      destruct (Z.leb_spec i k); [reflexivity|]; destruct (Z.leb_spec i (k + Z.of_nat m)); reflexivity.
    + unfold Q, fin2; rewrite map_tab; apply tab_ext; intros i Hi.
      apply (QX_rctrl U n q k s x); try assumption; lia.
  - unfold len; rewrite LQ; lia.
  - apply Forall_tab; reflexivity.
  - intros c Hc'; split; [|split; [|split]].
    + intros u; unfold curve_sum; fold q.
      replace (length (coords c Q)) with (n + m)%nat by (unfold coords; rewrite map_length, LQ; reflexivity).
      replace (length (coords c P)) with n by (unfold coords; rewrite map_length; reflexivity).
      transitivity (zsum 0 (n + m) (fun i => bspline (Tj U n q k x m) q i u * rctrl U q k s x (f c) m i)).
      * apply zsum_ext; intros i Hi; rewrite HQ by lia; reflexivity.
      * apply (insert_sum U n q k s x HU HL' Hk' Hx ltac:(lia) Hs (f c) m u); lia.
    + intros i lo hi Hi HB; unfold len in Hi; rewrite LQ in Hi; rewrite HQ by lia.
      apply (rctrl_between U n q k s x); try assumption; try lia.
      intros j Hj1 Hj2; apply HB; lia.
    + intros i Hi; rewrite HQ by lia.
      rewrite (rctrl_low U n q k s x); try assumption; try lia; reflexivity.
    + intros i Hi; rewrite HQ by lia; rewrite <- Em.
      rewrite (rctrl_high U n q k s x); try assumption; try lia; reflexivity.
Qed.
