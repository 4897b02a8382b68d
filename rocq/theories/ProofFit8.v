(** Lemmas about the knots and control points of [fit_curve_knot_insertion]. *)
From Coq Require Import Permutation Sorted.
From Verif Require Import Py PyLemmas Num ModelKnots ModelBasis ModelCurve ModelSurface ModelInit ModelParam ModelFit Spec SpecFit SpecParam ProofNum ProofSpan ProofSpan2 ProofKnots ProofInsert2 ProofInsert3 ProofCurve ProofCurve2 ProofInit ProofParam2 ProofFit ProofFit2 ProofFit3 ProofFit4 ProofFit5 ProofFit6 ProofFit7.
Open Scope Z_scope.

(** ** The knots while midpoints are inserted: multiples of 1/(2N) *)
Definition gz (p N j i : Z) : Z :=
  if i <=? p then 0 else if i <=? p + 2 * j then i - p else Z.min (2 * N) (2 * (i - p - j)).
Definition half_knots (p N j : Z) : list R :=
  tab (Z.to_nat (N + j + 2 * p + 1)) (fun i => (IZR (gz p N j i) / IZR (2 * N))%R).

Section Half.
Variables (p N : Z).
Hypotheses (Hp : 1 <= p) (HN : 1 <= N).

Lemma gz_le j i i' : 0 <= j <= N -> i <= i' -> gz p N j i <= gz p N j i'.
Proof. intros Hj Hi; unfold gz; destruct (Z.leb_spec i p), (Z.leb_spec i' p), (Z.leb_spec i (p + 2 * j)), (Z.leb_spec i' (p + 2 * j)); lia. Qed.
Lemma gz_range j i : 0 <= j <= N -> 0 <= gz p N j i <= 2 * N.
Proof. intros Hj; unfold gz; destruct (Z.leb_spec i p), (Z.leb_spec i (p + 2 * j)); lia. Qed.
Lemma gz_new j i : 0 <= j < N -> gz p N j i <> 2 * j + 1.
Proof. intros Hj; unfold gz; destruct (Z.leb_spec i p), (Z.leb_spec i (p + 2 * j)); lia. Qed.
Lemma IZR2N : (0 < IZR (2 * N))%R.
Proof. apply IZR_lt; lia. Qed.
Lemma frac_le a b : a <= b -> (IZR a / IZR (2 * N) <= IZR b / IZR (2 * N))%R.
Proof. intros H; unfold Rdiv; apply Rmult_le_compat_r; [left; apply Rinv_0_lt_compat, IZR2N|apply IZR_le; exact H]. Qed.
Lemma frac_lt a b : a < b -> (IZR a / IZR (2 * N) < IZR b / IZR (2 * N))%R.
Proof. intros H; unfold Rdiv; apply Rmult_lt_compat_r; [apply Rinv_0_lt_compat, IZR2N|apply IZR_lt; exact H]. Qed.
Lemma frac_0 : (IZR 0 / IZR (2 * N) = 0)%R.
Proof. unfold Rdiv; apply Rmult_0_l. Qed.
Lemma frac_1 : (IZR (2 * N) / IZR (2 * N) = 1)%R.
Proof. pose proof IZR2N; field; lra. Qed.

Lemma half_len j : 0 <= j -> len (half_knots p N j) = N + j + 2 * p + 1.
Proof. intros; unfold half_knots, len; rewrite tab_length; lia. Qed.
Lemma half_kn j i : 0 <= j -> 0 <= i <= N + j + 2 * p -> kn (half_knots p N j) i = (IZR (gz p N j i) / IZR (2 * N))%R.
Proof. intros; unfold half_knots; rewrite kn_tab by lia; reflexivity. Qed.
Lemma half_clamped j : 0 <= j <= N -> clamped p (N + p + j) (half_knots p N j).
Proof.
  intros Hj; split; [split; [lia|split; [lia|split; [rewrite half_len; lia|]]]|].
  - intros i i' Hi Hi'; rewrite half_len in Hi' by lia; rewrite !half_kn by lia; apply frac_le, gz_le; lia.
  - rewrite !half_kn by lia; repeat split.
    + f_equal; f_equal; unfold gz; destruct (Z.leb_spec 0 p), (Z.leb_spec p p); lia.
    + f_equal; f_equal; unfold gz.
      destruct (Z.leb_spec (N + p + j) p), (Z.leb_spec (N + p + j + p) p), (Z.leb_spec (N + p + j) (p + 2 * j)), (Z.leb_spec (N + p + j + p) (p + 2 * j)); lia.
    + apply frac_lt; unfold gz; destruct (Z.leb_spec p p); [|lia].
      destruct (Z.leb_spec (N + p + j) p), (Z.leb_spec (N + p + j) (p + 2 * j)); lia.
Qed.
Lemma half_kn_start j : 0 <= j <= N -> kn (half_knots p N j) p = 0%R.
Proof. intros; rewrite half_kn by lia; unfold gz; rewrite (proj2 (Z.leb_le p p)) by lia; apply frac_0. Qed.
Lemma half_kn_end j : 0 <= j <= N -> kn (half_knots p N j) (N + p + j) = 1%R.
Proof.
  intros; rewrite half_kn by lia; replace (gz p N j (N + p + j)) with (2 * N); [apply frac_1|].
  unfold gz; destruct (Z.leb_spec (N + p + j) p), (Z.leb_spec (N + p + j) (p + 2 * j)); lia.
Qed.
Lemma uniform_eq n : p + 1 <= n -> uniform p n = tab (Z.to_nat (n + p + 1)) (fun i => if i <=? p then 0%R else if n <=? i then 1%R else (IZR (i - p) / IZR (n - p))%R).
Proof. intros; unfold uniform; apply tab_ext; intros i Hi; rewrite !minus_IZR; reflexivity. Qed.
Lemma half_start : half_knots p N 0 = uniform p (p + N).
Proof.
  rewrite uniform_eq by lia; unfold half_knots; replace (Z.to_nat (N + 0 + 2 * p + 1)) with (Z.to_nat (p + N + p + 1)) by lia.
  apply tab_ext; intros i Hi; unfold gz; pose proof IZR2N as H2; rewrite mult_IZR in H2.
  destruct (Z.leb_spec i p); [apply frac_0|]; destruct (Z.leb_spec i (p + 2 * 0)); [lia|]; destruct (Z.leb_spec (p + N) i).
  - rewrite Z.min_l by lia; apply frac_1.
  - rewrite Z.min_r by lia; replace (i - p - 0) with (i - p) by lia; replace (p + N - p) with N by lia; rewrite !mult_IZR; field; lra.
Qed.
Lemma half_end : half_knots p N N = uniform p (p + 2 * N).
Proof.
  rewrite uniform_eq by lia; unfold half_knots; replace (Z.to_nat (N + N + 2 * p + 1)) with (Z.to_nat (p + 2 * N + p + 1)) by lia.
  apply tab_ext; intros i Hi; unfold gz; replace (p + 2 * N - p) with (2 * N) by lia.
  destruct (Z.leb_spec i p); [apply frac_0|]; destruct (Z.leb_spec i (p + 2 * N)); destruct (Z.leb_spec (p + 2 * N) i); try lia.
  - replace (i - p) with (2 * N) by lia; apply frac_1.
  - reflexivity.
  - rewrite Z.min_l by lia; apply frac_1.
Qed.
Definition mid (j : Z) : R := (IZR (2 * j + 1) / IZR (2 * N))%R.
Lemma mid_range j : 0 <= j < N -> (0 <= mid j <= 1)%R.
Proof. intros Hj; unfold mid; rewrite <- frac_0, <- frac_1; split; apply frac_le; lia. Qed.
Lemma mid_not_close j y : 0 <= j < N -> N <= 49900 -> In y (half_knots p N j) -> ~ close (1/100000) (1/100000000) (mid j) y.
Proof.
  intros Hj HN' Hy HC; unfold half_knots, tab in Hy; apply in_map_iff in Hy; destruct Hy as (i & <- & _).
  set (m := gz p N j (Z.of_nat i)) in *.
  assert (Hm : m <> 2 * j + 1) by (apply gz_new; lia).
  assert (Hr : 0 <= m <= 2 * N) by (apply gz_range; lia).
  assert (HB : (0 <= IZR m / IZR (2 * N) <= 1)%R) by (rewrite <- frac_0, <- frac_1 at 1; split; apply frac_le; lia).
  unfold close in HC; rewrite (Rabs_right (IZR m / _)) in HC by lra.
  assert (HD : (1 / 99800 <= Rabs (mid j - IZR m / IZR (2 * N)))%R).
  { pose proof IZR2N as H2.
    assert (E1 : (/ 99800 <= / IZR (2 * N))%R) by (apply Rinv_le_contravar; [exact H2|apply IZR_le; lia]).
    unfold mid; replace (IZR (2 * j + 1) / IZR (2 * N) - IZR m / IZR (2 * N))%R with (IZR (2 * j + 1 - m) * / IZR (2 * N))%R
      by (rewrite minus_IZR; unfold Rdiv; ring).
    rewrite Rabs_mult, (Rabs_right (/ _)) by lra; rewrite <- abs_IZR.
    assert (1 <= IZR (Z.abs (2 * j + 1 - m)))%R by (apply IZR_le; lia).
    nra. }
  lra.
Qed.
Lemma half_next j : 0 <= j < N ->
  firstn (Z.to_nat (p + 2 * j + 1)) (half_knots p N j) ++ [mid j] ++ skipn (Z.to_nat (p + 2 * j + 1)) (half_knots p N j)
  = half_knots p N (j + 1).
Proof.
  intros Hj; set (a := Z.to_nat (p + 2 * j + 1)); set (b := Z.to_nat (N - j + p)).
  unfold half_knots at 1 2; replace (Z.to_nat (N + j + 2 * p + 1)) with (a + b)%nat by (unfold a, b; lia).
  rewrite tab_app.
  assert (EA : forall X Y : list R, firstn (length X) (X ++ Y) = X) by (intros; rewrite firstn_app, Nat.sub_diag, firstn_all; apply app_nil_r).
  assert (ES : forall X Y : list R, skipn (length X) (X ++ Y) = Y) by (intros; rewrite skipn_app, Nat.sub_diag, skipn_all; reflexivity).
  match goal with |- firstn a (?X ++ ?Y) ++ _ = _ => assert (LX : length X = a) by apply tab_length; pose proof (EA X Y) as E1; pose proof (ES X Y) as E2 end.
  rewrite LX in E1, E2; rewrite E1, E2.
  unfold half_knots; replace (Z.to_nat (N + (j + 1) + 2 * p + 1)) with (a + (1 + b))%nat by (unfold a, b; lia).
  rewrite tab_app, tab_app; f_equal; [|f_equal].
  - apply tab_ext; intros i Hi; f_equal; f_equal; unfold gz; destruct (Z.leb_spec i p); [reflexivity|].
    destruct (Z.leb_spec i (p + 2 * j)), (Z.leb_spec i (p + 2 * (j + 1))); try lia; unfold a in Hi; lia.
  - cbn; unfold mid; f_equal; f_equal; f_equal; unfold gz, a.
    replace (Z.of_nat (Z.to_nat (p + 2 * j + 1)) + 0) with (p + 2 * j + 1) by lia.
    destruct (Z.leb_spec (p + 2 * j + 1) p); [lia|]; destruct (Z.leb_spec (p + 2 * j + 1) (p + 2 * (j + 1))); lia.
  - apply tab_ext; intros i Hi; f_equal; f_equal; unfold gz, a.
    destruct (Z.leb_spec (Z.of_nat (Z.to_nat (p + 2 * j + 1)) + i) p); [lia|].
    destruct (Z.leb_spec (Z.of_nat (Z.to_nat (p + 2 * j + 1)) + (Z.of_nat 1 + i)) p); [lia|].
    destruct (Z.leb_spec (Z.of_nat (Z.to_nat (p + 2 * j + 1)) + i) (p + 2 * j)); [lia|].
    destruct (Z.leb_spec (Z.of_nat (Z.to_nat (p + 2 * j + 1)) + (Z.of_nat 1 + i)) (p + 2 * (j + 1))); lia.
Qed.

(** ** One insertion *)
Lemma insert_mid j P d : 0 <= j < N -> N <= 49900 -> len P = N + p + j -> Forall (fun r => length r = 3%nat) P ->
  exists Q, insert_knot_working (curve_of p (half_knots p N j) P d) (Fin (mid j) : Exact) = Ok (curve_of p (half_knots p N (j + 1)) Q d) /\
    len Q = N + p + (j + 1) /\ Forall (fun r => length r = 3%nat) Q /\ nth 0 Q [] = nth 0 P [] /\ last Q [] = last P [] /\
    forall c u, (c < 3)%nat -> curve_sum (half_knots p N (j + 1)) (Z.to_nat p) (coords c Q) u = curve_sum (half_knots p N j) (Z.to_nat p) (coords c P) u.
Proof.
  intros Hj HN' HP H3.
  assert (HC : clamped p (len P) (half_knots p N j)) by (rewrite HP; apply half_clamped; lia).
  destruct (span_new_knot p (len P) (half_knots p N j) (mid j) (proj1 HC)) as (k & Ek & Hk & Hx).
  - rewrite HP, half_kn_start, half_kn_end by lia; apply mid_range; lia.
  - intros y Hy; apply mid_not_close; assumption.
  - assert (Ekk : k = p + 2 * j).
    { rewrite !half_kn in Hx by lia; unfold mid in Hx; destruct Hx as [H1 H2]; pose proof IZR2N as HI.
      assert (I1 : gz p N j k <= 2 * j + 1).
      { destruct (Z.le_gt_cases (gz p N j k) (2 * j + 1)) as [|L]; [assumption|]; apply frac_lt in L; lra. }
      assert (I2 : 2 * j + 1 < gz p N j (k + 1)).
      { destruct (Z.lt_ge_cases (2 * j + 1) (gz p N j (k + 1))) as [|L]; [assumption|]; apply frac_le in L; lra. }
      unfold gz in I1, I2; destruct (Z.leb_spec k p), (Z.leb_spec (k + 1) p), (Z.leb_spec k (p + 2 * j)), (Z.leb_spec (k + 1) (p + 2 * j)); lia. }
    subst k.
    assert (C0 : count_occ Req_EM_T (half_knots p N j) (mid j) = O).
    { apply count_occ_not_In; intros HI; apply (mid_not_close j (mid j) Hj HN' HI), close_refl; lra. }
    destruct (insertion_exact p 1 (half_knots p N j) P (mid j) (p + 2 * j) (proj1 HC) H3 Ek Hk Hx) as (T & Q & E & LQ & F3 & HQ).
    { intros y Hy _; apply mid_not_close; assumption. }
    { lia. } { rewrite C0; lia. }
    destruct (insertion_shape Exact (fin (half_knots p N j)) (fin2 P) (Fin (mid j)) p 1 (p + 2 * j)) as (Q' & E' & _).
    { rewrite zlen_fin2; exact Ek. } { rewrite zlen_fin2; exact Hk. }
    { rewrite zlen_fin, zlen_fin2, half_len by lia; lia. } { lia. } { lia. }
    { rewrite find_multiplicity_exact, C0; [lia|]; intros y Hy _; apply mid_not_close; assumption. }
    { apply rows_fin2; exact H3. }
    rewrite E in E'; injection E' as ET _.
    assert (T = half_knots p N (j + 1)) as ->.
    { rewrite <- half_next by exact Hj; change (Z.to_nat 1) with 1%nat in ET; cbn [repeat] in ET.
      unfold fin in ET; rewrite firstn_map, skipn_map in ET.
      assert (ET' : map (Fin : R -> Exact) T = map (Fin : R -> Exact) (firstn (Z.to_nat (p + 2 * j + 1)) (half_knots p N j) ++ [mid j] ++ skipn (Z.to_nat (p + 2 * j + 1)) (half_knots p N j))).
      { rewrite !map_app; exact ET. }
      revert ET'; generalize (firstn (Z.to_nat (p + 2 * j + 1)) (half_knots p N j) ++ [mid j] ++ skipn (Z.to_nat (p + 2 * j + 1)) (half_knots p N j)).
      clear; intros l; revert T; induction l as [|x l IH]; intros [|y T] H; try discriminate; [reflexivity|].
      cbn in H; injection H as -> H; f_equal; apply IH; exact H. }
    exists Q; split; [|split; [lia|split; [exact F3|]]].
    + unfold insert_knot_working; rewrite (proj2 (validate_fin (mid j)) (mid_range j Hj)); cbn [negb].
      cbn [curve_fields curve_of c_ctrl c_kv c_degree bind]; rewrite E; cbn [bind fst snd store_ctrl c_degree c_ctrl c_kv c_dim].
      unfold set_knot_vector, curve_of; cbn [c_degree c_ctrl c_kv c_dim]; rewrite zlen_fin2.
      rewrite check_clamped; [reflexivity|]; rewrite LQ, HP; replace (N + p + j + 1) with (N + p + (j + 1)) by lia; apply half_clamped; lia.
    + assert (LP : (1 <= length P)%nat) by (unfold len in HP; lia).
      assert (HRow : forall i i', (i < length Q)%nat -> (i' < length P)%nat ->
        (forall c, (c < 3)%nat -> nth i (coords c Q) 0%R = nth i' (coords c P) 0%R) -> nth i Q [] = nth i' P []).
      { intros i i' Hi Hi' H; apply row3_ext.
        - apply (proj1 (Forall_forall _ _) F3), nth_In; exact Hi.
        - apply (proj1 (Forall_forall _ _) H3), nth_In; exact Hi'.
        - intros c Hc; specialize (H c Hc); rewrite !nth_coords in H; exact H. }
      unfold len in *; split; [|split].
      * apply HRow; [lia|lia|]; intros c Hc; apply (proj1 (proj2 (proj2 (HQ c Hc))) 0%Z); lia.
      * assert (LN : forall l : list (list R), last l [] = nth (length l - 1) l []).
        { clear; intros l; induction l as [|x l IH]; [reflexivity|]; destruct l as [|y l]; [reflexivity|]; change (last (x :: y :: l) []) with (last (y :: l) []); rewrite IH; cbn [length]; rewrite !Nat.sub_succ, !Nat.sub_0_r; reflexivity. }
        rewrite !LN; apply HRow; [lia|lia|]; intros c Hc.
        pose proof (proj2 (proj2 (proj2 (HQ c Hc))) (Z.of_nat (length P) - 1)) as H; rewrite C0 in H.
        replace (Z.to_nat (Z.of_nat (length P) - 1 + 1)) with (length Q - 1)%nat in H by lia.
        replace (Z.to_nat (Z.of_nat (length P) - 1)) with (length P - 1)%nat in H by lia.
        apply H; lia.
      * intros c u Hc; apply HQ; exact Hc.
Qed.

(** ** The midpoints, and inserting all of them *)
Lemma span_midpoints_uniform : span_midpoints p (fin (uniform p (p + N)) : list Exact) = Ok (tab (Z.to_nat N) (fun j => Fin (mid j) : Exact)).
Proof.
  assert (LU : len (uniform p (p + N)) = p + N + p + 1) by (unfold uniform, len; rewrite tab_length; lia).
  unfold span_midpoints; cbv zeta; rewrite zlen_fin, LU; replace (p + N + p + 1 - p - 1) with (p + N) by lia.
  rewrite (np_full_tab' _ (Z.to_nat N)) by lia; cbn [bind].
  rewrite (for_range_fun (fun k => tab (Z.to_nat N) (fun j => if j <? k - p then (Fin (mid j) : Exact) else (0 : Exact)%num)) p (p + N)); [| lia | |].
  - f_equal; apply tab_ext; intros j Hj; destruct (Z.ltb_spec j (p + N - p)); [reflexivity|lia].
  - apply tab_ext; intros j Hj; destruct (Z.ltb_spec j (p - p)); [lia|reflexivity].
  - intros k Hk; rewrite !ProofSpan.aget_fin by lia; cbn [bind]; rewrite aset_tab by lia; f_equal; apply tab_ext; intros j Hj; unfold fupd.
    destruct (Z.eqb_spec j (k - p)) as [->|Hne].
    + destruct (Z.ltb_spec (k - p) (k + 1 - p)); [|lia].
      rewrite <- half_start, !half_kn by lia; pose proof IZR2N as H2; rewrite mult_IZR in H2.
      rewrite E_sub, !E_ofZ, E_div by lra; rewrite E_add; f_equal; unfold mid.
      assert (G0 : gz p N 0 k = 2 * (k - p)) by (unfold gz; destruct (Z.leb_spec k p), (Z.leb_spec k (p + 2 * 0)); lia).
      assert (G1 : gz p N 0 (k + 1) = 2 * (k - p) + 2) by (unfold gz; destruct (Z.leb_spec (k + 1) p), (Z.leb_spec (k + 1) (p + 2 * 0)); lia).
      rewrite G0, G1, !plus_IZR, !mult_IZR; field; lra.
    + destruct (Z.ltb_spec j (k - p)), (Z.ltb_spec j (k + 1 - p)); try lia; reflexivity.
Qed.
Lemma insert_all P d : N <= 49900 -> len P = p + N -> Forall (fun r => length r = 3%nat) P ->
  exists Q, for_range 0 N (fun i t => let* u := aget (tab (Z.to_nat N) (fun j => Fin (mid j) : Exact)) i in insert_knot_working t u)
      (curve_of p (uniform p (p + N)) P d) = Ok (curve_of p (uniform p (p + 2 * N)) Q d) /\
    len Q = p + 2 * N /\ Forall (fun r => length r = 3%nat) Q /\ nth 0 Q [] = nth 0 P [] /\ last Q [] = last P [] /\
    forall c u, (c < 3)%nat -> curve_sum (uniform p (p + 2 * N)) (Z.to_nat p) (coords c Q) u = curve_sum (uniform p (p + N)) (Z.to_nat p) (coords c P) u.
Proof.
  intros HN' HP H3.
  destruct (for_range_inv (fun j t => exists Q, t = curve_of p (half_knots p N j) Q d /\ len Q = N + p + j /\ Forall (fun r => length r = 3%nat) Q /\
      nth 0 Q [] = nth 0 P [] /\ last Q [] = last P [] /\
      forall c u, (c < 3)%nat -> curve_sum (half_knots p N j) (Z.to_nat p) (coords c Q) u = curve_sum (uniform p (p + N)) (Z.to_nat p) (coords c P) u)
    0 N (fun i t => let* u := aget (tab (Z.to_nat N) (fun j => Fin (mid j) : Exact)) i in insert_knot_working t u)
    (curve_of p (uniform p (p + N)) P d)) as (t & E & Q & -> & L & F & A & B & C).
  - lia.
  - exists P; rewrite half_start; repeat split; auto; lia.
  - intros j t Hj (Q & -> & L & F & A & B & C); rewrite aget_tab by lia; cbn [bind].
    destruct (insert_mid j Q d Hj HN' L F) as (Q' & E' & L' & F' & A' & B' & C').
    eexists; split; [exact E'|]; exists Q'; split; [reflexivity|]; split; [lia|]; split; [exact F'|]; split; [congruence|]; split; [congruence|].
    intros c u Hc; rewrite C', C by exact Hc; reflexivity.
  - exists Q; rewrite half_end in E, C; repeat split; auto; lia.
Qed.
Lemma uniform_tight : tight p (p + N) (uniform p (p + N)).
Proof.
  split; [apply uniform_clamped; lia|]; rewrite <- half_start, !half_kn by lia; split; apply frac_lt; unfold gz.
  - destruct (Z.leb_spec p p), (Z.leb_spec (p + 1) p), (Z.leb_spec (p + 1) (p + 2 * 0)); lia.
  - destruct (Z.leb_spec (p + N - 1) p), (Z.leb_spec (p + N) p), (Z.leb_spec (p + N - 1) (p + 2 * 0)), (Z.leb_spec (p + N) (p + 2 * 0)); lia.
Qed.
Lemma uniform_ends : kn (uniform p (p + N)) p = 0%R /\ kn (uniform p (p + N)) (p + N) = 1%R.
Proof. rewrite <- half_start; split; [apply half_kn_start; lia|replace (p + N) with (N + p + 0) by lia; apply half_kn_end; lia]. Qed.
End Half.

Lemma derivatives3_unit (c : curve_obj Exact) u o m : derivatives3 c u o = Ok m -> unit_fin u.
Proof. unfold derivatives3; destruct (validate_knot u) eqn:E; [|discriminate]; intros _; apply validate_unit; exact E. Qed.
(** The parameterised data, as finite rows with parameters in [0,1]. *)
Lemma curve_rows_sorted (c : curve_obj Exact) rows out : Forall (fun r => length r = 3%nat) rows ->
  parameterize_curve (beh_of_curve3 c) (mkData 3 (fin2 rows)) = Ok out ->
  exists pts, out = fin2 pts /\ length pts = length rows /\ Forall (fun r => length r = 4%nat /\ (0 <= nth 3 r 0 <= 1)%R) pts.
Proof.
  intros HR E; destruct (parameterize_curve_sorted (beh_of_curve3 c) rows out HR) as (us & pts & HI & -> & HPm & _); [|exact E|].
  - intros u m; apply derivatives3_unit.
  - exists pts; split; [reflexivity|]; split.
    + assert (LL : length rows = length us) by (clear -HI; induction HI; cbn; congruence).
      rewrite (Permutation_length HPm), map_length, combine_length, LL; apply Nat.min_id.
    + apply Forall_forall; intros r Hr; apply (Permutation_in _ HPm) in Hr; apply in_map_iff in Hr; destruct Hr as ([a b] & <- & Hab).
      cbn [fst snd].
      pose proof (proj1 (Forall_forall _ _) HR a (in_combine_l _ _ _ _ Hab)) as La; cbn beta in La.
      assert (HB : (0 <= b <= 1)%R).
      { clear -HI Hab; induction HI as [|r u rows us (_ & H) HI IH]; [contradiction|]; destruct Hab as [H'|H']; [injection H' as _ <-; exact H|auto]. }
      destruct a as [|a0 [|a1 [|a2 [|]]]]; try discriminate; split; [reflexivity|exact HB].
Qed.

(** ** The loop *)
(** One round's fit. *)
Lemma round_fit sv p N P pts : least_squares sv -> (1 <= p)%nat -> 1 <= N -> len P = Z.of_nat p + N ->
  Forall (fun r => length r = 3%nat) P -> Forall (fun r => length r = 4%nat /\ (0 <= nth 3 r 0 <= 1)%R) pts ->
  exists P', single_fit_curve store_ctrl sv (curve_of (Z.of_nat p) (uniform (Z.of_nat p) (Z.of_nat p + N)) P 0) (fin2 pts)
      = Ok (curve_of (Z.of_nat p) (uniform (Z.of_nat p) (Z.of_nat p + N)) P' 0) /\
    length P' = length P /\ Forall (fun r => length r = 3%nat) P' /\ nth 0 P' [] = nth 0 P [] /\ last P' [] = last P [] /\
    forall W, length W = length P -> nth 0 W [] = nth 0 P [] -> last W [] = last P [] ->
      (curve_err (uniform (Z.of_nat p) (Z.of_nat p + N)) p P' pts <= curve_err (uniform (Z.of_nat p) (Z.of_nat p + N)) p W pts)%R.
Proof.
  intros HS Hp HN HP H3 HF.
  destruct (uniform_ends (Z.of_nat p) N ltac:(lia) HN) as [U0 U1].
  destruct (single_fit_curve_exact sv (curve_of (Z.of_nat p) (uniform (Z.of_nat p) (Z.of_nat p + N)) P 0) p (uniform (Z.of_nat p) (Z.of_nat p + N)) P pts) as (P' & E & H);
    try reflexivity; try assumption.
  - rewrite HP; apply uniform_tight; lia.
  - rewrite HP, U0, U1; exact HF.
  - exists P'; split; [exact E|exact H].
Qed.
Lemma insertion_loop_exact sv data p num : least_squares sv -> (1 <= p)%nat -> num <= Z.of_nat p + 65536 ->
  Forall (fun r => length r = 3%nat) data ->
  forall fuel k P c, len P = Z.of_nat p + 2 ^ Z.of_nat k -> Forall (fun r => length r = 3%nat) P ->
  (k = 0%nat \/ Z.of_nat p + 2 ^ Z.of_nat (k - 1) < num) ->
  insertion_loop fuel working_class sv (mkData 3 (fin2 data)) num (curve_of (Z.of_nat p) (uniform (Z.of_nat p) (len P)) P 0) = Ok c ->
  exists k' P0 P' pts, c = curve_of (Z.of_nat p) (uniform (Z.of_nat p) (len P')) P' 0 /\
    len P' = Z.of_nat p + 2 ^ Z.of_nat k' /\ Forall (fun r => length r = 3%nat) P' /\
    num <= len P' /\ (k' = 0%nat \/ Z.of_nat p + 2 ^ Z.of_nat (k' - 1) < num) /\
    nth 0 P' [] = nth 0 P [] /\ last P' [] = last P [] /\
    parameterize_curve (beh_of_curve3 (curve_of (Z.of_nat p) (uniform (Z.of_nat p) (len P')) P0 0)) (mkData 3 (fin2 data)) = Ok (fin2 pts) /\
    forall W, length W = length P' -> nth 0 W [] = nth 0 P [] -> last W [] = last P [] ->
      (curve_err (uniform (Z.of_nat p) (len P')) p P' pts <= curve_err (uniform (Z.of_nat p) (len P')) p W pts)%R.
Proof.
  intros HS Hp Hnum HD; induction fuel as [|fuel IH]; intros k P c HP H3 Hk H; [discriminate|].
  cbn [insertion_loop] in H; bind_inv H; rename a into out, E into EP.
  change (cl_beh working_class) with (@beh_of_curve3 Exact) in EP; change (cl_set_ctrl working_class) with (@store_ctrl Exact) in H.
  change (cl_insert working_class) with (@insert_knot_working Exact) in H.
  destruct (curve_rows_sorted _ _ _ HD EP) as (pts & -> & _ & HF).
  assert (HN : 1 <= 2 ^ Z.of_nat k) by (pose proof (Z.pow_pos_nonneg 2 (Z.of_nat k)); lia).
  destruct (round_fit sv p (2 ^ Z.of_nat k) P pts HS Hp HN HP H3 HF) as (P' & EF & LP & F3 & N0 & N1 & HO).
  rewrite <- HP in EF, HO; rewrite EF in H; cbn [bind] in H.
  assert (LP' : len P' = len P) by (unfold len; congruence).
  cbn [curve_of c_ctrl] in H; rewrite zlen_fin2 in H.
  destruct (Z.leb_spec num (len P')) as [HL|HL].
  - injection H as <-; exists k, P, P', pts; rewrite LP'.
    split; [reflexivity|]; split; [exact HP|]; split; [exact F3|]; split; [lia|]; split; [exact Hk|]; split; [exact N0|]; split; [exact N1|].
    split; [exact EP|]; intros W LW; rewrite LP in LW; apply HO; exact LW.
  - unfold curve_fields in H; cbn [curve_of c_ctrl c_kv c_degree bind] in H.
    rewrite HP, span_midpoints_uniform in H by lia; cbn [bind] in H; rewrite zlen_tab, Z2Nat.id in H by lia.
    assert (HB : 2 ^ Z.of_nat k <= 49900).
    { assert (Hk16 : (k < 16)%nat).
      { destruct (Nat.lt_ge_cases k 16) as [|G]; [assumption|]; exfalso.
        pose proof (Z.pow_le_mono_r 2 16 (Z.of_nat k) ltac:(lia) ltac:(lia)) as HX; change (2 ^ 16) with 65536 in HX; lia. }
      pose proof (Z.pow_le_mono_r 2 (Z.of_nat k) 15 ltac:(lia) ltac:(lia)) as HX; change (2 ^ 15) with 32768 in HX; lia. }
    destruct (insert_all (Z.of_nat p) (2 ^ Z.of_nat k) ltac:(lia) HN P' 0 HB ltac:(lia) F3) as (Q & EQ & LQ & FQ & Q0 & Q1 & _).
    change (@mkCurve Exact (Some (Z.of_nat p)) (Some (fin2 P')) (Some (fin (uniform (Z.of_nat p) (Z.of_nat p + 2 ^ Z.of_nat k)))) 0)
      with (curve_of (Z.of_nat p) (uniform (Z.of_nat p) (Z.of_nat p + 2 ^ Z.of_nat k)) P' 0) in H.
    rewrite EQ in H; cbn [bind] in H; rewrite <- LQ in H.
    assert (EK : 2 * 2 ^ Z.of_nat k = 2 ^ Z.of_nat (S k)) by (rewrite Nat2Z.inj_succ, Z.pow_succ_r by lia; reflexivity).
    destruct (IH (S k) Q c) as (k' & P0 & P'' & pts' & -> & R1 & R2 & R3 & R4 & R5 & R6 & R7 & R8); try assumption.
    + lia.
    + right; replace (S k - 1)%nat with k by lia; lia.
    + exists k', P0, P'', pts'; split; [reflexivity|]; split; [exact R1|]; split; [exact R2|]; split; [exact R3|]; split; [exact R4|].
      split; [congruence|]; split; [congruence|]; split; [exact R7|].
      intros W LW W0 W1; apply R8; congruence.
Qed.
Lemma repeat_uniform p : (1 <= p)%nat -> repeat 0%R (S p) ++ repeat 1%R (S p) = uniform (Z.of_nat p) (Z.of_nat p + 1).
Proof.
  intros Hp; unfold uniform; replace (Z.to_nat (Z.of_nat p + 1 + Z.of_nat p + 1)) with (S p + S p)%nat by lia.
  rewrite tab_app, !repeat_tab; f_equal; apply tab_ext; intros i Hi.
  - destruct (Z.leb_spec i (Z.of_nat p)); [reflexivity|lia].
  - destruct (Z.leb_spec (Z.of_nat (S p) + i) (Z.of_nat p)); [lia|]; destruct (Z.leb_spec (Z.of_nat p + 1) (Z.of_nat (S p) + i)); [reflexivity|lia].
Qed.
Lemma adaptive_fit sv p num data c P c' : least_squares sv -> (1 <= p)%nat -> num <= Z.of_nat p + 65536 ->
  Forall (fun r => length r = 3%nat) data -> Forall (fun r => length r = 3%nat) P -> length P = S p ->
  c_degree c = Some (Z.of_nat p) -> c_ctrl c = Some (fin2 P) -> c_kv c = Some (fin (repeat 0%R (S p) ++ repeat 1%R (S p))) ->
  fit_curve_knot_insertion working_class sv c (mkData 3 (fin2 data)) num = Ok c' ->
  exists k Q U P0 pts,
    c' = mkCurve (K := Exact) (Some (Z.of_nat p)) (Some (fin2 Q)) (Some (fin U)) 0 /\
    len Q = Z.of_nat p + 2 ^ Z.of_nat k /\ num <= len Q /\ (k = 0%nat \/ Z.of_nat p + 2 ^ Z.of_nat (k - 1) < num) /\
    nth 0 Q [] = nth 0 P [] /\ last Q [] = last P [] /\ Forall (fun r => length r = 3%nat) Q /\
    len U = len Q + Z.of_nat p + 1 /\
    (forall i, 0 <= i < len U ->
       kn U i = if i <=? Z.of_nat p then 0%R else if len Q <=? i then 1%R else (IZR (i - Z.of_nat p) / IZR (2 ^ Z.of_nat k))%R) /\
    parameterize_curve (beh_of_curve3 (mkCurve (K := Exact) (Some (Z.of_nat p)) (Some (fin2 P0)) (Some (fin U)) 0)) (mkData 3 (fin2 data)) = Ok (fin2 pts) /\
    forall W, length W = length Q -> nth 0 W [] = nth 0 P [] -> last W [] = last P [] ->
      (curve_err U p Q pts <= curve_err U p W pts)%R.
Proof.
  intros HS Hp Hnum HD H3 HP Hd Hc Hk H.
  unfold fit_curve_knot_insertion, fit_curve_knot_insertion_fuel in H.
  rewrite (repeat_uniform p Hp) in Hk.
  assert (EC : copy_curve working_class c = Ok (curve_of (Z.of_nat p) (uniform (Z.of_nat p) (len P)) P 0)).
  { assert (LP : len P = Z.of_nat p + 1) by (unfold len; lia).
    unfold copy_curve; rewrite Hd, Hc, Hk; unfold set_degree; destruct (Z.ltb_spec (Z.of_nat p) 1); [lia|]; cbn [bind].
    change (cl_set_ctrl working_class) with (@store_ctrl Exact); unfold store_ctrl; cbn [bind].
    unfold set_knot_vector; cbn [c_degree c_ctrl c_kv c_dim]; rewrite zlen_fin2, LP, check_clamped; [reflexivity|apply uniform_clamped; lia]. }
  rewrite EC in H; cbn [bind] in H.
  edestruct (insertion_loop_exact sv data p num HS Hp Hnum HD) with (k := 0%nat) (P := P) (c := c') (4 := H) as (k & P0 & Q & pts & -> & R1 & R2 & R3 & R4 & R5 & R6 & R7 & R8).
  - unfold len; rewrite HP; cbn; lia.
  - exact H3.
  - left; reflexivity.
  - exists k, Q, (uniform (Z.of_nat p) (len Q)), P0, pts; split; [reflexivity|]; split; [exact R1|]; split; [exact R3|]; split; [exact R4|].
    split; [exact R5|]; split; [exact R6|]; split; [exact R2|].
    assert (0 < 2 ^ Z.of_nat k) by (apply Z.pow_pos_nonneg; lia).
    assert (LU : len (uniform (Z.of_nat p) (len Q)) = len Q + Z.of_nat p + 1) by (unfold uniform, len; rewrite tab_length; lia).
    split; [exact LU|]; split; [|split; [exact R7|exact R8]].
    intros i Hi; rewrite LU in Hi; rewrite uniform_eq, kn_tab by lia; replace (len Q - Z.of_nat p) with (2 ^ Z.of_nat k) by lia; reflexivity.
Qed.
