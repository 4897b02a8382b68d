(** Lemmas about [normalize], [check_knot_vector], [generate_uniform],
    [find_multiplicity]. *)
From Verif Require Import Py PyLemmas Num ModelKnots Spec ProofNum MathCox MathKnots ProofSpan ProofBasis.
Open Scope R_scope.

Lemma kn_tab n (f : Z -> R) i : (0 <= i < Z.of_nat n)%Z -> kn (tab n f) i = f i.
Proof.
  intros H; unfold kn; rewrite nth_tab by lia; f_equal; lia.
Qed.
Lemma len_tab {A} n (f : Z -> A) : len (tab n f) = Z.of_nat n.
Proof. unfold len; rewrite tab_length; reflexivity. Qed.
Lemma last_tab n (f : Z -> R) : (0 < n)%nat -> last (tab n f) 0 = f (Z.of_nat n - 1)%Z.
Proof.
  intros H; rewrite <- kn_last, len_tab, kn_tab by lia; reflexivity.
Qed.
Lemma len_map {A B} (g : A -> B) l : len (map g l) = len l.
Proof. unfold len; rewrite map_length; reflexivity. Qed.
Lemma kn_map (g : R -> R) l i : (0 <= i < len l)%Z -> kn (map g l) i = g (kn l i).
Proof.
  intros H; unfold len in H; unfold kn.
  rewrite (nth_indep _ _ (g (last l 0))) by (rewrite map_length; lia).
  apply map_nth.
Qed.
Lemma kn_In l i : (0 <= i < len l)%Z -> In (kn l i) l.
Proof. intros H; unfold len in H; unfold kn; apply nth_In; lia. Qed.
Lemma In_kn l x : In x l -> exists i, (0 <= i < len l)%Z /\ kn l i = x.
Proof.
  intros H; destruct (In_nth l x (last l 0) H) as (k & Hk & E).
  exists (Z.of_nat k); split; [unfold len; lia|unfold kn; rewrite Nat2Z.id; exact E].
Qed.

(** ** min and max *)
Lemma nan_fin x : is_nan (Fin x : Exact) = false.
Proof. unfold is_nan; rewrite E_eqb, Reqb_refl; reflexivity. Qed.

Lemma np_max_fin l : l <> [] ->
  exists m, np_max (fin l) = Ok (Fin m : Exact) /\ In m l /\ forall x, In x l -> x <= m.
Proof.
  destruct l as [|x t]; [contradiction|]; intros _; unfold fin; cbn [map np_max].
  revert x; induction t as [|y t IH]; intros x.
  - exists x; cbn; intuition lra.
  - cbn [map fold_left]; rewrite !nan_fin.
    replace (if ((Fin x : Exact) <? (Fin y : Exact))%num then Fin y : Exact else Fin x) with (Fin (Rmax x y) : Exact).
    + destruct (IH (Rmax x y)) as (m & E & I & G); exists m; split; [exact E|]; split.
      * destruct I as [I|I]; [|right; right; exact I].
        unfold Rmax in I; destruct (Rle_dec x y); [right; left|left]; exact I.
      * pose proof (G _ (or_introl eq_refl)); pose proof (Rmax_l x y); pose proof (Rmax_r x y).
        intros z [<-|[<-|Hz]]; [lra|lra|apply G; right; exact Hz].
    + rewrite E_ltb; unfold Rmax; destruct (Rltb x y) eqn:E.
      * apply Rltb_true in E; destruct (Rle_dec x y); [reflexivity|lra].
      * apply Rltb_false in E; destruct (Rle_dec x y); [f_equal; lra|reflexivity].
Qed.
Lemma np_min_fin l : l <> [] ->
  exists m, np_min (fin l) = Ok (Fin m : Exact) /\ In m l /\ forall x, In x l -> m <= x.
Proof.
  destruct l as [|x t]; [contradiction|]; intros _; unfold fin; cbn [map np_min].
  revert x; induction t as [|y t IH]; intros x.
  - exists x; cbn; intuition lra.
  - cbn [map fold_left]; rewrite !nan_fin.
    replace (if ((Fin y : Exact) <? (Fin x : Exact))%num then Fin y : Exact else Fin x) with (Fin (Rmin x y) : Exact).
    + destruct (IH (Rmin x y)) as (m & E & I & G); exists m; split; [exact E|]; split.
      * destruct I as [I|I]; [|right; right; exact I].
        unfold Rmin in I; destruct (Rle_dec x y); [left|right; left]; exact I.
      * pose proof (G _ (or_introl eq_refl)); pose proof (Rmin_l x y); pose proof (Rmin_r x y).
        intros z [<-|[<-|Hz]]; [lra|lra|apply G; right; exact Hz].
    + rewrite E_ltb; unfold Rmin; destruct (Rltb y x) eqn:E.
      * apply Rltb_true in E; destruct (Rle_dec x y); [lra|reflexivity].
      * apply Rltb_false in E; destruct (Rle_dec x y); [reflexivity|f_equal; lra].
Qed.

(** ** normalize *)

Lemma normalize_fin l lo hi : In lo l -> In hi l -> (forall x, In x l -> lo <= x <= hi) -> lo < hi ->
  normalize (NdArray (fin l : list Exact)) = Ok (fin (map (fun x => (x - lo) / (hi - lo)) l)).
Proof.
  intros Hlo Hhi Hb Hlt.
  assert (NE : l <> []) by (destruct l; [contradiction|discriminate]).
  destruct (np_max_fin l NE) as (M & EM & IM & GM), (np_min_fin l NE) as (m & Em & Im & Gm).
  assert (M = hi) by (pose proof (GM _ Hhi); pose proof (Hb _ IM); lra).
  assert (m = lo) by (pose proof (Gm _ Hlo); pose proof (Hb _ Im); lra); subst M m.
  unfold normalize; cbn zeta; rewrite EM, Em; cbn [bind]; f_equal.
  unfold fin; rewrite !map_map; apply map_ext; intros x.
  rewrite !E_ofZ, !E_sub, E_div by lra.
  rewrite !E_mul, E_sub, E_mul; f_equal; field; lra.
Qed.

Lemma nonconstant_bounds l : (exists x y, In x l /\ In y l /\ x <> y) ->
  exists lo hi, In lo l /\ In hi l /\ (forall x, In x l -> lo <= x <= hi) /\ lo < hi.
Proof.
  intros (x & y & Hx & Hy & Hne).
  assert (NE : l <> []) by (destruct l; [contradiction|discriminate]).
  destruct (np_max_fin l NE) as (M & _ & IM & GM), (np_min_fin l NE) as (m & _ & Im & Gm).
  exists m, M; repeat split; auto.
  pose proof (GM _ Hx); pose proof (GM _ Hy); pose proof (Gm _ Hx); pose proof (Gm _ Hy).
  destruct (Rtotal_order x y) as [?|[?|?]]; lra.
Qed.

Lemma rescale_range lo hi x : lo < hi -> lo <= x <= hi -> 0 <= (x - lo) / (hi - lo) <= 1.
Proof.
  intros H Hx; split.
  - apply Rmult_le_pos; [lra|left; apply Rinv_0_lt_compat; lra].
  - apply (Rmult_le_reg_r (hi - lo)); [lra|]; replace ((x - lo) / (hi - lo) * (hi - lo)) with (x - lo) by (field; lra); lra.
Qed.
Lemma rescale_le lo hi x y : lo < hi -> ((x - lo) / (hi - lo) <= (y - lo) / (hi - lo) <-> x <= y).
Proof.
  intros H; assert (P : 0 < / (hi - lo)) by (apply Rinv_0_lt_compat; lra).
  unfold Rdiv; split; intros L.
  - apply Rmult_le_reg_r in L; lra.
  - apply Rmult_le_compat_r; lra.
Qed.

Lemma normalize_spec l : (exists x y, In x l /\ In y l /\ x <> y) ->
  exists lo hi r,
    In lo l /\ In hi l /\ (forall x, In x l -> lo <= x <= hi) /\ lo < hi /\
    normalize (NdArray (fin l : list Exact)) = Ok (fin r) /\
    r = map (fun x => (x - lo) / (hi - lo)) l /\
    (forall y, In y r -> 0 <= y <= 1) /\ In 0 r /\ In 1 r /\
    (forall i j, (0 <= i < len l)%Z -> (0 <= j < len l)%Z -> (kn r i <= kn r j <-> kn l i <= kn l j)).
Proof.
  intros H; destruct (nonconstant_bounds l H) as (lo & hi & Hlo & Hhi & Hb & Hlt).
  exists lo, hi, (map (fun x => (x - lo) / (hi - lo)) l).
  split; [assumption|]; split; [assumption|]; split; [assumption|]; split; [assumption|].
  split; [apply normalize_fin; assumption|]; split; [reflexivity|]; split; [|split; [|split]].
  - intros y Hy; apply in_map_iff in Hy; destruct Hy as (x & <- & Hx); apply rescale_range; auto.
  - apply in_map_iff; exists lo; split; [field; lra|assumption].
  - apply in_map_iff; exists hi; split; [field; lra|assumption].
  - intros i j Hi Hj; rewrite !kn_map by assumption; apply rescale_le; assumption.
Qed.

Lemma normalize_idempotent l r : (exists x y, In x l /\ In y l /\ x <> y) ->
  normalize (NdArray (fin l : list Exact)) = Ok r -> normalize (NdArray r) = Ok r.
Proof.
  intros H E; destruct (normalize_spec l H) as (lo & hi & r' & _ & _ & _ & _ & E' & _ & Hr & H0 & H1 & _).
  rewrite E in E'; injection E' as ->.
  rewrite (normalize_fin r' 0 1); auto; [|lra].
  do 2 f_equal; rewrite <- (map_id r') at 2; apply map_ext; intros x; field.
Qed.

Lemma normalize_affine l a b : (exists x y, In x l /\ In y l /\ x <> y) -> 0 < a ->
  normalize (NdArray (fin (map (fun x => a * x + b) l) : list Exact)) = normalize (NdArray (fin l : list Exact)).
Proof.
  intros H Ha; destruct (nonconstant_bounds l H) as (lo & hi & Hlo & Hhi & Hb & Hlt).
  assert (a * lo < a * hi) by (apply Rmult_lt_compat_l; assumption).
  rewrite (normalize_fin l lo hi), (normalize_fin _ (a * lo + b) (a * hi + b)); auto.
  - do 2 f_equal; rewrite map_map; apply map_ext; intros x; field; split; nra.
  - apply in_map_iff; exists lo; auto.
  - apply in_map_iff; exists hi; auto.
  - intros y Hy; apply in_map_iff in Hy; destruct Hy as (x & <- & Hx); specialize (Hb x Hx).
    split; apply Rplus_le_compat_r; apply Rmult_le_compat_l; lra.
  - lra.
Qed.

Lemma normalize_constant l c : l <> [] -> (forall x, In x l -> x = c) ->
  normalize (NdArray (fin l : list Exact)) = Ok (repeat (NaN : Exact) (length l)).
Proof.
  intros NE Hc.
  destruct (np_max_fin l NE) as (M & EM & IM & _), (np_min_fin l NE) as (m & Em & Im & _).
  apply Hc in IM, Im; subst M m.
  unfold normalize; cbn zeta; rewrite EM, Em; cbn [bind]; f_equal.
  unfold fin; rewrite !map_map.
  clear EM Em NE; induction l as [|x t IH]; [reflexivity|]; cbn [map length repeat]; f_equal.
  - rewrite (Hc x (or_introl eq_refl)), !E_ofZ, E_mul, !E_sub.
    replace (c - c * 1) with 0 by ring; replace (c - c) with 0 by ring; cbn.
    destruct (Req_EM_T 0 0); [|contradiction]; destruct (Req_EM_T 1 0); [lra|].
    destruct (Rlt_dec 1 0); [lra|]; cbn; unfold xinf_mul.
    destruct (Req_EM_T 0 0); [reflexivity|contradiction].
  - apply IH; intros y Hy; apply Hc; right; exact Hy.
Qed.

Lemma normalize_pylist (K : Num) (l : list K) : l <> [] -> normalize (PyList l) = Err AttributeError.
Proof. destruct l as [|x t]; [contradiction|]; intros _; reflexivity. Qed.
Lemma normalize_nil (K : Num) : normalize (NdArray (@nil K)) = Err ValueError /\
  normalize (PyList (@nil K)) = Err ValueError.
Proof. split; reflexivity. Qed.

(** ** check_knot_vector *)
Lemma increasing_from_spec l x : increasing_from (Fin x : Exact) (fin l) = true <->
  (match l with [] => True | y :: _ => x <= y end) /\
  (forall i, (0 <= i)%Z -> (i + 1 < len l)%Z -> kn l i <= kn l (i + 1)).
Proof.
  revert x; induction l as [|y t IH]; intros x.
  - split; [|reflexivity]; intros _; split; [exact I|]; intros i H1 H2; unfold len in H2; cbn in H2; lia.
  - cbn [fin map increasing_from]; rewrite E_ltb.
    destruct (Rltb y x) eqn:E.
    + apply Rltb_true in E; split; [discriminate|intros [H _]; lra].
    + apply Rltb_false in E; change (map Fin t : list Exact) with (fin t); rewrite IH.
      split; intros [H1 H2]; split; try assumption.
      * intros i Hi Hl; unfold len in Hl; cbn [length] in Hl.
        rewrite !kn_nth by (unfold len; cbn [length]; lia).
        destruct (Z.eq_dec i 0) as [->|Hi0].
        { destruct t as [|z t]; [cbn in Hl; lia|exact H1]. }
        { specialize (H2 (i - 1)%Z ltac:(lia)); unfold len in H2.
          rewrite !kn_nth in H2 by (unfold len; lia).
          replace (Z.to_nat i) with (S (Z.to_nat (i - 1))) by lia.
          replace (Z.to_nat (i + 1)) with (S (Z.to_nat (i - 1 + 1))) by lia; cbn [nth]; apply H2; lia. }
      * destruct t as [|z t]; [exact I|].
        specialize (H2 0%Z ltac:(lia)); unfold len in H2; cbn [length] in H2; apply H2; lia.
      * intros i Hi Hl; unfold len in *; cbn [length] in *.
        specialize (H2 (i + 1)%Z ltac:(lia) ltac:(lia)).
        rewrite !kn_nth in H2 by (unfold len; cbn [length]; lia).
        rewrite !kn_nth by (unfold len; lia).
        replace (Z.to_nat (i + 1)) with (S (Z.to_nat i)) in H2 at 1 by lia.
        replace (Z.to_nat (i + 1 + 1)) with (S (Z.to_nat (i + 1))) in H2 by lia; exact H2.
Qed.
Lemma nondecreasing_adjacent l :
  (forall i, (0 <= i)%Z -> (i + 1 < len l)%Z -> kn l i <= kn l (i + 1)) -> nondecreasing l.
Proof.
  intros H i j Hij Hj.
  assert (G : forall k, (i + Z.of_nat k < len l)%Z -> kn l i <= kn l (i + Z.of_nat k)).
  { induction k as [|k IHk]; intros Hk; [rewrite Z.add_0_r; lra|].
    specialize (IHk ltac:(lia)); specialize (H (i + Z.of_nat k)%Z ltac:(lia) ltac:(lia)).
    replace (i + Z.of_nat (S k))%Z with (i + Z.of_nat k + 1)%Z by lia; lra. }
  specialize (G (Z.to_nat (j - i))); replace (i + Z.of_nat (Z.to_nat (j - i)))%Z with j in G by lia; auto.
Qed.

Lemma allclose_zeros p l : (0 <= p)%Z -> (p + 1 <= len l)%Z ->
  exists b, allclose (tab (Z.to_nat (p + 1)) (fun _ => (0 : Exact)%num)) (slice (fin l) 0 (p + 1)) = Ok b /\
  (b = true <-> forall i, (0 <= i <= p)%Z -> close (1/100000) (1/100000000) 0 (kn l i)).
Proof.
  intros Hp Hl; rewrite fin_tab, slice_tab by (unfold len in *; lia).
  unfold allclose; rewrite !zlen_tab.
  replace (Z.to_nat (p + 1 - 0)) with (Z.to_nat (p + 1)) by lia; rewrite Z.eqb_refl.
  rewrite combine_tab; eexists; split; [reflexivity|].
  rewrite forallb_forall; split.
  - intros H i Hi; apply E_isclose.
    specialize (H ((0 : Exact)%num, Fin (kn l (0 + i)) : Exact)); cbn [fst snd] in H; apply H.
    apply in_map_iff; exists (Z.to_nat i); split; [rewrite Z2Nat.id by lia; reflexivity|apply in_seq; lia].
  - intros H x Hx; apply in_map_iff in Hx; destruct Hx as (k & <- & Hk); apply in_seq in Hk.
    cbn [fst snd]; apply E_isclose; apply H; lia.
Qed.


Lemma allclose_ones p x : (0 <= p)%Z ->
  exists b, allclose (tab (Z.to_nat (p + 1)) (fun _ => (1 : Exact)%num)) [x : Exact] = Ok b /\
  (b = true <-> isclose (1 : Exact)%num x = true).
Proof.
  intros Hp; unfold allclose; rewrite zlen_tab.
  destruct (Z.eqb_spec (Z.of_nat (Z.to_nat (p + 1))) (zlen [x])) as [E|E].
  - change (zlen [x]) with 1%Z in E; replace (Z.to_nat (p + 1)) with 1%nat by lia.
    eexists; split; [reflexivity|]; cbn; rewrite andb_true_r; reflexivity.
  - exists (forallb (fun y => isclose y x) (tab (Z.to_nat (p + 1)) (fun _ => (1 : Exact)%num))).
    split; [destruct (tab (Z.to_nat (p + 1)) (fun _ : Z => (1 : Exact)%num)) as [|? []]; reflexivity|].
    rewrite forallb_forall; split.
    + intros H; apply H; replace (Z.to_nat (p + 1)) with (S (Z.to_nat p)) by lia; rewrite tab_cons; left; reflexivity.
    + intros H y Hy; apply in_map_iff in Hy; destruct Hy as (k & <- & _); exact H.
Qed.

Lemma isclose_nan_r x : isclose x (NaN : Exact) = false.
Proof.
  unfold isclose, isclose_tol; change (nfinite (NaN : Exact)) with false; rewrite andb_false_r.
  destruct x; reflexivity.
Qed.

Lemma check_knot_vector_spec p n U : (0 <= p)%Z -> (0 <= n)%Z -> U <> [] ->
  exists b, check_knot_vector p (NdArray (fin U : list Exact)) n = Ok b /\ (b = true <-> near_clamped p n U).
Proof.
  intros Hp Hn NE.
  assert (HL : (0 < len U)%Z) by (destruct U; [contradiction|unfold len; cbn; lia]).
  assert (D : (exists x y, In x U /\ In y U /\ x <> y) \/ (forall x, In x U -> x = kn U 0)).
  { destruct (np_max_fin U NE) as (M & _ & IM & GM), (np_min_fin U NE) as (m & _ & Im & Gm).
    destruct (Req_EM_T m M) as [E|E].
    - right; intros x Hx; pose proof (kn_In U 0 ltac:(lia)) as H0.
      pose proof (GM _ Hx); pose proof (Gm _ Hx); pose proof (GM _ H0); pose proof (Gm _ H0); lra.
    - left; exists m, M; auto. }
  unfold check_knot_vector.
  destruct D as [D|D].
  - destruct (nonconstant_bounds U D) as (lo & hi & Hlo & Hhi & Hb & Hlt).
    rewrite (normalize_fin U lo hi) by assumption; cbn [bind].
    set (nv := map (fun x => (x - lo) / (hi - lo)) U).
    assert (Lnv : len nv = len U) by apply len_map.
    assert (Knv : forall i, (0 <= i < len U)%Z -> kn nv i = (kn U i - lo) / (hi - lo))
      by (intros i Hi; unfold nv; rewrite kn_map by exact Hi; reflexivity).
    rewrite zlen_fin, Lnv.
    destruct (Z.eqb_spec (len U) (n + p + 1)) as [E|E]; cbn [negb];
      [|exists false; split; [reflexivity|split; [discriminate|intros (H & _); contradiction]]].
    rewrite !(np_full_tab' (p + 1) (Z.to_nat (p + 1))) by lia; cbn [bind].
    destruct (allclose_zeros p nv Hp ltac:(lia)) as (b1 & E1 & S1); rewrite E1; cbn [bind].
    assert (ND : nondecreasing U -> lo = kn U 0 /\ hi = last U 0).
    { intros HN; pose proof (kn_mono U HN) as M.
      destruct (In_kn U lo Hlo) as (i & Hi & Ei), (In_kn U hi Hhi) as (j & Hj & Ej).
      pose proof (M 0%Z i ltac:(lia)); pose proof (M j (len U - 1)%Z ltac:(lia)).
      pose proof (Hb _ (kn_In U 0 ltac:(lia))); pose proof (Hb _ (kn_In U (len U - 1) ltac:(lia))).
      rewrite <- kn_last; lra. }
    destruct b1; cbn [negb].
    2:{ exists false; split; [reflexivity|split; [discriminate|]].
        intros (_ & HN & H0 & H1 & _); apply S1; intros i Hi.
        destruct (ND HN) as [-> ->]; rewrite Knv by lia; apply H1; exact Hi. }
    assert (C1 := proj1 S1 eq_refl); clear E1 S1.
    replace (-1 * (p + 1))%Z with (- (p + 1))%Z by lia.
    rewrite fin_tab, aget_tab_neg by (unfold len in *; lia); cbn [bind].
    replace (Z.of_nat (length nv) + - (p + 1))%Z with n by (unfold len in *; lia).
    destruct (allclose_ones p (Fin (kn nv n))) as (b2 & E2 & S2); [exact Hp|]; rewrite E2; cbn [bind].
    rewrite E_ofZ, E_isclose in S2.
    destruct b2; cbn [negb].
    2:{ exists false; split; [reflexivity|split; [discriminate|]].
        intros (_ & HN & H0 & _ & H1); apply S2.
        destruct (ND HN) as [-> ->]; rewrite Knv by lia; apply H1; lia. }
    assert (C2 := proj1 S2 eq_refl); clear E2 S2.
    rewrite aget_tab by (unfold len in *; lia); cbn [bind]; rewrite <- fin_tab.
    eexists; split; [reflexivity|].
    rewrite increasing_from_spec; split.
    + intros [_ HA].
      assert (HN : nondecreasing U).
      { apply nondecreasing_adjacent; intros i Hi Hl; specialize (HA i Hi ltac:(lia)).
        rewrite !Knv in HA by lia; apply rescale_le in HA; assumption. }
      destruct (ND HN) as [-> ->].
      split; [exact E|]; split; [exact HN|]; split; [exact Hlt|]; split.
      * intros i Hi; rewrite <- Knv by lia; apply C1; exact Hi.
      * intros i Hi; rewrite Knv in C2 by lia; unfold close in *.
        pose proof (kn_mono U HN n i ltac:(lia)) as Hni.
        assert (Hil : kn U i <= last U 0) by (rewrite <- kn_last; apply kn_mono; [exact HN|lia]).
        assert (H0n : kn U 0 <= kn U n) by (apply kn_mono; [exact HN|lia]).
        pose proof (rescale_range (kn U 0) (last U 0) (kn U i) Hlt ltac:(lra)).
        pose proof (rescale_range (kn U 0) (last U 0) (kn U n) Hlt ltac:(lra)).
        assert (Q : (kn U n - kn U 0) / (last U 0 - kn U 0) <= (kn U i - kn U 0) / (last U 0 - kn U 0))
          by (apply rescale_le; assumption).
        set (a := (kn U i - kn U 0) / (last U 0 - kn U 0)) in *.
        set (c := (kn U n - kn U 0) / (last U 0 - kn U 0)) in *.
        rewrite !Rabs_pos_eq in C2 by lra; rewrite !Rabs_pos_eq by lra; lra.
    + intros (_ & HN & _).
      assert (HA : forall i, (0 <= i)%Z -> (i + 1 < len nv)%Z -> kn nv i <= kn nv (i + 1)).
      { intros i Hi Hl; rewrite !Knv by lia; apply rescale_le; [assumption|]; apply kn_mono; [exact HN|lia]. }
      split; [|exact HA].
      destruct nv as [|y t]; [exact I|]; cbn; lra.
  - rewrite (normalize_constant U (kn U 0) NE D); cbn [bind].
    exists false; split.
    2:{ split; [discriminate|]; intros (_ & _ & H & _).
        rewrite <- kn_last, (D _ (kn_In U (len U - 1) ltac:(lia))) in H; lra. }
    unfold zlen; rewrite repeat_length; fold (len U).
    destruct (Z.eqb_spec (len U) (n + p + 1)) as [E|E]; cbn [negb]; [|reflexivity].
    rewrite (np_full_tab' (p + 1) (Z.to_nat (p + 1))) by lia; cbn [bind].
    rewrite repeat_tab, slice_tab by (unfold len in *; lia).
    unfold allclose; rewrite !zlen_tab.
    replace (Z.to_nat (p + 1 - 0)) with (Z.to_nat (p + 1)) by lia; rewrite Z.eqb_refl, combine_tab; cbn [bind].
    replace (Z.to_nat (p + 1)) with (S (Z.to_nat p)) by lia; rewrite tab_cons; cbn [forallb fst snd].
    rewrite isclose_nan_r; reflexivity.
Qed.

Lemma clamped_near p n U : clamped p n U -> near_clamped p n U.
Proof.
  intros HC; destruct (clamped_facts p n U HC) as (Hp & Hn & HL & HU & Hl & Hr & HE & H0 & Hlt).
  assert (Hd : last U 0 - kn U 0 <> 0) by (rewrite HE, H0; lra).
  split; [exact HL|]; split; [exact HU|]; split; [rewrite HE, H0; exact Hlt|]; split; intros i Hi.
  - replace ((kn U i - kn U 0) / (last U 0 - kn U 0)) with 0
      by (rewrite (Hl i), H0 by lia; unfold Rdiv; ring).
    apply close_refl; lra.
  - replace ((kn U i - kn U 0) / (last U 0 - kn U 0)) with 1
      by (rewrite (Hr i) by lia; rewrite <- HE; field; exact Hd).
    apply close_refl; lra.
Qed.
Lemma check_clamped p n U : clamped p n U -> check_knot_vector p (NdArray (fin U : list Exact)) n = Ok true.
Proof.
  intros HC; pose proof (clamped_near p n U HC) as HN.
  destruct (clamped_facts p n U HC) as (Hp & Hn & HL & _).
  destruct (check_knot_vector_spec p n U Hp ltac:(lia)) as (b & E & HB).
  - intros ->; unfold len in HL; cbn in HL; lia.
  - rewrite E; f_equal; apply HB, HN.
Qed.

(** ** generate_uniform *)
Definition uniform (p n : Z) : list R :=
  tab (Z.to_nat (n + p + 1))
      (fun i => if (i <=? p)%Z then 0 else if (n <=? i)%Z then 1 else (IZR i - IZR p) / (IZR n - IZR p)).

Lemma uniform_clamped p n : (0 <= p)%Z -> (p + 1 <= n)%Z -> clamped p n (uniform p n).
Proof.
  intros Hp Hn.
  assert (Hnp : IZR p + 1 <= IZR n) by (rewrite <- plus_IZR; apply IZR_le; lia).
  assert (HL : len (uniform p n) = (n + p + 1)%Z) by (unfold uniform; rewrite len_tab; lia).
  assert (K : forall i, (0 <= i <= n + p)%Z -> kn (uniform p n) i =
    if (i <=? p)%Z then 0 else if (n <=? i)%Z then 1 else (IZR i - IZR p) / (IZR n - IZR p))
    by (intros i Hi; unfold uniform; rewrite kn_tab by lia; reflexivity).
  split; [split; [exact Hp|split; [exact Hn|split; [exact HL|]]]|].
  - intros i j Hij Hj; rewrite HL in Hj; rewrite !K by lia.
    assert (R : forall k, (p < k < n)%Z -> 0 <= (IZR k - IZR p) / (IZR n - IZR p) <= 1).
    { intros k Hk; apply rescale_range; [lra|]; split; apply IZR_le; lia. }
    destruct (Z.leb_spec i p), (Z.leb_spec j p), (Z.leb_spec n i), (Z.leb_spec n j);
      try lia; try lra; try (apply R; lia).
    apply rescale_le; [lra|apply IZR_le; lia].
  - rewrite !K by lia.
    destruct (Z.leb_spec 0 p); [|lia]; destruct (Z.leb_spec p p); [|lia].
    destruct (Z.leb_spec n p); [lia|]; destruct (Z.leb_spec (n + p) p); [lia|].
    destruct (Z.leb_spec n n); [|lia]; destruct (Z.leb_spec n (n + p)); [|lia]; lra.
Qed.

Lemma linspace_unit m : (1 <= m)%Z ->
  np_linspace (0 : Exact)%num (1 : Exact)%num (m + 1)
  = Ok (fin (tab (Z.to_nat (m + 1)) (fun i => IZR i / IZR m))).
Proof.
  intros Hm; assert (0 < IZR m) by (apply IZR_lt; lia).
  unfold np_linspace; destruct (Z.ltb_spec (m + 1) 0); [lia|]; cbn zeta.
  replace (m + 1 - 1)%Z with m by lia; destruct (Z.ltb_spec 0 m); [|lia].
  rewrite !E_ofZ, E_sub, E_div by lra; rewrite E_eqb.
  destruct (Reqb ((1 - 0) / IZR m) 0) eqn:E.
  - apply Reqb_true in E; replace (1 - 0) with 1 in E by ring.
    assert (0 < 1 / IZR m) by (apply Rdiv_lt_0_compat; lra); lra.
  - replace (m + 1)%Z with (Z.of_nat (Z.to_nat (m + 1))) at 1 by lia.
    rewrite zrange_tab, !map_tab, aset_tab_neg by lia; f_equal.
    rewrite fin_tab_fun; apply tab_ext; intros i Hi; unfold fupd.
    destruct (Z.eqb_spec i (Z.of_nat (Z.to_nat (m + 1)) + -1)) as [Ei|Ei].
    + f_equal; replace i with m by lia; field; lra.
    + rewrite E_ofZ, E_mul, E_add; f_equal; field; lra.
Qed.

Lemma generate_uniform_eq p n : (0 <= p)%Z -> (p + 1 <= n)%Z ->
  generate_uniform p n = Ok (fin (uniform p n) : list Exact).
Proof.
  intros Hp Hn; assert (Hnp : IZR p + 1 <= IZR n) by (rewrite <- plus_IZR; apply IZR_le; lia).
  unfold generate_uniform; cbn zeta.
  replace (n + p + 1 - 2 * p)%Z with ((n - p) + 1)%Z by lia; rewrite linspace_unit by lia; cbn [bind].
  rewrite !(np_full_tab' p (Z.to_nat p)) by lia; cbn [bind]; f_equal.
  unfold uniform; rewrite !fin_tab_fun.
  replace (Z.to_nat (n + p + 1)) with (Z.to_nat p + (Z.to_nat (n - p + 1) + Z.to_nat p))%nat by lia.
  rewrite !tab_app; f_equal; [|f_equal]; apply tab_ext; intros i Hi.
  - destruct (Z.leb_spec i p); [reflexivity|lia].
  - rewrite minus_IZR; destruct (Z.leb_spec (Z.of_nat (Z.to_nat p) + i) p); [|destruct (Z.leb_spec n (Z.of_nat (Z.to_nat p) + i))].
    + replace i with 0%Z by lia; f_equal; field; lra.
    + replace i with (n - p)%Z by lia; rewrite minus_IZR; f_equal; field; lra.
    + rewrite plus_IZR, Z2Nat.id by lia; f_equal; field; lra.
  - destruct (Z.leb_spec (Z.of_nat (Z.to_nat p) + (Z.of_nat (Z.to_nat (n - p + 1)) + i)) p); [lia|].
    destruct (Z.leb_spec n (Z.of_nat (Z.to_nat p) + (Z.of_nat (Z.to_nat (n - p + 1)) + i))); [reflexivity|lia].
Qed.

Lemma generate_uniform_spec p n : (0 <= p)%Z -> (p + 1 <= n)%Z ->
  exists U, generate_uniform p n = Ok (fin U : list Exact) /\ clamped p n U /\
    (forall i, (0 <= i <= p)%Z -> kn U i = 0) /\
    (forall i, (n <= i <= n + p)%Z -> kn U i = 1) /\
    (forall i, (p <= i <= n)%Z -> kn U i = (IZR i - IZR p) / (IZR n - IZR p)).
Proof.
  intros Hp Hn; assert (Hnp : IZR p + 1 <= IZR n) by (rewrite <- plus_IZR; apply IZR_le; lia).
  exists (uniform p n); split; [apply generate_uniform_eq; assumption|].
  split; [apply uniform_clamped; assumption|]; split; [|split]; intros i Hi; unfold uniform; rewrite kn_tab by lia.
  - destruct (Z.leb_spec i p); [reflexivity|lia].
  - destruct (Z.leb_spec i p); [lia|]; destruct (Z.leb_spec n i); [reflexivity|lia].
  - destruct (Z.leb_spec i p); [replace i with p by lia; field; lra|].
    destruct (Z.leb_spec n i); [replace i with n by lia; field; lra|reflexivity].
Qed.

Lemma generate_uniform_short (K : Num) p n : (n < p - 1 \/ p < 0)%Z -> generate_uniform p n = Err (A := list K) ValueError.
Proof.
  intros H; unfold generate_uniform; cbn zeta; unfold np_linspace.
  destruct (Z.ltb_spec (n + p + 1 - 2 * p) 0); [reflexivity|].
  assert (Hp : (p < 0)%Z) by lia.
  destruct (Z.ltb_spec 0 (n + p + 1 - 2 * p - 1)).
  - match goal with |- (let* _ := aset ?l _ _ in _) = _ => assert (Hl : zlen l = (n + p + 1 - 2 * p)%Z) end.
    { unfold zlen; destruct (_ =? _)%num; rewrite !map_length, zrange_length; lia. }
    unfold aset at 1; rewrite Hl; cbn [Z.ltb Z.compare].
    destruct (Z.leb_spec 0 (-1 + (n + p + 1 - 2 * p))); [|lia].
    destruct (Z.ltb_spec (-1 + (n + p + 1 - 2 * p)) (n + p + 1 - 2 * p)); [|lia]; cbn [andb bind].
    unfold np_full; destruct (Z.ltb_spec p 0); [reflexivity|lia].
  - cbn [bind]; unfold np_full; destruct (Z.ltb_spec p 0); [reflexivity|lia].
Qed.

Lemma uniform_accepted p n : (0 <= p)%Z -> (p + 1 <= n)%Z ->
  (let* U := generate_uniform p n in check_knot_vector p (NdArray (U : list Exact)) n) = Ok true.
Proof.
  intros Hp Hn; rewrite generate_uniform_eq by assumption; cbn [bind].
  apply check_clamped, uniform_clamped; assumption.
Qed.
Lemma uniform_rejected p : (1 <= p)%Z ->
  (let* U := generate_uniform p p in check_knot_vector p (NdArray (U : list Exact)) p) = Ok false.
Proof.
  intros Hp; unfold generate_uniform; cbn zeta; replace (p + p + 1 - 2 * p)%Z with 1%Z by lia.
  unfold np_linspace; cbn [Z.ltb Z.compare Z.sub Z.add Z.opp Z.pos_sub].
  rewrite !(np_full_tab' p (Z.to_nat p)) by lia; cbn [bind].
  change (zrange 0 1) with [0%Z]; cbn [map]; rewrite !E_ofZ, E_sub, E_mul, E_add.
  replace (0 * (1 - 0) + 0) with 0 by ring.
  set (U := tab (Z.to_nat (2 * p + 1)) (fun i => if (i <=? p)%Z then 0 else 1)).
  replace (tab _ _ ++ _ ++ _) with (fin U : list Exact).
  2:{ unfold U; rewrite fin_tab_fun.
      replace (Z.to_nat (2 * p + 1)) with (Z.to_nat p + (1 + Z.to_nat p))%nat by lia.
      rewrite !tab_app; f_equal; [|f_equal].
      - apply tab_ext; intros i Hi; destruct (Z.leb_spec i p); [reflexivity|lia].
      - rewrite tab_cons; unfold tab; cbn [seq map].
        destruct (Z.leb_spec (Z.of_nat (Z.to_nat p) + 0) p); [reflexivity|lia].
      - apply tab_ext; intros i Hi.
        destruct (Z.leb_spec (Z.of_nat (Z.to_nat p) + (Z.of_nat 1 + i)) p); [lia|reflexivity]. }
  assert (HL : len U = (2 * p + 1)%Z) by (unfold U; rewrite len_tab; lia).
  destruct (check_knot_vector_spec p p U) as (b & E & S); try lia.
  { intros EU; rewrite EU in HL; change (len (@nil R)) with 0%Z in HL; lia. }
  rewrite E; f_equal; destruct b; [|reflexivity]; exfalso.
  destruct (proj1 S eq_refl) as (_ & _ & _ & _ & H); specialize (H p ltac:(lia)).
  assert (E0 : kn U 0 = 0) by (unfold U; rewrite kn_tab by lia; destruct (Z.leb_spec 0 p); [reflexivity|lia]).
  assert (Ep : kn U p = 0) by (unfold U; rewrite kn_tab by lia; destruct (Z.leb_spec p p); [reflexivity|lia]).
  rewrite E0, Ep in H; unfold close in H.
  replace ((0 - 0) / (last U 0 - 0)) with 0 in H by (unfold Rdiv; ring).
  rewrite Rabs_R0 in H; replace (1 - 0) with 1 in H by ring; rewrite Rabs_R1 in H; lra.
Qed.

(** ** find_multiplicity *)
Definition closeb (u x : R) : bool :=
  if Rle_dec (Rabs (u - x)) (1/100000000 + 1/100000 * Rabs x) then true else false.
Lemma closeb_spec u x : closeb u x = true <-> close (1/100000) (1/100000000) u x.
Proof. unfold closeb, close; destruct (Rle_dec _ _); split; intros; auto; discriminate. Qed.
Lemma find_multiplicity_count u U :
  find_multiplicity (Fin u : Exact) (fin U) = Z.of_nat (length (filter (closeb u) U)).
Proof.
  induction U as [|x t IH]; [reflexivity|]; cbn [fin map find_multiplicity filter].
  change (map Fin t : list Exact) with (fin t); rewrite IH.
  assert (E : isclose (Fin u : Exact) (Fin x : Exact) = closeb u x)
    by (apply eq_true_iff_eq; rewrite E_isclose, closeb_spec; reflexivity).
  rewrite E; destruct (closeb u x); cbn [length]; lia.
Qed.
Lemma find_multiplicity_ge u U : (Z.of_nat (count_occ Req_EM_T U u) <= find_multiplicity (Fin u : Exact) (fin U))%Z.
Proof.
  rewrite find_multiplicity_count; induction U as [|x t IH]; [cbn; lia|]; cbn [count_occ filter].
  destruct (Req_EM_T x u) as [->|N].
  - assert (E : closeb u u = true) by (apply closeb_spec, close_refl; lra); rewrite E; cbn [length]; lia.
  - destruct (closeb u x); cbn [length]; lia.
Qed.
Lemma find_multiplicity_exact u U :
  (forall x, In x U -> x <> u -> ~ close (1/100000) (1/100000000) u x) ->
  find_multiplicity (Fin u : Exact) (fin U) = Z.of_nat (count_occ Req_EM_T U u).
Proof.
  rewrite find_multiplicity_count; induction U as [|x t IH]; intros H; [reflexivity|]; cbn [count_occ filter].
  specialize (IH (fun y Hy => H y (or_intror Hy))).
  destruct (Req_EM_T x u) as [->|N].
  - assert (E : closeb u u = true) by (apply closeb_spec, close_refl; lra); rewrite E; cbn [length]; lia.
  - destruct (closeb u x) eqn:E; [|exact IH].
    exfalso; apply (H x (or_introl eq_refl) N), closeb_spec, E.
Qed.
