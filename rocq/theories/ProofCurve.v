(** Curve evaluation (model: ModelCurve.v) in exact arithmetic. *)
From Verif Require Import Py PyLemmas Num ModelKnots ModelBasis ModelCurve Spec MathCox MathKnots MathJoin ProofNum ProofSpan ProofBasis ProofSpan2 ProofKnots ProofInsert2.
Open Scope R_scope.

Lemma rdot_tab n f g : rdot (tab n f) (tab n g) = zsum 0 n (fun i => f i * g i).
Proof. unfold rdot; rewrite combine_tab, map_tab; cbn [fst snd]; apply fold_right_tab. Qed.
Lemma E_matmul a b : length a = length b -> matmul11 (fin a) (fin b) = Ok (Fin (rdot a b) : Exact).
Proof.
  intros H; unfold matmul11; rewrite !zlen_fin; unfold len; rewrite H, Z.eqb_refl, E_vdot; reflexivity.
Qed.

(** Rows [a .. a+m-1] of the control points and one of their columns. *)
Lemma active_col P a m c : Forall (fun row => length row = 3%nat) P -> (0 <= a)%Z -> (a + Z.of_nat m <= len P)%Z ->
  (c < 3)%nat ->
  acol (slice (fin2 P : list (list Exact)) a (a + Z.of_nat m)) (Z.of_nat c)
  = Ok (fin (tab m (fun i => nth (Z.to_nat (a + i)) (coords c P) 0))).
Proof.
  intros HF Ha Hm Hc; rewrite list_rows by exact HF; unfold len in Hm.
  rewrite slice_tab by lia; replace (Z.to_nat (a + Z.of_nat m - a)) with m by lia.
  rewrite fin_tab_fun; apply mapM_tab; intros i Hi.
  destruct c as [|[|[|]]]; try lia; reflexivity.
Qed.

(** The value computed on a given span: the polynomial pieces of that span. *)
Definition span_sum (U : list R) (s : Z) (p : nat) (c : list R) (u : R) : R :=
  zsum (s - Z.of_nat p) (S p) (fun i => piece U s p i u * nth (Z.to_nat i) c 0).
Definition span_xyz (U : list R) (s : Z) (p : nat) (P : list (list R)) (u : R) : list R :=
  map (fun c => span_sum U s p (coords c P) u) [0%nat; 1%nat; 2%nat].

Lemma span_sum_rdot U s p c u :
  rdot (pieces U s p u) (tab (S p) (fun i => nth (Z.to_nat (s - Z.of_nat p + i)) c 0)) = span_sum U s p c u.
Proof.
  unfold pieces; rewrite rdot_tab; unfold span_sum.
  pose proof (zsum_shift 0 (s - Z.of_nat p) (S p) (fun i => piece U s p i u * nth (Z.to_nat i) c 0)) as E.
  rewrite Z.add_0_l in E; rewrite E; apply zsum_ext; intros i _; f_equal; [f_equal|do 2 f_equal]; lia.
Qed.

Lemma curve_point_span p U P u s : nondecreasing U -> len U = (len P + Z.of_nat p + 1)%Z ->
  Forall (fun row => length row = 3%nat) P ->
  find_span (len P) (Z.of_nat p) (Fin u : Exact) (fin U) = Ok s -> (Z.of_nat p <= s < len P)%Z ->
  kn U s < kn U (s + 1) ->
  curve_point (Z.of_nat p) (fin2 P) (fin U) (Fin u : Exact) = Ok (fin (span_xyz U s p P u)).
Proof.
  intros HU HL HF Hspan Hs Hlt; unfold curve_point; rewrite zlen_fin2, Hspan; cbn [bind].
  rewrite basis_functions_pieces by (try assumption; lia); cbn [bind].
  replace (s + 1)%Z with (s - Z.of_nat p + Z.of_nat (S p))%Z by lia.
  assert (L : forall g : Z -> R, length (pieces U s p u) = length (tab (S p) g)) by (intros g; unfold pieces; rewrite !tab_length; reflexivity).
  change 0%Z with (Z.of_nat 0); change 1%Z with (Z.of_nat 1); change 2%Z with (Z.of_nat 2).
  rewrite !active_col by (try assumption; lia); cbn [bind].
  rewrite !E_matmul by apply L; cbn [bind].
  rewrite !span_sum_rdot; reflexivity.
Qed.

Lemma span_sum_curve p n U c u s : clamped (Z.of_nat p) n U -> Z.of_nat (length c) = n ->
  kn U s < kn U (s + 1) -> (Z.of_nat p <= s < n)%Z -> kn U s <= u <= kn U (s + 1) ->
  u < kn U (s + 1) \/ continuous (Z.of_nat p) n U ->
  span_sum U s p c u = curve_sum U p c u.
Proof.
  intros HC Hn Hs Hsn Hu HD; unfold span_sum, curve_sum.
  assert (E : forall i, bspline U p i u = piece U s p i u).
  { intros i; symmetry; apply (piece_closed p n); assumption. }
  rewrite (zsum_ext 0 (length c) _ (fun i => piece U s p i u * nth (Z.to_nat i) c 0)) by (intros; rewrite E; reflexivity).
  symmetry; apply zsum_window; try lia.
  intros i Hi Ho; rewrite piece_support by lia; ring.
Qed.
Lemma span_xyz_curve p U P u s : clamped (Z.of_nat p) (len P) U -> kn U s < kn U (s + 1) ->
  (Z.of_nat p <= s < len P)%Z -> kn U s <= u <= kn U (s + 1) ->
  u < kn U (s + 1) \/ continuous (Z.of_nat p) (len P) U ->
  span_xyz U s p P u = curve_xyz U p P u.
Proof.
  intros HC Hs Hsn Hu HD; unfold span_xyz, curve_xyz; apply map_ext; intros c.
  apply (span_sum_curve p (len P)); try assumption; unfold coords, len; rewrite map_length; reflexivity.
Qed.

(** ** The method [single_point] *)
Definition curve_of (p : Z) (U : list R) (P : list (list R)) (d : Z) : curve_obj Exact :=
  mkCurve (K := Exact) (Some p) (Some (fin2 P)) (Some (fin U)) d.

Lemma validate_fin u : validate_knot (Fin u : Exact) = true <-> 0 <= u <= 1.
Proof.
  unfold validate_knot; rewrite !E_ofZ, !E_leb, andb_true_iff, !Rleb_true; reflexivity.
Qed.
Lemma single_point_inside p U P d u : 0 <= u <= 1 ->
  single_point (curve_of p U P d) (Fin u : Exact) = curve_point p (fin2 P) (fin U) (Fin u : Exact).
Proof.
  intros Hu; unfold single_point; rewrite (proj2 (validate_fin u) Hu); reflexivity.
Qed.

Lemma single_point_on_span p U P d u s : clamped (Z.of_nat p) (len P) U -> Forall (fun row => length row = 3%nat) P ->
  0 <= u <= 1 -> find_span (len P) (Z.of_nat p) (Fin u : Exact) (fin U) = Ok s ->
  kn U s <= u <= kn U (s + 1) -> kn U s < kn U (s + 1) ->
  u < kn U (s + 1) \/ continuous (Z.of_nat p) (len P) U ->
  single_point (curve_of (Z.of_nat p) U P d) (Fin u : Exact) = Ok (fin (curve_xyz U p P u)).
Proof.
  intros HC HF Hu E Hc Hs HD; destruct (clamped_facts _ _ U HC) as (_ & Hn & HL & HU & Hl & Hr & _).
  assert (Hsn : (Z.of_nat p <= s < len P)%Z).
  { split.
    - destruct (Z_le_dec (Z.of_nat p) s); [assumption|]; rewrite (Hl s), (Hl (s + 1)%Z) in Hs by lia; lra.
    - destruct (Z_lt_dec s (len P)); [assumption|]; rewrite (Hr s), (Hr (s + 1)%Z) in Hs by lia; lra. }
  rewrite single_point_inside by exact Hu; rewrite (curve_point_span p U P u s) by assumption.
  rewrite span_xyz_curve by assumption; reflexivity.
Qed.

(** Distinct interior knots: every parameter works. *)
Lemma strict_continuous p n U : clamped p n U -> (1 <= p)%Z -> strict p n U -> continuous p n U.
Proof.
  intros HC Hp HS i Hi; destruct (clamped_facts _ _ U HC) as (_ & Hn & HL & HU & Hl & Hr & _).
  destruct (Z_lt_dec i p).
  - rewrite (Hl i) by lia; pose proof (HS p ltac:(lia)); pose proof (kn_mono U HU (p + 1) (i + p) ltac:(lia)); lra.
  - pose proof (HS i ltac:(lia)); pose proof (kn_mono U HU (i + 1) (i + p) ltac:(lia)); lra.
Qed.
Lemma find_span_strict p n U u : clamped p n U -> strict p n U -> kn U p <= u <= kn U n ->
  (close (1/1000000) (1/100000000) u (kn U n) -> kn U (n - 1) <= u) ->
  exists s, find_span n p (Fin u : Exact) (fin U) = Ok s /\ (p <= s < n)%Z /\
    kn U s <= u <= kn U (s + 1) /\ kn U s < kn U (s + 1).
Proof.
  intros HC HS Hu Ht; destruct (find_span_ok p n U u (proj1 HC) Hu) as (s & E & Hs).
  exists s; split; [exact E|]; split; [lia|]; split; [|apply HS; lia].
  destruct (find_span_contains p n U u s (proj1 HC) Hu E) as [[C ->]|H]; [|exact H].
  replace (n - 1 + 1)%Z with n by lia; split; [apply Ht; exact C|lra].
Qed.
Lemma single_point_strict p U P d u : clamped (Z.of_nat p) (len P) U -> (1 <= p)%nat ->
  Forall (fun row => length row = 3%nat) P -> kn U (Z.of_nat p) = 0 -> kn U (len P) = 1 ->
  strict (Z.of_nat p) (len P) U -> 0 <= u <= 1 ->
  (close (1/1000000) (1/100000000) u 1 -> kn U (len P - 1) <= u) ->
  single_point (curve_of (Z.of_nat p) U P d) (Fin u : Exact) = Ok (fin (curve_xyz U p P u)).
Proof.
  intros HC Hp HF H0 H1 HS Hu Ht.
  destruct (find_span_strict (Z.of_nat p) (len P) U u HC HS) as (s & E & Hsn & Hc & Hs);
    [lra|rewrite H1; exact Ht|].
  apply (single_point_on_span p U P d u s); try assumption.
  right; apply strict_continuous; try assumption; lia.
Qed.

Lemma single_point_rejects (K : Num) (c : curve_obj K) (u : K) :
  nleb 0%num u = false \/ nleb u 1%num = false -> single_point c u = Err ValueError.
Proof.
  intros H; unfold single_point, validate_knot; destruct H as [H|H]; rewrite H; [reflexivity|rewrite andb_false_r; reflexivity].
Qed.
Lemma single_point_outside (c : curve_obj Exact) (u : Exact) :
  (forall x, u = Fin x -> x < 0 \/ 1 < x) -> single_point c u = Err ValueError.
Proof.
  intros H; apply single_point_rejects; destruct u as [x| | |]; cbn; auto.
  destruct (H x eq_refl) as [L|L]; [left|right]; apply Rleb_false; exact L.
Qed.

(** An empty span: the basis is NaN and so is the point. *)
Lemma vdot_nan n (l : list Exact) : length l = S n -> vdot (repeat (NaN : Exact) (S n)) l = NaN.
Proof.
  destruct l as [|x t]; [discriminate|]; intros _; unfold vdot, vmap2, nsum; cbn [repeat combine map fold_left fst snd].
  assert (E : nadd (ofZ 0) (nmul (NaN : Exact) x) = (NaN : Exact)) by (destruct x; reflexivity).
  rewrite E; generalize (map (fun xy : Exact * Exact => nmul (fst xy) (snd xy)) (combine (repeat (NaN : Exact) n) t)).
  intros l; induction l as [|y l IH]; [reflexivity|]; cbn [fold_left].
  assert (E2 : nadd (NaN : Exact) y = (NaN : Exact)) by (destruct y; reflexivity).
  rewrite E2; exact IH.
Qed.
Lemma single_point_empty_span p U P d u s : len U = (len P + Z.of_nat p + 1)%Z ->
  Forall (fun row => length row = 3%nat) P -> 0 <= u <= 1 -> (1 <= p)%nat ->
  find_span (len P) (Z.of_nat p) (Fin u : Exact) (fin U) = Ok s -> (Z.of_nat p <= s < len P)%Z ->
  kn U s = u -> kn U (s + 1) = u ->
  single_point (curve_of (Z.of_nat p) U P d) (Fin u : Exact) = Ok [NaN; NaN; NaN].
Proof.
  intros HL HF Hu Hp Hspan Hs H1 H2; rewrite single_point_inside by exact Hu.
  unfold curve_point; rewrite zlen_fin2, Hspan; cbn [bind].
  rewrite basis_functions_empty by (try assumption; lia); cbn [bind].
  replace (s + 1)%Z with (s - Z.of_nat p + Z.of_nat (S p))%Z by lia.
  change 0%Z with (Z.of_nat 0); change 1%Z with (Z.of_nat 1); change 2%Z with (Z.of_nat 2).
  rewrite !active_col by (try assumption; lia); cbn [bind].
  assert (L : forall g : Z -> R, length (fin (tab (S p) g)) = S p) by (intros; unfold fin; rewrite map_length, tab_length; reflexivity).
  unfold matmul11, zlen; rewrite repeat_length, !L, Z.eqb_refl; cbn [bind].
  rewrite !vdot_nan by apply L; reflexivity.
Qed.

(** ** End points *)
Lemma tight_span_start p n U s : tight p n U -> find_span n p (Fin (kn U p) : Exact) (fin U) = Ok s ->
  (close (1/1000000) (1/100000000) (kn U p) (kn U n) -> n = (p + 1)%Z) -> s = p.
Proof.
  intros (HC & H1 & H2) E Ht; destruct (clamped_facts _ _ U HC) as (_ & Hn & HL & HU & Hl & Hr & HE & H0 & Hlt).
  destruct (find_span_ok p n U (kn U p) (proj1 HC) ltac:(lra)) as (s' & E' & Hs'); rewrite E in E'; injection E' as <-.
  destruct (find_span_contains p n U (kn U p) s (proj1 HC) ltac:(lra) E) as [[C ->]|H]; [specialize (Ht C); lia|].
  destruct (Z.eq_dec s p) as [|N]; [assumption|exfalso].
  pose proof (kn_mono U HU (p + 1) s ltac:(lia)); lra.
Qed.
Lemma tight_span_end p n U : tight p n U -> find_span n p (Fin (kn U n) : Exact) (fin U) = Ok (n - 1)%Z.
Proof.
  intros (HC & H1 & H2); apply find_span_end; try assumption; [lra|apply close_refl; lra].
Qed.
Lemma not_close_01 : ~ close (1/1000000) (1/100000000) 0 1.
Proof. unfold close; rewrite Rabs_left, Rabs_right by lra; lra. Qed.

Lemma span_sum_start p n U c : tight (Z.of_nat p) n U -> span_sum U (Z.of_nat p) p c (kn U (Z.of_nat p)) = nth 0 c 0.
Proof.
  intros (HC & H1 & H2); unfold span_sum.
  assert (HI : in_span U (Z.of_nat p) (kn U (Z.of_nat p))) by (left; lra).
  pose proof (pieces_start p n U _ HC HI) as E.
  rewrite (zsum_single _ _ 0%Z) by
    (first [lia | intros i Hi N;
       replace (piece U (Z.of_nat p) p i (kn U (Z.of_nat p))) with (nth (Z.to_nat i) (pieces U (Z.of_nat p) p (kn U (Z.of_nat p))) 0)
         by (unfold pieces; rewrite nth_tab by lia; f_equal; lia);
       rewrite E; destruct (Z.to_nat i) as [|k] eqn:Ek; [lia|]; cbn [nth]; rewrite nth_repeat; ring]).
  replace (piece U (Z.of_nat p) p 0 (kn U (Z.of_nat p))) with (nth 0 (pieces U (Z.of_nat p) p (kn U (Z.of_nat p))) 0)
    by (unfold pieces; rewrite nth_tab by lia; f_equal; lia).
  rewrite E; cbn [nth Z.to_nat]; ring.
Qed.
Lemma span_sum_end p n U c : tight (Z.of_nat p) n U -> Z.of_nat (length c) = n ->
  span_sum U (n - 1) p c (kn U n) = last c 0.
Proof.
  intros (HC & H1 & H2) HL'; destruct (clamped_facts _ _ U HC) as (_ & Hn & HL & HU & Hl & Hr & HE & H0 & Hlt).
  unfold span_sum.
  assert (HI : in_span U (n - 1) (kn U n)) by (right; replace (n - 1 + 1)%Z with n by lia; lra).
  pose proof (pieces_end p n U _ HC HI) as E.
  assert (G : forall i, (n - 1 - Z.of_nat p <= i <= n - 1)%Z ->
    piece U (n - 1) p i (kn U n) = nth (Z.to_nat (i - (n - 1 - Z.of_nat p))) (repeat 0 p ++ [1]) 0).
  { intros i Hi; rewrite <- E; unfold pieces; rewrite nth_tab by lia; f_equal; lia. }
  rewrite (zsum_single _ _ (n - 1)%Z).
  - rewrite G by lia; replace (Z.to_nat (n - 1 - (n - 1 - Z.of_nat p))) with p by lia.
    rewrite app_nth2, repeat_length, Nat.sub_diag by (rewrite repeat_length; lia).
    cbn [nth]; rewrite last_nth; replace (Z.to_nat (n - 1)) with (length c - 1)%nat by lia; ring.
  - lia.
  - intros i Hi N; rewrite G by lia; rewrite app_nth1 by (rewrite repeat_length; lia).
    rewrite nth_repeat; ring.
Qed.
Lemma nth_coords_last c P : last (coords c P) 0 = nth c (last P []) 0.
Proof.
  rewrite !last_nth; unfold coords at 1; rewrite map_length; apply nth_coords.
Qed.
Lemma row3 (r : list R) : length r = 3%nat -> [nth 0 r 0; nth 1 r 0; nth 2 r 0] = r.
Proof. destruct r as [|a [|b [|c [|]]]]; try discriminate; reflexivity. Qed.

Lemma single_point_ends p U P d : tight (Z.of_nat p) (len P) U -> Forall (fun row => length row = 3%nat) P ->
  kn U (Z.of_nat p) = 0 -> kn U (len P) = 1 ->
  single_point (curve_of (Z.of_nat p) U P d) (Fin 0 : Exact) = Ok (fin (nth 0 P [])) /\
  single_point (curve_of (Z.of_nat p) U P d) (Fin 1 : Exact) = Ok (fin (last P [])).
Proof.
  intros HT HF H0 H1; pose proof HT as (HC & Ha & Hb).
  destruct (clamped_facts _ _ U HC) as (_ & Hn & HL & HU & _).
  assert (R0 : length (nth 0 P []) = 3%nat) by (apply (proj1 (Forall_forall _ _) HF), nth_In; unfold len in *; lia).
  assert (R1 : length (last P []) = 3%nat).
  { rewrite last_nth; apply (proj1 (Forall_forall _ _) HF), nth_In; unfold len in *; lia. }
  split; rewrite single_point_inside by lra.
  - destruct (find_span_ok (Z.of_nat p) (len P) U 0 (proj1 HC) ltac:(lra)) as (s & E & Hs).
    assert (s = Z.of_nat p).
    { apply (tight_span_start _ _ U s HT); rewrite H0; [exact E|rewrite H1; intros C; exfalso; exact (not_close_01 C)]. }
    subst s; rewrite (curve_point_span p U P 0 (Z.of_nat p)) by (try assumption; lia).
    rewrite <- (row3 (nth 0 P [])) by exact R0; do 2 f_equal; unfold span_xyz; cbn [map].
    assert (G : forall c, span_sum U (Z.of_nat p) p c 0 = nth 0 c 0).
    { intros c; pose proof (span_sum_start p (len P) U c HT) as G; rewrite H0 in G; exact G. }
    rewrite !G, !nth_coords; reflexivity.
  - pose proof (tight_span_end _ _ U HT) as E; rewrite H1 in E.
    rewrite (curve_point_span p U P 1 (len P - 1)) by (try assumption; try lia; replace (len P - 1 + 1)%Z with (len P) by lia; lra).
    rewrite <- (row3 (last P [])) by exact R1; do 2 f_equal; unfold span_xyz; cbn [map].
    assert (G : forall c, Z.of_nat (length c) = len P -> span_sum U (len P - 1) p c 1 = last c 0).
    { intros c Hc; pose proof (span_sum_end p (len P) U c HT Hc) as G; rewrite H1 in G; exact G. }
    rewrite !G by (unfold coords, len; rewrite map_length; reflexivity).
    rewrite !nth_coords_last; reflexivity.
Qed.
