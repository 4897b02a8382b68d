(** Surface evaluation (model: ModelSurface.v) in exact arithmetic. *)
From Verif Require Import Py PyLemmas Num ModelKnots ModelBasis ModelCurve ModelSurface Spec MathCox MathKnots MathJoin ProofNum ProofSpan ProofBasis ProofSpan2 ProofKnots ProofInsert2 ProofCurve ProofCurve2.
Open Scope R_scope.

Definition surf_of (p q nu nv : nat) (U V : list R) (P : list (list R)) : surf Exact :=
  mkSurf (K := Exact) (Z.of_nat p) (Z.of_nat q) (Z.of_nat nu) (Z.of_nat nv) (fin2 P) (fin U) (fin V).
Definition net (nv : nat) (c : list R) (i j : Z) : R := nth (Z.to_nat (i * Z.of_nat nv + j)) c 0.

(** ** The arrays *)
Lemma acol_fin2 P c : Forall (fun row => length row = 3%nat) P -> (c < 3)%nat ->
  acol (fin2 P : list (list Exact)) (Z.of_nat c) = Ok (fin (coords c P)).
Proof.
  intros HF Hc; rewrite (list_rows P) by exact HF.
  rewrite (list_as_tab (coords c P) 0), fin_tab_fun; replace (length (coords c P)) with (length P) by (unfold coords; rewrite map_length; reflexivity).
  apply mapM_tab; intros i Hi; destruct c as [|[|[|]]]; try lia; reflexivity.
Qed.
Lemma reshape_fin (l : list R) nu nv : length l = (nu * nv)%nat ->
  reshape (fin l : list Exact) (Z.of_nat nu) (Z.of_nat nv)
  = Ok (tab nu (fun i => fin (tab nv (fun j => net nv l i j)) : list Exact)).
Proof.
  intros HL; unfold reshape.
  destruct (Z.ltb_spec (Z.of_nat nu) 0); [lia|]; destruct (Z.ltb_spec (Z.of_nat nv) 0); [lia|]; cbn [orb].
  rewrite zlen_fin; unfold len; rewrite HL, Nat2Z.inj_mul, Z.eqb_refl; cbn [negb].
  rewrite zrange_tab, map_tab; f_equal; apply tab_ext; intros i Hi.
  rewrite (list_as_tab l 0), fin_tab_fun, skipn_tab, firstn_tab, fin_tab_fun.
  assert (Hm : (Z.to_nat (i * Z.of_nat nv) + nv <= length l)%nat) by (rewrite HL; nia).
  rewrite Nat.min_l, Nat2Z.id by lia; apply tab_ext; intros j Hj.
  unfold net; rewrite <- (list_as_tab l 0); do 3 f_equal; nia.
Qed.
Lemma surf_arrays_ok p q nu nv U V P : Forall (fun row => length row = 3%nat) P -> length P = (nu * nv)%nat ->
  surf_arrays (surf_of p q nu nv U V P)
  = Ok (tab nu (fun i => fin (tab nv (net nv (coords 0 P) i)) : list Exact),
        tab nu (fun i => fin (tab nv (net nv (coords 1 P) i)) : list Exact),
        tab nu (fun i => fin (tab nv (net nv (coords 2 P) i)) : list Exact)).
Proof.
  intros HF HL; unfold surf_arrays, surf_of; cbn [s_ctrl s_nu s_nv].
  pose proof (acol_fin2 P 0 HF ltac:(lia)) as E0; pose proof (acol_fin2 P 1 HF ltac:(lia)) as E1; pose proof (acol_fin2 P 2 HF ltac:(lia)) as E2.
  cbn [Z.of_nat Pos.of_succ_nat Pos.succ] in E0, E1, E2; rewrite E0, E1, E2; cbn [bind].
  rewrite !reshape_fin by (unfold coords; rewrite map_length; exact HL); reflexivity.
Qed.

(** ** Contraction *)
Lemma bilinear_fin m k wu wv (f : Z -> Z -> R) :
  bilinear (fin (tab (S m) wu) : list Exact) (tab (S m) (fun i => fin (tab (S k) (f i)))) (fin (tab (S k) wv))
  = Ok (Fin (zsum 0 (S k) (fun j => zsum 0 (S m) (fun i => wu i * f i j) * wv j)) : Exact).
Proof.
  unfold bilinear, vecmat.
  unfold zlen at 1 2; unfold fin at 1; rewrite map_length, !tab_length, Z.eqb_refl.
  assert (W : width (tab (S m) (fun i => fin (tab (S k) (f i)) : list Exact)) = Z.of_nat (S k)).
  { rewrite tab_cons; cbn [width]; rewrite zlen_fin; unfold len; rewrite tab_length; reflexivity. }
  rewrite W, zrange_tab.
  assert (E : mapM (fun j => let* c := acol (tab (S m) (fun i => fin (tab (S k) (f i)) : list Exact)) j in
                matmul11 (fin (tab (S m) wu)) c) (tab (S k) (fun i => i))
     = Ok (tab (S k) (fun j => Fin (zsum 0 (S m) (fun i => wu i * f i j)) : Exact))).
  { apply mapM_tab; intros j Hj.
    assert (EC : acol (tab (S m) (fun i => fin (tab (S k) (f i)) : list Exact)) j
       = Ok (fin (tab (S m) (fun i => f i j)))).
    { rewrite fin_tab_fun; apply mapM_tab; intros i Hi; rewrite fin_tab_fun, aget_tab by exact Hj; reflexivity. }
    rewrite EC; cbn [bind]; rewrite E_matmul by (rewrite !tab_length; reflexivity); rewrite rdot_tab; reflexivity. }
  rewrite E; cbn [bind]; rewrite <- fin_tab_fun, E_matmul by (rewrite !tab_length; reflexivity).
  rewrite rdot_tab; reflexivity.
Qed.
Lemma slice2_net nu nv c p q s t : (Z.of_nat p <= s < Z.of_nat nu)%Z -> (Z.of_nat q <= t < Z.of_nat nv)%Z ->
  slice2 (tab nu (fun i => fin (tab nv (net nv c i)) : list Exact)) (s - Z.of_nat p) (s + 1) (t - Z.of_nat q) (t + 1)
  = tab (S p) (fun i => fin (tab (S q) (fun j => net nv c (s - Z.of_nat p + i) (t - Z.of_nat q + j)))).
Proof.
  intros Hs Ht; unfold slice2; rewrite slice_tab by lia; rewrite map_tab.
  replace (Z.to_nat (s + 1 - (s - Z.of_nat p))) with (S p) by lia; apply tab_ext; intros i Hi.
  rewrite !fin_tab_fun, slice_tab by lia; replace (Z.to_nat (t + 1 - (t - Z.of_nat q))) with (S q) by lia; reflexivity.
Qed.
(** The contraction for arbitrary weights. *)
Definition contract (s t : Z) (p q nv : nat) (wu wv : Z -> R) (c : list R) : R :=
  zsum (t - Z.of_nat q) (S q) (fun j => zsum (s - Z.of_nat p) (S p) (fun i => wu i * net nv c i j) * wv j).
Lemma surf_contract_ok p q nu nv U V P s t wu wv :
  (Z.of_nat p <= s < Z.of_nat nu)%Z -> (Z.of_nat q <= t < Z.of_nat nv)%Z ->
  surf_contract (surf_of p q nu nv U V P) s t
    (tab nu (fun i => fin (tab nv (net nv (coords 0 P) i)) : list Exact),
     tab nu (fun i => fin (tab nv (net nv (coords 1 P) i)) : list Exact),
     tab nu (fun i => fin (tab nv (net nv (coords 2 P) i)) : list Exact))
    (fin (tab (S p) (fun i => wu (s - Z.of_nat p + i)%Z))) (fin (tab (S q) (fun j => wv (t - Z.of_nat q + j)%Z)))
  = Ok (fin (map (fun c => contract s t p q nv wu wv (coords c P)) [0%nat; 1%nat; 2%nat])).
Proof.
  intros Hs Ht; unfold surf_contract, surf_of; cbn [s_pu s_pv]; cbv zeta.
  rewrite !slice2_net, !bilinear_fin by assumption; cbn [bind map fin].
  assert (G : forall c, contract s t p q nv wu wv c = zsum 0 (S q) (fun j =>
     zsum 0 (S p) (fun i => wu (s - Z.of_nat p + i)%Z * net nv c (s - Z.of_nat p + i) (t - Z.of_nat q + j)) * wv (t - Z.of_nat q + j)%Z)).
  { intros c; unfold contract.
    pose proof (zsum_shift 0 (t - Z.of_nat q) (S q) (fun j => zsum (s - Z.of_nat p) (S p) (fun i => wu i * net nv c i j) * wv j)) as E.
    rewrite Z.add_0_l in E; rewrite E; apply zsum_ext; intros j _.
    pose proof (zsum_shift 0 (s - Z.of_nat p) (S p) (fun i => wu i * net nv c i (j + (t - Z.of_nat q)))) as E2.
    rewrite Z.add_0_l in E2; rewrite E2; rewrite (Z.add_comm j); f_equal; apply zsum_ext; intros i _.
    rewrite (Z.add_comm i); reflexivity. }
  rewrite !G; reflexivity.
Qed.

(** ** The value on given spans *)
Definition span2 U V s t p q nv c u v : R :=
  contract s t p q nv (fun i => piece U s p i u) (fun j => piece V t q j v) c.
Definition span2_xyz U V s t p q nv P u v : list R :=
  map (fun c => span2 U V s t p q nv (coords c P) u v) [0%nat; 1%nat; 2%nat].

Definition found (n p : nat) (U : list R) (u : R) (s : Z) : Prop :=
  find_span (Z.of_nat n) (Z.of_nat p) (Fin u : Exact) (fin U) = Ok s /\ (Z.of_nat p <= s < Z.of_nat n)%Z /\
  kn U s < kn U (s + 1).

Lemma surf_point_span p q nu nv U V P u v s t :
  knots_for (Z.of_nat p) (Z.of_nat nu) U -> knots_for (Z.of_nat q) (Z.of_nat nv) V ->
  Forall (fun row => length row = 3%nat) P -> length P = (nu * nv)%nat ->
  0 <= u <= 1 -> 0 <= v <= 1 -> found nu p U u s -> found nv q V v t ->
  surf_point (surf_of p q nu nv U V P) (Fin u : Exact) (Fin v : Exact) = Ok (fin (span2_xyz U V s t p q nv P u v)).
Proof.
  intros (_ & _ & LU & HU) (_ & _ & LV & HV) HF HL Hu Hv (Es & Hs & Hs') (Et & Ht & Ht').
  unfold surf_point; rewrite (proj2 (validate_fin u) Hu), (proj2 (validate_fin v) Hv); cbn [negb].
  cbn [surf_of s_nu s_nv s_pu s_pv s_ku s_kv]; rewrite Es, Et; cbn [bind].
  rewrite !basis_functions_pieces by (try assumption; lia); cbn [bind].
  fold (surf_of p q nu nv U V P); rewrite surf_arrays_ok by assumption; cbn [bind].
  unfold pieces; rewrite (surf_contract_ok p q nu nv U V P s t (fun i => piece U s p i u) (fun j => piece V t q j v)) by assumption.
  reflexivity.
Qed.

(** Two readings as a curve of curves. *)
Lemma span2_v U V s t p q nu nv c u v : (Z.of_nat p <= s < Z.of_nat nu)%Z -> (Z.of_nat q <= t < Z.of_nat nv)%Z ->
  span2 U V s t p q nv c u v
  = span_sum V t q (tab nv (fun j => span_sum U s p (tab nu (fun i => net nv c i j)) u)) v.
Proof.
  intros Hs Ht; unfold span2, contract, span_sum; apply zsum_ext; intros j Hj.
  rewrite nth_tab, Z2Nat.id by lia; rewrite Rmult_comm; f_equal; apply zsum_ext; intros i Hi.
  rewrite nth_tab, Z2Nat.id by lia; reflexivity.
Qed.
Lemma span2_u U V s t p q nu nv c u v : (Z.of_nat p <= s < Z.of_nat nu)%Z -> (Z.of_nat q <= t < Z.of_nat nv)%Z ->
  span2 U V s t p q nv c u v
  = span_sum U s p (tab nu (fun i => span_sum V t q (tab nv (fun j => net nv c i j)) v)) u.
Proof.
  intros Hs Ht; unfold span2, contract, span_sum.
  rewrite (zsum_ext (t - Z.of_nat q) (S q) _ (fun j => zsum (s - Z.of_nat p) (S p) (fun i => piece U s p i u * (piece V t q j v * net nv c i j)))).
  - rewrite zsum_swap; apply zsum_ext; intros i Hi.
    rewrite nth_tab, Z2Nat.id, zsum_scal by lia; f_equal; apply zsum_ext; intros j Hj.
    rewrite nth_tab, Z2Nat.id by lia; reflexivity.
  - intros j Hj; rewrite <- zsum_scal_r; apply zsum_ext; intros i Hi; ring.
Qed.
Lemma surface_sum_v U V p q nu nv c u v :
  surface_sum U V p q nu nv c u v
  = curve_sum V q (tab nv (fun j => curve_sum U p (tab nu (fun i => net nv c i j)) u)) v.
Proof.
  unfold surface_sum, curve_sum; rewrite zsum_swap, tab_length; apply zsum_ext; intros j Hj.
  rewrite nth_tab, Z2Nat.id, tab_length by lia; rewrite <- zsum_scal; apply zsum_ext; intros i Hi.
  rewrite nth_tab, Z2Nat.id by lia; unfold net; ring.
Qed.

(** ** C39 *)
Lemma span2_surface p q nu nv U V c u v s t :
  clamped (Z.of_nat p) (Z.of_nat nu) U -> clamped (Z.of_nat q) (Z.of_nat nv) V ->
  (Z.of_nat p <= s < Z.of_nat nu)%Z -> (Z.of_nat q <= t < Z.of_nat nv)%Z ->
  kn U s < kn U (s + 1) -> kn V t < kn V (t + 1) ->
  kn U s <= u <= kn U (s + 1) -> kn V t <= v <= kn V (t + 1) ->
  u < kn U (s + 1) \/ continuous (Z.of_nat p) (Z.of_nat nu) U ->
  v < kn V (t + 1) \/ continuous (Z.of_nat q) (Z.of_nat nv) V ->
  span2 U V s t p q nv c u v = surface_sum U V p q nu nv c u v.
Proof.
  intros CU CV Hs Ht Hs' Ht' Hu Hv DU DV; rewrite (span2_v U V s t p q nu nv), surface_sum_v by assumption.
  rewrite (span_sum_curve q (Z.of_nat nv)) by (try assumption; rewrite tab_length; reflexivity).
  unfold curve_sum at 1 2; rewrite !tab_length; apply zsum_ext; intros j Hj; f_equal.
  rewrite !nth_tab by lia.
  rewrite (span_sum_curve p (Z.of_nat nu)) by (try assumption; rewrite tab_length; reflexivity); reflexivity.
Qed.
Lemma surf_point_sum p q nu nv U V P u v s t :
  clamped (Z.of_nat p) (Z.of_nat nu) U -> clamped (Z.of_nat q) (Z.of_nat nv) V ->
  Forall (fun row => length row = 3%nat) P -> length P = (nu * nv)%nat -> 0 <= u <= 1 -> 0 <= v <= 1 ->
  find_span (Z.of_nat nu) (Z.of_nat p) (Fin u : Exact) (fin U) = Ok s ->
  find_span (Z.of_nat nv) (Z.of_nat q) (Fin v : Exact) (fin V) = Ok t ->
  (Z.of_nat p <= s < Z.of_nat nu)%Z -> (Z.of_nat q <= t < Z.of_nat nv)%Z ->
  kn U s < kn U (s + 1) -> kn V t < kn V (t + 1) ->
  kn U s <= u <= kn U (s + 1) -> kn V t <= v <= kn V (t + 1) ->
  u < kn U (s + 1) \/ continuous (Z.of_nat p) (Z.of_nat nu) U ->
  v < kn V (t + 1) \/ continuous (Z.of_nat q) (Z.of_nat nv) V ->
  surf_point (surf_of p q nu nv U V P) (Fin u : Exact) (Fin v : Exact) = Ok (fin (surface_xyz U V p q nu nv P u v)).
Proof.
  intros CU CV HF HL Hu Hv Es Et Hs Ht Hs' Ht' Bu Bv DU DV.
  rewrite (surf_point_span p q nu nv U V P u v s t (proj1 CU) (proj1 CV) HF HL Hu Hv (conj Es (conj Hs Hs')) (conj Et (conj Ht Ht'))).
  do 2 f_equal; unfold span2_xyz, surface_xyz; apply map_ext; intros c; apply span2_surface; assumption.
Qed.
Lemma surf_point_strict p q nu nv U V P u v :
  clamped (Z.of_nat p) (Z.of_nat nu) U -> clamped (Z.of_nat q) (Z.of_nat nv) V -> (1 <= p)%nat -> (1 <= q)%nat ->
  Forall (fun row => length row = 3%nat) P -> length P = (nu * nv)%nat ->
  kn U (Z.of_nat p) = 0 -> kn U (Z.of_nat nu) = 1 -> strict (Z.of_nat p) (Z.of_nat nu) U ->
  kn V (Z.of_nat q) = 0 -> kn V (Z.of_nat nv) = 1 -> strict (Z.of_nat q) (Z.of_nat nv) V ->
  0 <= u <= 1 -> (close (1/1000000) (1/100000000) u 1 -> kn U (Z.of_nat nu - 1) <= u) ->
  0 <= v <= 1 -> (close (1/1000000) (1/100000000) v 1 -> kn V (Z.of_nat nv - 1) <= v) ->
  surf_point (surf_of p q nu nv U V P) (Fin u : Exact) (Fin v : Exact) = Ok (fin (surface_xyz U V p q nu nv P u v)).
Proof.
  intros CU CV Hp Hq HF HL U0 U1 SU V0 V1 SV Hu Tu Hv Tv.
  destruct (find_span_strict _ _ U u CU SU) as (s & Es & Hs & Bu & Hs'); [lra|rewrite U1; exact Tu|].
  destruct (find_span_strict _ _ V v CV SV) as (t & Et & Ht & Bv & Ht'); [lra|rewrite V1; exact Tv|].
  apply (surf_point_sum p q nu nv U V P u v s t); try assumption; right; apply strict_continuous; try assumption; lia.
Qed.
Lemma surf_point_rejects (K : Num) (s : surf K) (u v : K) :
  validate_knot u = false \/ validate_knot v = false -> surf_point s u v = Err ValueError.
Proof.
  intros H; unfold surf_point; destruct (validate_knot u); cbn [negb]; [|reflexivity].
  destruct H as [H|H]; [discriminate|rewrite H; reflexivity].
Qed.
Lemma validate_outside (u : Exact) : (forall x, u = Fin x -> x < 0 \/ 1 < x) -> validate_knot u = false.
Proof.
  intros H; destruct u as [x| | |]; try reflexivity.
  destruct (validate_knot (Fin x : Exact)) eqn:E; [|reflexivity]; apply validate_fin in E.
  destruct (H x eq_refl); lra.
Qed.
Lemma surf_point_outside (s : surf Exact) (u v : Exact) :
  (forall x, u = Fin x -> x < 0 \/ 1 < x) \/ (forall x, v = Fin x -> x < 0 \/ 1 < x) ->
  surf_point s u v = Err ValueError.
Proof. intros [H|H]; apply surf_point_rejects; [left|right]; apply validate_outside; exact H. Qed.

(** ** C40 *)
Lemma coords_net_col c nu nv P j : length P = (nu * nv)%nat -> (j < nv)%nat ->
  coords c (net_col nu nv P j) = tab nu (fun i => net nv (coords c P) i (Z.of_nat j)).
Proof.
  intros HL Hj; unfold coords at 1, net_col; rewrite map_map; unfold tab; apply map_ext_in; intros i Hi.
  apply in_seq in Hi; unfold net; rewrite nth_coords; do 2 f_equal; nia.
Qed.
Lemma coords_net_row c nv P i :
  coords c (net_row nv P i) = tab nv (fun j => net nv (coords c P) (Z.of_nat i) j).
Proof.
  unfold coords at 1, net_row; rewrite map_map; unfold tab; apply map_ext_in; intros j Hj.
  unfold net; rewrite nth_coords; do 2 f_equal; nia.
Qed.
Lemma net_col_shape {A} nu nv (P : list (list A)) j : Forall (fun row => length row = 3%nat) P -> length P = (nu * nv)%nat -> (j < nv)%nat ->
  Forall (fun row => length row = 3%nat) (net_col nu nv P j) /\ len (net_col nu nv P j) = Z.of_nat nu.
Proof.
  intros HF HL Hj; unfold net_col; split.
  - rewrite Forall_map; apply Forall_forall; intros i Hi; apply in_seq in Hi.
    apply (proj1 (Forall_forall _ _) HF), nth_In; nia.
  - unfold len; rewrite map_length, seq_length; reflexivity.
Qed.
Lemma net_row_shape {A} nu nv (P : list (list A)) i : Forall (fun row => length row = 3%nat) P -> length P = (nu * nv)%nat -> (i < nu)%nat ->
  Forall (fun row => length row = 3%nat) (net_row nv P i) /\ len (net_row nv P i) = Z.of_nat nv.
Proof.
  intros HF HL Hj; unfold net_row; split.
  - rewrite Forall_map; apply Forall_forall; intros j Hi; apply in_seq in Hi.
    apply (proj1 (Forall_forall _ _) HF), nth_In; nia.
  - unfold len; rewrite map_length, seq_length; reflexivity.
Qed.

Lemma found_start q nv V : tight (Z.of_nat q) (Z.of_nat nv) V -> kn V (Z.of_nat q) = 0 -> kn V (Z.of_nat nv) = 1 ->
  found nv q V 0 (Z.of_nat q).
Proof.
  intros HT V0 V1; pose proof HT as (CV & Ha & Hb); destruct (clamped_facts _ _ V CV) as (_ & Hn & _).
  destruct (find_span_ok _ _ V 0 (proj1 CV) ltac:(lra)) as (t & E & Ht).
  assert (t = Z.of_nat q).
  { apply (tight_span_start _ _ V t HT); rewrite V0; [exact E|rewrite V1; intros C; exfalso; exact (not_close_01 C)]. }
  subst t; split; [exact E|]; split; [lia|exact Ha].
Qed.
Lemma found_end q nv V : tight (Z.of_nat q) (Z.of_nat nv) V -> kn V (Z.of_nat nv) = 1 ->
  found nv q V 1 (Z.of_nat nv - 1).
Proof.
  intros HT V1; pose proof HT as (CV & Ha & Hb); destruct (clamped_facts _ _ V CV) as (_ & Hn & _).
  pose proof (tight_span_end _ _ V HT) as E; rewrite V1 in E.
  split; [exact E|]; split; [lia|]; replace (Z.of_nat nv - 1 + 1)%Z with (Z.of_nat nv) by lia; exact Hb.
Qed.
Lemma last_tab_nth n (f : Z -> R) : (1 <= n)%nat -> last (tab n f) 0 = f (Z.of_nat n - 1)%Z.
Proof. intros H; rewrite last_nth, tab_length, nth_tab by lia; f_equal; lia. Qed.

Section Edges.
Variables (p q nu nv : nat) (U V : list R) (P : list (list R)).
Hypothesis HF : Forall (fun row => length row = 3%nat) P.
Hypothesis HL : length P = (nu * nv)%nat.

Lemma edge_v0 u s : knots_for (Z.of_nat p) (Z.of_nat nu) U -> tight (Z.of_nat q) (Z.of_nat nv) V ->
  kn V (Z.of_nat q) = 0 -> kn V (Z.of_nat nv) = 1 -> 0 <= u <= 1 -> found nu p U u s ->
  surf_point (surf_of p q nu nv U V P) (Fin u : Exact) (Fin 0 : Exact)
  = curve_point (Z.of_nat p) (fin2 (net_col nu nv P 0)) (fin U) (Fin u : Exact).
Proof.
  intros KU TV V0 V1 Hu FU; pose proof (found_start q nv V TV V0 V1) as FV.
  pose proof FU as (Es & Hs & Hs'); pose proof FV as (Et & Ht & Ht').
  rewrite (surf_point_span p q nu nv U V P u 0 s (Z.of_nat q)) by (try assumption; try lra; apply TV).
  destruct (net_col_shape nu nv P 0 HF HL ltac:(lia)) as [HF' HL'].
  destruct KU as (_ & _ & LU & HU).
  rewrite (curve_point_span p U _ u s); rewrite ?HL'; try assumption.
  do 2 f_equal; unfold span2_xyz, span_xyz; apply map_ext; intros c.
  rewrite (span2_v U V s (Z.of_nat q) p q nu nv) by assumption.
  pose proof (span_sum_start q (Z.of_nat nv) V) as G; rewrite V0 in G; rewrite G by exact TV.
  rewrite nth_tab, coords_net_col by (try assumption; lia); reflexivity.
Qed.
Lemma edge_v1 u s : knots_for (Z.of_nat p) (Z.of_nat nu) U -> tight (Z.of_nat q) (Z.of_nat nv) V ->
  kn V (Z.of_nat nv) = 1 -> 0 <= u <= 1 -> found nu p U u s ->
  surf_point (surf_of p q nu nv U V P) (Fin u : Exact) (Fin 1 : Exact)
  = curve_point (Z.of_nat p) (fin2 (net_col nu nv P (nv - 1))) (fin U) (Fin u : Exact).
Proof.
  intros KU TV V1 Hu FU; pose proof (found_end q nv V TV V1) as FV.
  pose proof FU as (Es & Hs & Hs'); pose proof FV as (Et & Ht & Ht').
  rewrite (surf_point_span p q nu nv U V P u 1 s (Z.of_nat nv - 1)) by (try assumption; try lra; apply TV).
  destruct (net_col_shape nu nv P (nv - 1) HF HL ltac:(lia)) as [HF' HL'].
  destruct KU as (_ & _ & LU & HU).
  rewrite (curve_point_span p U _ u s); rewrite ?HL'; try assumption.
  do 2 f_equal; unfold span2_xyz, span_xyz; apply map_ext; intros c.
  rewrite (span2_v U V s _ p q nu nv) by assumption.
  pose proof (span_sum_end q (Z.of_nat nv) V) as G; rewrite V1 in G; rewrite G by (try exact TV; rewrite tab_length; reflexivity).
  rewrite last_tab_nth, coords_net_col by (try assumption; lia).
  replace (Z.of_nat (nv - 1)) with (Z.of_nat nv - 1)%Z by lia; reflexivity.
Qed.
Lemma edge_u0 v t : knots_for (Z.of_nat q) (Z.of_nat nv) V -> tight (Z.of_nat p) (Z.of_nat nu) U ->
  kn U (Z.of_nat p) = 0 -> kn U (Z.of_nat nu) = 1 -> 0 <= v <= 1 -> found nv q V v t ->
  surf_point (surf_of p q nu nv U V P) (Fin 0 : Exact) (Fin v : Exact)
  = curve_point (Z.of_nat q) (fin2 (net_row nv P 0)) (fin V) (Fin v : Exact).
Proof.
  intros KV TU U0 U1 Hv FV; pose proof (found_start p nu U TU U0 U1) as FU.
  pose proof FU as (Es & Hs & Hs'); pose proof FV as (Et & Ht & Ht').
  rewrite (surf_point_span p q nu nv U V P 0 v (Z.of_nat p) t) by (try assumption; try lra; apply TU).
  destruct (net_row_shape nu nv P 0 HF HL ltac:(lia)) as [HF' HL'].
  destruct KV as (_ & _ & LV & HV).
  rewrite (curve_point_span q V _ v t); rewrite ?HL'; try assumption.
  do 2 f_equal; unfold span2_xyz, span_xyz; apply map_ext; intros c.
  rewrite (span2_u U V (Z.of_nat p) t p q nu nv) by assumption.
  pose proof (span_sum_start p (Z.of_nat nu) U) as G; rewrite U0 in G; rewrite G by exact TU.
  rewrite nth_tab, coords_net_row by lia; reflexivity.
Qed.
Lemma edge_u1 v t : knots_for (Z.of_nat q) (Z.of_nat nv) V -> tight (Z.of_nat p) (Z.of_nat nu) U ->
  kn U (Z.of_nat nu) = 1 -> 0 <= v <= 1 -> found nv q V v t ->
  surf_point (surf_of p q nu nv U V P) (Fin 1 : Exact) (Fin v : Exact)
  = curve_point (Z.of_nat q) (fin2 (net_row nv P (nu - 1))) (fin V) (Fin v : Exact).
Proof.
  intros KV TU U1 Hv FV; pose proof (found_end p nu U TU U1) as FU.
  pose proof FU as (Es & Hs & Hs'); pose proof FV as (Et & Ht & Ht').
  rewrite (surf_point_span p q nu nv U V P 1 v (Z.of_nat nu - 1) t) by (try assumption; try lra; apply TU).
  destruct (net_row_shape nu nv P (nu - 1) HF HL ltac:(lia)) as [HF' HL'].
  destruct KV as (_ & _ & LV & HV).
  rewrite (curve_point_span q V _ v t); rewrite ?HL'; try assumption.
  do 2 f_equal; unfold span2_xyz, span_xyz; apply map_ext; intros c.
  rewrite (span2_u U V _ t p q nu nv) by assumption.
  pose proof (span_sum_end p (Z.of_nat nu) U) as G; rewrite U1 in G; rewrite G by (try exact TU; rewrite tab_length; reflexivity).
  rewrite last_tab_nth, coords_net_row by lia.
  replace (Z.of_nat (nu - 1)) with (Z.of_nat nu - 1)%Z by lia; reflexivity.
Qed.
End Edges.

(** The edges as curve objects. *)
Lemma surface_edges p q nu nv U V P d : Forall (fun row => length row = 3%nat) P -> length P = (nu * nv)%nat ->
  tight (Z.of_nat p) (Z.of_nat nu) U -> tight (Z.of_nat q) (Z.of_nat nv) V ->
  kn U (Z.of_nat p) = 0 -> kn U (Z.of_nat nu) = 1 -> kn V (Z.of_nat q) = 0 -> kn V (Z.of_nat nv) = 1 ->
  let S := surf_of p q nu nv U V P in
  (forall u s, 0 <= u <= 1 -> find_span (Z.of_nat nu) (Z.of_nat p) (Fin u : Exact) (fin U) = Ok s -> kn U s < kn U (s + 1) ->
     surf_point S (Fin u : Exact) (Fin 0 : Exact) = single_point (curve_of (Z.of_nat p) U (net_col nu nv P 0) d) (Fin u : Exact) /\
     surf_point S (Fin u : Exact) (Fin 1 : Exact) = single_point (curve_of (Z.of_nat p) U (net_col nu nv P (nv - 1)) d) (Fin u : Exact)) /\
  (forall v t, 0 <= v <= 1 -> find_span (Z.of_nat nv) (Z.of_nat q) (Fin v : Exact) (fin V) = Ok t -> kn V t < kn V (t + 1) ->
     surf_point S (Fin 0 : Exact) (Fin v : Exact) = single_point (curve_of (Z.of_nat q) V (net_row nv P 0) d) (Fin v : Exact) /\
     surf_point S (Fin 1 : Exact) (Fin v : Exact) = single_point (curve_of (Z.of_nat q) V (net_row nv P (nu - 1)) d) (Fin v : Exact)).
Proof.
  intros HF HL TU TV U0 U1 V0 V1; cbn zeta.
  assert (R : forall p n U u s, clamped (Z.of_nat p) (Z.of_nat n) U -> kn U s < kn U (s + 1) ->
     find_span (Z.of_nat n) (Z.of_nat p) (Fin u : Exact) (fin U) = Ok s -> found n p U u s).
  { clear; intros p n U u s HC Hs E; destruct (clamped_facts _ _ U HC) as (_ & Hn & _ & HU & Hl & Hr & _).
    split; [exact E|]; split; [|exact Hs]; split.
    - destruct (Z_le_dec (Z.of_nat p) s); [assumption|]; rewrite (Hl s), (Hl (s + 1)%Z) in Hs by lia; lra.
    - destruct (Z_lt_dec s (Z.of_nat n)); [assumption|]; rewrite (Hr s), (Hr (s + 1)%Z) in Hs by lia; lra. }
  split.
  - intros u s Hu E Hs; pose proof (R _ _ _ _ _ (proj1 TU) Hs E) as F.
    rewrite !single_point_inside by exact Hu; split.
    + apply (edge_v0 p q nu nv U V P HF HL u s); try assumption; apply TU.
    + apply (edge_v1 p q nu nv U V P HF HL u s); try assumption; apply TU.
  - intros v t Hv E Ht; pose proof (R _ _ _ _ _ (proj1 TV) Ht E) as F.
    rewrite !single_point_inside by exact Hv; split.
    + apply (edge_u0 p q nu nv U V P HF HL v t); try assumption; apply TV.
    + apply (edge_u1 p q nu nv U V P HF HL v t); try assumption; apply TV.
Qed.
Lemma net_col_first {A} nu nv (P : list (list A)) j : (1 <= nu)%nat -> nth 0 (net_col nu nv P j) [] = nth j P [].
Proof. intros H; unfold net_col; destruct nu; [lia|reflexivity]. Qed.
Lemma net_col_last {A} nu nv (P : list (list A)) j : (1 <= nu)%nat -> last (net_col nu nv P j) [] = nth ((nu - 1) * nv + j) P [].
Proof.
  intros H; unfold net_col; destruct nu as [|n]; [lia|].
  rewrite seq_S, map_app; cbn [map Nat.add]; rewrite last_last; do 3 f_equal; lia.
Qed.
Lemma surface_corners p q nu nv U V P : Forall (fun row => length row = 3%nat) P -> length P = (nu * nv)%nat ->
  tight (Z.of_nat p) (Z.of_nat nu) U -> tight (Z.of_nat q) (Z.of_nat nv) V ->
  kn U (Z.of_nat p) = 0 -> kn U (Z.of_nat nu) = 1 -> kn V (Z.of_nat q) = 0 -> kn V (Z.of_nat nv) = 1 ->
  let S := surf_of p q nu nv U V P in
  surf_point S (Fin 0 : Exact) (Fin 0 : Exact) = Ok (fin (nth 0 P [])) /\
  surf_point S (Fin 0 : Exact) (Fin 1 : Exact) = Ok (fin (nth (nv - 1) P [])) /\
  surf_point S (Fin 1 : Exact) (Fin 0 : Exact) = Ok (fin (nth ((nu - 1) * nv) P [])) /\
  surf_point S (Fin 1 : Exact) (Fin 1 : Exact) = Ok (fin (last P [])).
Proof.
  intros HF HL TU TV U0 U1 V0 V1; cbn zeta.
  destruct (surface_edges p q nu nv U V P 0 HF HL TU TV U0 U1 V0 V1) as [EU _]; cbn zeta in EU.
  destruct (found_start p nu U TU U0 U1) as (E0 & H0 & L0); destruct (found_end p nu U TU U1) as (E1 & H1 & L1).
  destruct (EU 0 _ ltac:(lra) E0 L0) as [A B]; destruct (EU 1 _ ltac:(lra) E1 L1) as [C D].
  destruct (clamped_facts _ _ V (proj1 TV)) as (_ & Hnv & _).
  destruct (net_col_shape nu nv P 0 HF HL ltac:(lia)) as [F0 N0].
  destruct (net_col_shape nu nv P (nv - 1) HF HL ltac:(lia)) as [F1 N1].
  destruct (single_point_ends p U (net_col nu nv P 0) 0) as [X0 X1]; rewrite ?N0; try assumption.
  destruct (single_point_ends p U (net_col nu nv P (nv - 1)) 0) as [Y0 Y1]; rewrite ?N1; try assumption.
  rewrite A, B, C, D, X0, X1, Y0, Y1, !net_col_first, !net_col_last by lia.
  rewrite Nat.add_0_r; repeat split; do 2 f_equal.
  rewrite last_nth, HL; f_equal; destruct (clamped_facts _ _ U (proj1 TU)) as (_ & Hnu & _); nia.
Qed.
Lemma surface_box p q nu nv U V P u v s t :
  knots_for (Z.of_nat p) (Z.of_nat nu) U -> knots_for (Z.of_nat q) (Z.of_nat nv) V ->
  Forall (fun row => length row = 3%nat) P -> length P = (nu * nv)%nat -> 0 <= u <= 1 -> 0 <= v <= 1 ->
  find_span (Z.of_nat nu) (Z.of_nat p) (Fin u : Exact) (fin U) = Ok s ->
  find_span (Z.of_nat nv) (Z.of_nat q) (Fin v : Exact) (fin V) = Ok t ->
  (Z.of_nat p <= s < Z.of_nat nu)%Z -> (Z.of_nat q <= t < Z.of_nat nv)%Z ->
  kn U s < kn U (s + 1) -> kn V t < kn V (t + 1) ->
  kn U s <= u <= kn U (s + 1) -> kn V t <= v <= kn V (t + 1) ->
  exists w, surf_point (surf_of p q nu nv U V P) (Fin u : Exact) (Fin v : Exact) = Ok (fin w) /\ length w = 3%nat /\
    forall c lo hi, (c < 3)%nat ->
      (forall i j, (s - Z.of_nat p <= i <= s)%Z -> (t - Z.of_nat q <= j <= t)%Z ->
         lo <= nth c (nth (Z.to_nat (i * Z.of_nat nv + j)) P []) 0 <= hi) ->
      lo <= nth c w 0 <= hi.
Proof.
  intros KU KV HF HL Hu Hv Es Et Hs Ht Hs' Ht' Bu Bv.
  rewrite (surf_point_span p q nu nv U V P u v s t KU KV HF HL Hu Hv (conj Es (conj Hs Hs')) (conj Et (conj Ht Ht'))).
  exists (span2_xyz U V s t p q nv P u v); split; [reflexivity|]; split; [reflexivity|].
  intros c lo hi Hc HB; unfold span2_xyz; rewrite nth_map3 by exact Hc.
  rewrite (span2_v U V s t p q nu nv) by assumption.
  apply span_sum_between; try assumption; [apply KV|]; intros j Hj; rewrite nth_tab by lia.
  apply span_sum_between; try assumption; [apply KU|]; intros i Hi; rewrite nth_tab by lia.
  unfold net; rewrite nth_coords, !Z2Nat.id by lia; apply HB; assumption.
Qed.
