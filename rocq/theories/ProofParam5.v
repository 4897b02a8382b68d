(** Derivatives of curves, and when projections succeed (model: ModelParam.v),
    in exact arithmetic. *)
From Verif Require Import Py PyLemmas Num ModelKnots ModelBasis ModelCurve ModelSurface ModelParam Spec SpecParam MathCox MathKnots MathDeriv
  ProofNum ProofSpan ProofBasis ProofSpan2 ProofKnots ProofInsert2 ProofDers ProofDers2 ProofCurve ProofCurve2 ProofSurface ProofSurface2 ProofInit
  ProofParam ProofParam2 ProofParam3 ProofParam4 ProofFit7.
Open Scope R_scope.

(** ** Derivatives of a curve *)
Definition curve_ders (U : list R) (s : Z) (p k : nat) (c : list R) (u : R) : R :=
  zsum 0 (length c) (fun i => Dx (delta s) (kn U) k p i u * nth (Z.to_nat i) c 0).
Lemma curve_ders_true U s p k c : nondecreasing U -> nth_derivative k (curve_piece U s p c) (curve_ders U s p k c).
Proof.
  intros HU; unfold curve_piece, curve_ders.
  apply (nd_zsum k 0 (length c) (fun i u => piece U s p i u * nth (Z.to_nat i) c 0)
    (fun i u => Dx (delta s) (kn U) k p i u * nth (Z.to_nat i) c 0)); intros i.
  apply (nd_ext k (fun u => nth (Z.to_nat i) c 0 * piece U s p i u) _ (fun u => nth (Z.to_nat i) c 0 * Dx (delta s) (kn U) k p i u));
    [intros; ring|intros; ring|].
  apply nd_scal, (Dx_nth_derivative (delta s) (kn U) (kn_mono U HU)).
Qed.
Definition ders_row (U : list R) (s : Z) (p : nat) (P : list (list R)) (u : R) (k : Z) : list R :=
  map (fun c => curve_ders U s p (Z.to_nat k) (coords c P) u) [0%nat; 1%nat; 2%nat].
Lemma curve_ders_window U s p k c u : (Z.of_nat p <= s < len c)%Z ->
  zsum 0 (S p) (fun i => Dx (delta s) (kn U) k p (s - Z.of_nat p + i) u * nth (Z.to_nat (s - Z.of_nat p + i)) c 0)
  = curve_ders U s p k c u.
Proof.
  intros Hs; unfold curve_ders; unfold len in Hs.
  rewrite (zsum_window 0 (length c) (s - Z.of_nat p) (S p)); [|lia|lia|].
  - pose proof (zsum_shift 0 (s - Z.of_nat p) (S p) (fun i => Dx (delta s) (kn U) k p i u * nth (Z.to_nat i) c 0)) as E.
    rewrite Z.add_0_l in E; rewrite E; apply zsum_ext; intros i _; f_equal; [f_equal|do 2 f_equal]; lia.
  - intros i Hi Ho; rewrite Dx_support by lia; ring.
Qed.

Lemma derivatives3_ok p U P d u s o : knots_for (Z.of_nat p) (len P) U -> Forall (fun row => length row = 3%nat) P ->
  0 <= u <= 1 -> find_span (len P) (Z.of_nat p) (Fin u : Exact) (fin U) = Ok s -> (Z.of_nat p <= s < len P)%Z ->
  kn U s < kn U (s + 1) -> (2 <= o)%nat ->
  derivatives3 (curve_of (Z.of_nat p) U P d) (Fin u : Exact) (Z.of_nat o)
  = Ok (fin2 (tab (S (Nat.min o p)) (ders_row U s p P u))).
Proof.
  intros (_ & _ & LU & HU) HF Hu Es Hs Hlt Ho; unfold derivatives3.
  rewrite (proj2 (validate_fin u) Hu); cbn [negb].
  destruct (Z.leb_spec (Z.of_nat o) 1); [lia|]; unfold curve_of, curve_fields; cbn [c_degree c_ctrl c_kv bind]; cbv zeta.
  rewrite zlen_fin2, Es; cbn [bind]; rewrite <- Nat2Z.inj_min.
  rewrite basis_function_ders_table by (try assumption; lia); cbn [bind].
  set (mo := Nat.min o p); rewrite (np_full2_tab (S mo) 3) by lia; cbn [bind].
  set (Z3 := repeat (0 : Exact)%num 3).
  assert (E3 : tab2 (S mo) 3 (fun _ _ => (0 : Exact)%num) = tab (S mo) (fun _ => Z3)) by reflexivity.
  rewrite E3; clear E3.
  rewrite zlen_tab.
  rewrite (for_range_fun (fun k => tab (S mo) (fun i => if (i <? k)%Z then fin (ders_row U s p P u i) else Z3)) 0 (Z.of_nat (S mo))).
  - f_equal; unfold fin2; rewrite map_tab; apply tab_ext; intros i Hi; destruct (Z.ltb_spec i (Z.of_nat (S mo))); [reflexivity|lia].
  - lia.
  - apply tab_ext; intros i Hi; destruct (Z.ltb_spec i 0); [lia|reflexivity].
  - intros k Hk; unfold curve_deriv_row3.
    replace k with (Z.of_nat (Z.to_nat k)) at 1 by lia.
    rewrite (ders_col 0 0 0 0 [] 0 0 eq_refl) by lia; cbn [bind].
    replace (s + 1)%Z with (s - Z.of_nat p + Z.of_nat (S p))%Z by lia.
    pose proof (active_col P (s - Z.of_nat p) (S p) 0 HF ltac:(lia) ltac:(lia) ltac:(lia)) as A0; change (Z.of_nat 0) with 0%Z in A0.
    pose proof (active_col P (s - Z.of_nat p) (S p) 1 HF ltac:(lia) ltac:(lia) ltac:(lia)) as A1; change (Z.of_nat 1) with 1%Z in A1.
    pose proof (active_col P (s - Z.of_nat p) (S p) 2 HF ltac:(lia) ltac:(lia) ltac:(lia)) as A2; change (Z.of_nat 2) with 2%Z in A2.
    rewrite A0; cbn [bind]; rewrite E_matmul by (rewrite !tab_length; reflexivity); cbn [bind].
    rewrite A1; cbn [bind]; rewrite E_matmul by (rewrite !tab_length; reflexivity); cbn [bind].
    rewrite A2; cbn [bind]; rewrite E_matmul by (rewrite !tab_length; reflexivity); cbn [bind].
    rewrite !rdot_tab, !curve_ders_window by (unfold len, coords in *; rewrite map_length; exact Hs).
    change [?a; ?b; ?c] with (fin (ders_row U s p P u k)).
    rewrite (aset_row_tab _ _ _ _ 3); [|lia| |reflexivity].
    + f_equal; apply tab_ext; intros i Hi; unfold fupd.
      destruct (Z.eqb_spec i k) as [->|E].
      * destruct (Z.ltb_spec k (k + 1)); [reflexivity|lia].
      * destruct (Z.ltb_spec i (k + 1)), (Z.ltb_spec i k); try lia; reflexivity.
    + destruct (_ <? _)%Z; reflexivity.
Qed.

Lemma derivatives3_true p U P d u s o : knots_for (Z.of_nat p) (len P) U -> Forall (fun row => length row = 3%nat) P ->
  0 <= u <= 1 -> find_span (len P) (Z.of_nat p) (Fin u : Exact) (fin U) = Ok s -> (Z.of_nat p <= s < len P)%Z ->
  kn U s < kn U (s + 1) -> (2 <= o)%nat ->
  exists m, derivatives3 (curve_of (Z.of_nat p) U P d) (Fin u : Exact) (Z.of_nat o) = Ok (fin2 m) /\
    length m = S (Nat.min o p) /\ Forall (fun row => length row = 3%nat) m /\
    single_point (curve_of (Z.of_nat p) U P d) (Fin u : Exact) = Ok (fin (nth 0 m [])) /\
    (forall k c, (k <= o)%nat -> (k <= p)%nat -> (c < 3)%nat ->
       exists G, nth_derivative k (curve_piece U s p (coords c P)) G /\ nth c (nth k m []) 0 = G u).
Proof.
  intros HK HF Hu Es Hs Hlt Ho; eexists; split; [apply derivatives3_ok; eassumption|].
  split; [apply tab_length|]; split; [apply Forall_tab; intros; reflexivity|]; split.
  - rewrite single_point_inside by exact Hu; rewrite (curve_point_span p U P u s) by (try assumption; apply HK).
    rewrite nth_tab by lia; unfold span_xyz, ders_row; do 2 f_equal; apply map_ext; intros c.
    rewrite <- curve_ders_window by (unfold len, coords in *; rewrite map_length; exact Hs).
    unfold span_sum.
    pose proof (zsum_shift 0 (s - Z.of_nat p) (S p) (fun i => piece U s p i u * nth (Z.to_nat i) (coords c P) 0)) as E.
    rewrite Z.add_0_l in E; rewrite E; apply zsum_ext; intros i _.
    match goal with |- piece U s p ?a u * _ = _ => replace a with (s - Z.of_nat p + i)%Z by lia end; reflexivity.
  - intros k c H1 H2 Hc; exists (curve_ders U s p k (coords c P)); split; [apply curve_ders_true; apply HK|].
    rewrite nth_tab by lia; unfold ders_row; rewrite nth_map3, Nat2Z.id by exact Hc; reflexivity.
Qed.

(** ** When the projection on a curve succeeds *)
Lemma dotR_zero a : dotR a a = 0 -> forall k, nth k a 0 = 0.
Proof.
  induction a as [|x t IH]; intros H k; [destruct k; reflexivity|].
  assert (E : dotR (x :: t) (x :: t) = x * x + dotR t t) by reflexivity; rewrite E in H.
  pose proof (dotR_self_nonneg t); pose proof (Rle_0_sqr x) as Q; unfold Rsqr in Q.
  destruct k as [|k]; cbn [nth]; [apply Rsqr_0_uniq; unfold Rsqr; lra|apply IH; lra].
Qed.
Lemma normR_zero a : normR a = 0 -> forall k, nth k a 0 = 0.
Proof. intros H; apply dotR_zero, sqrt_eq_0; [apply dotR_self_nonneg|exact H]. Qed.
Lemma normR_sqr a : normR a * normR a = dotR a a.
Proof. apply sqrt_sqrt, dotR_self_nonneg. Qed.
Lemma dotR_null a : forall b, (forall k, nth k a 0 = 0) -> dotR a b = 0.
Proof.
  induction a as [|x t IH]; intros b H; [reflexivity|]; destruct b as [|y b]; [reflexivity|].
  assert (E : dotR (x :: t) (y :: b) = x * y + dotR t b) by reflexivity; rewrite E, IH by (intros k; apply (H (S k))).
  rewrite (H O : x = 0); ring.
Qed.
Lemma rows_of (c : curve_beh Exact) u pt d1 d2 rest : cb_ders c u = Ok (fin2 ([pt; d1; d2] ++ rest)) ->
  curve_rows c u = Ok (fin pt, fin d1, fin d2).
Proof.
  intros E; unfold curve_rows; rewrite E; cbn [bind].
  match goal with |- context [fin2 ?l0] => set (l := l0) end.
  assert (LE : (3 <= zlen (fin2 l : list (list Exact)))%Z) by (rewrite zlen_fin2; unfold l, len; rewrite app_length; cbn [length]; lia).
  rewrite !(aget_nth _ _ ([] : list Exact)) by lia; reflexivity.
Qed.
Section Total.
Variables (c : curve_beh Exact) (pt d1 d2 : R -> list R) (P : list R) (e1 e2 : R).
Hypotheses (HC : proper_curve c pt d1 d2) (LP : length P = 3%nat) (He1 : 0 <= e1) (He2 : 0 <= e2).
Definition singular (u : R) : Prop := 0 <= u <= 1 /\ (forall k, nth k (d1 u) 0 = 0) /\ dotR (d2 u) (subR (pt u) P) = 0.
Let res_at u := subR (pt u) P.
Lemma res_len u : 0 <= u <= 1 -> length (res_at u) = 3%nat.
Proof. intros Hu; destruct (proj1 HC u Hu) as (_ & L & _); unfold res_at; rewrite subR_length; congruence. Qed.
Lemma dist_at u : 0 <= u <= 1 -> curve_dist c (fin P) (Fin u : Exact) = Ok (Fin (normR (res_at u)) : Exact).
Proof.
  intros Hu; destruct (proj1 HC u Hu) as (E & L & _); unfold curve_dist; rewrite E; cbn [bind].
  rewrite E_np_sub by congruence; cbn [bind]; rewrite E_vnorm; reflexivity.
Qed.
Lemma cos_at u : 0 <= u <= 1 -> 0 < normR (res_at u) ->
  exists x, curve_cos (fin (pt u)) (fin (d1 u)) (fin P) = Ok x /\
    ((x <=? (Fin e2 : Exact))%num = true \/ (forall k, nth k (d1 u) 0 = 0) \/ dotR (d1 u) (res_at u) <> 0).
Proof.
  intros Hu Hr; destruct (proj1 HC u Hu) as (_ & L & L1 & _); unfold curve_cos; rewrite E_np_sub by congruence; cbn [bind].
  fold (res_at u); rewrite E_dot by (rewrite res_len by exact Hu; exact L1); cbn [bind].
  eexists; split; [reflexivity|]; rewrite E_snorm, !E_vnorm, E_mul.
  destruct (Req_dec (normR (d1 u)) 0) as [E0|E0]; [right; left; apply normR_zero; exact E0|].
  destruct (Req_dec (dotR (d1 u) (res_at u)) 0) as [E1|E1]; [|right; right; exact E1]; left.
  pose proof (normR_nonneg (d1 u)).
  rewrite E1, Rabs_R0, E_div by (apply Rgt_not_eq, Rmult_lt_0_compat; lra).
  rewrite E_leb; apply Rleb_true; unfold Rdiv; rewrite Rmult_0_l; exact He2.
Qed.
(** Newton's step from a parameter that passed neither test. *)
Lemma newton_at u : 0 <= u <= 1 -> 0 < normR (res_at u) ->
  ((forall k, nth k (d1 u) 0 = 0) \/ dotR (d1 u) (res_at u) <> 0) ->
  (exists u', 0 <= u' <= 1 /\ curve_newton (Fin u : Exact) (fin (pt u)) (fin (d1 u)) (fin (d2 u)) (fin P) = Ok (Fin u' : Exact)) \/
  (curve_newton (Fin u : Exact) (fin (pt u)) (fin (d1 u)) (fin (d2 u)) (fin P) = Ok (NaN : Exact) /\ singular u).
Proof.
  intros Hu Hr HD; destruct (proj1 HC u Hu) as (_ & L & L1 & L2 & _); unfold curve_newton; rewrite E_np_sub by congruence; cbn [bind].
  fold (res_at u); rewrite !E_dot by (rewrite res_len by exact Hu; assumption); cbn [bind]; cbv zeta.
  rewrite !E_vnorm, E_mul, E_add, normR_sqr.
  set (num := dotR (d1 u) (res_at u)) in *; set (den := dotR (d2 u) (res_at u) + dotR (d1 u) (d1 u)).
  assert (EC : forall x, exists u', 0 <= u' <= 1 /\
     (if ((Fin x : Exact) <? 0)%num then (0 : Exact)%num else if (1 <? (Fin x : Exact))%num then (1 : Exact)%num else (Fin x : Exact)) = (Fin u' : Exact)).
  { intros x; rewrite !E_ofZ, !E_ltb; destruct (Rltb x 0) eqn:E0; [exists 0; split; [lra|reflexivity]|].
    destruct (Rltb 1 x) eqn:E1; [exists 1; split; [lra|reflexivity]|].
    apply Rltb_false in E0, E1; exists x; split; [lra|reflexivity]. }
  destruct (Req_dec den 0) as [Ed|Ed].
  - rewrite Ed; destruct (Req_dec num 0) as [En|En].
    + right; destruct HD as [HD|HD]; [|contradiction]; split.
      * rewrite En, E_div0; reflexivity.
      * split; [exact Hu|]; split; [exact HD|]; fold (res_at u).
        unfold den in Ed; rewrite (dotR_null (d1 u)) in Ed by exact HD; lra.
    + left; cbn [ndiv Exact xdiv]; destruct (Req_EM_T 0 0) as [_|]; [|lra]; destruct (Req_EM_T num 0) as [|_]; [lra|].
      destruct (Rlt_dec num 0); [exists 1|exists 0]; split; try lra; reflexivity.
  - left; rewrite E_div by exact Ed; rewrite E_sub; destruct (EC (u - num / den)) as (u' & H1 & H2); exists u'; split; [exact H1|rewrite H2; reflexivity].
Qed.
Lemma scale_null (l : list R) x : vnorm (map (fun i => (i * (Fin x : Exact))%num) (fin l)) = (Fin (normR (map (fun i => i * x) l)) : Exact).
Proof.
  replace (map (fun i : Exact => (i * (Fin x : Exact))%num) (fin l)) with (fin (map (fun i => i * x) l) : list Exact); [apply E_vnorm|].
  unfold fin; rewrite !map_map; apply map_ext; intros; symmetry; apply E_mul.
Qed.
Lemma not_unit_nan : ~ unit_fin (NaN : Exact).
Proof. intros (r & H & _); discriminate. Qed.
Lemma nan_rejected : curve_rows c (NaN : Exact) = Err ValueError.
Proof. unfold curve_rows; rewrite (proj2 HC) by apply not_unit_nan; reflexivity. Qed.
Lemma nan_cond (l : list R) (u : R) : (vnorm (map (fun i => (i * ((NaN : Exact) - (Fin u : Exact)))%num) (fin l)) <=? (Fin e1 : Exact))%num = true -> l = [].
Proof.
  destruct l as [|x t]; [reflexivity|]; intros H; exfalso.
  assert (N : forall (m : list Exact) acc, fold_left nadd m acc = (NaN : Exact) \/ acc <> (NaN : Exact)).
  { induction m as [|y m IH]; intros acc; cbn [fold_left].
    - destruct acc; [right; discriminate|right; discriminate|right; discriminate|left; reflexivity].
    - destruct acc; [right; discriminate|right; discriminate|right; discriminate|].
      destruct (IH (nadd (NaN : Exact) y)) as [E|E]; [left; exact E|exfalso; apply E; reflexivity]. }
  assert (V : vnorm (map (fun i => (i * ((NaN : Exact) - (Fin u : Exact)))%num) (fin (x :: t))) = (NaN : Exact)).
  { unfold vnorm, vdot, nsum, vmap2; cbn [fin map combine fold_left fst snd].
    match goal with |- nsqrt (fold_left nadd ?m ?a) = _ => destruct (N m a) as [E|E]; [rewrite E; reflexivity|exfalso; apply E; reflexivity] end. }
  rewrite V in H; discriminate H.
Qed.
Lemma loop_total mi : forall f j u, 0 <= u <= 1 -> 0 < normR (res_at u) ->
  ((forall k, nth k (d1 u) 0 = 0) \/ dotR (d1 u) (res_at u) <> 0) ->
  (1 <= Z.of_nat f)%Z -> (mi + 2 - j <= Z.of_nat f)%Z ->
  (exists u', 0 <= u' <= 1 /\
     curve_loop f c (fin P) (Fin e1 : Exact) (Fin e2 : Exact) mi j (Fin u : Exact) (fin (pt u)) (fin (d1 u)) (fin (d2 u)) = Ok (Fin u' : Exact)) \/
  (curve_loop f c (fin P) (Fin e1 : Exact) (Fin e2 : Exact) mi j (Fin u : Exact) (fin (pt u)) (fin (d1 u)) (fin (d2 u)) = Err ValueError /\
   exists u', singular u').
Proof.
  induction f as [|f IH]; intros j u Hu Hr HD Hf Hj; [lia|]; cbn [curve_loop].
  destruct (newton_at u Hu Hr HD) as [(u1 & Hu1 & E)|[E HS]]; rewrite E; cbn [bind].
  - destruct (_ <=? (Fin e1 : Exact))%num; [left; exists u; auto|].
    destruct (proj1 HC u1 Hu1) as (_ & _ & _ & _ & rest & ED); rewrite (rows_of c _ _ _ _ _ ED); cbn [bind].
    rewrite (dist_at u1 Hu1); cbn [bind]; rewrite E_leb.
    destruct (Rleb _ e1) eqn:EL; [left; exists u; auto|]; apply Rleb_false in EL.
    destruct (cos_at u1 Hu1 ltac:(lra)) as (x & Ex & Hx); rewrite Ex; cbn [bind].
    destruct (x <=? (Fin e2 : Exact))%num; [left; exists u; auto|].
    destruct (Z.ltb_spec mi j); [left; exists u1; auto|].
    apply IH; try assumption; try lra; try lia.
    destruct Hx as [H'|H']; [discriminate|exact H'].
  - right; split; [|exists u; exact HS].
    destruct (_ <=? (Fin e1 : Exact))%num eqn:EN.
    + apply nan_cond in EN; destruct (proj1 HC u Hu) as (_ & _ & L1 & _); rewrite EN in L1; discriminate.
    + rewrite nan_rejected; reflexivity.
Qed.
Lemma inversion_total mi : (0 <= mi)%Z -> (1 <= cb_count c)%Z ->
  (exists u, 0 <= u <= 1 /\ curve_inversion c (fin P) (Fin e1 : Exact) (Fin e2 : Exact) mi = Ok (Fin u : Exact)) \/
  (curve_inversion c (fin P) (Fin e1 : Exact) (Fin e2 : Exact) mi = Err ValueError /\ exists u, singular u).
Proof.
  intros Hmi Hn.
  destruct (initial_guess_spec c P (fun i => pt (IZR i / IZR (2 * cb_count c - 1))) _ eq_refl Hn) as (k & Hk & EG & _).
  { intros i Hi; destruct (proj1 HC _ (samples_range _ i Hn Hi)) as (E & L & _); split; [exact E|congruence]. }
  set (u := IZR k / IZR (2 * cb_count c - 1)) in *.
  assert (Hu : 0 <= u <= 1) by (apply samples_range; lia).
  unfold curve_inversion, curve_inversion_fuel; rewrite EG; cbn [bind].
  destruct (proj1 HC u Hu) as (_ & _ & _ & _ & rest & ED); rewrite (rows_of c _ _ _ _ _ ED); cbn [bind].
  rewrite (dist_at u Hu); cbn [bind]; rewrite E_leb.
  destruct (Rleb _ e1) eqn:EL; [left; exists u; auto|]; apply Rleb_false in EL.
  destruct (cos_at u Hu ltac:(lra)) as (x & Ex & Hx); rewrite Ex; cbn [bind].
  destruct (x <=? (Fin e2 : Exact))%num; [left; exists u; auto|].
  apply loop_total; try assumption; try lra; try lia.
  destruct Hx as [H'|H']; [discriminate|exact H'].
Qed.
(** A point of the curve at a sample is found exactly. *)
Lemma inversion_sample mi k : (1 <= cb_count c)%Z -> (0 <= k < 2 * cb_count c)%Z ->
  pt (IZR k / IZR (2 * cb_count c - 1)) = P ->
  exists l, (0 <= l <= k)%Z /\ pt (IZR l / IZR (2 * cb_count c - 1)) = P /\
    curve_inversion c (fin P) (Fin e1 : Exact) (Fin e2 : Exact) mi = Ok (Fin (IZR l / IZR (2 * cb_count c - 1)) : Exact).
Proof.
  intros Hn Hk EP.
  destruct (initial_guess_spec c P (fun i => pt (IZR i / IZR (2 * cb_count c - 1))) _ eq_refl Hn) as (l & Hl & EG & HB & _).
  { intros i Hi; destruct (proj1 HC _ (samples_range _ i Hn Hi)) as (E & L & _); split; [exact E|congruence]. }
  assert (D0 : forall a, distR a a = 0).
  { intros a; unfold distR, normR; rewrite dotR_null; [apply sqrt_0|].
    intros m; unfold subR; clear; revert m; induction a as [|x t IH]; intros [|m]; cbn; try reflexivity; [ring|apply IH]. }
  assert (Dk : distR P (pt (IZR k / IZR (2 * cb_count c - 1))) = 0) by (rewrite EP; apply D0).
  destruct HB as [HB1 HB2]; [exists k; split; [exact Hk|lra]|].
  specialize (HB1 k Hk); rewrite Dk in HB1.
  assert (Dl : distR P (pt (IZR l / IZR (2 * cb_count c - 1))) = 0) by (pose proof (normR_nonneg (subR P (pt (IZR l / IZR (2 * cb_count c - 1))))); unfold distR in *; lra).
  assert (Hlk : (l <= k)%Z).
  { destruct (Z_le_dec l k); [assumption|]; specialize (HB2 k ltac:(lia)); rewrite Dk, Dl in HB2; lra. }
  set (u := IZR l / IZR (2 * cb_count c - 1)) in *.
  assert (Hu : 0 <= u <= 1) by (apply samples_range; lia).
  assert (EQ : pt u = P).
  { destruct (proj1 HC u Hu) as (_ & L & _); pose proof (normR_zero _ Dl) as Z0.
    revert LP L Z0; generalize (pt u); destruct P as [|p0 [|p1 [|p2 [|]]]]; intros q LP' L Z0; try discriminate LP'.
    destruct q as [|q0 [|q1 [|q2 [|]]]]; try discriminate L.
    pose proof (Z0 0%nat) as A0; pose proof (Z0 1%nat) as A1; pose proof (Z0 2%nat) as A2; cbn in A0, A1, A2; repeat f_equal; lra. }
  exists l; split; [lia|]; split; [exact EQ|].
  unfold curve_inversion, curve_inversion_fuel; rewrite EG; cbn [bind].
  destruct (proj1 HC u Hu) as (_ & _ & _ & _ & rest & ED); rewrite (rows_of c _ _ _ _ _ ED); cbn [bind].
  rewrite (dist_at u Hu); cbn [bind]; rewrite E_leb.
  replace (normR (res_at u)) with 0 by (unfold res_at; rewrite EQ; symmetry; apply D0).
  rewrite (proj2 (Rleb_true 0 e1) He1); reflexivity.
Qed.
End Total.

(** ** When the projection on a surface succeeds *)
Section TotalSurf.
Variables (s : surf_beh Exact) (pt du dv duu dvv duv : R -> R -> list R) (P : list R).
Hypotheses (HS : proper_surface s pt du dv duu dvv duv) (LP : length P = 3%nat).
Definition newton_det (a b u v : R) : R :=
  let r := subR (pt u v) P in
  (dotR (du a b) (du a b) + dotR r (duu a b)) * (dotR (dv a b) (dv a b) + dotR r (dvv a b))
  - (dotR (du a b) (dv a b) + dotR r (duv a b)) * (dotR (du a b) (dv a b) + dotR r (duv a b)).
Let inside u v := 0 <= u <= 1 /\ 0 <= v <= 1.
Let rows_at u v : surf_rows Exact := mkRows (fin (du u v)) (fin (dv u v)) (fin (duu u v)) (fin (dvv u v)) (fin (duv u v)).
Lemma srows_at u v : inside u v -> get_surf_rows s (Fin u : Exact) (Fin v : Exact) = Ok (rows_at u v).
Proof.
  intros [Hu Hv]; destruct (HS u v Hu Hv) as (_ & _ & _ & _ & _ & _ & _ & r0 & r5 & rest & E); unfold get_surf_rows; rewrite E; cbn [bind].
  match goal with |- context [fin2 ?l0] => set (l := l0) end.
  assert (LE : (7 <= zlen (fin2 l : list (list Exact)))%Z) by (rewrite zlen_fin2; unfold l, len; rewrite app_length; cbn [length]; lia).
  rewrite !(aget_nth _ _ ([] : list Exact)) by lia; reflexivity.
Qed.
Lemma sres_at u v : inside u v -> surf_res s (fin P) (Fin u : Exact) (Fin v : Exact) = Ok (fin (subR (pt u v) P)).
Proof.
  intros [Hu Hv]; destruct (HS u v Hu Hv) as (E & L & _); unfold surf_res; rewrite E; cbn [bind]; apply E_np_sub; congruence.
Qed.
Lemma sres_len u v : inside u v -> length (subR (pt u v) P) = 3%nat.
Proof. intros [Hu Hv]; destruct (HS u v Hu Hv) as (_ & L & _); rewrite subR_length; congruence. Qed.
Lemma clamp_fin x : exists u, 0 <= u <= 1 /\ clamp01 (Fin x : Exact) = (Fin u : Exact).
Proof.
  unfold clamp01; rewrite !E_ofZ, !E_ltb; destruct (Rltb x 0) eqn:E0; [exists 0; split; [lra|reflexivity]|].
  destruct (Rltb 1 x) eqn:E1; [exists 1; split; [lra|reflexivity]|].
  apply Rltb_false in E0, E1; exists x; split; [lra|reflexivity].
Qed.
Lemma snewton_at a b u v : inside a b -> inside u v ->
  (exists u' v', inside u' v' /\ surf_newton s (fin P) (Fin u : Exact) (Fin v : Exact) (rows_at a b) = Ok (Fin u' : Exact, Fin v' : Exact)) \/
  (surf_newton s (fin P) (Fin u : Exact) (Fin v : Exact) (rows_at a b) = Err LinAlgError /\ newton_det a b u v = 0).
Proof.
  intros Hab Huv; pose proof (sres_len u v Huv) as LR.
  destruct Hab as [Ha Hb]; destruct (HS a b Ha Hb) as (_ & _ & L1 & L2 & L3 & L4 & L5 & _).
  unfold surf_newton; rewrite (sres_at u v Huv); cbn [bind rows_at sr_u sr_v sr_uu sr_vv sr_uv].
  rewrite !E_dot by congruence; cbn [bind]; cbv zeta; rewrite !E_vnorm, !E_mul, !E_add, !normR_sqr.
  destruct (Req_dec (newton_det a b u v) 0) as [E|E]; unfold newton_det in E; cbv zeta in E.
  - right; split; [|exact E]; rewrite E_inv2_singular by exact E; reflexivity.
  - left; rewrite E_inv2 by exact E; cbn [bind]; rewrite !E_ofZ, !E_opp, !E_mul, !E_add.
    match goal with |- context [Ok (clamp01 (Fin ?x), clamp01 (Fin ?y))] =>
      destruct (clamp_fin x) as (u' & Hu' & Eu); destruct (clamp_fin y) as (v' & Hv' & Ev) end.
    exists u', v'; split; [split; assumption|]; f_equal; f_equal; assumption.
Qed.
Lemma scos_at a b u v : inside a b -> inside u v ->
  exists x y, surf_cos (fin (du a b)) (fin (subR (pt u v) P)) = Ok x /\ surf_cos (fin (dv a b)) (fin (subR (pt u v) P)) = Ok y.
Proof.
  intros [Ha Hb] Huv; destruct (HS a b Ha Hb) as (_ & _ & L1 & L2 & _); pose proof (sres_len u v Huv) as LR.
  unfold surf_cos; rewrite !E_dot by congruence; cbn [bind]; do 2 eexists; split; reflexivity.
Qed.
Lemma sloop_total (e1 e2 : Exact) mi : forall f n a b u v, inside a b -> inside u v ->
  (1 <= Z.of_nat f)%Z -> (mi + 1 - n <= Z.of_nat f)%Z ->
  (exists u' v', inside u' v' /\
     surf_loop f s (fin P) e1 e2 mi n (Fin u : Exact) (Fin v : Exact) (rows_at a b) = Ok (Fin u' : Exact, Fin v' : Exact)) \/
  (surf_loop f s (fin P) e1 e2 mi n (Fin u : Exact) (Fin v : Exact) (rows_at a b) = Err LinAlgError /\
   exists a b u v, inside a b /\ inside u v /\ newton_det a b u v = 0).
Proof.
  induction f as [|f IH]; intros n a b u v Hab Huv Hf Hn; [lia|]; cbn [surf_loop].
  destruct (snewton_at a b u v Hab Huv) as [(u1 & v1 & H1 & E)|[E HD]]; rewrite E; cbn [bind rows_at sr_u sr_v].
  - rewrite !E_sub.
    assert (V : forall x l, vscale (Fin x : Exact) (fin l) = fin (map (Rmult x) l)).
    { intros x l; unfold vscale, fin; rewrite !map_map; apply map_ext; intros; apply E_mul. }
    destruct (HS a b (proj1 Hab) (proj2 Hab)) as (_ & _ & L1 & L2 & _).
    rewrite !V; rewrite (E_np_bin _ Rplus) by (try (intros; apply E_add); rewrite !map_length; congruence); cbn [bind].
    destruct (_ <=? e1)%num; [left; exists u1, v1; auto|].
    rewrite (srows_at u v Huv); cbn [bind rows_at sr_u sr_v]; rewrite (sres_at u1 v1 H1); cbn [bind].
    destruct (_ <=? e1)%num; [left; exists u1, v1; auto|].
    destruct (scos_at u v u1 v1 Huv H1) as (x & y & Ex & Ey); rewrite Ex; cbn [bind]; rewrite Ey; cbn [bind].
    destruct (_ && _); [left; exists u1, v1; auto|].
    destruct (Z.leb_spec mi n); [left; exists u1, v1; auto|].
    apply IH; try assumption; lia.
  - right; split; [reflexivity|]; exists a, b, u, v; auto.
Qed.
Lemma guess_at : (1 <= sb_nu s)%Z -> (1 <= sb_nv s)%Z ->
  exists k l, (0 <= k < 2 * sb_nu s)%Z /\ (0 <= l < 2 * sb_nv s)%Z /\
    let u := IZR k / IZR (2 * sb_nu s - 1) in let v := IZR l / IZR (2 * sb_nv s - 1) in
    inside u v /\ initial_guess_surf s (fin P) = Ok (Fin u : Exact, Fin v : Exact) /\
    ((exists i j, (0 <= i < 2 * sb_nu s)%Z /\ (0 <= j < 2 * sb_nv s)%Z /\ pt (IZR i / IZR (2 * sb_nu s - 1)) (IZR j / IZR (2 * sb_nv s - 1)) = P) -> pt u v = P).
Proof.
  intros Hnu Hnv.
  destruct (initial_guess_surf_spec s P (fun i j => pt (IZR i / IZR (2 * sb_nu s - 1)) (IZR j / IZR (2 * sb_nv s - 1)))
              _ _ eq_refl eq_refl Hnu Hnv) as (k & l & Hk & Hl & EG & HB & _).
  { intros i j Hi Hj; destruct (HS _ _ (samples_range _ i Hnu Hi) (samples_range _ j Hnv Hj)) as (E & L & _); split; [exact E|congruence]. }
  exists k, l; split; [exact Hk|]; split; [exact Hl|]; cbv zeta.
  set (u := IZR k / IZR (2 * sb_nu s - 1)) in *; set (v := IZR l / IZR (2 * sb_nv s - 1)) in *.
  assert (Hin : inside u v) by (split; apply samples_range; lia).
  split; [exact Hin|]; split; [exact EG|].
  intros (i & j & Hi & Hj & EP).
  assert (D0 : distR P (pt (IZR i / IZR (2 * sb_nu s - 1)) (IZR j / IZR (2 * sb_nv s - 1))) = 0).
  { rewrite EP; unfold distR, normR; rewrite dotR_null; [apply sqrt_0|].
    intros m; unfold subR; clear; revert m; induction P as [|x t IH]; intros [|m]; cbn; try reflexivity; [ring|apply IH]. }
  destruct HB as [HB _]; [exists i, j; split; [exact Hi|]; split; [exact Hj|lra]|].
  specialize (HB i j Hi Hj); rewrite D0 in HB.
  assert (Dl : distR P (pt u v) = 0) by (pose proof (normR_nonneg (subR P (pt u v))); unfold distR in *; lra).
  destruct (HS u v (proj1 Hin) (proj2 Hin)) as (_ & L & _); pose proof (normR_zero _ Dl) as Z0.
  clear - LP L Z0; revert LP L Z0; generalize (pt u v); destruct P as [|p0 [|p1 [|p2 [|]]]]; intros q LP' L Z0; try discriminate LP'.
  destruct q as [|q0 [|q1 [|q2 [|]]]]; try discriminate L.
  pose proof (Z0 0%nat) as A0; pose proof (Z0 1%nat) as A1; pose proof (Z0 2%nat) as A2; cbn in A0, A1, A2; repeat f_equal; lra.
Qed.
Lemma sinversion_total (e1 e2 : Exact) mi : (0 <= mi)%Z -> (1 <= sb_nu s)%Z -> (1 <= sb_nv s)%Z ->
  (exists u v, inside u v /\ surface_inversion s (fin P) e1 e2 mi = Ok (Fin u : Exact, Fin v : Exact)) \/
  (surface_inversion s (fin P) e1 e2 mi = Err LinAlgError /\
   exists a b u v, inside a b /\ inside u v /\ newton_det a b u v = 0).
Proof.
  intros Hmi Hnu Hnv; destruct (guess_at Hnu Hnv) as (k & l & _ & _ & H); cbv zeta in H; destruct H as (Hin & EG & _).
  set (u := IZR k / IZR (2 * sb_nu s - 1)) in *; set (v := IZR l / IZR (2 * sb_nv s - 1)) in *.
  unfold surface_inversion, surface_inversion_fuel; rewrite EG; cbn [bind].
  rewrite (srows_at u v Hin); cbn [bind rows_at sr_u sr_v]; rewrite (sres_at u v Hin); cbn [bind].
  destruct (_ <=? e1)%num; [left; exists u, v; auto|].
  destruct (scos_at u v u v Hin Hin) as (x & y & Ex & Ey); rewrite Ex; cbn [bind]; rewrite Ey; cbn [bind].
  destruct (_ && _); [left; exists u, v; auto|].
  apply sloop_total; try assumption; lia.
Qed.
Lemma sinversion_sample (e1 : R) (e2 : Exact) mi i j : 0 <= e1 -> (1 <= sb_nu s)%Z -> (1 <= sb_nv s)%Z ->
  (0 <= i < 2 * sb_nu s)%Z -> (0 <= j < 2 * sb_nv s)%Z ->
  pt (IZR i / IZR (2 * sb_nu s - 1)) (IZR j / IZR (2 * sb_nv s - 1)) = P ->
  exists k l, (0 <= k < 2 * sb_nu s)%Z /\ (0 <= l < 2 * sb_nv s)%Z /\
    pt (IZR k / IZR (2 * sb_nu s - 1)) (IZR l / IZR (2 * sb_nv s - 1)) = P /\
    surface_inversion s (fin P) (Fin e1 : Exact) e2 mi
    = Ok (Fin (IZR k / IZR (2 * sb_nu s - 1)) : Exact, Fin (IZR l / IZR (2 * sb_nv s - 1)) : Exact).
Proof.
  intros He Hnu Hnv Hi Hj EP; destruct (guess_at Hnu Hnv) as (k & l & Hk & Hl & H); cbv zeta in H; destruct H as (Hin & EG & HP).
  assert (EQ : pt (IZR k / IZR (2 * sb_nu s - 1)) (IZR l / IZR (2 * sb_nv s - 1)) = P) by (apply HP; exists i, j; auto).
  exists k, l; split; [exact Hk|]; split; [exact Hl|]; split; [exact EQ|].
  set (u := IZR k / IZR (2 * sb_nu s - 1)) in *; set (v := IZR l / IZR (2 * sb_nv s - 1)) in *.
  unfold surface_inversion, surface_inversion_fuel; rewrite EG; cbn [bind].
  rewrite (srows_at u v Hin); cbn [bind rows_at sr_u sr_v]; rewrite (sres_at u v Hin); cbn [bind].
  rewrite E_vnorm, E_leb, EQ.
  replace (normR (subR P P)) with 0.
  - rewrite (proj2 (Rleb_true 0 e1) He); reflexivity.
  - symmetry; unfold normR; rewrite dotR_null; [apply sqrt_0|].
    intros m; unfold subR; clear; revert m; induction P as [|x t IH]; intros [|m]; cbn; try reflexivity; [ring|apply IH].
Qed.
End TotalSurf.
