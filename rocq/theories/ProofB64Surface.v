(** Surface evaluation (model: ModelSurface.v) on binary64 numbers. *)
From Coq Require Import Reals Lra Lia ZArith List Floats.
From Flocq Require Import Core.Core.
From Verif Require Import Py PyLemmas Num ModelKnots ModelBasis ModelCurve ModelSurface Spec SpecB64 MathCox MathKnots MathJoin
  ProofNum ProofBasis ProofSpan ProofCurve ProofSurface ProofB64 ProofB64Basis ProofB64Span ProofB64Curve.
Import ListNotations.
Open Scope R_scope.

(** ** What the code computes over any number system *)
Section Any.
Context {K : Num} (d : K).
Definition netK (nv : nat) (l : list K) (i j : Z) : K := nth (Z.to_nat (i * Z.of_nat nv + j)) l d.
Definition coordsK (c : nat) (P : list (list K)) : list K := map (fun r => nth c r d) P.
Lemma acol_coords P c : Forall (fun row => length row = 3%nat) P -> (c < 3)%nat ->
  acol P (Z.of_nat c) = Ok (coordsK c P).
Proof.
  intros HF Hc; rewrite (list_as_tab P []) at 1; unfold coordsK; rewrite (list_as_tab P []) at 2; rewrite map_tab.
  apply mapM_tab; intros i Hi.
  assert (L : length (nth (Z.to_nat i) P []) = 3%nat) by (rewrite Forall_forall in HF; apply HF, nth_In; lia).
  rewrite (aget_nth _ _ d) by (unfold zlen; rewrite L; lia); rewrite Nat2Z.id; reflexivity.
Qed.
Lemma reshape_any (l : list K) nu nv : length l = (nu * nv)%nat ->
  reshape l (Z.of_nat nu) (Z.of_nat nv) = Ok (tab nu (fun i => tab nv (netK nv l i))).
Proof.
  intros HL; unfold reshape.
  destruct (Z.ltb_spec (Z.of_nat nu) 0); [lia|]; destruct (Z.ltb_spec (Z.of_nat nv) 0); [lia|]; cbn [orb].
  unfold zlen; rewrite HL, Nat2Z.inj_mul, Z.eqb_refl; cbn [negb].
  rewrite zrange_tab, map_tab; f_equal; apply tab_ext; intros i Hi.
  rewrite (list_as_tab l d), skipn_tab, firstn_tab.
  assert (Hm : (Z.to_nat (i * Z.of_nat nv) + nv <= length l)%nat) by (rewrite HL; nia).
  rewrite Nat.min_l, Nat2Z.id by lia; apply tab_ext; intros j Hj.
  unfold netK; rewrite <- (list_as_tab l d); do 2 f_equal; nia.
Qed.
Lemma slice2_any nu nv c p q s t : (Z.of_nat p <= s < Z.of_nat nu)%Z -> (Z.of_nat q <= t < Z.of_nat nv)%Z ->
  slice2 (tab nu (fun i => tab nv (netK nv c i))) (s - Z.of_nat p) (s + 1) (t - Z.of_nat q) (t + 1)
  = tab (S p) (fun i => tab (S q) (fun j => netK nv c (s - Z.of_nat p + i) (t - Z.of_nat q + j))).
Proof.
  intros Hs Ht; unfold slice2; rewrite slice_tab by lia; rewrite map_tab.
  replace (Z.to_nat (s + 1 - (s - Z.of_nat p))) with (S p) by lia; apply tab_ext; intros i Hi.
  rewrite slice_tab by lia; replace (Z.to_nat (t + 1 - (t - Z.of_nat q))) with (S q) by lia; reflexivity.
Qed.
Lemma bilinear_any m k (bu bv : list K) f : length bu = S m -> length bv = S k ->
  bilinear bu (tab (S m) (fun i => tab (S k) (f i))) bv
  = Ok (vdot (tab (S k) (fun j => vdot bu (tab (S m) (fun i => f i j)))) bv).
Proof.
  intros L1 L2; unfold bilinear, vecmat; unfold zlen at 1 2; rewrite L1, tab_length, Z.eqb_refl.
  assert (W : width (tab (S m) (fun i => tab (S k) (f i))) = Z.of_nat (S k)).
  { rewrite tab_cons; cbn [width]; unfold zlen; rewrite tab_length; reflexivity. }
  rewrite W, zrange_tab.
  assert (E : mapM (fun j => let* c := acol (tab (S m) (fun i => tab (S k) (f i))) j in matmul11 bu c) (tab (S k) (fun i => i))
     = Ok (tab (S k) (fun j => vdot bu (tab (S m) (fun i => f i j))))).
  { apply mapM_tab; intros j Hj.
    assert (EC : acol (tab (S m) (fun i => tab (S k) (f i))) j = Ok (tab (S m) (fun i => f i j))).
    { apply mapM_tab; intros i Hi; rewrite aget_tab by exact Hj; reflexivity. }
    rewrite EC; cbn [bind]; apply matmul_dot; rewrite tab_length; exact L1. }
  rewrite E; cbn [bind]; apply matmul_dot; rewrite tab_length; symmetry; exact L2.
Qed.
Definition dot2 (bu bv : list K) (p q nv : nat) (s t : Z) (c : list K) : K :=
  vdot (tab (S q) (fun j => vdot bu (tab (S p) (fun i => netK nv c (s - Z.of_nat p + i) (t - Z.of_nat q + j))))) bv.
Lemma surf_point_any p q nu nv (U V : list K) P u v s t bu bv :
  validate_knot u = true -> validate_knot v = true -> Forall (fun row => length row = 3%nat) P -> length P = (nu * nv)%nat ->
  find_span (Z.of_nat nu) (Z.of_nat p) u U = Ok s -> find_span (Z.of_nat nv) (Z.of_nat q) v V = Ok t ->
  (Z.of_nat p <= s < Z.of_nat nu)%Z -> (Z.of_nat q <= t < Z.of_nat nv)%Z ->
  basis_functions s u (Z.of_nat p) U = Ok bu -> basis_functions t v (Z.of_nat q) V = Ok bv ->
  length bu = S p -> length bv = S q ->
  surf_point (mkSurf (Z.of_nat p) (Z.of_nat q) (Z.of_nat nu) (Z.of_nat nv) P U V) u v
  = Ok (map (fun c => dot2 bu bv p q nv s t (coordsK c P)) [0%nat; 1%nat; 2%nat]).
Proof.
  intros Vu Vv HF HL Es Et Hs Ht Eu Ev Lu Lv; unfold surf_point; rewrite Vu, Vv; cbn [negb s_nu s_nv s_pu s_pv s_ku s_kv].
  rewrite Es, Et; cbn [bind]; rewrite Eu, Ev; cbn [bind].
  unfold surf_arrays; cbn [s_ctrl s_nu s_nv].
  pose proof (acol_coords P 0 HF ltac:(lia)) as E0; pose proof (acol_coords P 1 HF ltac:(lia)) as E1; pose proof (acol_coords P 2 HF ltac:(lia)) as E2.
  cbn [Z.of_nat Pos.of_succ_nat Pos.succ] in E0, E1, E2; rewrite E0, E1, E2; cbn [bind].
  rewrite !reshape_any by (unfold coordsK; rewrite map_length; exact HL); cbn [bind].
  unfold surf_contract; cbn [s_pu s_pv]; cbv zeta.
  rewrite !slice2_any by assumption; rewrite !bilinear_any by assumption; reflexivity.
Qed.
End Any.

(** ** Rounding *)
Lemma SFmul_comm p e a b : SpecFloat.SFmul p e a b = SpecFloat.SFmul p e b a.
Proof.
  destruct a as [sa|sa| |sa ma ea], b as [sb|sb| |sb mb eb]; cbn [SpecFloat.SFmul]; try reflexivity;
    rewrite xorb_comm; try reflexivity.
  rewrite (Pos.mul_comm ma), (Z.add_comm ea); reflexivity.
Qed.
Lemma mul64_comm (x y : PrimFloat.float) : (x * y)%float = (y * x)%float.
Proof. apply FloatAxioms.Prim2SF_inj; rewrite !FloatAxioms.mul_spec; apply SFmul_comm. Qed.
Lemma vdot_comm (a b : list Binary64) : vdot a b = vdot b a.
Proof.
  unfold vdot; f_equal; unfold vmap2; revert b; induction a as [|x a IH]; intros [|y b]; try reflexivity.
  cbn [combine map fst snd]; f_equal; [apply mul64_comm|apply IH].
Qed.

Lemma rdot_diff w b b' E : Forall (Rle 0) w -> length w = length b -> Forall2 (fun x y => Rabs (x - y) <= E) b b' ->
  Rabs (rdot w b - rdot w b') <= sumR w * E.
Proof.
  intros HW; revert b b'; induction HW as [|x w Hx HW IH]; intros b b' L HB.
  - cbn; rewrite Rminus_0_r, Rabs_R0; lra.
  - destruct b as [|y b]; [discriminate L|]; injection L as L; inversion HB as [|? y' ? b'' Hy HB']; subst.
    unfold rdot, sumR in *; cbn [combine map fold_right fst snd].
    match goal with |- Rabs (x * y + ?s - (x * y' + ?r)) <= _ =>
      replace (x * y + s - (x * y' + r)) with (x * (y - y') + (s - r)) by ring end.
    eapply Rle_trans; [apply Rabs_triang|]; rewrite Rmult_plus_distr_r; apply Rplus_le_compat; [|apply IH; assumption].
    rewrite Rabs_mult, (Rabs_right x) by lra; apply Rmult_le_compat_l; assumption.
Qed.
Lemma rdot_abs w b M : Forall (Rle 0) w -> length w = length b -> Forall (fun y => Rabs y <= M) b ->
  Rabs (rdot w b) <= sumR w * M.
Proof.
  intros HW; revert b; induction HW as [|x w Hx HW IH]; intros b L HB.
  - cbn; rewrite Rabs_R0; lra.
  - destruct b as [|y b]; [discriminate L|]; injection L as L; inversion HB as [|? ? Hy HB']; subst.
    unfold rdot, sumR in *; cbn [combine map fold_right fst snd].
    eapply Rle_trans; [apply Rabs_triang|]; rewrite Rmult_plus_distr_r; apply Rplus_le_compat; [|apply IH; assumption].
    rewrite Rabs_mult, (Rabs_right x) by lra; apply Rmult_le_compat_l; assumption.
Qed.
Lemma Forall2_tab {A B} (Q : A -> B -> Prop) n f g : (forall i, (0 <= i < Z.of_nat n)%Z -> Q (f i) (g i)) ->
  Forall2 Q (tab n f) (tab n g).
Proof.
  revert f g; induction n as [|n IH]; intros f g H; [constructor|]; rewrite !tab_cons; constructor; [apply H; lia|].
  apply IH; intros i Hi; apply H; lia.
Qed.

Lemma dot2_error M p q (bu bv : list PrimFloat.float) wu wv (f : Z -> Z -> PrimFloat.float) :
  0 <= M <= 2 ^ 890 -> INR p <= 2 ^ 40 -> INR q <= 2 ^ 40 ->
  length bu = S p -> length bv = S q -> length wu = S p -> length wv = S q ->
  Forall (fun x => finite64 x /\ 0 <= value x) bu -> Forall (fun x => finite64 x /\ 0 <= value x) bv ->
  Forall (Rle 0) wu -> Forall (Rle 0) wv -> sumR wu = 1 -> sumR wv = 1 ->
  error1 (values bu) wu <= 8 * INR p * ulp64 -> error1 (values bv) wv <= 8 * INR q * ulp64 ->
  (forall i j, (0 <= i < Z.of_nat (S p))%Z -> (0 <= j < Z.of_nat (S q))%Z -> finite64 (f i j) /\ Rabs (value (f i j)) <= M) ->
  let y := vdot (tab (S q) (fun j => vdot (bu : list Binary64) (tab (S p) (fun i => f i j)))) (bv : list Binary64) in
  finite64 y /\
  Rabs (value y - rdot wv (tab (S q) (fun j => rdot wu (tab (S p) (fun i => value (f i j)))))) <=
    11 * INR (p + q + 1) * (ulp64 * M + tiny64).
Proof.
  intros HM Hp Hq Lu Lv Lwu Lwv Fu Fv Nu Nv Su Sv Eu Ev Hf; cbv zeta.
  pose proof ulp64_pos as Hu; pose proof ulp64_tiny as Ht; pose proof eta64_pos as He; rewrite tiny_eta.
  pose proof (pos_INR p) as P0; pose proof (pos_INR q) as Q0.
  assert (P890 : 1 <= 2 ^ 890) by (apply pow_R1_Rle; lra).
  assert (P900 : 4 * 2 ^ 890 <= 2 ^ 900).
  { replace (2 ^ 900) with (2 ^ 890 * 2 ^ 10) by (rewrite <- pow_add; reflexivity); cbn [pow] in *; lra. }
  set (E0 := ulp64 * M + eta64).
  assert (HE0 : 0 <= E0) by (unfold E0; pose proof (Rmult_le_pos ulp64 M); lra).
  set (tj := fun j => vdot (bu : list Binary64) (tab (S p) (fun i => f i j))).
  set (mj := fun j => rdot wu (tab (S p) (fun i => value (f i j)))).
  set (E1 := (10 * INR p + 4) * E0).
  assert (HE1 : 0 <= E1) by (apply Rmult_le_pos; lra).
  assert (B4 : 2 ^ 44 * ulp64 <= / 512).
  { replace (2 ^ 53) with (2 ^ 44 * 512) in Ht by (cbn [pow]; ring).
    apply Rmult_le_reg_r with 512; [lra|]; rewrite Rinv_l by lra; lra. }
  assert (Bk : forall k, 0 <= k <= 2 ^ 40 -> (10 * k + 4) * ulp64 <= / 512).
  { intros k Hk; apply Rle_trans with (2 ^ 44 * ulp64); [|exact B4]; apply Rmult_le_compat_r; [lra|].
    apply Rle_trans with (10 * 2 ^ 40 + 4); [lra|cbn [pow]; lra]. }
  assert (Bp := Bk (INR p) (conj P0 Hp)); assert (Bq := Bk (INR q) (conj Q0 Hq)).
  assert (Tj : forall j, (0 <= j < Z.of_nat (S q))%Z -> finite64 (tj j) /\ Rabs (value (tj j) - mj j) <= E1 /\ Rabs (mj j) <= M).
  { intros j Hj.
    assert (WB : within (- M) M (tab (S p) (fun i => f i j))).
    { apply Forall_tab; intros i Hi; destruct (Hf i j Hi Hj) as (F & A); split; [exact F|apply Rabs_le_inv; exact A]. }
    destruct (mean64 M bu (tab (S p) (fun i => f i j)) wu (8 * INR p)) as (_ & F & E); try assumption.
    - lra.
    - rewrite Lu, S_INR; apply Rle_trans with (2 ^ 40 + 1); [lra|cbn [pow]; lra].
    - rewrite Lu, tab_length; reflexivity.
    - rewrite Lu, Lwu; reflexivity.
    - split; [lra|]; apply Rle_trans with (8 * 2 ^ 40); [lra|cbn [pow]; lra].
    - split; [exact F|]; split.
      + unfold mj, E1; unfold values in E at 1; rewrite map_tab in E.
        eapply Rle_trans; [exact E|]; apply Req_le; rewrite Lu, S_INR; unfold E0; ring.
      + unfold mj; rewrite <- (Rmult_1_l M), <- Su; apply rdot_abs; [exact Nu|rewrite tab_length; exact Lwu|].
        apply Forall_tab; intros i Hi; apply Hf; assumption. }
  set (M' := M + E1).
  assert (HE1M : E1 <= / 512 * M + / 512).
  { unfold E1, E0; rewrite Rmult_plus_distr_l, <- Rmult_assoc.
    apply Rplus_le_compat; [apply Rmult_le_compat_r; lra|].
    eapply Rle_trans; [|exact Bp]; apply Rmult_le_compat_l; [lra|].
    pose proof eta_ulp as EU; assert (1 <= 2 ^ 100) by (apply pow_R1_Rle; lra).
    apply Rle_trans with (eta64 * 2 ^ 100); [|exact EU]; rewrite <- (Rmult_1_r eta64) at 1; apply Rmult_le_compat_l; lra. }
  assert (WT : within (- M') M' (tab (S q) tj)).
  { apply Forall_tab; intros j Hj; destruct (Tj j Hj) as (F & A & B); split; [exact F|].
    apply Rabs_le_inv in A; apply Rabs_le_inv in B; unfold M'; lra. }
  rewrite vdot_comm.
  destruct (mean64 M' bv (tab (S q) tj) wv (8 * INR q)) as (_ & F & E); try assumption.
  - unfold M'; lra.
  - rewrite Lv, S_INR; apply Rle_trans with (2 ^ 40 + 1); [lra|cbn [pow]; lra].
  - rewrite Lv, tab_length; reflexivity.
  - rewrite Lv, Lwv; reflexivity.
  - split; [lra|]; apply Rle_trans with (8 * 2 ^ 40); [lra|cbn [pow]; lra].
  - split; [exact F|].
    assert (E2 : Rabs (rdot wv (values (tab (S q) tj)) - rdot wv (tab (S q) mj)) <= E1).
    { rewrite <- (Rmult_1_l E1), <- Sv; unfold values; rewrite map_tab; apply rdot_diff; [exact Nv|rewrite tab_length; exact Lwv|].
      apply Forall2_tab; intros j Hj; apply Tj; exact Hj. }
    match goal with |- Rabs (?a - ?c) <= _ =>
      replace (a - c) with ((a - rdot wv (values (tab (S q) tj))) + (rdot wv (values (tab (S q) tj)) - c)) by ring end.
    eapply Rle_trans; [apply Rabs_triang|].
    apply Rle_trans with ((2 * INR (length bv) + 8 * INR q + 2) * (ulp64 * M' + eta64) + E1);
      [apply Rplus_le_compat; [exact E|exact E2]|].
    rewrite Lv, S_INR; rewrite !plus_INR; cbn [INR].
    replace ((2 * (INR q + 1) + 8 * INR q + 2) * (ulp64 * M' + eta64))
      with ((10 * INR q + 4) * E0 + (10 * INR q + 4) * ulp64 * E1) by (unfold M', E0; ring).
    assert (Z1 : (10 * INR q + 4) * ulp64 * E1 <= / 512 * E1) by (apply Rmult_le_compat_r; lra).
    assert (Z2 : (10 * INR q + 4) * E0 + (1 + / 512) * E1 <= 11 * (INR p + INR q + 1) * E0); [|lra].
    unfold E1; rewrite <- Rmult_assoc, <- Rmult_plus_distr_r; apply Rmult_le_compat_r; lra.
Qed.

(** ** Points of surfaces *)
Lemma pieces_nonneg U s p u : nondecreasing U -> kn U s < kn U (s + 1) -> kn U s <= u <= kn U (s + 1) ->
  Forall (Rle 0) (pieces U s p u).
Proof. intros HU Hs Hu; unfold pieces; apply Forall_tab; intros i Hi; apply piece_nonneg; assumption. Qed.

Lemma net_values nv (P : list (list PrimFloat.float)) c i j : Forall (fun row => length row = 3%nat) P -> (c < 3)%nat ->
  (0 <= i * Z.of_nat nv + j < len P)%Z ->
  value (netK (0%float : Binary64) nv (coordsK (0%float : Binary64) c P) i j) = net nv (coords c (map values P)) i j.
Proof.
  intros HF Hc Hk; unfold netK, net, coordsK, coords, len in *.
  set (k := Z.to_nat (i * Z.of_nat nv + j)).
  assert (Hk' : (k < length P)%nat) by (unfold k; lia).
  assert (L : length (nth k P []) = 3%nat) by (rewrite Forall_forall in HF; apply HF, nth_In; exact Hk').
  transitivity (value (nth c (nth k P []) 0%float)).
  - f_equal; rewrite (nth_indep _ _ (nth c (@nil PrimFloat.float) 0%float)) by (rewrite map_length; exact Hk').
    apply (map_nth (fun r : list PrimFloat.float => nth c r 0%float) P []).
  - rewrite map_map, (nth_indep _ 0 (nth c (values []) 0)) by (rewrite map_length; exact Hk').
    rewrite (map_nth (fun r => nth c (values r) 0) P []).
    unfold values; rewrite (nth_indep (map value _) 0 (value 0%float)) by (rewrite map_length; lia).
    rewrite map_nth; reflexivity.
Qed.
Lemma net_within M nv (P : list (list PrimFloat.float)) c i j :
  Forall (fun row => length row = 3%nat /\ within (- M) M row) P -> (c < 3)%nat -> (0 <= i * Z.of_nat nv + j < len P)%Z ->
  let y := netK (0%float : Binary64) nv (coordsK (0%float : Binary64) c P) i j in finite64 y /\ Rabs (value y) <= M.
Proof.
  intros HF Hc Hk; cbv zeta; unfold netK, coordsK, len in *.
  set (k := Z.to_nat (i * Z.of_nat nv + j)).
  assert (Hk' : (k < length P)%nat) by (unfold k; lia).
  rewrite Forall_forall in HF; destruct (HF (nth k P []) (nth_In _ _ Hk')) as (L & W).
  replace (nth k (map (fun r : list Binary64 => nth c r (0%float : Binary64)) P) (0%float : Binary64)) with (nth c (nth k P []) 0%float).
  - unfold within in W; rewrite Forall_forall in W; destruct (W (nth c (nth k P []) 0%float)) as (F & B); [apply nth_In; lia|].
    split; [exact F|apply Rabs_le; exact B].
  - symmetry; rewrite (nth_indep _ _ (nth c (@nil PrimFloat.float) 0%float)) by (rewrite map_length; exact Hk').
    apply (map_nth (fun r : list PrimFloat.float => nth c r 0%float) P []).
Qed.

Section Point.
Variables (p q nu nv : nat) (U V : list PrimFloat.float) (P : list (list PrimFloat.float)) (x y : Binary64) (s t : Z) (M : R).
Hypothesis WU : within 0 1 U.
Hypothesis WV : within 0 1 V.
Hypothesis HU : knots_for (Z.of_nat p) (Z.of_nat nu) (values U).
Hypothesis HV : knots_for (Z.of_nat q) (Z.of_nat nv) (values V).
Hypothesis HL : length P = (nu * nv)%nat.
Hypothesis HP : Forall (fun row => length row = 3%nat /\ within (- M) M row) P.
Hypothesis HM : 0 <= M <= 2 ^ 890.
Hypothesis Fx : finite64 x.
Hypothesis Fy : finite64 y.
Hypothesis Dx : 0 <= value x <= 1.
Hypothesis Dy : 0 <= value y <= 1.
Hypothesis Es : find_span (Z.of_nat nu) (Z.of_nat p) x U = Ok s.
Hypothesis Et : find_span (Z.of_nat nv) (Z.of_nat q) y V = Ok t.
Hypothesis Hs : (Z.of_nat p <= s < Z.of_nat nu)%Z.
Hypothesis Ht : (Z.of_nat q <= t < Z.of_nat nv)%Z.
Hypothesis Hx : kn (values U) s <= value x <= kn (values U) (s + 1).
Hypothesis Hy : kn (values V) t <= value y <= kn (values V) (t + 1).
Hypothesis Gu : / 2 ^ 1000 <= kn (values U) (s + 1) - kn (values U) s.
Hypothesis Gv : / 2 ^ 1000 <= kn (values V) (t + 1) - kn (values V) t.
Hypothesis Hp : INR p <= 2 ^ 40.
Hypothesis Hq : INR q <= 2 ^ 40.

Lemma surf_point_b64_span : exists z,
  surf_point (mkSurf (K := Binary64) (Z.of_nat p) (Z.of_nat q) (Z.of_nat nu) (Z.of_nat nv) P U V) x y = Ok z /\
  near64 (11 * INR (p + q + 1) * (ulp64 * M + tiny64)) z
    (span2_xyz (values U) (values V) s t p q nv (map values P) (value x) (value y)).
Proof.
  assert (H3 : Forall (fun row => length row = 3%nat) P) by (eapply Forall_impl; [|exact HP]; intros r (L & _); exact L).
  assert (Hpos : 0 < / 2 ^ 1000) by (apply Rinv_0_lt_compat, pow_lt; lra).
  destruct HU as (_ & _ & LU & NU); destruct HV as (_ & _ & LV & NV); rewrite len_values in LU, LV.
  destruct (basis_functions_b64 U s x p WU NU Fx Hx Gu) as (bu & Eu & Lu & Fu & Ru); try assumption; try lia.
  destruct (basis_functions_b64 V t y q WV NV Fy Hy Gv) as (bv & Ev & Lv & Fv & Rv); try assumption; try lia.
  eexists; split.
  { apply (surf_point_any (K := Binary64) (0%float : Binary64) p q nu nv U V P x y s t bu bv); try assumption;
      apply validate64; assumption. }
  assert (G : forall c, (c < 3)%nat ->
    let v := dot2 (K := Binary64) (0%float : Binary64) bu bv p q nv s t (coordsK (0%float : Binary64) c P) in
    finite64 v /\ Rabs (value v - span2 (values U) (values V) s t p q nv (coords c (map values P)) (value x) (value y))
      <= 11 * INR (p + q + 1) * (ulp64 * M + tiny64)).
  { intros c Hc.
    set (f := fun i j => netK (0%float : Binary64) nv (coordsK (0%float : Binary64) c P) (s - Z.of_nat p + i) (t - Z.of_nat q + j)).
    assert (IX : forall i j, (0 <= i < Z.of_nat (S p))%Z -> (0 <= j < Z.of_nat (S q))%Z ->
      (0 <= (s - Z.of_nat p + i) * Z.of_nat nv + (t - Z.of_nat q + j) < len P)%Z).
    { intros i j Hi Hj; unfold len; rewrite HL, Nat2Z.inj_mul; nia. }
    destruct (dot2_error M p q bu bv (pieces (values U) s p (value x)) (pieces (values V) t q (value y)) f) as (F & E);
      try assumption; try (apply pieces_sum; [assumption|lra]); try (apply pieces_nonneg; try assumption; lra);
      try (unfold pieces; apply tab_length).
    { intros i j Hi Hj; apply (net_within M nv P c _ _ HP Hc (IX i j Hi Hj)). }
    split; [exact F|].
    match goal with |- Rabs (_ - ?r) <= _ => replace r with
      (rdot (pieces (values V) t q (value y)) (tab (S q) (fun j => rdot (pieces (values U) s p (value x)) (tab (S p) (fun i => value (f i j)))))) end;
      [exact E|].
    unfold span2, contract, pieces; rewrite rdot_tab.
    pose proof (zsum_shift 0 (t - Z.of_nat q) (S q) (fun j =>
      zsum (s - Z.of_nat p) (S p) (fun i => piece (values U) s p i (value x) * net nv (coords c (map values P)) i j) * piece (values V) t q j (value y))) as Z0.
    rewrite Z.add_0_l in Z0; rewrite Z0; apply zsum_ext; intros j Hj; rewrite rdot_tab, Rmult_comm.
    rewrite (Z.add_comm j); f_equal.
    pose proof (zsum_shift 0 (s - Z.of_nat p) (S p) (fun i => piece (values U) s p i (value x) * net nv (coords c (map values P)) i (t - Z.of_nat q + j))) as Z1.
    rewrite Z.add_0_l in Z1; rewrite Z1; apply zsum_ext; intros i Hi.
    rewrite (Z.add_comm i); f_equal; unfold f; apply net_values; try assumption; apply IX; lia. }
  unfold near64, span2_xyz; cbn [map].
  destruct (G 0%nat ltac:(lia)) as (G1 & G2); destruct (G 1%nat ltac:(lia)) as (G3 & G4); destruct (G 2%nat ltac:(lia)) as (G5 & G6).
  apply Forall2_cons; [split; assumption|]; apply Forall2_cons; [split; assumption|].
  apply Forall2_cons; [split; assumption|apply Forall2_nil].
Qed.
End Point.

Lemma surf_point_b64 p q nu nv (U V : list PrimFloat.float) P (x y : Binary64) M :
  within 0 1 U -> clamped (Z.of_nat p) (Z.of_nat nu) (values U) -> (1 <= p)%nat -> INR p <= 2 ^ 40 ->
  kn (values U) (Z.of_nat p) = 0 -> kn (values U) (Z.of_nat nu) = 1 ->
  (forall i, (Z.of_nat p <= i < Z.of_nat nu)%Z -> / 2 ^ 1000 <= kn (values U) (i + 1) - kn (values U) i) ->
  within 0 1 V -> clamped (Z.of_nat q) (Z.of_nat nv) (values V) -> (1 <= q)%nat -> INR q <= 2 ^ 40 ->
  kn (values V) (Z.of_nat q) = 0 -> kn (values V) (Z.of_nat nv) = 1 ->
  (forall i, (Z.of_nat q <= i < Z.of_nat nv)%Z -> / 2 ^ 1000 <= kn (values V) (i + 1) - kn (values V) i) ->
  length P = (nu * nv)%nat -> Forall (fun row => length row = 3%nat /\ within (- M) M row) P -> 0 <= M <= 2 ^ 890 ->
  finite64 x -> 0 <= value x <= 1 -> (1 - value x <= 102 / 100000000 -> kn (values U) (Z.of_nat nu - 1) <= value x) ->
  finite64 y -> 0 <= value y <= 1 -> (1 - value y <= 102 / 100000000 -> kn (values V) (Z.of_nat nv - 1) <= value y) ->
  exists z, surf_point (mkSurf (K := Binary64) (Z.of_nat p) (Z.of_nat q) (Z.of_nat nu) (Z.of_nat nv) P U V) x y = Ok z /\
    near64 (11 * INR (p + q + 1) * (ulp64 * M + tiny64)) z
      (surface_xyz (values U) (values V) p q nu nv (map values P) (value x) (value y)).
Proof.
  intros WU CU Hp1 Hp U0 U1 GU WV CV Hq1 Hq V0 V1 GV HL HP HM Fx Hx Tx Fy Hy Ty.
  assert (Hpos : 0 < / 2 ^ 1000) by (apply Rinv_0_lt_compat, pow_lt; lra).
  destruct (find_span_strict64 _ _ x U WU CU U0 U1 Fx Hx Tx) as (s & Es & Hs & Bx).
  destruct (find_span_strict64 _ _ y V WV CV V0 V1 Fy Hy Ty) as (t & Et & Ht & By).
  destruct (surf_point_b64_span p q nu nv U V P x y s t M WU WV (proj1 CU) (proj1 CV) HL HP HM Fx Fy Hx Hy Es Et Hs Ht Bx By
    (GU s Hs) (GV t Ht) Hp Hq) as (z & Ez & Nz).
  exists z; split; [exact Ez|].
  replace (surface_xyz (values U) (values V) p q nu nv (map values P) (value x) (value y))
    with (span2_xyz (values U) (values V) s t p q nv (map values P) (value x) (value y)); [exact Nz|].
  unfold span2_xyz, surface_xyz; apply map_ext; intros c; pose proof (GU s Hs); pose proof (GV t Ht).
  apply span2_surface; try assumption; try lra; right; apply strict_continuous; try assumption; try lia.
  - intros i Hi; pose proof (GU i Hi); lra.
  - intros i Hi; pose proof (GV i Hi); lra.
Qed.
