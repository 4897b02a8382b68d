(** Derivatives of curves and surfaces (models: ModelParam.v, ModelSurface.v) on
    binary64 numbers. *)
From Coq Require Import Reals Lra Lia ZArith List Floats Bool.
From Flocq Require Import Core.Core.
From Verif Require Import Py PyLemmas Num ModelKnots ModelBasis ModelCurve ModelSurface ModelParam Spec SpecB64 MathCox MathKnots MathJoin MathDeriv
  ProofNum ProofBasis ProofDers ProofDersAny ProofSurface ProofSurface2 ProofParam5 ProofB64 ProofB64Basis ProofB64Span ProofB64Curve ProofB64Surface
  ProofB64Ders ProofB64Ders2.
Import ListNotations.

(** ** On any numbers *)
Section Any.
Context {K : Num}.
Notation d0 := (0%num : K).
Open Scope Z_scope.
(** Column [k] of the derivative table. *)
Definition dcol (U : list K) s x p (k : Z) : list K := tab (S p) (fun r => gder U s x p r k).
Lemma dcol_acol U s x p n k : 0 <= k <= Z.of_nat n -> acol (tab2 (S p) (S n) (gder U s x p)) k = Ok (dcol U s x p k).
Proof. intros Hk; apply mapM_tab; intros i Hi; rewrite aget_tab by lia; reflexivity. Qed.

Definition crow (U : list K) s x p (P : list (list K)) (k : Z) : list K :=
  map (fun c => vdot (dcol U s x p k) (tab (S p) (fun i => nth c (nth (Z.to_nat (s - Z.of_nat p + i)) P []) d0))) [0%nat; 1%nat; 2%nat].
Lemma derivatives3_any p (U : list K) P d x s o : validate_knot x = true -> Forall (fun row => length row = 3%nat) P ->
  find_span (len P) (Z.of_nat p) x U = Ok s -> Z.of_nat p <= s < len P -> s + Z.of_nat p < zlen U -> (2 <= o)%nat ->
  derivatives3 (mkCurve (Some (Z.of_nat p)) (Some P) (Some U) d) x (Z.of_nat o)
  = Ok (tab (S (Nat.min o p)) (crow U s x p P)).
Proof.
  intros Vx HF Es Hs HLU Ho; unfold derivatives3; rewrite Vx; cbn [negb].
  destruct (Z.leb_spec (Z.of_nat o) 1); [lia|]; unfold curve_fields; cbn [c_degree c_ctrl c_kv bind]; cbv zeta.
  change (zlen P) with (len P); rewrite Es; cbn [bind]; rewrite <- Nat2Z.inj_min.
  rewrite basis_function_ders_any by lia; cbn [bind].
  set (mo := Nat.min o p); rewrite (np_full2_tab (S mo) 3) by lia; cbn [bind].
  set (Z3 := repeat d0 3).
  assert (E3 : tab2 (S mo) 3 (fun _ _ => d0) = tab (S mo) (fun _ => Z3)) by reflexivity.
  rewrite E3; clear E3; rewrite zlen_tab.
  rewrite (for_range_fun (fun k => tab (S mo) (fun i => if (i <? k) then crow U s x p P i else Z3)) 0 (Z.of_nat (S mo))).
  - f_equal; apply tab_ext; intros i Hi; destruct (Z.ltb_spec i (Z.of_nat (S mo))); [reflexivity|lia].
  - lia.
  - apply tab_ext; intros i Hi; destruct (Z.ltb_spec i 0); [lia|reflexivity].
  - intros k Hk; unfold curve_deriv_row3.
    rewrite dcol_acol by lia; cbn [bind].
    replace (s + 1) with (s - Z.of_nat p + Z.of_nat (S p)) by lia.
    pose proof (active_col_any P d0 (s - Z.of_nat p) (S p) 0 HF ltac:(lia) ltac:(lia) ltac:(lia)) as A0; change (Z.of_nat 0) with 0 in A0.
    pose proof (active_col_any P d0 (s - Z.of_nat p) (S p) 1 HF ltac:(lia) ltac:(lia) ltac:(lia)) as A1; change (Z.of_nat 1) with 1 in A1.
    pose proof (active_col_any P d0 (s - Z.of_nat p) (S p) 2 HF ltac:(lia) ltac:(lia) ltac:(lia)) as A2; change (Z.of_nat 2) with 2 in A2.
    rewrite A0; cbn [bind]; rewrite matmul_dot by (unfold dcol; rewrite !tab_length; reflexivity); cbn [bind].
    rewrite A1; cbn [bind]; rewrite matmul_dot by (unfold dcol; rewrite !tab_length; reflexivity); cbn [bind].
    rewrite A2; cbn [bind]; rewrite matmul_dot by (unfold dcol; rewrite !tab_length; reflexivity); cbn [bind].
    match goal with |- context [aset_row _ _ ?l] => change l with (crow U s x p P k) end.
    rewrite (aset_row_tab _ _ _ _ 3); [|lia| |reflexivity].
    + f_equal; apply tab_ext; intros i Hi; unfold fupd.
      destruct (Z.eqb_spec i k) as [->|E].
      * destruct (Z.ltb_spec k (k + 1)); [reflexivity|lia].
      * destruct (Z.ltb_spec i (k + 1)), (Z.ltb_spec i k); try lia; reflexivity.
    + destruct (_ <? _); reflexivity.
Qed.

(** Entries of the surface's array: entry [k] is of orders [k / W] and [k mod W]. *)
Definition unit_row (nrm : bool) (k : Z) (row : list K) : list K :=
  if nrm && negb (isclose (vnorm row) d0) && negb (k =? 0) then map (fun x => (x / vnorm row)%num) row else row.
Definition srow (U V : list K) s t x y p q nv (P : list (list K)) (W k : Z) : list K :=
  map (fun c => dot2 d0 (dcol U s x p (k / W)) (dcol V t y q (k mod W)) p q nv s t (coordsK d0 c P)) [0%nat; 1%nat; 2%nat].
Lemma unit_row_len nrm k row : length (unit_row nrm k row) = length row.
Proof. unfold unit_row; destruct (_ && _); [apply map_length|reflexivity]. Qed.

Lemma surf_derivatives_any p q nu nv (U V : list K) P x y s t mu mv ou ov nrm :
  validate_knot x = true -> validate_knot y = true -> Forall (fun row => length row = 3%nat) P -> length P = (nu * nv)%nat ->
  find_span (Z.of_nat nu) (Z.of_nat p) x U = Ok s -> find_span (Z.of_nat nv) (Z.of_nat q) y V = Ok t ->
  Z.of_nat p <= s < Z.of_nat nu -> Z.of_nat q <= t < Z.of_nat nv -> s + Z.of_nat p < zlen U -> t + Z.of_nat q < zlen V ->
  Z.of_nat mu = Z.min ou (Z.of_nat p) -> Z.of_nat mv = Z.min ov (Z.of_nat q) ->
  surf_derivatives (mkSurf (Z.of_nat p) (Z.of_nat q) (Z.of_nat nu) (Z.of_nat nv) P U V) x y ou ov nrm
  = Ok (tab ((mu + 1) * (mv + 1)) (fun k => unit_row nrm k (srow U V s t x y p q nv P (Z.of_nat mv + 1) k))).
Proof.
  intros Vx Vy HF HL Es Et Hs Ht HLU HLV Emu Emv; unfold surf_derivatives; rewrite Vx, Vy; cbn [negb]; cbv zeta.
  cbn [s_nu s_nv s_pu s_pv s_ku s_kv]; rewrite Es, Et, <- Emu, <- Emv; cbn [bind].
  rewrite !basis_function_ders_any by lia; cbn [bind].
  unfold surf_arrays; cbn [s_ctrl s_nu s_nv].
  pose proof (acol_coords d0 P 0 HF ltac:(lia)) as E0; pose proof (acol_coords d0 P 1 HF ltac:(lia)) as E1; pose proof (acol_coords d0 P 2 HF ltac:(lia)) as E2.
  cbn [Z.of_nat Pos.of_succ_nat Pos.succ] in E0, E1, E2; rewrite E0, E1, E2; cbn [bind].
  rewrite !(reshape_any d0) by (unfold coordsK; rewrite map_length; exact HL); cbn [bind].
  set (W := Z.of_nat mv + 1); set (N := ((mu + 1) * (mv + 1))%nat).
  rewrite (np_full2_tab N 3) by (unfold N; lia); cbn [bind].
  set (Z3 := repeat d0 3); set (row := fun k => unit_row nrm k (srow U V s t x y p q nv P W k)).
  set (F := fun k : Z => (k, tab N (fun i => if (i <? k) then row i else Z3))).
  rewrite (for_range_fun (fun a => F (a * W)) 0 (Z.of_nat mu + 1)).
  - cbn [bind]; unfold F; cbn [snd]; f_equal; apply tab_ext; intros i Hi.
    destruct (Z.ltb_spec i ((Z.of_nat mu + 1) * W)); [reflexivity|unfold N, W in *; nia].
  - lia.
  - unfold F; f_equal; unfold tab2; apply tab_ext; intros i Hi; destruct (Z.ltb_spec i (0 * W)); [lia|reflexivity].
  - intros a Ha.
    rewrite (for_range_fun (fun b => F (a * W + b)) 0 (Z.of_nat mv + 1)).
    + do 2 f_equal; unfold W; lia.
    + lia.
    + f_equal; lia.
    + intros b Hb; unfold surf_deriv_entry.
      rewrite !dcol_acol by lia; cbn [bind].
      unfold surf_contract; cbn [s_pu s_pv]; cbv zeta.
      rewrite !(slice2_any d0) by assumption; rewrite !bilinear_any by (apply tab_length); cbn [bind].
      assert (EQ : (a * W + b) / W = a) by (unfold W; rewrite Z.div_add_l, Z.div_small by lia; lia).
      assert (ER : (a * W + b) mod W = b) by (rewrite Z.add_comm; unfold W; rewrite Z.mod_add, Z.mod_small by lia; reflexivity).
      match goal with |- context [vnorm ?l] => assert (EL : l = srow U V s t x y p q nv P W (a * W + b)) by (unfold srow; rewrite EQ, ER; reflexivity); rewrite EL; clear EL end.
      cbn [fst snd F].
      match goal with |- context [aset_row _ _ ?l] => change l with (row (a * W + b)) end.
      assert (RL : forall k, zlen (row k) = 3) by (intros k; unfold zlen, row; rewrite unit_row_len; reflexivity).
      assert (B : 0 <= a * W + b < Z.of_nat N) by (unfold N, W; nia).
      rewrite (aset_row_tab _ _ _ _ 3); [|exact B| |apply RL].
      * cbn [bind]; unfold F; rewrite <- Z.add_assoc; do 2 f_equal; apply tab_ext; intros i Hi; unfold fupd.
        destruct (Z.eqb_spec i (a * W + b)) as [E|E].
        -- destruct (Z.ltb_spec i (a * W + (b + 1))); [rewrite E; reflexivity|lia].
        -- destruct (Z.ltb_spec i (a * W + (b + 1))), (Z.ltb_spec i (a * W + b)); try lia; reflexivity.
      * destruct (_ <? _); [apply RL|reflexivity].
Qed.
(** The entry of orders 0 and 0 is the point, normalised or not. *)
Lemma surf_first p q nu nv (U V : list K) P x y s t ou ov nrm :
  validate_knot x = true -> validate_knot y = true -> Forall (fun row => length row = 3%nat) P -> length P = (nu * nv)%nat ->
  find_span (Z.of_nat nu) (Z.of_nat p) x U = Ok s -> find_span (Z.of_nat nv) (Z.of_nat q) y V = Ok t ->
  Z.of_nat p <= s < Z.of_nat nu -> Z.of_nat q <= t < Z.of_nat nv -> s + Z.of_nat p < zlen U -> t + Z.of_nat q < zlen V ->
  0 <= ou -> 0 <= ov ->
  exists m, surf_derivatives (mkSurf (Z.of_nat p) (Z.of_nat q) (Z.of_nat nu) (Z.of_nat nv) P U V) x y ou ov nrm = Ok m /\
    length m = ((Nat.min (Z.to_nat ou) p + 1) * (Nat.min (Z.to_nat ov) q + 1))%nat /\ Forall (fun row => length row = 3%nat) m /\
    surf_point (mkSurf (Z.of_nat p) (Z.of_nat q) (Z.of_nat nu) (Z.of_nat nv) P U V) x y = Ok (nth 0 m []).
Proof.
  intros Vx Vy HF HL Es Et Hs Ht HLU HLV Ho Ho'.
  set (mu := Nat.min (Z.to_nat ou) p); set (mv := Nat.min (Z.to_nat ov) q).
  eexists; split; [apply (surf_derivatives_any p q nu nv U V P x y s t mu mv); (assumption || lia)|].
  split; [apply tab_length|]; split; [apply Forall_tab; intros; rewrite unit_row_len; reflexivity|].
  rewrite nth_tab by lia; unfold unit_row; cbn [Z.of_nat Z.eqb negb]; rewrite andb_false_r.
  erewrite (surf_point_any d0); try eassumption; try (apply basis_functions_any; lia); try apply tab_length.
  f_equal; unfold srow; apply map_ext; intros c; f_equal.
Qed.
Lemma curve_first p (U : list K) P d x s o : validate_knot x = true -> Forall (fun row => length row = 3%nat) P ->
  find_span (len P) (Z.of_nat p) x U = Ok s -> Z.of_nat p <= s < len P -> s + Z.of_nat p < zlen U -> (2 <= o)%nat ->
  exists m, derivatives3 (mkCurve (Some (Z.of_nat p)) (Some P) (Some U) d) x (Z.of_nat o) = Ok m /\
    length m = S (Nat.min o p) /\ Forall (fun row => length row = 3%nat) m /\
    single_point (mkCurve (Some (Z.of_nat p)) (Some P) (Some U) d) x = Ok (nth 0 m []).
Proof.
  intros Vx HF Es Hs HLU Ho; eexists; split; [apply (derivatives3_any p U P d x s o); assumption|].
  split; [apply tab_length|]; split; [apply Forall_tab; intros; reflexivity|]; rewrite nth_tab by lia.
  unfold single_point; rewrite Vx; cbn [negb]; unfold curve_fields; cbn [c_degree c_ctrl c_kv bind].
  unfold curve_point; change (zlen P) with (len P); rewrite Es; cbn [bind]; rewrite basis_functions_any by lia; cbn [bind]; cbv zeta.
  replace (s + 1) with (s - Z.of_nat p + Z.of_nat (S p)) by lia.
  pose proof (active_col_any P d0 (s - Z.of_nat p) (S p) 0 HF ltac:(lia) ltac:(lia) ltac:(lia)) as A0; change (Z.of_nat 0) with 0 in A0.
  pose proof (active_col_any P d0 (s - Z.of_nat p) (S p) 1 HF ltac:(lia) ltac:(lia) ltac:(lia)) as A1; change (Z.of_nat 1) with 1 in A1.
  pose proof (active_col_any P d0 (s - Z.of_nat p) (S p) 2 HF ltac:(lia) ltac:(lia) ltac:(lia)) as A2; change (Z.of_nat 2) with 2 in A2.
  rewrite A0; cbn [bind]; rewrite matmul_dot by (rewrite !tab_length; reflexivity); cbn [bind].
  rewrite A1; cbn [bind]; rewrite matmul_dot by (rewrite !tab_length; reflexivity); cbn [bind].
  rewrite A2; cbn [bind]; rewrite matmul_dot by (rewrite !tab_length; reflexivity); reflexivity.
Qed.
End Any.

(** ** Dot products with weights of either sign *)
Open Scope R_scope.
Lemma sumabs_nonneg l : 0 <= sumabs l.
Proof. unfold sumabs; induction l as [|y v IHv]; cbn; [lra|pose proof (Rabs_pos y); lra]. Qed.
Lemma p990 : bpow radix2 990 = 2 ^ 990.
Proof. rewrite bpow_powerRZ; reflexivity. Qed.
Lemma prods_signed M (a b : list PrimFloat.float) : 0 <= M -> Forall finite64 a -> within (- M) M b ->
  sumabs (values a) * M <= 2 ^ 990 -> length a = length b ->
  let t := map (fun xy => PrimFloat.mul (fst xy) (snd xy)) (combine a b) in
  let W := sumabs (values a) in
  Forall finite64 t /\ length t = length a /\
  sumabs (values t) <= (1 + ulp64) * (W * M) + INR (length a) * eta64 /\
  Rabs (sumR (values t) - rdot (values a) (values b)) <= ulp64 * (W * M) + INR (length a) * eta64.
Proof.
  intros HM; pose proof ulp64_pos as Hu; pose proof ulp64_small as Hu2; pose proof eta64_pos as He.
  revert b; induction a as [|x a IH]; intros b Fa Fb HB Hl; destruct b as [|y b]; try discriminate Hl.
  - cbn; repeat split; try constructor; unfold sumabs; cbn; try rewrite Rminus_0_r, Rabs_R0; lra.
  - inversion Fa as [|? ? Fx Fa']; inversion Fb as [|? ? (Fy & Hy) Fb']; subst.
    injection Hl as Hl.
    unfold values in HB; cbn [map] in HB; fold (values a) in HB; unfold sumabs in HB; cbn [map fold_right] in HB; fold (sumabs (values a)) in HB.
    pose proof (Rabs_pos (value x)) as AX0; pose proof (sumabs_nonneg (values a)) as SA0.
    assert (X0 : 0 <= Rabs (value x) * M) by (apply Rmult_le_pos; lra).
    assert (S0 : 0 <= sumabs (values a) * M) by (apply Rmult_le_pos; lra).
    rewrite Rmult_plus_distr_r in HB.
    specialize (IH b Fa' Fb' ltac:(lra) Hl); cbv zeta in IH |- *.
    cbn [combine map values length fst snd] in *; fold (values a) (values b) in *.
    destruct IH as (F & L & S1 & S2).
    assert (AY : Rabs (value y) <= M) by (apply Rabs_le; lra).
    assert (XY : Rabs (value x * value y) <= Rabs (value x) * M) by (rewrite Rabs_mult; apply Rmult_le_compat_l; lra).
    destruct (mul64 x y Fx Fy) as (Fm & Vm).
    { apply rnd_safe with 990%Z; [lia|]; rewrite p990; lra. }
    destruct (rnd_err (value x * value y)) as (e & h & Ee & Eh & Er); rewrite Er in Vm.
    assert (D : Rabs (value (x * y)%float - value x * value y) <= ulp64 * (Rabs (value x) * M) + eta64).
    { rewrite Vm; replace (value x * value y * (1 + e) + h - value x * value y) with (value x * value y * e + h) by ring.
      eapply Rle_trans; [apply Rabs_triang|]; apply Rplus_le_compat; [|exact Eh].
      rewrite Rabs_mult, Rmult_comm; apply Rmult_le_compat; try assumption; apply Rabs_pos. }
    split; [constructor; assumption|]; split; [f_equal; exact L|].
    rewrite S_INR; unfold sumabs, sumR, rdot, values in *; cbn [map fold_right combine fst snd] in *.
    split.
    + replace (value (x * y)%float) with (value x * value y + (value (x * y)%float - value x * value y)) by ring.
      pose proof (Rabs_triang (value x * value y) (value (x * y)%float - value x * value y)); lra.
    + match goal with |- Rabs (?v + ?s - (?w + ?r)) <= _ =>
        replace (v + s - (w + r)) with ((v - w) + (s - r)) by ring end.
      eapply Rle_trans; [apply Rabs_triang|]; lra.
Qed.
Lemma sumabs_error a a' : length a = length a' -> sumabs a <= sumabs a' + error1 a a'.
Proof.
  revert a'; induction a as [|x a IH]; intros [|x' a'] L; try discriminate; unfold sumabs in *; cbn; [lra|].
  injection L as L; specialize (IH _ L).
  assert (Rabs x <= Rabs x' + Rabs (x - x')) by (replace x with (x' + (x - x')) at 1 by ring; apply Rabs_triang); lra.
Qed.

Lemma dot_signed M W k (a b : list PrimFloat.float) w : 0 <= M -> INR (length a) <= 2 ^ 41 -> Forall finite64 a ->
  within (- M) M b -> length a = length b -> length a = length w -> sumabs w <= W -> error1 (values a) w <= k * ulp64 * W ->
  0 <= k <= 2 ^ 44 -> W * M <= 2 ^ 980 ->
  finite64 (vdot (a : list Binary64) b) /\
  Rabs (value (vdot (a : list Binary64) b) - rdot w (values b)) <= (k + 2 * INR (length a) + 2) * (ulp64 * (W * M)) + 2 * INR (length a) * eta64.
Proof.
  intros HM HN Fa Fb L1 L2 HWs HE Hk HWM.
  pose proof ulp64_pos as Hu; pose proof ulp64_tiny as Ht; pose proof eta64_pos as He.
  assert (KU : k * ulp64 <= / 512).
  { apply Rle_trans with (2 ^ 44 * ulp64); [apply Rmult_le_compat_r; lra|].
    replace (2 ^ 53) with (2 ^ 44 * 512) in Ht by (cbn [pow]; ring).
    apply Rmult_le_reg_r with 512; [lra|]; rewrite Rinv_l by lra; lra. }
  set (n := length a) in *.
  assert (NU : INR n * ulp64 <= / 4096).
  { apply Rle_trans with (2 ^ 41 * ulp64); [apply Rmult_le_compat_r; lra|].
    replace (2 ^ 53) with (2 ^ 41 * 4096) in Ht by (cbn [pow]; ring).
    apply Rmult_le_reg_r with 4096; [lra|]; rewrite Rinv_l by lra; lra. }
  assert (U5 : ulp64 <= / 4096) by (unfold ulp64; apply Rinv_le_contravar; [lra|cbn [pow]; lra]).
  assert (L2' : length (values a) = length w) by (unfold values; rewrite map_length; exact L2).
  pose proof (sumabs_nonneg w) as W0.
  assert (WA : sumabs (values a) <= 513 / 512 * W).
  { apply Rle_trans with (1 := sumabs_error _ _ L2').
    assert (k * ulp64 * W <= / 512 * W) by (apply Rmult_le_compat_r; lra); lra. }
  set (Wa := sumabs (values a)) in *.
  assert (Wa0 : 0 <= Wa) by apply sumabs_nonneg.
  assert (WaM : 0 <= Wa * M <= 513 / 512 * (W * M)).
  { split; [apply Rmult_le_pos; lra|]; rewrite <- Rmult_assoc; apply Rmult_le_compat_r; lra. }
  assert (WM0 : 0 <= W * M) by (apply Rmult_le_pos; lra).
  assert (P1 : 4 * 2 ^ 980 <= 2 ^ 990 /\ 2 ^ 990 <= 2 ^ 1000 /\ 1 <= 2 ^ 980).
  { replace (2 ^ 990) with (2 ^ 980 * 2 ^ 10) by (rewrite <- pow_add; reflexivity).
    replace (2 ^ 1000) with (2 ^ 980 * 2 ^ 20) by (rewrite <- pow_add; reflexivity).
    assert (1 <= 2 ^ 980) by (apply pow_R1_Rle; lra); generalize dependent (2 ^ 980); clear; intros z _ H; cbn [pow]; lra. }
  set (X980 := 2 ^ 980) in *; set (X990 := 2 ^ 990) in *; set (X1000 := 2 ^ 1000) in *.
  destruct (prods_signed M a b HM Fa Fb) as (Ft & Lt & S1 & S2).
  { fold Wa; fold X990; lra. }
  { exact L1. }
  fold n in Lt, S1, S2; fold Wa in S1, S2.
  set (t := map _ _) in *.
  set (A := (1 + ulp64) * (Wa * M) + INR n * eta64) in *.
  assert (N0 : 0 <= INR n) by apply pos_INR.
  assert (UWM : ulp64 * (Wa * M) <= / 4096 * (Wa * M)) by (apply Rmult_le_compat_r; lra).
  assert (UW0 : 0 <= ulp64 * (Wa * M)) by (apply Rmult_le_pos; lra).
  assert (NE0 : 0 <= INR n * eta64) by (apply Rmult_le_pos; lra).
  assert (NE : INR n * eta64 <= 1).
  { apply Rle_trans with (INR n * ulp64); [|lra]; apply Rmult_le_compat_l; [exact N0|].
    pose proof eta_ulp as EU; assert (1 <= 2 ^ 100) by (apply pow_R1_Rle; lra).
    apply Rle_trans with (eta64 * 2 ^ 100); [|exact EU]; rewrite <- (Rmult_1_r eta64) at 1; apply Rmult_le_compat_l; lra. }
  assert (AM : A <= 101 / 100 * (W * M) + INR n * eta64) by (unfold A; lra).
  assert (A0 : 0 <= A) by (unfold A; lra).
  pose proof (grow_bound n HN) as GB.
  destruct (sum64 t 0%float 0 0 A Ft finite_0) as (F & E).
  { rewrite Rabs_R0; lra. }
  { fold X1000; lra. }
  { rewrite Lt; cbn [plus]; lra. }
  { change (value 0%float) with (value (0%num : Binary64)); rewrite value_0, Rminus_0_r, Rabs_R0; unfold grow; cbn [pow]; lra. }
  rewrite Lt in E; cbn [plus] in E; rewrite Rplus_0_l in E.
  change (vdot (a : list Binary64) b) with (fold_left PrimFloat.add t 0%float).
  split; [exact F|].
  assert (HB : Forall (fun y => Rabs y <= M) (values b)).
  { unfold values; apply Forall_map; eapply Forall_impl; [|exact Fb]; intros y (_ & Y); apply Rabs_le; exact Y. }
  assert (E3 : Rabs (rdot (values a) (values b) - rdot w (values b)) <= k * ulp64 * W * M).
  { eapply Rle_trans; [apply rdot_error; [exact L2'|unfold values; rewrite !map_length; exact L1|exact HB]|].
    apply Rmult_le_compat_r; lra. }
  match goal with |- Rabs (?x - ?y) <= _ =>
    replace (x - y) with ((x - sumR (values t)) + ((sumR (values t) - rdot (values a) (values b)) + (rdot (values a) (values b) - y))) by ring end.
  eapply Rle_trans; [apply Rabs_triang|].
  pose proof (Rabs_triang (sumR (values t) - rdot (values a) (values b)) (rdot (values a) (values b) - rdot w (values b))).
  assert (E1 : grow n * A <= 11/10 * INR n * ulp64 * (101 / 100 * (W * M) + INR n * eta64)).
  { apply Rmult_le_compat; try assumption; apply grow_nonneg. }
  assert (NN : INR n * ulp64 * (INR n * eta64) <= / 4096 * (INR n * eta64)) by (apply Rmult_le_compat_r; [exact NE0|exact NU]).
  assert (UM0 : 0 <= ulp64 * (W * M)) by (apply Rmult_le_pos; lra).
  assert (0 <= INR n * (ulp64 * (W * M))) by (apply Rmult_le_pos; lra).
  assert (ulp64 * (Wa * M) <= ulp64 * (513 / 512 * (W * M))) by (apply Rmult_le_compat_l; lra).
  replace (11/10 * INR n * ulp64 * (101/100 * (W * M) + INR n * eta64)) with (1111/1000 * (INR n * (ulp64 * (W * M))) + 11/10 * (INR n * ulp64 * (INR n * eta64))) in E1 by field.
  replace ((k + 2 * INR n + 2) * (ulp64 * (W * M)) + 2 * INR n * eta64) with
    (k * ulp64 * W * M + 2 * (INR n * (ulp64 * (W * M))) + 2 * (ulp64 * (W * M)) + 2 * (INR n * eta64)) by ring.
  lra.
Qed.
