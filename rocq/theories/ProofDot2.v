(** Points and derivatives (model: ModelDot.v) with dot products in any order. *)
From Coq Require Import Reals Lra Lia ZArith List Floats Bool Permutation.
From Flocq Require Import Core.Core.
From Verif Require Import Py PyLemmas Num ModelKnots ModelBasis ModelCurve ModelSurface ModelParam ModelDot Spec SpecParam SpecB64 SpecDot
  MathCox MathKnots MathJoin MathDeriv
  ProofNum ProofCurve ProofCurve2 ProofBasis ProofSpan ProofDers ProofDersAny ProofSurface ProofSurface2 ProofParam5 ProofB64 ProofB64Basis ProofB64Span
  ProofB64Curve ProofB64Surface ProofB64Knots ProofB64Uniform ProofB64Ders ProofB64Ders2 ProofB64Ders3 ProofB64Ders4 ProofDot.
Import ListNotations.

(** ** From left to right these are the other models *)
Lemma single_point_dot_model (K : Num) (c : curve_obj K) u : single_point_dot (fun _ => vdot) c u = single_point c u.
Proof. reflexivity. Qed.
Lemma derivatives_dot_model (K : Num) (c : curve_obj K) u o : derivatives_dot (fun _ => vdot) c u o = derivatives3 c u o.
Proof. reflexivity. Qed.
Lemma surf_point_dot_model (K : Num) (s : surf K) u v : surf_point_dot (fun _ => vdot) s u v = surf_point s u v.
Proof. reflexivity. Qed.
Lemma surf_derivatives_dot_model (K : Num) (s : surf K) u v ou ov :
  surf_derivatives_dot (fun _ => vdot) s u v ou ov = surf_derivatives s u v ou ov false.
Proof. reflexivity. Qed.

(** ** On any numbers *)
Section Any.
Context {K : Num}.
Variable dot : list Z -> list K -> list K -> K.
Notation d0 := (0%num : K).
Open Scope Z_scope.
Lemma mm_dot site (a b : list K) : length a = length b -> mm dot site a b = Ok (dot site a b).
Proof. intros L; unfold mm, zlen; rewrite L, Z.eqb_refl; reflexivity. Qed.

Lemma single_point_dot_any p (U : list K) P d x s B : validate_knot x = true -> Forall (fun row => length row = 3%nat) P ->
  find_span (len P) (Z.of_nat p) x U = Ok s -> Z.of_nat p <= s < len P -> basis_functions s x (Z.of_nat p) U = Ok B -> length B = S p ->
  single_point_dot dot (mkCurve (Some (Z.of_nat p)) (Some P) (Some U) d) x
  = Ok (map (fun c => dot [Z.of_nat c] B (tab (S p) (fun i => nth c (nth (Z.to_nat (s - Z.of_nat p + i)) P []) d0))) [0%nat; 1%nat; 2%nat]).
Proof.
  intros Vx HF Es Hs EB LB; unfold single_point_dot; rewrite Vx; cbn [negb]; unfold curve_fields; cbn [c_degree c_ctrl c_kv bind].
  unfold curve_point_dot; change (zlen P) with (len P); rewrite Es; cbn [bind]; rewrite EB; cbn [bind]; cbv zeta.
  replace (s + 1) with (s - Z.of_nat p + Z.of_nat (S p)) by lia.
  pose proof (active_col_any P d0 (s - Z.of_nat p) (S p) 0 HF ltac:(lia) ltac:(lia) ltac:(lia)) as A0; change (Z.of_nat 0) with 0 in A0.
  pose proof (active_col_any P d0 (s - Z.of_nat p) (S p) 1 HF ltac:(lia) ltac:(lia) ltac:(lia)) as A1; change (Z.of_nat 1) with 1 in A1.
  pose proof (active_col_any P d0 (s - Z.of_nat p) (S p) 2 HF ltac:(lia) ltac:(lia) ltac:(lia)) as A2; change (Z.of_nat 2) with 2 in A2.
  rewrite A0; cbn [bind]; rewrite mm_dot by (rewrite tab_length; exact LB); cbn [bind].
  rewrite A1; cbn [bind]; rewrite mm_dot by (rewrite tab_length; exact LB); cbn [bind].
  rewrite A2; cbn [bind]; rewrite mm_dot by (rewrite tab_length; exact LB); reflexivity.
Qed.

Definition crow_dot (U : list K) s x p (P : list (list K)) (k : Z) : list K :=
  map (fun c => dot [k; Z.of_nat c] (dcol U s x p k) (tab (S p) (fun i => nth c (nth (Z.to_nat (s - Z.of_nat p + i)) P []) d0))) [0%nat; 1%nat; 2%nat].
Lemma derivatives_dot_any p (U : list K) P d x s o : validate_knot x = true -> Forall (fun row => length row = 3%nat) P ->
  find_span (len P) (Z.of_nat p) x U = Ok s -> Z.of_nat p <= s < len P -> s + Z.of_nat p < zlen U -> (2 <= o)%nat ->
  derivatives_dot dot (mkCurve (Some (Z.of_nat p)) (Some P) (Some U) d) x (Z.of_nat o)
  = Ok (tab (S (Nat.min o p)) (crow_dot U s x p P)).
Proof.
  intros Vx HF Es Hs HLU Ho; unfold derivatives_dot; rewrite Vx; cbn [negb].
  destruct (Z.leb_spec (Z.of_nat o) 1); [lia|]; unfold curve_fields; cbn [c_degree c_ctrl c_kv bind]; cbv zeta.
  change (zlen P) with (len P); rewrite Es; cbn [bind]; rewrite <- Nat2Z.inj_min.
  rewrite basis_function_ders_any by lia; cbn [bind].
  set (mo := Nat.min o p); rewrite (np_full2_tab (S mo) 3) by lia; cbn [bind].
  set (Z3 := repeat d0 3).
  assert (E3 : tab2 (S mo) 3 (fun _ _ => d0) = tab (S mo) (fun _ => Z3)) by reflexivity.
  rewrite E3; clear E3; rewrite zlen_tab.
  rewrite (for_range_fun (fun k => tab (S mo) (fun i => if (i <? k) then crow_dot U s x p P i else Z3)) 0 (Z.of_nat (S mo))).
  - f_equal; apply tab_ext; intros i Hi; destruct (Z.ltb_spec i (Z.of_nat (S mo))); [reflexivity|lia].
  - lia.
  - apply tab_ext; intros i Hi; destruct (Z.ltb_spec i 0); [lia|reflexivity].
  - intros k Hk; unfold curve_deriv_row_dot.
    rewrite dcol_acol by lia; cbn [bind].
    replace (s + 1) with (s - Z.of_nat p + Z.of_nat (S p)) by lia.
    pose proof (active_col_any P d0 (s - Z.of_nat p) (S p) 0 HF ltac:(lia) ltac:(lia) ltac:(lia)) as A0; change (Z.of_nat 0) with 0 in A0.
    pose proof (active_col_any P d0 (s - Z.of_nat p) (S p) 1 HF ltac:(lia) ltac:(lia) ltac:(lia)) as A1; change (Z.of_nat 1) with 1 in A1.
    pose proof (active_col_any P d0 (s - Z.of_nat p) (S p) 2 HF ltac:(lia) ltac:(lia) ltac:(lia)) as A2; change (Z.of_nat 2) with 2 in A2.
    rewrite A0; cbn [bind]; rewrite mm_dot by (unfold dcol; rewrite !tab_length; reflexivity); cbn [bind].
    rewrite A1; cbn [bind]; rewrite mm_dot by (unfold dcol; rewrite !tab_length; reflexivity); cbn [bind].
    rewrite A2; cbn [bind]; rewrite mm_dot by (unfold dcol; rewrite !tab_length; reflexivity); cbn [bind].
    match goal with |- context [aset_row _ _ ?l] => change l with (crow_dot U s x p P k) end.
    rewrite (aset_row_tab _ _ _ _ 3); [|lia| |reflexivity].
    + f_equal; apply tab_ext; intros i Hi; unfold fupd.
      destruct (Z.eqb_spec i k) as [->|E].
      * destruct (Z.ltb_spec k (k + 1)); [reflexivity|lia].
      * destruct (Z.ltb_spec i (k + 1)), (Z.ltb_spec i k); try lia; reflexivity.
    + destruct (_ <? _); reflexivity.
Qed.

Lemma bilinear_dot_any site m k (bu bv : list K) f : length bu = S m -> length bv = S k ->
  bilinear_dot dot site bu (tab (S m) (fun i => tab (S k) (f i))) bv
  = Ok (dot site (tab (S k) (fun j => dot (site ++ [j]) bu (tab (S m) (fun i => f i j)))) bv).
Proof.
  intros L1 L2; unfold bilinear_dot, vecmat_dot; unfold zlen at 1 2; rewrite L1, tab_length, Z.eqb_refl.
  assert (W : width (tab (S m) (fun i => tab (S k) (f i))) = Z.of_nat (S k)).
  { rewrite tab_cons; cbn [width]; unfold zlen; rewrite tab_length; reflexivity. }
  rewrite W, zrange_tab.
  assert (E : mapM (fun j => let* c := acol (tab (S m) (fun i => tab (S k) (f i))) j in mm dot (site ++ [j]) bu c) (tab (S k) (fun i => i))
     = Ok (tab (S k) (fun j => dot (site ++ [j]) bu (tab (S m) (fun i => f i j))))).
  { apply mapM_tab; intros j Hj.
    assert (EC : acol (tab (S m) (fun i => tab (S k) (f i))) j = Ok (tab (S m) (fun i => f i j))).
    { apply mapM_tab; intros i Hi; rewrite aget_tab by exact Hj; reflexivity. }
    rewrite EC; cbn [bind]; apply mm_dot; rewrite tab_length; exact L1. }
  rewrite E; cbn [bind]; apply mm_dot; rewrite tab_length; symmetry; exact L2.
Qed.
Definition dot2_dot (site : list Z) (bu bv : list K) (p q nv : nat) (s t : Z) (c : list K) : K :=
  dot site (tab (S q) (fun j => dot (site ++ [j]) bu (tab (S p) (fun i => netK d0 nv c (s - Z.of_nat p + i) (t - Z.of_nat q + j))))) bv.
Lemma surf_point_dot_any p q nu nv (U V : list K) P u v s t bu bv :
  validate_knot u = true -> validate_knot v = true -> Forall (fun row => length row = 3%nat) P -> length P = (nu * nv)%nat ->
  find_span (Z.of_nat nu) (Z.of_nat p) u U = Ok s -> find_span (Z.of_nat nv) (Z.of_nat q) v V = Ok t ->
  (Z.of_nat p <= s < Z.of_nat nu)%Z -> (Z.of_nat q <= t < Z.of_nat nv)%Z ->
  basis_functions s u (Z.of_nat p) U = Ok bu -> basis_functions t v (Z.of_nat q) V = Ok bv ->
  length bu = S p -> length bv = S q ->
  surf_point_dot dot (mkSurf (Z.of_nat p) (Z.of_nat q) (Z.of_nat nu) (Z.of_nat nv) P U V) u v
  = Ok (map (fun c => dot2_dot [Z.of_nat c] bu bv p q nv s t (coordsK d0 c P)) [0%nat; 1%nat; 2%nat]).
Proof.
  intros Vu Vv HF HL Es Et Hs Ht Eu Ev Lu Lv; unfold surf_point_dot; rewrite Vu, Vv; cbn [negb s_nu s_nv s_pu s_pv s_ku s_kv].
  rewrite Es, Et; cbn [bind]; rewrite Eu, Ev; cbn [bind].
  unfold surf_arrays; cbn [s_ctrl s_nu s_nv].
  pose proof (acol_coords d0 P 0 HF ltac:(lia)) as E0; pose proof (acol_coords d0 P 1 HF ltac:(lia)) as E1; pose proof (acol_coords d0 P 2 HF ltac:(lia)) as E2.
  cbn [Z.of_nat Pos.of_succ_nat Pos.succ] in E0, E1, E2; rewrite E0, E1, E2; cbn [bind].
  rewrite !(reshape_any d0) by (unfold coordsK; rewrite map_length; exact HL); cbn [bind].
  unfold surf_contract_dot; cbn [s_pu s_pv]; cbv zeta.
  rewrite !(slice2_any d0) by assumption; rewrite !bilinear_dot_any by assumption; reflexivity.
Qed.
Definition srow_dot (U V : list K) s t x y p q nv (P : list (list K)) (W k : Z) : list K :=
  map (fun c => dot2_dot [k; Z.of_nat c] (dcol U s x p (k / W)) (dcol V t y q (k mod W)) p q nv s t (coordsK d0 c P)) [0%nat; 1%nat; 2%nat].
Lemma surf_derivatives_dot_any p q nu nv (U V : list K) P x y s t mu mv ou ov :
  validate_knot x = true -> validate_knot y = true -> Forall (fun row => length row = 3%nat) P -> length P = (nu * nv)%nat ->
  find_span (Z.of_nat nu) (Z.of_nat p) x U = Ok s -> find_span (Z.of_nat nv) (Z.of_nat q) y V = Ok t ->
  Z.of_nat p <= s < Z.of_nat nu -> Z.of_nat q <= t < Z.of_nat nv -> s + Z.of_nat p < zlen U -> t + Z.of_nat q < zlen V ->
  Z.of_nat mu = Z.min ou (Z.of_nat p) -> Z.of_nat mv = Z.min ov (Z.of_nat q) ->
  surf_derivatives_dot dot (mkSurf (Z.of_nat p) (Z.of_nat q) (Z.of_nat nu) (Z.of_nat nv) P U V) x y ou ov
  = Ok (tab ((mu + 1) * (mv + 1)) (fun k => srow_dot U V s t x y p q nv P (Z.of_nat mv + 1) k)).
Proof.
  intros Vx Vy HF HL Es Et Hs Ht HLU HLV Emu Emv; unfold surf_derivatives_dot; rewrite Vx, Vy; cbn [negb]; cbv zeta.
  cbn [s_nu s_nv s_pu s_pv s_ku s_kv]; rewrite Es, Et, <- Emu, <- Emv; cbn [bind].
  rewrite !basis_function_ders_any by lia; cbn [bind].
  unfold surf_arrays; cbn [s_ctrl s_nu s_nv].
  pose proof (acol_coords d0 P 0 HF ltac:(lia)) as E0; pose proof (acol_coords d0 P 1 HF ltac:(lia)) as E1; pose proof (acol_coords d0 P 2 HF ltac:(lia)) as E2.
  cbn [Z.of_nat Pos.of_succ_nat Pos.succ] in E0, E1, E2; rewrite E0, E1, E2; cbn [bind].
  rewrite !(reshape_any d0) by (unfold coordsK; rewrite map_length; exact HL); cbn [bind].
  set (W := Z.of_nat mv + 1); set (N := ((mu + 1) * (mv + 1))%nat).
  rewrite (np_full2_tab N 3) by (unfold N; lia); cbn [bind].
  set (Z3 := repeat d0 3); set (row := fun k => srow_dot U V s t x y p q nv P W k).
  set (F := fun k : Z => (k, tab N (fun i => if (i <? k) then row i else Z3))).
  rewrite (for_range_fun (fun a => F (a * W)) 0 (Z.of_nat mu + 1)).
  - cbn [bind]; unfold F; cbn [snd]; f_equal; apply tab_ext; intros i Hi.
    destruct (Z.ltb_spec i ((Z.of_nat mu + 1) * W)); [reflexivity|unfold N, W in *; nia].
  - lia.
  - unfold F; f_equal; unfold tab2; apply tab_ext; intros i Hi; destruct (Z.ltb_spec i (0 * W)); [lia|reflexivity].
  - intros a Ha.
    rewrite (for_range_fun (fun b => F (a * W + b)) 0 (Z.of_nat mv + 1)).
    + do 2 f_equal; unfold W; lia.
    + lia.
    + f_equal; lia.
    + intros b Hb; unfold surf_deriv_entry_dot.
      rewrite !dcol_acol by lia; cbn [bind].
      unfold surf_contract_dot; cbn [s_pu s_pv]; cbv zeta.
      rewrite !(slice2_any d0) by assumption; rewrite !bilinear_dot_any by (apply tab_length); cbn [bind].
      assert (EQ : (a * W + b) / W = a) by (unfold W; rewrite Z.div_add_l, Z.div_small by lia; lia).
      assert (ER : (a * W + b) mod W = b) by (rewrite Z.add_comm; unfold W; rewrite Z.mod_add, Z.mod_small by lia; reflexivity).
      cbn [fst snd F app].
      match goal with |- context [aset_row _ _ ?l] => assert (EL : l = row (a * W + b)) by (unfold row, srow_dot; rewrite EQ, ER; reflexivity); rewrite EL; clear EL end.
      assert (RL : forall k, zlen (row k) = 3) by (intros k; reflexivity).
      assert (B : 0 <= a * W + b < Z.of_nat N) by (unfold N, W; nia).
      rewrite (aset_row_tab _ _ _ _ 3); [|exact B| |apply RL].
      * cbn [bind]; unfold F; rewrite <- Z.add_assoc; do 2 f_equal; apply tab_ext; intros i Hi; unfold fupd.
        destruct (Z.eqb_spec i (a * W + b)) as [E|E].
        -- destruct (Z.ltb_spec i (a * W + (b + 1))); [rewrite E; reflexivity|lia].
        -- destruct (Z.ltb_spec i (a * W + (b + 1))), (Z.ltb_spec i (a * W + b)); try lia; reflexivity.
      * destruct (_ <? _); [apply RL|reflexivity].
Qed.
End Any.

(** ** On doubles *)
Open Scope R_scope.
Section B64.
Variable dot : list Z -> list PrimFloat.float -> list PrimFloat.float -> PrimFloat.float.
Hypothesis HD : dots64 dot.

Lemma single_point_dot_b64 p (U : list PrimFloat.float) P d (x : Binary64) M :
  within 0 1 U -> clamped (Z.of_nat p) (len P) (values U) -> (1 <= p)%nat -> INR p <= 2 ^ 40 ->
  kn (values U) (Z.of_nat p) = 0 -> kn (values U) (len P) = 1 ->
  (forall i, (Z.of_nat p <= i < len P)%Z -> / 2 ^ 1000 <= kn (values U) (i + 1) - kn (values U) i) ->
  Forall (fun row => length row = 3%nat /\ within (- M) M row) P -> 0 <= M <= 2 ^ 900 ->
  finite64 x -> 0 <= value x <= 1 ->
  (1 - value x <= 102 / 100000000 -> kn (values U) (len P - 1) <= value x) ->
  exists y, single_point_dot (K := Binary64) dot (mkCurve (K := Binary64) (Some (Z.of_nat p)) (Some P) (Some U) d) x = Ok y /\
    near64 (10 * INR (S p) * (ulp64 * M + tiny64)) y (curve_xyz (values U) p (map values P) (value x)).
Proof.
  intros HW HC Hp1 Hp H0 H1 Hgap HP HM Fx Hx Ht.
  assert (Hpos : 0 < / 2 ^ 1000) by (apply Rinv_0_lt_compat, pow_lt; lra).
  assert (H3 : Forall (fun row => length row = 3%nat) P) by (eapply Forall_impl; [|exact HP]; intros r (L & _); exact L).
  destruct (find_span_strict64 _ _ x U HW HC H0 H1 Fx Hx Ht) as (s & E & Hs & Hc).
  pose proof HC as ((Hp0 & Hn & HL & HU) & HC2).
  pose proof (Hgap s Hs) as Hg.
  rewrite len_values in HL.
  destruct (basis_functions_b64 U s x p HW HU Fx Hc Hg) as (B & EB & LB & FB & ErB); try assumption; try lia.
  eexists; split.
  { apply (single_point_dot_any (K := Binary64) dot p U P d x s B); try assumption; apply validate64; assumption. }
  rewrite <- (span_xyz_curve p (values U) (map values P) (value x) s); try assumption; try (rewrite len_map; assumption); try lra.
  - assert (G : forall c, (c < 3)%nat ->
      let v := dot [Z.of_nat c] B (column64 P (s - Z.of_nat p) (S p) c) in
      finite64 v /\ Rabs (value v - span_sum (values U) s p (coords c (map values P)) (value x)) <= 10 * INR (S p) * (ulp64 * M + tiny64)).
    { intros c Hc3; cbv zeta.
      assert (LC : length (column64 P (s - Z.of_nat p) (S p) c) = S p) by (unfold column64; apply tab_length).
      destruct (dotted_mean M B (column64 P (s - Z.of_nat p) (S p) c) (pieces (values U) s p (value x)) (8 * INR p)
        (dot [Z.of_nat c] B (column64 P (s - Z.of_nat p) (S p) c))) as (E2 & E3); try assumption.
      - apply HD; rewrite LB, LC; reflexivity.
      - rewrite LB, S_INR; apply Rle_trans with (2 ^ 40 + 1); [lra|cbn [pow]; lra].
      - apply column_within; try assumption; lia.
      - rewrite LB, LC; reflexivity.
      - rewrite LB; unfold pieces; rewrite tab_length; reflexivity.
      - apply pieces_nonneg; try assumption; lra.
      - apply pieces_sum; [exact HU|lra].
      - split; [pose proof (pos_INR p); lra|]; apply Rle_trans with (8 * 2 ^ 40); [lra|cbn [pow]; lra].
      - split; [exact E2|].
        rewrite column_values in E3 by (try assumption; lia).
        rewrite span_sum_rdot in E3; eapply Rle_trans; [exact E3|]; rewrite tiny_eta.
        rewrite LB, S_INR; pose proof (pos_INR p); pose proof ulp64_pos; pose proof eta64_pos.
        apply Rmult_le_compat_r; [|lra].
        pose proof (Rmult_le_pos ulp64 M); lra. }
    unfold near64, span_xyz; cbn [map].
    destruct (G 0%nat ltac:(lia)) as (G1 & G2); destruct (G 1%nat ltac:(lia)) as (G3 & G4); destruct (G 2%nat ltac:(lia)) as (G5 & G6).
    apply Forall2_cons; [split; assumption|]; apply Forall2_cons; [split; assumption|].
    apply Forall2_cons; [split; assumption|apply Forall2_nil].
  - right; rewrite len_map; apply strict_continuous; [exact HC|lia|].
    intros i Hi; pose proof (Hgap i Hi); lra.
Qed.

Lemma derivatives_dot_b64 p (U : list PrimFloat.float) P d (x : Binary64) M s o :
  within 0 1 U -> nondecreasing (values U) -> len U = (len P + Z.of_nat p + 1)%Z -> INR p <= 2 ^ 40 ->
  Forall (fun row => length row = 3%nat /\ within (- M) M row) P -> 0 <= M ->
  finite64 x -> 0 <= value x <= 1 ->
  find_span (len P) (Z.of_nat p) x U = Ok s -> (Z.of_nat p <= s < len P)%Z ->
  kn (values U) s <= value x <= kn (values U) (s + 1) ->
  let g := kn (values U) (s + 1) - kn (values U) s in / 2 ^ 1000 <= g -> (2 <= o)%nat ->
  exists m : list (list PrimFloat.float),
    derivatives_dot (K := Binary64) dot (mkCurve (K := Binary64) (Some (Z.of_nat p)) (Some P) (Some U) d) x (Z.of_nat o) = Ok m /\
    length m = S (Nat.min o p) /\ Forall (fun row => length row = 3%nat) m /\
    forall k c, (k <= o)%nat -> (k <= p)%nat -> (c < 3)%nat ->
      let W := INR (fact p) / INR (fact (p - k)) * (2 / g) ^ k in
      (2 / g) ^ k <= 2 ^ 900 -> INR (fact p) / INR (fact (p - k)) < 2 ^ 53 -> W * M <= 2 ^ 980 ->
      exists G, nth_derivative k (curve_piece (values U) s p (coords c (map values P))) G /\
        finite64 (nth c (nth k m []) 0%float) /\
        Rabs (value (nth c (nth k m []) 0%float) - G (value x)) <= 14 * INR (S p) * W * (ulp64 * M + tiny64).
Proof.
  intros WU HU LU Hp HP HM Fx Dx0 Es Hs Hx g Hg Ho.
  assert (H3 : Forall (fun row => length row = 3%nat) P) by (eapply Forall_impl; [|exact HP]; intros r (L & _); exact L).
  assert (Vx : validate_knot x = true) by (apply validate64; assumption).
  pose proof (derivatives_dot_any (K := Binary64) dot p U P d x s o Vx H3 Es Hs
    ltac:(change (zlen U) with (len U); change (len (P : list (list Binary64))) with (len P) in Hs; lia) Ho) as Em.
  eexists; split; [exact Em|]; split; [apply tab_length|]; split; [apply Forall_tab; intros; reflexivity|].
  intros k c Hko Hkp Hc W Hbig Hfact HWM.
  rewrite nth_tab by lia; unfold crow_dot; rewrite (nth_map3 _ c 0%float) by exact Hc.
  exists (curve_ders (values U) s p k (coords c (map values P))); split; [apply curve_ders_true; exact HU|].
  destruct (col_b64 U s x p k WU HU Fx Hx Hg) as (HF & HE & HDD & HW1); try assumption; try lia.
  fold g in HE, HDD, HW1; fold W in HE, HDD, HW1.
  destruct (small_deg p Hp) as (P1 & P2 & P3).
  set (w := tab (S p) (fun r => Dx (delta s) (kn (values U)) k p (s - Z.of_nat p + r) (value x))).
  destruct (dotted_signed M W (12 * INR p) (dcol (U : list Binary64) s x p (Z.of_nat k)) (column64 P (s - Z.of_nat p) (S p) c) w
    (dot [Z.of_nat k; Z.of_nat c] (dcol (U : list Binary64) s x p (Z.of_nat k)) (column64 P (s - Z.of_nat p) (S p) c))) as (F & E).
  - apply HD; unfold dcol, column64; rewrite !tab_length; reflexivity.
  - exact HM.
  - unfold dcol; rewrite tab_length; exact P1.
  - unfold dcol; apply Forall_tab; intros r Hr; apply HF; lia.
  - apply column_within; try assumption; lia.
  - unfold dcol, column64; rewrite !tab_length; reflexivity.
  - unfold dcol, w; rewrite !tab_length; reflexivity.
  - unfold w; rewrite sumabs_tab; exact HDD.
  - unfold dcol, w, values; rewrite map_tab, error1_tab; exact HE.
  - exact P2.
  - exact HWM.
  - split; [exact F|].
    rewrite column_values in E by (try assumption; lia).
    unfold w in E; rewrite rdot_tab, curve_ders_window in E by (unfold len, coords; rewrite !map_length; unfold len in Hs; exact Hs).
    eapply Rle_trans; [exact E|]; unfold dcol; rewrite tab_length, tiny_eta, S_INR.
    pose proof (pos_INR p) as P0; pose proof ulp64_pos; pose proof eta64_pos.
    assert (0 <= ulp64 * (W * M)) by (apply Rmult_le_pos; [lra|apply Rmult_le_pos; lra]).
    assert (0 <= INR p * (ulp64 * (W * M))) by (apply Rmult_le_pos; lra).
    assert (eta64 <= W * eta64) by (rewrite <- (Rmult_1_l eta64) at 1; apply Rmult_le_compat_r; lra).
    assert (INR p * eta64 <= INR p * (W * eta64)) by (apply Rmult_le_compat_l; lra).
    assert (0 <= INR p * eta64) by (apply Rmult_le_pos; lra).
    replace (14 * (INR p + 1) * W * (ulp64 * M + eta64)) with (14 * (INR p * (ulp64 * (W * M))) + 14 * (ulp64 * (W * M)) + 14 * (INR p * (W * eta64)) + 14 * (W * eta64)) by ring.
    lra.
Qed.

Lemma dot_swap site (a b : list PrimFloat.float) : length a = length b -> dotted64 (combine b a) (dot site a b).
Proof. intros L; rewrite combine_swap; apply dotted_swap, HD; exact L. Qed.
End B64.
