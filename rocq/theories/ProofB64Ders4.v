(** Derivatives of curves and surfaces (models: ModelParam.v, ModelSurface.v) on
    binary64 numbers: distance from the true derivatives. *)
From Coq Require Import Reals Lra Lia ZArith List Floats Bool.
From Flocq Require Import Core.Core.
From Verif Require Import Py PyLemmas Num ModelKnots ModelBasis ModelCurve ModelSurface ModelParam Spec SpecParam SpecB64 MathCox MathKnots MathJoin MathDeriv
  ProofNum ProofCurve ProofCurve2 ProofBasis ProofDers ProofDersAny ProofSurface ProofSurface2 ProofParam5 ProofB64 ProofB64Basis ProofB64Span ProofB64Curve ProofB64Surface
  ProofB64Knots ProofB64Uniform ProofB64Ders ProofB64Ders2 ProofB64Ders3.
Import ListNotations.
Open Scope R_scope.

Lemma sumabs_tab n f : sumabs (tab n f) = zsum 0 n (fun i => Rabs (f i)).
Proof. unfold sumabs; rewrite map_tab; apply fold_right_tab. Qed.
Lemma rdot_diff_signed w b b' E : length w = length b -> Forall2 (fun x y => Rabs (x - y) <= E) b b' ->
  Rabs (rdot w b - rdot w b') <= sumabs w * E.
Proof.
  revert b b'; induction w as [|x w IH]; intros b b' L HB.
  - cbn; rewrite Rminus_0_r, Rabs_R0; lra.
  - destruct HB as [|y y' b b' Hy HB]; [discriminate|]; injection L as L; specialize (IH b b' L HB).
    unfold rdot, sumabs in *; cbn [combine map fold_right fst snd].
    match goal with |- Rabs (?a + ?r - (?c + ?r')) <= _ => replace (a + r - (c + r')) with (x * (y - y') + (r - r')) by ring end.
    eapply Rle_trans; [apply Rabs_triang|]; rewrite Rmult_plus_distr_r; apply Rplus_le_compat; [|exact IH].
    rewrite Rabs_mult; apply Rmult_le_compat_l; [apply Rabs_pos|exact Hy].
Qed.
Lemma rdot_abs_signed w b M : length w = length b -> Forall (fun y => Rabs y <= M) b -> Rabs (rdot w b) <= sumabs w * M.
Proof.
  revert b; induction w as [|x w IH]; intros b L HB.
  - cbn; rewrite Rabs_R0; lra.
  - destruct HB as [|y b Hy HB]; [discriminate|]; injection L as L; specialize (IH b L HB).
    unfold rdot, sumabs in *; cbn [combine map fold_right fst snd].
    eapply Rle_trans; [apply Rabs_triang|]; rewrite Rmult_plus_distr_r; apply Rplus_le_compat; [|exact IH].
    rewrite Rabs_mult; apply Rmult_le_compat_l; [apply Rabs_pos|exact Hy].
Qed.

Lemma small_deg p : INR p <= 2 ^ 40 -> INR (S p) <= 2 ^ 41 /\ 0 <= 12 * INR p <= 2 ^ 44 /\ (14 * INR p + 4) * ulp64 <= / 256.
Proof.
  intros Hp; pose proof (pos_INR p); rewrite S_INR; split; [cbn [pow] in *; lra|]; split; [cbn [pow] in *; lra|].
  pose proof ulp64_tiny as Ht; pose proof ulp64_pos.
  apply Rle_trans with (2 ^ 44 * ulp64); [apply Rmult_le_compat_r; [lra|cbn [pow] in *; lra]|].
  replace (2 ^ 53) with (2 ^ 44 * 512) in Ht by (cbn [pow]; ring).
  apply Rmult_le_reg_r with 512; [lra|]; lra.
Qed.

(** A mean of means with weights of either sign. *)
Lemma dot2_signed M Wa Wb p q (bu bv : list PrimFloat.float) wu wv (f : Z -> Z -> PrimFloat.float) :
  0 <= M -> INR p <= 2 ^ 40 -> INR q <= 2 ^ 40 ->
  length bu = S p -> length bv = S q -> length wu = S p -> length wv = S q ->
  Forall finite64 bu -> Forall finite64 bv -> sumabs wu <= Wa -> sumabs wv <= Wb -> 1 <= Wa -> 1 <= Wb <= 2 ^ 970 -> Wa * Wb * M <= 2 ^ 970 ->
  error1 (values bu) wu <= 12 * INR p * ulp64 * Wa -> error1 (values bv) wv <= 12 * INR q * ulp64 * Wb ->
  (forall i j, (0 <= i < Z.of_nat (S p))%Z -> (0 <= j < Z.of_nat (S q))%Z -> finite64 (f i j) /\ Rabs (value (f i j)) <= M) ->
  let y := vdot (tab (S q) (fun j => vdot (bu : list Binary64) (tab (S p) (fun i => f i j)))) (bv : list Binary64) in
  finite64 y /\
  Rabs (value y - rdot wv (tab (S q) (fun j => rdot wu (tab (S p) (fun i => value (f i j)))))) <=
    15 * INR (p + q + 1) * (Wa * Wb) * (ulp64 * M + tiny64).
Proof.
  intros HM Hp Hq Lu Lv Lwu Lwv Fu Fv Su Sv HWa HWb HWM Eu Ev Hf; cbv zeta.
  pose proof ulp64_pos as Hu; pose proof ulp64_tiny as Ht; pose proof eta64_pos as He; rewrite tiny_eta.
  pose proof (pos_INR p) as P0; pose proof (pos_INR q) as Q0.
  destruct (small_deg p Hp) as (P1 & P2 & P3); destruct (small_deg q Hq) as (Q1 & Q2 & Q3).
  assert (P980 : 4 * 2 ^ 970 <= 2 ^ 980 /\ 1 <= 2 ^ 970).
  { replace (2 ^ 980) with (2 ^ 970 * 2 ^ 10) by (rewrite <- pow_add; reflexivity).
    assert (1 <= 2 ^ 970) by (apply pow_R1_Rle; lra); generalize dependent (2 ^ 970); clear; intros z _ _ H; cbn [pow]; lra. }
  set (X970 := 2 ^ 970) in *; set (X980 := 2 ^ 980) in *.
  set (tj := fun j => vdot (bu : list Binary64) (tab (S p) (fun i => f i j))).
  set (mj := fun j => rdot wu (tab (S p) (fun i => value (f i j)))).
  assert (WaM : 0 <= Wa * M) by (apply Rmult_le_pos; lra).
  assert (WaM' : Wa * M <= Wa * Wb * M).
  { replace (Wa * Wb * M) with (Wb * (Wa * M)) by ring; rewrite <- (Rmult_1_l (Wa * M)) at 1; apply Rmult_le_compat_r; lra. }
  set (E1 := (14 * INR p + 4) * (ulp64 * (Wa * M)) + 2 * INR (S p) * eta64).
  assert (UWM : 0 <= ulp64 * (Wa * M)) by (apply Rmult_le_pos; lra).
  assert (SP0 : 0 <= INR (S p)) by apply pos_INR.
  assert (HE1 : 0 <= E1) by (unfold E1; pose proof (Rmult_le_pos (14 * INR p + 4) (ulp64 * (Wa * M)) ltac:(lra) UWM); pose proof (Rmult_le_pos (INR (S p)) eta64 SP0 ltac:(lra)); lra).
  assert (Tj : forall j, (0 <= j < Z.of_nat (S q))%Z -> finite64 (tj j) /\ Rabs (value (tj j) - mj j) <= E1 /\ Rabs (mj j) <= Wa * M).
  { intros j Hj.
    assert (WB : within (- M) M (tab (S p) (fun i => f i j))).
    { apply Forall_tab; intros i Hi; destruct (Hf i j Hi Hj) as (F & A); split; [exact F|apply Rabs_le_inv; exact A]. }
    destruct (dot_signed M Wa (12 * INR p) bu (tab (S p) (fun i => f i j)) wu) as (F & E); try assumption.
    - rewrite Lu; exact P1.
    - rewrite Lu, tab_length; reflexivity.
    - rewrite Lu, Lwu; reflexivity.
    - fold X980; lra.
    - split; [exact F|]; split.
      + unfold mj, E1; unfold values in E at 1; rewrite map_tab in E.
        eapply Rle_trans; [exact E|]; apply Req_le; rewrite Lu, S_INR; ring.
      + unfold mj; eapply Rle_trans; [apply rdot_abs_signed with (M := M); [rewrite tab_length; exact Lwu|]|apply Rmult_le_compat_r; lra].
        apply Forall_tab; intros i Hi; apply Hf; assumption. }
  set (M' := Wa * M + E1).
  assert (EtaS : 2 * INR (S p) * eta64 <= 1).
  { pose proof eta_ulp as EU; assert (1 <= 2 ^ 100) by (apply pow_R1_Rle; lra).
    assert (eta64 <= ulp64) by (apply Rle_trans with (eta64 * 2 ^ 100); [|exact EU]; rewrite <- (Rmult_1_r eta64) at 1; apply Rmult_le_compat_l; lra).
    apply Rle_trans with (2 * 2 ^ 41 * ulp64); [apply Rmult_le_compat; lra|].
    replace (2 ^ 53) with (2 * 2 ^ 41 * 2048) in Ht by (cbn [pow]; ring). lra. }
  assert (HE1M : E1 <= / 256 * (Wa * M) + 1).
  { unfold E1; apply Rplus_le_compat; [|exact EtaS]; rewrite <- Rmult_assoc; apply Rmult_le_compat_r; lra. }
  assert (WT : within (- M') M' (tab (S q) tj)).
  { apply Forall_tab; intros j Hj; destruct (Tj j Hj) as (F & A & B); split; [exact F|].
    apply Rabs_le_inv in A; apply Rabs_le_inv in B; unfold M'; lra. }
  rewrite vdot_comm.
  destruct (dot_signed M' Wb (12 * INR q) bv (tab (S q) tj) wv) as (F & E); try assumption.
  - unfold M'; lra.
  - rewrite Lv; exact Q1.
  - rewrite Lv, tab_length; reflexivity.
  - rewrite Lv, Lwv; reflexivity.
  - fold X980; apply Rle_trans with (Wb * (257 / 256 * (Wa * M) + 1)); [apply Rmult_le_compat_l; unfold M'; lra|].
    replace (Wb * (257 / 256 * (Wa * M) + 1)) with (257 / 256 * (Wa * Wb * M) + Wb) by ring; lra.
  - split; [exact F|].
    assert (E2 : Rabs (rdot wv (values (tab (S q) tj)) - rdot wv (tab (S q) mj)) <= Wb * E1).
    { eapply Rle_trans; [|apply Rmult_le_compat_r; [exact HE1|exact Sv]].
      unfold values; rewrite map_tab; apply rdot_diff_signed; [rewrite tab_length; exact Lwv|].
      apply Forall2_tab; intros j Hj; apply Tj; exact Hj. }
    match goal with |- Rabs (?a - ?c) <= _ =>
      replace (a - c) with ((a - rdot wv (values (tab (S q) tj))) + (rdot wv (values (tab (S q) tj)) - c)) by ring end.
    eapply Rle_trans; [apply Rabs_triang|].
    eapply Rle_trans; [apply Rplus_le_compat; [exact E|exact E2]|].
    rewrite Lv, S_INR; rewrite !plus_INR; change (INR 1) with 1.
    set (T := ulp64 * (Wa * Wb * M)); set (H := Wa * Wb * eta64).
    assert (WbE : 0 <= Wb * E1) by (apply Rmult_le_pos; lra).
    assert (Z1 : (12 * INR q + 2 * (INR q + 1) + 2) * (ulp64 * (Wb * M')) <= (14 * INR q + 4) * T + / 256 * (Wb * E1)).
    { replace ((12 * INR q + 2 * (INR q + 1) + 2) * (ulp64 * (Wb * M'))) with ((14 * INR q + 4) * T + (14 * INR q + 4) * ulp64 * (Wb * E1)) by (unfold T, M'; ring).
      apply Rplus_le_compat_l, Rmult_le_compat_r; lra. }
    assert (T0 : 0 <= T) by (unfold T; replace (Wa * Wb * M) with (Wb * (Wa * M)) by ring; apply Rmult_le_pos; [lra|apply Rmult_le_pos; lra]).
    assert (WW : Wb <= Wa * Wb) by (rewrite <- (Rmult_1_l Wb) at 1; apply Rmult_le_compat_r; lra).
    assert (H0 : eta64 <= H /\ Wb * eta64 <= H).
    { unfold H; split; [rewrite <- (Rmult_1_l eta64) at 1|]; apply Rmult_le_compat_r; lra. }
    assert (Z2 : Wb * E1 <= (14 * INR p + 4) * T + 2 * (INR p + 1) * H).
    { unfold E1; rewrite S_INR.
      replace (Wb * ((14 * INR p + 4) * (ulp64 * (Wa * M)) + 2 * (INR p + 1) * eta64)) with ((14 * INR p + 4) * T + 2 * (INR p + 1) * (Wb * eta64)) by (unfold T; ring).
      apply Rplus_le_compat_l, Rmult_le_compat_l; lra. }
    assert (Z3 : 2 * (INR q + 1) * eta64 <= 2 * (INR q + 1) * H) by (apply Rmult_le_compat_l; lra).
    replace (15 * (INR p + INR q + 1) * (Wa * Wb) * (ulp64 * M + eta64)) with (15 * (INR p + INR q + 1) * T + 15 * (INR p + INR q + 1) * H) by (unfold T, H; ring).
    assert (PT : 0 <= INR p * T) by (apply Rmult_le_pos; lra); assert (QT : 0 <= INR q * T) by (apply Rmult_le_pos; lra).
    assert (PH : 0 <= INR p * H) by (apply Rmult_le_pos; lra); assert (QH : 0 <= INR q * H) by (apply Rmult_le_pos; lra).
    lra.
Qed.

(** ** Curves *)
Lemma derivatives3_b64 p (U : list PrimFloat.float) P d (x : Binary64) M s o :
  within 0 1 U -> nondecreasing (values U) -> len U = (len P + Z.of_nat p + 1)%Z -> INR p <= 2 ^ 40 ->
  Forall (fun row => length row = 3%nat /\ within (- M) M row) P -> 0 <= M ->
  finite64 x -> 0 <= value x <= 1 ->
  find_span (len P) (Z.of_nat p) x U = Ok s -> (Z.of_nat p <= s < len P)%Z ->
  kn (values U) s <= value x <= kn (values U) (s + 1) ->
  let g := kn (values U) (s + 1) - kn (values U) s in / 2 ^ 1000 <= g -> (2 <= o)%nat ->
  exists m : list (list PrimFloat.float),
    derivatives3 (mkCurve (K := Binary64) (Some (Z.of_nat p)) (Some P) (Some U) d) x (Z.of_nat o) = Ok m /\
    length m = S (Nat.min o p) /\ Forall (fun row => length row = 3%nat) m /\
    single_point (mkCurve (K := Binary64) (Some (Z.of_nat p)) (Some P) (Some U) d) x = Ok (nth 0 m []) /\
    forall k c, (k <= o)%nat -> (k <= p)%nat -> (c < 3)%nat ->
      let W := INR (fact p) / INR (fact (p - k)) * (2 / g) ^ k in
      (2 / g) ^ k <= 2 ^ 900 -> INR (fact p) / INR (fact (p - k)) < 2 ^ 53 -> W * M <= 2 ^ 980 ->
      exists G, nth_derivative k (curve_piece (values U) s p (coords c (map values P))) G /\
        finite64 (nth c (nth k m []) 0%float) /\
        Rabs (value (nth c (nth k m []) 0%float) - G (value x)) <= 14 * INR (S p) * W * (ulp64 * M + tiny64).
Proof.
  intros WU HU LU Hp HP HM Fx Dx0 Es Hs Hx g Hg Ho.
  assert (H3 : Forall (fun row => length row = 3%nat) P) by (eapply Forall_impl; [|exact HP]; intros r (L & _); exact L).
  assert (Vx : validate_knot x = true) by (apply validate64; assumption).
  destruct (curve_first (K := Binary64) p U P d x s o Vx H3 Es Hs) as (m & Em & Lm & Fm & Sm);
    [change (zlen U) with (len U); change (len (P : list (list Binary64))) with (len P) in Hs; lia|exact Ho|].
  exists m; split; [exact Em|]; split; [exact Lm|]; split; [exact Fm|]; split; [exact Sm|].
  intros k c Hko Hkp Hc W Hbig Hfact HWM.
  pose proof (derivatives3_any (K := Binary64) p U P d x s o Vx H3 Es Hs
    ltac:(change (zlen U) with (len U); change (len (P : list (list Binary64))) with (len P) in Hs; lia) Ho) as Em'.
  assert (Hm : m = tab (S (Nat.min o p)) (crow (U : list Binary64) s x p P)).
  { apply (f_equal (fun r => match r with Ok z => z | _ => [] end)) in Em, Em'; rewrite Em in Em'; exact Em'. }
  rewrite Hm, nth_tab by lia; unfold crow; rewrite (nth_map3 _ c 0%float) by exact Hc.
  exists (curve_ders (values U) s p k (coords c (map values P))); split; [apply curve_ders_true; exact HU|].
  destruct (col_b64 U s x p k WU HU Fx Hx Hg) as (HF & HE & HD & HW1); try assumption; try lia.
  fold g in HE, HD, HW1; fold W in HE, HD, HW1.
  destruct (small_deg p Hp) as (P1 & P2 & P3).
  set (w := tab (S p) (fun r => Dx (delta s) (kn (values U)) k p (s - Z.of_nat p + r) (value x))).
  destruct (dot_signed M W (12 * INR p) (dcol (U : list Binary64) s x p (Z.of_nat k)) (column64 P (s - Z.of_nat p) (S p) c) w) as (F & E).
  - exact HM.
  - unfold dcol; rewrite tab_length; exact P1.
  - unfold dcol; apply Forall_tab; intros r Hr; apply HF; lia.
  - apply column_within; try assumption; lia.
  - unfold dcol, column64; rewrite !tab_length; reflexivity.
  - unfold dcol, w; rewrite !tab_length; reflexivity.
  - unfold w; rewrite sumabs_tab; exact HD.
  - unfold dcol, w, values; rewrite map_tab, error1_tab; exact HE.
  - exact P2.
  - exact HWM.
  - split; [exact F|].
    rewrite column_values in E by (try assumption; lia).
    unfold w in E; rewrite rdot_tab, curve_ders_window in E by (unfold len, coords; rewrite !map_length; unfold len in Hs; exact Hs).
    eapply Rle_trans; [exact E|]; unfold dcol; rewrite tab_length, tiny_eta, S_INR.
    pose proof (pos_INR p) as P0; pose proof ulp64_pos; pose proof eta64_pos.
    assert (0 <= ulp64 * (W * M)) by (apply Rmult_le_pos; [lra|apply Rmult_le_pos; lra]).
    assert (0 <= INR p * (ulp64 * (W * M))) by (apply Rmult_le_pos; lra).
    assert (eta64 <= W * eta64) by (rewrite <- (Rmult_1_l eta64) at 1; apply Rmult_le_compat_r; lra).
    assert (INR p * eta64 <= INR p * (W * eta64)) by (apply Rmult_le_compat_l; lra).
    assert (0 <= INR p * eta64) by (apply Rmult_le_pos; lra).
    replace (14 * (INR p + 1) * W * (ulp64 * M + eta64)) with (14 * (INR p * (ulp64 * (W * M))) + 14 * (ulp64 * (W * M)) + 14 * (INR p * (W * eta64)) + 14 * (W * eta64)) by ring.
    lra.
Qed.

(** ** Surfaces *)
Lemma ffact_size p k g : (2 / g) ^ k <= 2 ^ 900 -> 0 < g -> INR (fact p) / INR (fact (p - k)) < 2 ^ 53 ->
  INR (fact p) / INR (fact (p - k)) * (2 / g) ^ k <= 2 ^ 970.
Proof.
  intros H1 Hg H2.
  assert (0 <= (2 / g) ^ k) by (apply pow_le, Rlt_le, Rdiv_lt_0_compat; lra).
  apply Rle_trans with (2 ^ 53 * 2 ^ 900).
  - apply Rmult_le_compat; try assumption; [apply Rlt_le, Rdiv_lt_0_compat; apply INR_fact_lt_0|lra].
  - rewrite <- pow_add; apply Rle_pow; [lra|lia].
Qed.

Section Surf.
Variables (p q nu nv : nat) (U V : list PrimFloat.float) (P : list (list PrimFloat.float)) (x y : Binary64) (s t : Z) (M : R).
Hypothesis WU : within 0 1 U.
Hypothesis WV : within 0 1 V.
Hypothesis HU : knots_for (Z.of_nat p) (Z.of_nat nu) (values U).
Hypothesis HV : knots_for (Z.of_nat q) (Z.of_nat nv) (values V).
Hypothesis HL : length P = (nu * nv)%nat.
Hypothesis HP : Forall (fun row => length row = 3%nat /\ within (- M) M row) P.
Hypothesis HM : 0 <= M.
Hypothesis Fx : finite64 x.
Hypothesis Fy : finite64 y.
Hypothesis Ix : 0 <= value x <= 1.
Hypothesis Iy : 0 <= value y <= 1.
Hypothesis Es : find_span (Z.of_nat nu) (Z.of_nat p) x U = Ok s.
Hypothesis Et : find_span (Z.of_nat nv) (Z.of_nat q) y V = Ok t.
Hypothesis Hs : (Z.of_nat p <= s < Z.of_nat nu)%Z.
Hypothesis Ht : (Z.of_nat q <= t < Z.of_nat nv)%Z.
Hypothesis Hx : kn (values U) s <= value x <= kn (values U) (s + 1).
Hypothesis Hy : kn (values V) t <= value y <= kn (values V) (t + 1).
Let g := kn (values U) (s + 1) - kn (values U) s.
Let h := kn (values V) (t + 1) - kn (values V) t.
Hypothesis Gu : / 2 ^ 1000 <= g.
Hypothesis Gv : / 2 ^ 1000 <= h.
Hypothesis Hp : INR p <= 2 ^ 40.
Hypothesis Hq : INR q <= 2 ^ 40.

Lemma dot2_b64 a b c : (a <= p)%nat -> (b <= q)%nat -> (c < 3)%nat ->
  let Wa := INR (fact p) / INR (fact (p - a)) * (2 / g) ^ a in
  let Wb := INR (fact q) / INR (fact (q - b)) * (2 / h) ^ b in
  (2 / g) ^ a <= 2 ^ 900 -> INR (fact p) / INR (fact (p - a)) < 2 ^ 53 ->
  (2 / h) ^ b <= 2 ^ 900 -> INR (fact q) / INR (fact (q - b)) < 2 ^ 53 -> Wa * Wb * M <= 2 ^ 970 ->
  let v := dot2 (K := Binary64) (0%float : Binary64) (dcol (U : list Binary64) s x p (Z.of_nat a))
    (dcol (V : list Binary64) t y q (Z.of_nat b)) p q nv s t (coordsK (0%float : Binary64) c P) in
  finite64 v /\
  Rabs (value v - surface_ders (values U) (values V) s t p q nu nv a b (coords c (map values P)) (value x) (value y))
    <= 15 * INR (p + q + 1) * (Wa * Wb) * (ulp64 * M + tiny64).
Proof.
  intros Ha Hb Hc Wa Wb B1 B2 B3 B4 B5; cbv zeta.
  assert (H3 : Forall (fun row => length row = 3%nat) P) by (eapply Forall_impl; [|exact HP]; intros r (L & _); exact L).
  assert (Hpos : 0 < / 2 ^ 1000) by (apply Rinv_0_lt_compat, pow_lt; lra).
  destruct HU as (_ & _ & LU & NU); destruct HV as (_ & _ & LV & NV); rewrite len_values in LU, LV.
  destruct (col_b64 U s x p a WU NU Fx Hx Gu) as (F1 & E1 & D1 & W1); try assumption; try lia.
  destruct (col_b64 V t y q b WV NV Fy Hy Gv) as (F2 & E2 & D2 & W2); try assumption; try lia.
  fold g in E1, D1, W1; fold h in E2, D2, W2; fold Wa in E1, D1, W1; fold Wb in E2, D2, W2.
  assert (W3 : Wb <= 2 ^ 970) by (apply ffact_size; try assumption; lra).
  set (f := fun i j => netK (0%float : Binary64) nv (coordsK (0%float : Binary64) c P) (s - Z.of_nat p + i) (t - Z.of_nat q + j)).
  assert (IX : forall i j, (0 <= i < Z.of_nat (S p))%Z -> (0 <= j < Z.of_nat (S q))%Z ->
    (0 <= (s - Z.of_nat p + i) * Z.of_nat nv + (t - Z.of_nat q + j) < len P)%Z).
  { intros i j Hi Hj; unfold len; rewrite HL, Nat2Z.inj_mul; nia. }
  set (wu := tab (S p) (fun r => Dx (delta s) (kn (values U)) a p (s - Z.of_nat p + r) (value x))).
  set (wv := tab (S q) (fun r => Dx (delta t) (kn (values V)) b q (t - Z.of_nat q + r) (value y))).
  destruct (dot2_signed M Wa Wb p q (dcol (U : list Binary64) s x p (Z.of_nat a)) (dcol (V : list Binary64) t y q (Z.of_nat b)) wu wv f) as (F & E);
    try assumption; try (unfold dcol, wu, wv; apply tab_length).
  - unfold dcol; apply Forall_tab; intros r Hr; apply F1; lia.
  - unfold dcol; apply Forall_tab; intros r Hr; apply F2; lia.
  - unfold wu; rewrite sumabs_tab; exact D1.
  - unfold wv; rewrite sumabs_tab; exact D2.
  - split; assumption.
  - unfold dcol, wu, values; rewrite map_tab, error1_tab; exact E1.
  - unfold dcol, wv, values; rewrite map_tab, error1_tab; exact E2.
  - intros i j Hi Hj; apply (net_within M nv P c _ _ HP Hc (IX i j Hi Hj)).
  - split; [exact F|].
    match goal with |- Rabs (_ - ?r) <= _ => replace r with
      (rdot wv (tab (S q) (fun j => rdot wu (tab (S p) (fun i => value (f i j)))))) end;
      [exact E|].
    rewrite <- contract_ders by assumption; unfold contract, wv, wu; rewrite rdot_tab.
    pose proof (zsum_shift 0 (t - Z.of_nat q) (S q) (fun j =>
      zsum (s - Z.of_nat p) (S p) (fun i => Dx (delta s) (kn (values U)) a p i (value x) * net nv (coords c (map values P)) i j) * Dx (delta t) (kn (values V)) b q j (value y))) as Z0.
    rewrite Z.add_0_l in Z0; rewrite Z0; apply zsum_ext; intros j Hj; rewrite rdot_tab, Rmult_comm.
    rewrite (Z.add_comm j); f_equal.
    pose proof (zsum_shift 0 (s - Z.of_nat p) (S p) (fun i => Dx (delta s) (kn (values U)) a p i (value x) * net nv (coords c (map values P)) i (t - Z.of_nat q + j))) as Z1.
    rewrite Z.add_0_l in Z1; rewrite Z1; apply zsum_ext; intros i Hi.
    rewrite (Z.add_comm i); f_equal; unfold f; apply net_values; try assumption; apply IX; lia.
Qed.

Lemma surf_derivatives_b64 ou ov nrm : exists m : list (list PrimFloat.float),
  surf_derivatives (mkSurf (K := Binary64) (Z.of_nat p) (Z.of_nat q) (Z.of_nat nu) (Z.of_nat nv) P U V) x y (Z.of_nat ou) (Z.of_nat ov) nrm = Ok m /\
  length m = ((Nat.min ou p + 1) * (Nat.min ov q + 1))%nat /\ Forall (fun row => length row = 3%nat) m /\
  surf_point (mkSurf (K := Binary64) (Z.of_nat p) (Z.of_nat q) (Z.of_nat nu) (Z.of_nat nv) P U V) x y = Ok (nth 0 m []) /\
  (nrm = false -> forall a b c, (a <= ou)%nat -> (a <= p)%nat -> (b <= ov)%nat -> (b <= q)%nat -> (c < 3)%nat ->
    let Wa := INR (fact p) / INR (fact (p - a)) * (2 / g) ^ a in
    let Wb := INR (fact q) / INR (fact (q - b)) * (2 / h) ^ b in
    (2 / g) ^ a <= 2 ^ 900 -> INR (fact p) / INR (fact (p - a)) < 2 ^ 53 ->
    (2 / h) ^ b <= 2 ^ 900 -> INR (fact q) / INR (fact (q - b)) < 2 ^ 53 -> Wa * Wb * M <= 2 ^ 970 ->
    let e := nth c (nth (a * (Nat.min ov q + 1) + b) m []) 0%float in
    exists G, mixed_partial a b (surface_piece (values U) (values V) s t p q nu nv (coords c (map values P))) G /\
      finite64 e /\ Rabs (value e - G (value x) (value y)) <= 15 * INR (p + q + 1) * (Wa * Wb) * (ulp64 * M + tiny64)).
Proof.
  assert (H3 : Forall (fun row => length row = 3%nat) P) by (eapply Forall_impl; [|exact HP]; intros r (L & _); exact L).
  destruct HU as (_ & _ & LU & NU); destruct HV as (_ & _ & LV & NV); rewrite len_values in LU, LV.
  assert (Vx : validate_knot x = true) by (apply validate64; assumption).
  assert (Vy : validate_knot y = true) by (apply validate64; assumption).
  assert (L1 : (s + Z.of_nat p < zlen (U : list Binary64))%Z) by (change (zlen U) with (len U); lia).
  assert (L2 : (t + Z.of_nat q < zlen (V : list Binary64))%Z) by (change (zlen V) with (len V); lia).
  destruct (surf_first (K := Binary64) p q nu nv U V P x y s t (Z.of_nat ou) (Z.of_nat ov) nrm) as (m & Em & Lm & Fm & Sm); try assumption; try lia.
  exists m; rewrite !Nat2Z.id in Lm; split; [exact Em|]; split; [exact Lm|]; split; [exact Fm|]; split; [exact Sm|].
  intros -> a b c Hao Hap Hbo Hbq Hc Wa Wb B1 B2 B3 B4 B5.
  pose proof (surf_derivatives_any (K := Binary64) p q nu nv U V P x y s t (Nat.min ou p) (Nat.min ov q) (Z.of_nat ou) (Z.of_nat ov) false
    Vx Vy H3 HL Es Et Hs Ht L1 L2 ltac:(lia) ltac:(lia)) as Em'.
  apply (f_equal (fun r => match r with Ok z => z | _ => [] end)) in Em, Em'; rewrite Em in Em'; rewrite Em'; clear Em Em'.
  set (W := (Z.of_nat (Nat.min ov q) + 1)%Z).
  assert (Ek : Z.of_nat (a * (Nat.min ov q + 1) + b) = (Z.of_nat a * W + Z.of_nat b)%Z) by (unfold W; lia).
  rewrite nth_tab by nia; unfold unit_row; cbn [andb]; unfold srow; rewrite (nth_map3 _ c 0%float) by exact Hc; rewrite Ek.
  assert (EQ : ((Z.of_nat a * W + Z.of_nat b) / W = Z.of_nat a)%Z) by (unfold W; rewrite Z.div_add_l, Z.div_small by lia; lia).
  assert (ER : ((Z.of_nat a * W + Z.of_nat b) mod W = Z.of_nat b)%Z) by (rewrite Z.add_comm; unfold W; rewrite Z.mod_add, Z.mod_small by lia; reflexivity).
  rewrite EQ, ER.
  exists (surface_ders (values U) (values V) s t p q nu nv a b (coords c (map values P))); split; [apply surface_ders_partial; assumption|].
  apply dot2_b64; assumption.
Qed.
End Surf.

(** ** Uniform knots: the sizes in terms of the numbers of control points *)
Lemma size_uniform p k g n : (2 <= p)%nat -> INR p <= 2 ^ 26 -> (k <= 2)%nat -> (Z.of_nat p + 1 <= n)%Z -> (n - Z.of_nat p <= 490000)%Z ->
  1 / (2 * (IZR n - INR p)) <= g ->
  (2 / g) ^ k <= 2 ^ 900 /\ INR (fact p) / INR (fact (p - k)) < 2 ^ 53 /\
  INR (fact p) / INR (fact (p - k)) * (2 / g) ^ k <= (4 * INR p * (IZR n - INR p)) ^ k /\ (4 * INR p * (IZR n - INR p)) ^ k <= 2 ^ 94.
Proof.
  intros Hp1 Hp Hk Hn Hb Hg.
  assert (HmR : IZR n - INR p = IZR (n - Z.of_nat p)) by (rewrite minus_IZR, <- INR_IZR_INZ; reflexivity); rewrite HmR in *.
  assert (A : 1 <= IZR (n - Z.of_nat p) <= 490000) by (split; apply IZR_le; lia).
  set (m := IZR (n - Z.of_nat p)) in *; assert (P2 : 2 <= INR p) by (change 2 with (INR 2); apply le_INR; exact Hp1).
  assert (g0 : 0 < 1 / (2 * m)) by (apply Rdiv_lt_0_compat; lra).
  assert (G1 : 0 < 2 / g <= 4 * m).
  { split; [apply Rdiv_lt_0_compat; lra|]; apply Rmult_le_reg_r with g; [lra|]; unfold Rdiv; rewrite Rmult_assoc, Rinv_l, Rmult_1_r by lra.
    apply Rle_trans with (4 * m * (1 / (2 * m))); [right; field; lra|apply Rmult_le_compat_l; lra]. }
  rewrite <- fact_ffact by lia.
  assert (M4 : 4 * m <= 2 ^ 21) by (cbn [pow]; lra).
  assert (PM : 4 * INR p * m = INR p * (4 * m)) by ring.
  assert (K2 : 0 <= ffact p k <= INR p ^ k).
  { assert (k = 0 \/ k = 1 \/ k = 2)%nat as [-> | [-> | ->]] by lia; cbn [ffact pow]; rewrite ?minus_INR by lia; change (INR 0) with 0; change (INR 1) with 1.
    - lra.
    - lra.
    - split; [apply Rmult_le_pos; lra|nra]. }
  assert (GK : 0 <= (2 / g) ^ k <= (4 * m) ^ k) by (split; [apply pow_le; lra|apply pow_incr; lra]).
  assert (MK : (4 * m) ^ k <= 2 ^ 42).
  { apply Rle_trans with ((2 ^ 21) ^ k); [apply pow_incr; lra|]; rewrite <- pow_mult; apply Rle_pow; [lra|lia]. }
  assert (PK : INR p ^ k <= 2 ^ 52).
  { apply Rle_trans with ((2 ^ 26) ^ k); [apply pow_incr; lra|]; rewrite <- pow_mult; apply Rle_pow; [lra|lia]. }
  assert (2 ^ 42 <= 2 ^ 900) by (apply Rle_pow; [lra|lia]).
  assert (2 ^ 52 < 2 ^ 53) by (apply Rlt_pow; [lra|lia]).
  split; [lra|]; split; [lra|]; rewrite PM, Rpow_mult_distr; split.
  - apply Rmult_le_compat; lra.
  - replace (2 ^ 94) with (2 ^ 52 * 2 ^ 42) by (rewrite <- pow_add; reflexivity).
    apply Rmult_le_compat; try lra; apply pow_le; lra.
Qed.

Lemma uniform_derivatives_b64 p P d (x : Binary64) M : (2 <= p)%nat -> INR p <= 2 ^ 26 -> (Z.of_nat p + 1 <= len P)%Z ->
  (len P - Z.of_nat p <= 490000)%Z ->
  Forall (fun row => length row = 3%nat /\ within (- M) M row) P -> 0 <= M <= 2 ^ 880 ->
  finite64 x -> 0 <= value x <= 1 ->
  exists U : list PrimFloat.float, generate_uniform (Z.of_nat p) (len P) = Ok (U : list Binary64) /\
  exists s m, find_span (len P) (Z.of_nat p) x U = Ok s /\ (Z.of_nat p <= s < len P)%Z /\
    kn (values U) s < kn (values U) (s + 1) /\ kn (values U) s <= value x <= kn (values U) (s + 1) /\
    derivatives3 (mkCurve (K := Binary64) (Some (Z.of_nat p)) (Some P) (Some U) d) x 2 = Ok m /\
    length m = 3%nat /\ Forall (fun row => length row = 3%nat) m /\
    single_point (mkCurve (K := Binary64) (Some (Z.of_nat p)) (Some P) (Some U) d) x = Ok (nth 0 m []) /\
    forall k c, (k <= 2)%nat -> (c < 3)%nat ->
      exists G, nth_derivative k (curve_piece (values U) s p (coords c (map values P))) G /\
        finite64 (nth c (nth k m []) 0%float) /\
        Rabs (value (nth c (nth k m []) 0%float) - G (value x)) <= 14 * INR (S p) * (4 * INR p * (IZR (len P) - INR p)) ^ k * (ulp64 * M + tiny64).
Proof.
  intros Hp1 Hp Hn Hb HP HM Fx Hx.
  assert (Hp40 : INR p <= 2 ^ 40) by (apply Rle_trans with (1 := Hp); apply Rle_pow; [lra|lia]).
  destruct (generate_uniform_b64 (Z.of_nat p) (len P) ltac:(lia) Hn ltac:(lia)) as (U' & E' & _ & _ & _ & _ & _ & G').
  destruct (uniform_good (Z.of_nat p) (len P) ltac:(lia) Hn Hb) as (U & E & W & C & K0 & K1 & G & T).
  assert (EU : U' = U).
  { rewrite E in E'; apply (f_equal (fun r => match r with Ok z => z | _ => [] end)) in E'; symmetry; exact E'. }
  rewrite EU in G'; clear EU E' U'; rewrite <- INR_IZR_INZ in G'.
  exists U; split; [exact E|].
  destruct (find_span_strict64 _ _ x U W C K0 K1 Fx Hx (T _ (proj2 Hx))) as (s & Es & Hs & Cx).
  destruct C as ((Hp0 & _ & HL & HU) & HC2); rewrite len_values in HL.
  destruct (derivatives3_b64 p U P d x M s 2 W HU ltac:(lia) Hp40 HP (proj1 HM) Fx Hx Es Hs Cx (G s Hs) (le_n 2)) as (m & Em & Lm & Fm & Sm & Dm).
  exists s, m; split; [exact Es|]; split; [exact Hs|].
  assert (Hpos : 0 < / 2 ^ 1000) by (apply Rinv_0_lt_compat, pow_lt; lra).
  split; [pose proof (G s Hs); lra|]; split; [exact Cx|]; split; [exact Em|]; split; [rewrite Nat.min_l in Lm by lia; exact Lm|].
  split; [exact Fm|]; split; [exact Sm|]; intros k c Hk Hc.
  destruct (size_uniform p k (kn (values U) (s + 1) - kn (values U) s) (len P) Hp1 Hp Hk Hn Hb (G' s Hs)) as (S1 & S2 & S3 & S4).
  destruct (Dm k c Hk ltac:(lia) Hc S1 S2) as (F & HF & FF & EF).
  { apply Rle_trans with (2 ^ 94 * 2 ^ 880); [|rewrite <- pow_add; apply Rle_pow; [lra|lia]].
    apply Rle_trans with (2 ^ 94 * M); [apply Rmult_le_compat_r; lra|apply Rmult_le_compat_l; [apply pow_le; lra|lra]]. }
  exists F; split; [exact HF|]; split; [exact FF|]; eapply Rle_trans; [exact EF|].
  pose proof ulp64_pos; pose proof eta64_pos; rewrite tiny_eta; pose proof (Rmult_le_pos ulp64 M ltac:(lra) ltac:(lra)).
  apply Rmult_le_compat_r; [lra|]; apply Rmult_le_compat_l; [pose proof (pos_INR (S p)); lra|exact S3].
Qed.

Lemma uniform_surf_derivatives_b64 p q nu nv P (x y : Binary64) M : (2 <= p)%nat -> INR p <= 2 ^ 26 -> (2 <= q)%nat -> INR q <= 2 ^ 26 ->
  (p + 1 <= nu)%nat -> (Z.of_nat nu - Z.of_nat p <= 490000)%Z -> (q + 1 <= nv)%nat -> (Z.of_nat nv - Z.of_nat q <= 490000)%Z ->
  length P = (nu * nv)%nat -> Forall (fun row => length row = 3%nat /\ within (- M) M row) P -> 0 <= M <= 2 ^ 780 ->
  finite64 x -> 0 <= value x <= 1 -> finite64 y -> 0 <= value y <= 1 ->
  exists U V : list PrimFloat.float, generate_uniform (Z.of_nat p) (Z.of_nat nu) = Ok (U : list Binary64) /\
  generate_uniform (Z.of_nat q) (Z.of_nat nv) = Ok (V : list Binary64) /\
  exists s t m, find_span (Z.of_nat nu) (Z.of_nat p) x U = Ok s /\ find_span (Z.of_nat nv) (Z.of_nat q) y V = Ok t /\
    kn (values U) s < kn (values U) (s + 1) /\ kn (values U) s <= value x <= kn (values U) (s + 1) /\
    kn (values V) t < kn (values V) (t + 1) /\ kn (values V) t <= value y <= kn (values V) (t + 1) /\
    surf_derivatives (mkSurf (K := Binary64) (Z.of_nat p) (Z.of_nat q) (Z.of_nat nu) (Z.of_nat nv) P U V) x y 2 2 false = Ok m /\
    length m = 9%nat /\ Forall (fun row => length row = 3%nat) m /\
    surf_point (mkSurf (K := Binary64) (Z.of_nat p) (Z.of_nat q) (Z.of_nat nu) (Z.of_nat nv) P U V) x y = Ok (nth 0 m []) /\
    forall a b c, (a <= 2)%nat -> (b <= 2)%nat -> (c < 3)%nat ->
      let e := nth c (nth (a * 3 + b) m []) 0%float in
      exists G, mixed_partial a b (surface_piece (values U) (values V) s t p q nu nv (coords c (map values P))) G /\
        finite64 e /\ Rabs (value e - G (value x) (value y)) <=
          15 * INR (p + q + 1) * ((4 * INR p * (INR nu - INR p)) ^ a * (4 * INR q * (INR nv - INR q)) ^ b) * (ulp64 * M + tiny64).
Proof.
  intros Hp1 Hp Hq1 Hq Hnu Bu Hnv Bv HL HP HM Fx Hx Fy Hy.
  assert (Hp40 : INR p <= 2 ^ 40) by (apply Rle_trans with (1 := Hp); apply Rle_pow; [lra|lia]).
  assert (Hq40 : INR q <= 2 ^ 40) by (apply Rle_trans with (1 := Hq); apply Rle_pow; [lra|lia]).
  assert (Gd : forall p n, (Z.of_nat p + 1 <= Z.of_nat n)%Z -> (Z.of_nat n - Z.of_nat p <= 490000)%Z ->
    exists U : list PrimFloat.float, generate_uniform (Z.of_nat p) (Z.of_nat n) = Ok (U : list Binary64) /\ within 0 1 U /\ clamped (Z.of_nat p) (Z.of_nat n) (values U) /\
    kn (values U) (Z.of_nat p) = 0 /\ kn (values U) (Z.of_nat n) = 1 /\
    (forall i, (Z.of_nat p <= i < Z.of_nat n)%Z -> / 2 ^ 1000 <= kn (values U) (i + 1) - kn (values U) i) /\
    (forall x, x <= 1 -> 1 - x <= 102 / 100000000 -> kn (values U) (Z.of_nat n - 1) <= x) /\
    (forall i, (Z.of_nat p <= i < Z.of_nat n)%Z -> 1 / (2 * (IZR (Z.of_nat n) - INR p)) <= kn (values U) (i + 1) - kn (values U) i)).
  { clear; intros p n Hn Hb.
    destruct (generate_uniform_b64 (Z.of_nat p) (Z.of_nat n) ltac:(lia) Hn ltac:(lia)) as (U' & E' & _ & _ & _ & _ & _ & G').
    destruct (uniform_good (Z.of_nat p) (Z.of_nat n) ltac:(lia) Hn Hb) as (U & E & W & C & K0 & K1 & G & T).
    assert (EU : U' = U).
    { rewrite E in E'; apply (f_equal (fun r => match r with Ok z => z | _ => [] end)) in E'; symmetry; exact E'. }
    rewrite EU in G'; rewrite <- (INR_IZR_INZ p) in G'; exists U.
    split; [exact E|]; split; [exact W|]; split; [exact C|]; split; [exact K0|]; split; [exact K1|]; split; [exact G|]; split; [exact T|exact G']. }
  destruct (Gd p nu ltac:(lia) Bu) as (U & EU & WU & CU & U0 & U1 & GU & TU & G1).
  destruct (Gd q nv ltac:(lia) Bv) as (V & EV & WV & CV & V0 & V1 & GV & TV & G2); clear Gd.
  exists U, V; split; [exact EU|]; split; [exact EV|].
  destruct (find_span_strict64 _ _ x U WU CU U0 U1 Fx Hx (TU _ (proj2 Hx))) as (s & Es & Hs & Cx).
  destruct (find_span_strict64 _ _ y V WV CV V0 V1 Fy Hy (TV _ (proj2 Hy))) as (t & Et & Ht & Cy).
  destruct (surf_derivatives_b64 p q nu nv U V P x y s t M WU WV (proj1 CU) (proj1 CV) HL HP (proj1 HM) Fx Fy Hx Hy Es Et Hs Ht Cx Cy
    (GU s Hs) (GV t Ht) Hp40 Hq40 2%nat 2%nat false) as (m & Em & Lm & Fm & Sm & Dm).
  rewrite (Nat.min_l 2 p), (Nat.min_l 2 q) in Lm by lia; rewrite (Nat.min_l 2 q) in Dm by lia.
  exists s, t, m; split; [exact Es|]; split; [exact Et|].
  assert (Hpos : 0 < / 2 ^ 1000) by (apply Rinv_0_lt_compat, pow_lt; lra).
  split; [pose proof (GU s Hs); lra|]; split; [exact Cx|]; split; [pose proof (GV t Ht); lra|]; split; [exact Cy|].
  split; [exact Em|]; split; [exact Lm|]; split; [exact Fm|]; split; [exact Sm|]; intros a b c Ha Hb Hc.
  destruct (size_uniform p a (kn (values U) (s + 1) - kn (values U) s) (Z.of_nat nu) Hp1 Hp Ha ltac:(lia) Bu (G1 s Hs)) as (S1 & S2 & S3 & S4).
  destruct (size_uniform q b (kn (values V) (t + 1) - kn (values V) t) (Z.of_nat nv) Hq1 Hq Hb ltac:(lia) Bv (G2 t Ht)) as (T1 & T2 & T3 & T4).
  assert (N : forall p k g, 0 <= (2 / g) ^ k -> 0 <= INR (fact p) / INR (fact (p - k)) * (2 / g) ^ k).
  { clear; intros p k g H; apply Rmult_le_pos; [apply Rlt_le, Rdiv_lt_0_compat; apply INR_fact_lt_0|exact H]. }
  assert (Na : 0 <= (2 / (kn (values U) (s + 1) - kn (values U) s)) ^ a) by (apply pow_le, Rlt_le, Rdiv_lt_0_compat; pose proof (GU s Hs); lra).
  assert (Nb : 0 <= (2 / (kn (values V) (t + 1) - kn (values V) t)) ^ b) by (apply pow_le, Rlt_le, Rdiv_lt_0_compat; pose proof (GV t Ht); lra).
  apply (N p) in Na; apply (N q) in Nb; clear N.
  destruct (Dm eq_refl a b c Ha ltac:(lia) Hb ltac:(lia) Hc S1 S2 T1 T2) as (F & HF & FF & EF).
  { apply Rle_trans with (2 ^ 94 * 2 ^ 94 * 2 ^ 780); [|rewrite <- !pow_add; apply Rle_pow; [lra|lia]].
    apply Rmult_le_compat; try lra; [apply Rmult_le_pos; assumption|apply Rmult_le_compat; lra]. }
  exists F; split; [exact HF|]; split; [exact FF|]; eapply Rle_trans; [exact EF|].
  pose proof ulp64_pos; pose proof eta64_pos; rewrite tiny_eta; pose proof (Rmult_le_pos ulp64 M ltac:(lra) ltac:(lra)).
  apply Rmult_le_compat_r; [lra|]; apply Rmult_le_compat_l; [pose proof (pos_INR (p + q + 1)); lra|].
  rewrite <- !INR_IZR_INZ in S3, T3; apply Rmult_le_compat; assumption.
Qed.
