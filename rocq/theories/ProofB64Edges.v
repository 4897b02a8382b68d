(** Edges and corners of surfaces on binary64 numbers (model: ModelSurface.v). *)
From Coq Require Import Reals Lra Lia ZArith List Floats.
From Flocq Require Import Core.Core IEEE754.BinarySingleNaN IEEE754.PrimFloat.
From Verif Require Import Py PyLemmas Num ModelKnots ModelBasis ModelCurve ModelSurface Spec SpecB64 MathCox MathKnots MathJoin
  ProofNum ProofBasis ProofSpan ProofCurve ProofSurface ProofB64 ProofB64Basis ProofB64Span ProofB64Curve ProofB64Surface ProofB64Ends.
Import ListNotations.
Open Scope R_scope.

(** ** Equal up to the sign of zero *)
Definition same (x y : PrimFloat.float) : Prop := x = y \/ exactly 0 x /\ exactly 0 y.
Lemma same_values x y : finite64 x -> finite64 y -> value x = value y -> same x y.
Proof.
  intros Fx Fy E; destruct (Req_dec (value x) 0) as [Z|Z]; [right; split; split; try assumption; lra|left].
  rewrite finite_B in Fx, Fy; rewrite !value_B in *.
  rewrite <- (B2Prim_Prim2B x), <- (B2Prim_Prim2B y); f_equal; apply B2R_inj; [| |exact E].
  - destruct (Prim2B x) as [| | |]; cbn in *; try discriminate; [exfalso; apply Z|]; reflexivity.
  - destruct (Prim2B y) as [| | |]; cbn in *; try discriminate; [exfalso; apply Z; rewrite E|]; reflexivity.
Qed.
Lemma same_finite x y : same x y -> finite64 x -> finite64 y /\ value x = value y.
Proof. intros [->|((Fx & Vx) & (Fy & Vy))] F; [auto|split; [exact Fy|lra]]. Qed.
Lemma same_sym x y : same x y -> same y x.
Proof. intros [->|(A & B)]; [left; reflexivity|right; split; assumption]. Qed.
Lemma finite_dec x : finite64 x \/ ~ finite64 x.
Proof. rewrite finite_B; destruct (is_finite (Prim2B x)); [left; reflexivity|right; discriminate]. Qed.
Lemma zero_SF x : exactly 0 x -> exists s, FloatOps.Prim2SF x = SpecFloat.S754_zero s.
Proof.
  intros (F & V); rewrite finite_B in F; rewrite value_B in V; rewrite <- B2SF_Prim2B.
  destruct (Prim2B x) as [s|s| |s m e B]; cbn in *; try discriminate; [exists s; reflexivity|].
  exfalso; unfold F2R in V; cbn [Fnum Fexp] in V; pose proof (bpow_gt_0 radix2 e).
  apply Rmult_integral in V; destruct V as [V|V]; [|lra]; destruct s; cbn in V; apply (eq_IZR _ 0) in V; discriminate.
Qed.
Lemma other_SF x : ~ finite64 x -> FloatOps.Prim2SF x = SpecFloat.S754_nan \/ exists s, FloatOps.Prim2SF x = SpecFloat.S754_infinity s.
Proof.
  rewrite finite_B; intros F; rewrite <- B2SF_Prim2B; destruct (Prim2B x) as [s|s| |s m e B]; cbn in *; eauto; exfalso; apply F; reflexivity.
Qed.
Lemma same_add x y a b : same x y -> same a b -> same (x + a)%float (y + b)%float.
Proof.
  intros H1 H2.
  assert (G : forall z w c, exactly 0 z -> exactly 0 w -> same (z + c)%float (w + c)%float).
  { intros z w c Hz Hw; destruct (finite_dec c) as [F|F].
    - destruct (add_0_l z c (value c) Hz (conj F eq_refl)) as (F1 & V1); destruct (add_0_l w c (value c) Hw (conj F eq_refl)) as (F2 & V2).
      apply same_values; [exact F1|exact F2|rewrite V1, V2; reflexivity].
    - left; apply FloatAxioms.Prim2SF_inj; rewrite !FloatAxioms.add_spec.
      destruct (zero_SF z Hz) as (s & ->); destruct (zero_SF w Hw) as (s' & ->).
      destruct (other_SF c F) as [->|(s'' & ->)]; reflexivity. }
  assert (G' : forall z w c, exactly 0 z -> exactly 0 w -> same (c + z)%float (c + w)%float).
  { intros z w c Hz Hw; destruct (finite_dec c) as [F|F].
    - destruct (add_0_r c z (value c) (conj F eq_refl) Hz) as (F1 & V1); destruct (add_0_r c w (value c) (conj F eq_refl) Hw) as (F2 & V2).
      apply same_values; [exact F1|exact F2|rewrite V1, V2; reflexivity].
    - left; apply FloatAxioms.Prim2SF_inj; rewrite !FloatAxioms.add_spec.
      destruct (zero_SF z Hz) as (s & ->); destruct (zero_SF w Hw) as (s' & ->).
      destruct (other_SF c F) as [->|(s'' & ->)]; reflexivity. }
  destruct H1 as [->|(Zx & Zy)]; destruct H2 as [->|(Za & Zb)].
  - left; reflexivity.
  - apply G'; assumption.
  - apply G; assumption.
  - right; split; apply add_0_l; assumption.
Qed.
Lemma same_mul x y a : same x y -> same (x * a)%float (y * a)%float.
Proof.
  intros [->|(Zx & Zy)]; [left; reflexivity|]; destruct (finite_dec a) as [F|F].
  - right; split; apply mul_0_l; assumption.
  - left; apply FloatAxioms.Prim2SF_inj; rewrite !FloatAxioms.mul_spec.
    destruct (zero_SF x Zx) as (s & ->); destruct (zero_SF y Zy) as (s' & ->).
    destruct (other_SF a F) as [->|(s'' & ->)]; reflexivity.
Qed.
Lemma same_dot (a a' b : list Binary64) : Forall2 same a a' -> same (vdot a b) (vdot a' b).
Proof.
  intros H; unfold vdot, nsum, vmap2.
  assert (G : forall acc acc', same acc acc' ->
    same (fold_left nadd (map (fun xy => nmul (fst xy) (snd xy)) (combine a b)) (acc : Binary64))
         (fold_left nadd (map (fun xy => nmul (fst xy) (snd xy)) (combine a' b)) (acc' : Binary64))).
  { revert b; induction H as [|x y l l' Hxy H IH]; intros [|c b] acc acc' Ha; cbn [combine map fold_left fst snd]; try exact Ha.
    apply IH; apply same_add; [exact Ha|apply same_mul; exact Hxy]. }
  apply G; left; reflexivity.
Qed.
Lemma same_equal x y : Forall2 same x y -> Forall finite64 y -> equal64 x y.
Proof.
  intros H F; induction H as [|a b l l' Hab H IH]; [constructor|]; inversion F as [|? ? Fb F']; subst.
  constructor; [|apply IH; exact F'].
  destruct (same_finite b a (same_sym _ _ Hab) Fb) as (Fa & E); rewrite eqb64 by assumption; apply Req_bool_true; symmetry; exact E.
Qed.

(** ** Points from spans and basis functions *)
Definition found64 (p : nat) (n : Z) (U : list PrimFloat.float) (x : Binary64) (s : Z) (b : list Binary64) : Prop :=
  finite64 x /\ 0 <= value x <= 1 /\ find_span n (Z.of_nat p) x (U : list Binary64) = Ok s /\ (Z.of_nat p <= s < n)%Z /\
  basis_functions s x (Z.of_nat p) (U : list Binary64) = Ok b /\ length b = S p.
Definition entry (P : list (list PrimFloat.float)) (c : nat) (i : Z) : Binary64 := nth c (nth (Z.to_nat i) P []) (0%float : Binary64).
Lemma found_point p U (P : list (list PrimFloat.float)) x s b d : found64 p (len P) U x s b ->
  Forall (fun r => length r = 3%nat) P ->
  single_point (mkCurve (K := Binary64) (Some (Z.of_nat p)) (Some P) (Some U) d) x
  = Ok (map (fun c => vdot b (tab (S p) (fun i => entry P c (s - Z.of_nat p + i)))) [0%nat; 1%nat; 2%nat]).
Proof.
  intros (Fx & Bx & E & Hs & EB & LB) H3.
  assert (HC : forall c, (c < 3)%nat ->
    acol (slice (P : list (list Binary64)) (s - Z.of_nat p) (s + 1)) (Z.of_nat c) = Ok (tab (S p) (fun i => entry P c (s - Z.of_nat p + i)))).
  { intros c Hc; replace (s + 1)%Z with (s - Z.of_nat p + Z.of_nat (S p))%Z by lia.
    apply (active_col_any (P : list (list Binary64)) (0%float : Binary64)); try assumption; try lia; change (len P) with (len (P : list (list PrimFloat.float))) in *; lia. }
  assert (HM : forall c, matmul11 b (tab (S p) (fun i => entry P c (s - Z.of_nat p + i))) = Ok (vdot b (tab (S p) (fun i => entry P c (s - Z.of_nat p + i))))).
  { intros c; apply matmul_dot; rewrite tab_length; exact LB. }
  unfold single_point; rewrite (validate64 x Fx Bx); cbn [negb c_degree c_ctrl c_kv].
  unfold curve_point; change (zlen P) with (len P).
  transitivity (let* knot_span := find_span (len P) (Z.of_nat p) x U in
    let* basis_funs := basis_functions knot_span x (Z.of_nat p) U in
    let active := slice (P : list (list Binary64)) (knot_span - Z.of_nat p) (knot_span + 1) in
    let* cx := acol active (Z.of_nat 0) in let* vx := matmul11 basis_funs cx in
    let* cy := acol active (Z.of_nat 1) in let* vy := matmul11 basis_funs cy in
    let* cz := acol active (Z.of_nat 2) in let* vz := matmul11 basis_funs cz in Ok [vx; vy; vz]); [reflexivity|].
  rewrite E; cbn [bind].
  match goal with |- bind ?m _ = _ => replace m with (Ok b : res (list Binary64)) by (symmetry; exact EB) end; cbn [bind].
  cbv zeta; rewrite (HC 0%nat) by lia; cbn [bind]; rewrite HM; cbn [bind].
  rewrite (HC 1%nat) by lia; cbn [bind]; rewrite HM; cbn [bind].
  rewrite (HC 2%nat) by lia; cbn [bind]; rewrite HM; reflexivity.
Qed.

Lemma coords_entry (P : list (list PrimFloat.float)) c nv i j : Forall (fun r => length r = 3%nat) P -> (c < 3)%nat ->
  (0 <= i * Z.of_nat nv + j < len P)%Z ->
  netK (0%float : Binary64) nv (coordsK (0%float : Binary64) c P) i j = entry P c (i * Z.of_nat nv + j).
Proof.
  intros HF Hc Hk; unfold netK, coordsK, entry, len in *; set (k := Z.to_nat (i * Z.of_nat nv + j)).
  assert (Hk' : (k < length P)%nat) by (unfold k; lia).
  rewrite (nth_indep _ _ (nth c (@nil PrimFloat.float) 0%float)) by (rewrite map_length; exact Hk').
  apply (map_nth (fun r : list PrimFloat.float => nth c r 0%float) P []).
Qed.
Lemma row_entry nv (P : list (list PrimFloat.float)) c i j : (0 <= j < Z.of_nat nv)%Z ->
  entry (net_row nv P i) c j = entry P c (Z.of_nat i * Z.of_nat nv + j).
Proof.
  intros Hj; unfold entry, net_row; f_equal.
  replace (Z.to_nat (Z.of_nat i * Z.of_nat nv + j)) with (i * nv + Z.to_nat j)%nat by (rewrite Z2Nat.inj_add, Z2Nat.inj_mul, !Nat2Z.id by lia; reflexivity).
  rewrite (nth_indep _ _ (nth (i * nv + 0) P [])) by (rewrite map_length, seq_length; lia).
  rewrite (map_nth (fun j => nth (i * nv + j) P []) (seq 0 nv) 0%nat), seq_nth by lia; reflexivity.
Qed.
Lemma col_entry nu nv (P : list (list PrimFloat.float)) c i j : (0 <= i < Z.of_nat nu)%Z ->
  entry (net_col nu nv P j) c i = entry P c (i * Z.of_nat nv + Z.of_nat j).
Proof.
  intros Hj; unfold entry, net_col; f_equal.
  replace (Z.to_nat (i * Z.of_nat nv + Z.of_nat j)) with (Z.to_nat i * nv + j)%nat by (rewrite Z2Nat.inj_add, Z2Nat.inj_mul, !Nat2Z.id by lia; reflexivity).
  rewrite (nth_indep _ _ (nth (0 * nv + j) P [])) by (rewrite map_length, seq_length; lia).
  rewrite (map_nth (fun i => nth (i * nv + j) P []) (seq 0 nu) 0%nat), seq_nth by lia; reflexivity.
Qed.

Section Edges.
Variables (p q nu nv : nat) (U V : list PrimFloat.float) (P : list (list PrimFloat.float)) (d : Z).
Hypothesis HL : length P = (nu * nv)%nat.
Hypothesis HP : Forall (fun r => length r = 3%nat /\ Forall finite64 r) P.
Let H3 : Forall (fun r => length r = 3%nat) P.
Proof. eapply Forall_impl; [|exact HP]; intros r (L & _); exact L. Qed.
Notation S64 := (mkSurf (K := Binary64) (Z.of_nat p) (Z.of_nat q) (Z.of_nat nu) (Z.of_nat nv) P U V).

Lemma entry_finite c k : (c < 3)%nat -> (0 <= k < len P)%Z -> finite64 (entry P c k).
Proof.
  intros Hc Hk; unfold entry, len in *; rewrite Forall_forall in HP; destruct (HP (nth (Z.to_nat k) P [])) as (L & F); [apply nth_In; lia|].
  rewrite Forall_forall in F; apply F, nth_In; lia.
Qed.
Lemma found_surf x y s t bu bv : found64 p (Z.of_nat nu) U x s bu -> found64 q (Z.of_nat nv) V y t bv ->
  surf_point S64 x y = Ok (map (fun c => vdot (tab (S q) (fun j => vdot bu (tab (S p) (fun i =>
    entry P c ((s - Z.of_nat p + i) * Z.of_nat nv + (t - Z.of_nat q + j)))))) bv) [0%nat; 1%nat; 2%nat]).
Proof.
  intros (Fx & Bx & Es & Hs & Eu & Lu) (Fy & By & Et & Ht & Ev & Lv).
  eapply eq_trans; [apply (surf_point_any (K := Binary64) (0%float : Binary64) p q nu nv U V P x y s t bu bv); try assumption;
    apply validate64; assumption|].
  f_equal; apply map_ext_in; intros c Hc; unfold dot2.
  assert (Hc' : (c < 3)%nat) by (destruct Hc as [<-|[<-|[<-|[]]]]; lia).
  f_equal; apply tab_ext; intros j Hj; f_equal; apply tab_ext; intros i Hi.
  apply coords_entry; [exact H3|exact Hc'|]; unfold len; rewrite HL, Nat2Z.inj_mul; nia.
Qed.

(** x picks row i *)
Lemma row_edge x i y t bv : picks p (Z.of_nat nu) U x (Z.of_nat i) -> (i < nu)%nat -> found64 q (Z.of_nat nv) V y t bv ->
  exists z w : list PrimFloat.float, surf_point S64 x y = Ok z /\
    single_point (mkCurve (K := Binary64) (Some (Z.of_nat q)) (Some (net_row nv P i)) (Some V) d) y = Ok w /\ Forall2 same z w.
Proof.
  intros (Fx & Bx & s & f & m & Es & Hs & Eu & Hm & Ei & Hf) Hi Fv; pose proof Fv as (_ & _ & _ & Ht & _ & Lv).
  assert (Fu : found64 p (Z.of_nat nu) U x s (tab (S p) f)) by (repeat (split; try assumption); try apply tab_length; try apply Bx; apply Hs).
  destruct (net_row_shape nu nv P i H3 HL Hi) as (R3 & RL).
  assert (Fv' : found64 q (len (net_row nv P i)) V y t bv) by (rewrite RL; exact Fv).
  eexists; eexists; split; [exact (found_surf x y s t _ bv Fu Fv)|]; split; [exact (found_point q V (net_row nv P i) y t bv d Fv' R3)|].
  assert (G : forall c, (c < 3)%nat -> same
    (vdot (tab (S q) (fun j => vdot (tab (S p) f) (tab (S p) (fun i0 => entry P c ((s - Z.of_nat p + i0) * Z.of_nat nv + (t - Z.of_nat q + j)))))) bv)
    (vdot bv (tab (S q) (fun j => entry (net_row nv P i) c (t - Z.of_nat q + j))))).
  { intros c Hc; rewrite (vdot_comm bv); apply same_dot; apply Forall2_tab; intros j Hj.
    assert (IX : forall a, (0 <= a < Z.of_nat (S p))%Z ->
      finite64 (entry P c ((s - Z.of_nat p + a) * Z.of_nat nv + (t - Z.of_nat q + j)))).
    { intros a Ha; apply entry_finite; [exact Hc|]; unfold len; rewrite HL, Nat2Z.inj_mul; nia. }
    destruct (pick_dot (S p) f (fun a => entry P c ((s - Z.of_nat p + a) * Z.of_nat nv + (t - Z.of_nat q + j))) m ltac:(lia)) as (F1 & V1).
    - intros a Ha; apply Hf; lia.
    - exact IX.
    - rewrite row_entry by lia; apply same_values.
      + exact F1.
      + apply entry_finite; [exact Hc|]; unfold len; rewrite HL, Nat2Z.inj_mul; nia.
      + rewrite V1, <- Ei; reflexivity. }
  cbn [map]; repeat (apply Forall2_cons; [apply G; lia|]); apply Forall2_nil.
Qed.

(** y picks column j; the sums down the columns are finite *)
Lemma col_edge x y j s bu : picks q (Z.of_nat nv) V y (Z.of_nat j) -> (j < nv)%nat -> found64 p (Z.of_nat nu) U x s bu ->
  (forall c k, (c < 3)%nat -> (0 <= k < Z.of_nat nv)%Z ->
     finite64 (vdot bu (tab (S p) (fun i => entry P c ((s - Z.of_nat p + i) * Z.of_nat nv + k))))) ->
  exists z w : list PrimFloat.float, surf_point S64 x y = Ok z /\
    single_point (mkCurve (K := Binary64) (Some (Z.of_nat p)) (Some (net_col nu nv P j)) (Some U) d) x = Ok w /\ Forall2 same z w /\ Forall finite64 w.
Proof.
  intros (Fy & By & t & f & m & Et & Ht & Ev & Hm & Ei & Hf) Hj Fu HF; pose proof Fu as (_ & _ & _ & Hs & _ & Lu).
  assert (Fv : found64 q (Z.of_nat nv) V y t (tab (S q) f)) by (repeat (split; try assumption); try apply tab_length; try apply By; apply Ht).
  destruct (net_col_shape nu nv P j H3 HL Hj) as (R3 & RL).
  assert (Fu' : found64 p (len (net_col nu nv P j)) U x s bu) by (rewrite RL; exact Fu).
  eexists; eexists; split; [exact (found_surf x y s t bu _ Fu Fv)|]; split; [exact (found_point p U (net_col nu nv P j) x s bu d Fu' R3)|].
  assert (EC : forall c, (c < 3)%nat -> vdot bu (tab (S p) (fun i => entry (net_col nu nv P j) c (s - Z.of_nat p + i))) =
    vdot bu (tab (S p) (fun i => entry P c ((s - Z.of_nat p + i) * Z.of_nat nv + (t - Z.of_nat q + m))))).
  { intros c Hc; f_equal; apply tab_ext; intros i Hi; rewrite col_entry by lia; f_equal; lia. }
  assert (G : forall c, (c < 3)%nat -> same
    (vdot (tab (S q) (fun k => vdot bu (tab (S p) (fun i0 => entry P c ((s - Z.of_nat p + i0) * Z.of_nat nv + (t - Z.of_nat q + k)))))) (tab (S q) f))
    (vdot bu (tab (S p) (fun i => entry (net_col nu nv P j) c (s - Z.of_nat p + i))))).
  { intros c Hc; rewrite vdot_comm, EC by exact Hc.
    destruct (pick_dot (S q) f (fun k => vdot bu (tab (S p) (fun i0 => entry P c ((s - Z.of_nat p + i0) * Z.of_nat nv + (t - Z.of_nat q + k))))) m ltac:(lia)) as (F1 & V1).
    - intros a Ha; apply Hf; lia.
    - intros a Ha; apply HF; [exact Hc|lia].
    - apply same_values; [exact F1|apply HF; [exact Hc|lia]|exact V1]. }
  split; cbn [map].
  - repeat (apply Forall2_cons; [apply G; lia|]); apply Forall2_nil.
  - repeat (apply Forall_cons; [rewrite EC by lia; apply HF; lia|]); apply Forall_nil.
Qed.
Lemma corner x y i j : picks p (Z.of_nat nu) U x (Z.of_nat i) -> (i < nu)%nat -> picks q (Z.of_nat nv) V y (Z.of_nat j) -> (j < nv)%nat ->
  exists z : list PrimFloat.float, surf_point S64 x y = Ok z /\ equal64 z (nth (i * nv + j) P []).
Proof.
  intros Px Hi Py Hj; pose proof Py as (Fy & By & t & f & m & Et & Ht & Ev & Hm & Ei & Hf).
  assert (Fv : found64 q (Z.of_nat nv) V y t (tab (S q) f)) by (repeat (split; try assumption); try apply tab_length; try apply By; apply Ht).
  destruct (row_edge x i y t _ Px Hi Fv) as (z & w & Ez & Ew & Hzw); exists z; split; [exact Ez|].
  destruct (net_row_shape nu nv P i H3 HL Hi) as (R3 & RL).
  assert (RP : Forall (fun r => length r = 3%nat /\ Forall finite64 r) (net_row nv P i)).
  { unfold net_row; apply Forall_map, Forall_forall; intros k Hk; apply in_seq in Hk; rewrite Forall_forall in HP; apply HP, nth_In; nia. }
  destruct (picked_point q V (net_row nv P i) y (Z.of_nat j) d) as (w' & Ew' & Fw & Vw); [rewrite RL; exact Py|exact RP|].
  assert (w' = w) as -> by congruence.
  rewrite Nat2Z.id in Vw; assert (EN : nth j (net_row nv P i) [] = nth (i * nv + j) P []).
  { unfold net_row; rewrite (nth_indep _ _ (nth (i * nv + 0) P [])) by (rewrite map_length, seq_length; lia).
    rewrite (map_nth (fun j => nth (i * nv + j) P []) (seq 0 nv) 0%nat), seq_nth by lia; reflexivity. }
  rewrite EN in Vw; assert (FN : Forall finite64 (nth (i * nv + j) P [])) by (rewrite Forall_forall in HP; apply HP, nth_In; nia).
  assert (EV : values z = values w /\ Forall finite64 z).
  { clear - Hzw Fw; induction Hzw as [|a b l l' Hab H IH]; [split; constructor|]; inversion Fw as [|? ? Fb F']; subst.
    destruct (IH F') as (A & B); destruct (same_finite b a (same_sym _ _ Hab) Fb) as (Fa & E).
    split; [unfold values in *; cbn [map]; rewrite A, E; reflexivity|constructor; assumption]. }
  destruct EV as (EV & Fz); rewrite EV in Vw || rewrite <- EV in Vw.
  clear - Vw Fz FN; revert Vw FN; generalize (nth (i * nv + j) P []); induction Fz as [|a l Fa Fl IH]; intros [|b l'] E F; try discriminate; [constructor|].
  unfold values in E; cbn [map] in E; injection E as E1 E2; inversion F as [|? ? Fb F']; subst.
  constructor; [rewrite eqb64, Req_bool_true by assumption; reflexivity|apply IH; assumption].
Qed.
End Edges.

Lemma found_weights p n (U : list PrimFloat.float) (x : Binary64) : within 0 1 U -> clamped (Z.of_nat p) n (values U) -> INR p <= 2 ^ 40 ->
  kn (values U) (Z.of_nat p) = 0 -> kn (values U) n = 1 ->
  (forall i, (Z.of_nat p <= i < n)%Z -> / 2 ^ 1000 <= kn (values U) (i + 1) - kn (values U) i) ->
  finite64 x -> 0 <= value x <= 1 -> (1 - value x <= 102 / 100000000 -> kn (values U) (n - 1) <= value x) ->
  exists s b, found64 p n U x s b /\
    forall M (g : Z -> Binary64), 0 <= M <= 2 ^ 890 -> (forall i, (0 <= i < Z.of_nat (S p))%Z -> finite64 (g i) /\ Rabs (value (g i)) <= M) ->
      finite64 (vdot b (tab (S p) g)).
Proof.
  intros HW HC Hp K0 K1 HG Fx Bx Tx.
  assert (Hpos : 0 < / 2 ^ 1000) by (apply Rinv_0_lt_compat, pow_lt; lra).
  destruct (find_span_strict64 _ _ x U HW HC K0 K1 Fx Bx Tx) as (s & Es & Hs & Cx).
  destruct (clamped_facts _ _ _ HC) as (Hp0 & Hn & HL & HU & _); rewrite len_values in HL.
  destruct (basis_functions_b64 U s x p HW HU Fx Cx (HG s Hs)) as (b & Eb & Lb & Fb & Rb); try assumption; try lia.
  exists s, (b : list Binary64); split; [repeat (split; try assumption); lra || lia|].
  intros M g HM Hg.
  destruct (mean64 M b (tab (S p) g) (pieces (values U) s p (value x)) (8 * INR p)) as (_ & F & _); try assumption.
  - assert (2 ^ 890 <= 2 ^ 900) by (apply Rle_pow; [lra|lia]); lra.
  - rewrite Lb, S_INR; apply Rle_trans with (2 ^ 40 + 1); [lra|cbn [pow]; lra].
  - apply Forall_tab; intros i Hi; destruct (Hg i Hi) as (F & A); split; [exact F|apply Rabs_le_inv; exact A].
  - rewrite Lb, tab_length; reflexivity.
  - rewrite Lb; unfold pieces; rewrite tab_length; reflexivity.
  - apply pieces_sum; [exact HU|specialize (HG s Hs); lra].
  - pose proof (pos_INR p); split; [lra|]; apply Rle_trans with (8 * 2 ^ 40); [lra|cbn [pow]; lra].
Qed.

Section User.
Variables (p q nu nv : nat) (U V : list PrimFloat.float) (P : list (list PrimFloat.float)).
Hypothesis WU : within 0 1 U.
Hypothesis WV : within 0 1 V.
Hypothesis CU : clamped (Z.of_nat p) (Z.of_nat nu) (values U).
Hypothesis CV : clamped (Z.of_nat q) (Z.of_nat nv) (values V).
Hypothesis Hp1 : (1 <= p)%nat.
Hypothesis Hq1 : (1 <= q)%nat.
Hypothesis U0 : kn (values U) (Z.of_nat p) = 0.
Hypothesis U1 : kn (values U) (Z.of_nat nu) = 1.
Hypothesis V0 : kn (values V) (Z.of_nat q) = 0.
Hypothesis V1 : kn (values V) (Z.of_nat nv) = 1.
Hypothesis HL : length P = (nu * nv)%nat.
Notation S64 := (mkSurf (K := Binary64) (Z.of_nat p) (Z.of_nat q) (Z.of_nat nu) (Z.of_nat nv) P U V).
Let u0 := nth (S p) U 0%float.
Let u1 := (1 - nth (nu - 1) U 0)%float.
Let v0 := nth (S q) V 0%float.
Let v1 := (1 - nth (nv - 1) V 0)%float.
Let Bnu : (1 <= nu)%nat.
Proof. destruct (clamped_facts _ _ _ CU) as (_ & H & _); lia. Qed.
Let Bnv : (1 <= nv)%nat.
Proof. destruct (clamped_facts _ _ _ CV) as (_ & H & _); lia. Qed.
Let PU0 : undoes64 u0 -> picks p (Z.of_nat nu) U 0%float (Z.of_nat 0).
Proof. intros (A & B); exact (start_picks_w p (Z.of_nat nu) U WU CU Hp1 U0 U1 A B). Qed.
Let PV0 : undoes64 v0 -> picks q (Z.of_nat nv) V 0%float (Z.of_nat 0).
Proof. intros (A & B); exact (start_picks_w q (Z.of_nat nv) V WV CV Hq1 V0 V1 A B). Qed.
Let PU1 : undoes64 u1 -> picks p (Z.of_nat nu) U 1%float (Z.of_nat (nu - 1)).
Proof.
  intros (A & B); pose proof (end_picks_w p (Z.of_nat nu) U WU CU Hp1 U0 U1) as G; cbv zeta in G.
  replace (Z.to_nat (Z.of_nat nu - 1)) with (nu - 1)%nat in G by lia.
  replace (Z.of_nat (nu - 1)) with (Z.of_nat nu - 1)%Z by lia; exact (G A B).
Qed.
Let PV1 : undoes64 v1 -> picks q (Z.of_nat nv) V 1%float (Z.of_nat (nv - 1)).
Proof.
  intros (A & B); pose proof (end_picks_w q (Z.of_nat nv) V WV CV Hq1 V0 V1) as G; cbv zeta in G.
  replace (Z.to_nat (Z.of_nat nv - 1)) with (nv - 1)%nat in G by lia.
  replace (Z.of_nat (nv - 1)) with (Z.of_nat nv - 1)%Z by lia; exact (G A B).
Qed.

Lemma surface_corners64 : Forall (fun r => length r = 3%nat /\ Forall finite64 r) P ->
  (undoes64 u0 -> undoes64 v0 -> exists z, surf_point S64 0%float 0%float = Ok z /\ equal64 z (nth 0 P [])) /\
  (undoes64 u0 -> undoes64 v1 -> exists z, surf_point S64 0%float 1%float = Ok z /\ equal64 z (nth (nv - 1) P [])) /\
  (undoes64 u1 -> undoes64 v0 -> exists z, surf_point S64 1%float 0%float = Ok z /\ equal64 z (nth ((nu - 1) * nv) P [])) /\
  (undoes64 u1 -> undoes64 v1 -> exists z, surf_point S64 1%float 1%float = Ok z /\ equal64 z (last P [])).
Proof.
  intros HP; pose proof (corner p q nu nv U V P 0 HL HP) as G; repeat split; intros A B.
  - apply (G _ _ 0%nat 0%nat); auto.
  - apply (G _ _ 0%nat (nv - 1)%nat); auto; lia.
  - destruct (G _ _ (nu - 1)%nat 0%nat (PU1 A) ltac:(lia) (PV0 B) ltac:(lia)) as (z & E & F); rewrite Nat.add_0_r in F; exists z; split; assumption.
  - destruct (G _ _ (nu - 1)%nat (nv - 1)%nat (PU1 A) ltac:(lia) (PV1 B) ltac:(lia)) as (z & E & F); exists z; split; [exact E|].
    rewrite last_nth, HL; replace (nu * nv - 1)%nat with ((nu - 1) * nv + (nv - 1))%nat by nia; exact F.
Qed.

Section Bounded.
Variables (M : R) (d : Z).
Hypothesis HP : Forall (fun row => length row = 3%nat /\ within (- M) M row) P.
Hypothesis HM : 0 <= M <= 2 ^ 890.
Let HF : Forall (fun r => length r = 3%nat /\ Forall finite64 r) P.
Proof. eapply Forall_impl; [|exact HP]; intros r (L & W); split; [exact L|exact (within_finite _ _ _ W)]. Qed.
Lemma entry_within c k : (c < 3)%nat -> (0 <= k < len P)%Z -> finite64 (entry P c k) /\ Rabs (value (entry P c k)) <= M.
Proof.
  intros Hc Hk; unfold entry, len in *; rewrite Forall_forall in HP; destruct (HP (nth (Z.to_nat k) P [])) as (L & W); [apply nth_In; lia|].
  unfold within in W; rewrite Forall_forall in W; destruct (W (nth c (nth (Z.to_nat k) P []) 0%float)) as (F & B); [apply nth_In; lia|].
  split; [exact F|apply Rabs_le; exact B].
Qed.

Lemma surface_edges64 : INR p <= 2 ^ 40 -> INR q <= 2 ^ 40 ->
  (forall i, (Z.of_nat p <= i < Z.of_nat nu)%Z -> / 2 ^ 1000 <= kn (values U) (i + 1) - kn (values U) i) ->
  (forall i, (Z.of_nat q <= i < Z.of_nat nv)%Z -> / 2 ^ 1000 <= kn (values V) (i + 1) - kn (values V) i) ->
  (forall y : Binary64, finite64 y -> 0 <= value y <= 1 -> (1 - value y <= 102 / 100000000 -> kn (values V) (Z.of_nat nv - 1) <= value y) ->
    (undoes64 u0 -> exists z w, surf_point S64 0%float y = Ok z /\
       single_point (mkCurve (K := Binary64) (Some (Z.of_nat q)) (Some (net_row nv P 0)) (Some V) d) y = Ok w /\ equal64 z w) /\
    (undoes64 u1 -> exists z w, surf_point S64 1%float y = Ok z /\
       single_point (mkCurve (K := Binary64) (Some (Z.of_nat q)) (Some (net_row nv P (nu - 1))) (Some V) d) y = Ok w /\ equal64 z w)) /\
  (forall x : Binary64, finite64 x -> 0 <= value x <= 1 -> (1 - value x <= 102 / 100000000 -> kn (values U) (Z.of_nat nu - 1) <= value x) ->
    (undoes64 v0 -> exists z w, surf_point S64 x 0%float = Ok z /\
       single_point (mkCurve (K := Binary64) (Some (Z.of_nat p)) (Some (net_col nu nv P 0)) (Some U) d) x = Ok w /\ equal64 z w) /\
    (undoes64 v1 -> exists z w, surf_point S64 x 1%float = Ok z /\
       single_point (mkCurve (K := Binary64) (Some (Z.of_nat p)) (Some (net_col nu nv P (nv - 1))) (Some U) d) x = Ok w /\ equal64 z w)).
Proof.
  intros Hp Hq GU GV; split.
  - intros y Fy By Ty; destruct (found_weights q _ V y WV CV Hq V0 V1 GV Fy By Ty) as (t & b & Fo & Fi).
    assert (G : forall x i, picks p (Z.of_nat nu) U x (Z.of_nat i) -> (i < nu)%nat -> exists z w, surf_point S64 x y = Ok z /\
       single_point (mkCurve (K := Binary64) (Some (Z.of_nat q)) (Some (net_row nv P i)) (Some V) d) y = Ok w /\ equal64 z w).
    { intros x i Px Hi; destruct (row_edge p q nu nv U V P d HL HF x i y t b Px Hi Fo) as (z & w & Ez & Ew & H).
      exists z, w; split; [exact Ez|]; split; [exact Ew|]; apply same_equal; [exact H|].
      assert (H3 : Forall (fun r => length r = 3%nat) P) by (eapply Forall_impl; [|exact HP]; intros r (L & _); exact L).
      destruct (net_row_shape nu nv P i H3 HL Hi) as (R3 & RL).
      assert (Fo' : found64 q (len (net_row nv P i)) V y t b) by (rewrite RL; exact Fo).
      rewrite (found_point q V (net_row nv P i) y t b d Fo' R3) in Ew; injection Ew as <-.
      assert (FF : forall c, (c < 3)%nat -> finite64 (vdot b (tab (S q) (fun i0 => entry (net_row nv P i) c (t - Z.of_nat q + i0))))).
      { intros c Hc; apply (Fi M); [exact HM|]; intros j Hj; destruct Fo as (_ & _ & _ & Ht & _).
        rewrite row_entry by lia; apply entry_within; [exact Hc|]; unfold len; rewrite HL, Nat2Z.inj_mul; nia. }
      cbn [map]; repeat (apply Forall_cons; [apply FF; lia|]); apply Forall_nil. }
    split; intros A; [apply (G _ 0%nat); auto|apply (G _ (nu - 1)%nat); auto; lia].
  - intros x Fx Bx Tx; destruct (found_weights p _ U x WU CU Hp U0 U1 GU Fx Bx Tx) as (s & b & Fo & Fi).
    assert (G : forall y j, picks q (Z.of_nat nv) V y (Z.of_nat j) -> (j < nv)%nat -> exists z w, surf_point S64 x y = Ok z /\
       single_point (mkCurve (K := Binary64) (Some (Z.of_nat p)) (Some (net_col nu nv P j)) (Some U) d) x = Ok w /\ equal64 z w).
    { intros y j Py Hj; destruct (col_edge p q nu nv U V P d HL HF x y j s b Py Hj Fo) as (z & w & Ez & Ew & H & Fw).
      - intros c k Hc Hk; apply (Fi M); [exact HM|]; intros i Hi; destruct Fo as (_ & _ & _ & Hs & _).
        apply entry_within; [exact Hc|]; unfold len; rewrite HL, Nat2Z.inj_mul; nia.
      - exists z, w; split; [exact Ez|]; split; [exact Ew|apply same_equal; assumption]. }
    split; intros A; [apply (G _ 0%nat); auto|apply (G _ (nv - 1)%nat); auto; lia].
Qed.
End Bounded.
End User.
