(** Infinities and NaN in the two arithmetics of the model (model: Num.v). *)
From Coq Require Import Floats Reals Lra Lia.
From Flocq Require Import Core.
From Verif Require Import Py Num ModelKnots SpecB64 SpecSpecial ProofNum ProofB64 ProofB64Span.
Open Scope R_scope.

Lemma pow2_pos e : 0 < powerRZ 2 e. Proof. apply powerRZ_lt; lra. Qed.
Lemma pos_value (s : bool) m e : let v := (if s then - IZR (Z.pos m) else IZR (Z.pos m)) * powerRZ 2 e in if s then v < 0 else 0 < v.
Proof.
  cbv zeta; pose proof (pow2_pos e); assert (0 < IZR (Z.pos m)) by (apply IZR_lt; lia).
  destruct s; [rewrite <- (Rmult_0_l (powerRZ 2 e))|]; [apply Rmult_lt_compat_r; lra|apply Rmult_lt_0_compat; lra].
Qed.
Ltac sign_case := repeat match goal with
  | |- context [Rlt_dec ?a ?b] => destruct (Rlt_dec a b); try lra
  | |- context [Req_EM_T ?a ?b] => destruct (Req_EM_T a b); try lra
  end.
Lemma image_fin x : finite64 x -> image x = Fin (value x).
Proof. unfold finite64, image; destruct (FloatOps.Prim2SF x); tauto. Qed.
Lemma image_compare x y : PrimFloat.ltb x y = xltb (image x) (image y) /\ PrimFloat.leb x y = xleb (image x) (image y) /\ PrimFloat.eqb x y = xeqb (image x) (image y).
Proof.
  destruct (match FloatOps.Prim2SF x with S754_zero _ | S754_finite _ _ _ => true | _ => false end) eqn:Fx;
  destruct (match FloatOps.Prim2SF y with S754_zero _ | S754_finite _ _ _ => true | _ => false end) eqn:Fy.
  - assert (Gx : finite64 x) by (unfold finite64; destruct (FloatOps.Prim2SF x); easy); assert (Gy : finite64 y) by (unfold finite64; destruct (FloatOps.Prim2SF y); easy).
    rewrite ltb64, leb64, eqb64, !image_fin by assumption; cbn [xltb xleb xeqb]; unfold Rltb, Rleb, Reqb.
    split; [|split].
    + destruct (Rlt_dec _ _); [apply Rlt_bool_true|apply Rlt_bool_false]; lra.
    + destruct (Rle_dec _ _); [apply Rle_bool_true|apply Rle_bool_false]; lra.
    + destruct (Req_EM_T _ _); [apply Req_bool_true|apply Req_bool_false]; lra.
  - rewrite FloatAxioms.ltb_spec, FloatAxioms.leb_spec, FloatAxioms.eqb_spec; unfold image, SFltb, SFleb, SFeqb, SFcompare.
    destruct (FloatOps.Prim2SF x) as [s|[]| |[] m e], (FloatOps.Prim2SF y) as [s'|[]| |[] m' e']; try discriminate; repeat split; reflexivity.
  - rewrite FloatAxioms.ltb_spec, FloatAxioms.leb_spec, FloatAxioms.eqb_spec; unfold image, SFltb, SFleb, SFeqb, SFcompare.
    destruct (FloatOps.Prim2SF x) as [s|[]| |[] m e], (FloatOps.Prim2SF y) as [s'|[]| |[] m' e']; try discriminate; repeat split; reflexivity.
  - rewrite FloatAxioms.ltb_spec, FloatAxioms.leb_spec, FloatAxioms.eqb_spec; unfold image, SFltb, SFleb, SFeqb, SFcompare.
    destruct (FloatOps.Prim2SF x) as [s|[]| |[] m e], (FloatOps.Prim2SF y) as [s'|[]| |[] m' e']; try discriminate; repeat split; reflexivity.
Qed.
Lemma image_special x y : ~ finite64 x \/ ~ finite64 y ->
  image (x + y)%float = xadd (image x) (image y) /\ image (x - y)%float = xsub (image x) (image y) /\ image (x * y)%float = xmul (image x) (image y) /\
  (~ negative_zero y -> image (x / y)%float = xdiv (image x) (image y)).
Proof.
  unfold finite64, negative_zero, image; intros H; rewrite FloatAxioms.add_spec, FloatAxioms.sub_spec, FloatAxioms.mul_spec, FloatAxioms.div_spec; unfold value.
  rewrite ?FloatAxioms.add_spec, ?FloatAxioms.sub_spec, ?FloatAxioms.mul_spec, ?FloatAxioms.div_spec.
  destruct (FloatOps.Prim2SF x) as [s|s| |s m e], (FloatOps.Prim2SF y) as [s'|s'| |s' m' e']; try (exfalso; tauto);
    try pose proof (pos_value s m e) as B; try pose proof (pos_value s' m' e') as B'; cbv zeta in *;
    (split; [|split; [|split; [|intros NZ]]]); try (exfalso; clear -NZ; destruct s'; [apply NZ; reflexivity|tauto]);
    try (destruct s); try (destruct s'); cbn; unfold xinf_mul; sign_case; try reflexivity; exfalso; apply NZ; reflexivity.
Qed.
Lemma image_zero_division x y : FloatOps.Prim2SF y = S754_zero false -> image (x / y)%float = xdiv (image x) (image y).
Proof.
  unfold image; intros Ey; rewrite Ey; rewrite FloatAxioms.div_spec, Ey; unfold value; rewrite ?FloatAxioms.div_spec, Ey.
  destruct (FloatOps.Prim2SF x) as [s|s| |s m e]; try pose proof (pos_value s m e) as B; cbv zeta in *; try destruct s; cbn; sign_case; reflexivity.
Qed.
Lemma image_unary x : image (- x)%float = xopp (image x) /\ image (PrimFloat.abs x) = xabs (image x) /\
  (~ (finite64 x /\ 0 <= value x) -> image (PrimFloat.sqrt x) = xsqrt (image x)).
Proof.
  unfold finite64, image, value; rewrite FloatAxioms.opp_spec, FloatAxioms.abs_spec, FloatAxioms.sqrt_spec.
  destruct (FloatOps.Prim2SF x) as [s|s| |s m e]; try pose proof (pos_value s m e) as B; cbv zeta in *; (split; [|split; [|intros H]]); try destruct s; cbn in *; try reflexivity; try (exfalso; lra).
  all: try (f_equal; ring). all: try (rewrite ?Rabs_R0; f_equal; ring).
  - rewrite Rabs_left by exact B; f_equal; ring.
  - rewrite Rabs_right by lra; reflexivity.
  - sign_case; reflexivity.
Qed.
Lemma Rfloor_is r z : IZR z <= r < IZR z + 1 -> Rfloor r = z.
Proof. intros H; unfold Rfloor; rewrite <- (tech_up r (z + 1)); [lia|rewrite plus_IZR; lra|rewrite plus_IZR; lra]. Qed.
Lemma Rfloor_parts m e : Rfloor (IZR m * powerRZ 2 e) = (if 0 <=? e then m * 2 ^ e else m / 2 ^ (- e))%Z.
Proof.
  destruct (Z.leb_spec 0 e) as [H|H].
  - assert (E : powerRZ 2 e = IZR (2 ^ e)) by (rewrite <- (Z2Nat.id e H), <- pow_powerRZ; apply pow_IZR); rewrite E, <- mult_IZR; apply Rfloor_is; lra.
  - set (d := (2 ^ (- e))%Z); assert (Hd : (0 < d)%Z) by (apply Z.pow_pos_nonneg; lia).
    assert (E : powerRZ 2 e = / IZR d).
    { replace e with (- (- e))%Z by lia; rewrite powerRZ_neg' by lra; f_equal; unfold d.
      rewrite <- (Z2Nat.id (- e)) by lia; rewrite <- pow_powerRZ; apply pow_IZR. }
    rewrite E; assert (P : 0 < IZR d) by (apply IZR_lt; exact Hd).
    pose proof (Z.div_mod m d ltac:(lia)) as DM; pose proof (Z.mod_pos_bound m d Hd) as B.
    apply Rfloor_is; assert (EM : IZR m = IZR d * IZR (m / d) + IZR (m mod d)) by (rewrite <- mult_IZR, <- plus_IZR; f_equal; exact DM).
    assert (B0 : 0 <= IZR (m mod d)) by (apply IZR_le; lia); assert (B1 : IZR (m mod d) < IZR d) by (apply IZR_lt; lia).
    assert (EQ : IZR m * / IZR d = IZR (m / d) + IZR (m mod d) * / IZR d) by (rewrite EM; field; lra); rewrite EQ.
    pose proof (Rinv_0_lt_compat _ P) as I; split; [pose proof (Rmult_le_pos _ _ B0 (Rlt_le _ _ I)); lra|].
    pose proof (Rmult_lt_compat_r _ _ _ I B1) as L; rewrite Rinv_r in L by lra; lra.
Qed.
Lemma Rfloor_0 : Rfloor 0 = 0%Z. Proof. apply Rfloor_is; lra. Qed.
Lemma image_integers x : b64_trunc x = xtrunc (image x) /\ b64_ceil x = xceil (image x).
Proof.
  unfold b64_trunc, b64_ceil, b64_parts, image, value; destruct (FloatOps.Prim2SF x) as [s|[]| |s m e]; try (split; reflexivity).
  - cbn [xtrunc xceil]; rewrite Ropp_0, Rfloor_0; destruct (Rlt_dec 0 0); [lra|]; destruct s; split; reflexivity.
  - pose proof (pos_value s m e) as B; cbv zeta in B; cbn [xtrunc xceil].
    destruct s.
    + rewrite <- opp_IZR in *; rewrite Ropp_mult_distr_l, <- opp_IZR, !Rfloor_parts, Z.opp_involutive; destruct (Rlt_dec _ _) as [_|N]; [|lra]; split; [reflexivity|].
      destruct (0 <=? e)%Z; [f_equal; lia|reflexivity].
    + destruct (Rlt_dec _ _) as [N|_]; [lra|]; rewrite Ropp_mult_distr_l, <- opp_IZR, !Rfloor_parts; split; [reflexivity|]; destruct (0 <=? e)%Z; [f_equal; lia|reflexivity].
Qed.
Lemma image_finite x : b64_finite x = xfinite (image x).
Proof.
  unfold b64_finite; destruct (match FloatOps.Prim2SF x with S754_zero _ | S754_finite _ _ _ => true | _ => false end) eqn:Fx.
  - assert (F : finite64 x) by (unfold finite64; destruct (FloatOps.Prim2SF x); easy).
    rewrite (image_fin x F); cbn [xfinite].
    assert (S : Rabs (rnd (value x - value x)) < bpow radix2 1024) by (rewrite Rminus_diag_eq, rnd_0, Rabs_R0 by reflexivity; apply bpow_gt_0).
    destruct (sub64 x x F F S) as [FS VS]; rewrite eqb64; [|exact FS|exact I].
    rewrite VS, Rminus_diag_eq, rnd_0 by reflexivity; apply Req_bool_true; cbn; ring.
  - rewrite FloatAxioms.eqb_spec, FloatAxioms.sub_spec; unfold image; destruct (FloatOps.Prim2SF x) as [s|[]| |[] m e]; try discriminate; reflexivity.
Qed.
Lemma image_nan x : is_nan (K := Binary64) x = is_nan (K := Exact) (image x).
Proof. unfold is_nan; f_equal; exact (proj2 (proj2 (image_compare x x))). Qed.
Lemma image_max_fold (l : list PrimFloat.float) : forall m : PrimFloat.float,
  image (fold_left (fun m y : Binary64 => if is_nan m then m else if is_nan y then y else if (m <? y)%num then y else m) l m) =
  fold_left (fun m y : Exact => if is_nan m then m else if is_nan y then y else if (m <? y)%num then y else m) (List.map image l) (image m).
Proof.
  induction l as [|y l IH]; intros m; [reflexivity|]; cbn [fold_left List.map]; rewrite IH; f_equal.
  rewrite <- !image_nan; destruct (is_nan (m : Binary64)); [reflexivity|]; destruct (is_nan (y : Binary64)); [reflexivity|].
  pose proof (proj1 (image_compare m y)) as C; change ((m : Binary64) <? y)%num with (PrimFloat.ltb m y); change ((image m : Exact) <? image y)%num with (xltb (image m) (image y)).
  rewrite C; destruct (xltb _ _); reflexivity.
Qed.
Lemma image_min_fold (l : list PrimFloat.float) : forall m : PrimFloat.float,
  image (fold_left (fun m y : Binary64 => if is_nan m then m else if is_nan y then y else if (y <? m)%num then y else m) l m) =
  fold_left (fun m y : Exact => if is_nan m then m else if is_nan y then y else if (y <? m)%num then y else m) (List.map image l) (image m).
Proof.
  induction l as [|y l IH]; intros m; [reflexivity|]; cbn [fold_left List.map]; rewrite IH; f_equal.
  rewrite <- !image_nan; destruct (is_nan (m : Binary64)); [reflexivity|]; destruct (is_nan (y : Binary64)); [reflexivity|].
  pose proof (proj1 (image_compare y m)) as C; change ((y : Binary64) <? m)%num with (PrimFloat.ltb y m); change ((image y : Exact) <? image m)%num with (xltb (image y) (image m)).
  rewrite C; destruct (xltb _ _); reflexivity.
Qed.
Lemma image_extremes (l : list PrimFloat.float) :
  np_max (K := Exact) (List.map image l) = (let* m := np_max (K := Binary64) l in Ok (image m)) /\
  np_min (K := Exact) (List.map image l) = (let* m := np_min (K := Binary64) l in Ok (image m)).
Proof. destruct l as [|x l]; [split; reflexivity|]; cbn [np_max np_min List.map bind]; split; f_equal; symmetry; [apply image_max_fold|apply image_min_fold]. Qed.
Lemma image_ofZ n : (Z.abs n < 2 ^ 53)%Z -> image (b64_ofZ n) = Fin (IZR n).
Proof. intros H; destruct (ofZ64 n H) as [F V]; cbn [ofZ Binary64] in F, V; rewrite (image_fin _ F), V; reflexivity. Qed.
Lemma image_validate x : validate_knot (K := Binary64) x = validate_knot (K := Exact) (image x).
Proof.
  unfold validate_knot; pose proof (proj1 (proj2 (image_compare (b64_ofZ 0) x))) as A; pose proof (proj1 (proj2 (image_compare x (b64_ofZ 1)))) as B.
  rewrite !image_ofZ in * by lia; f_equal; [exact A|exact B].
Qed.
