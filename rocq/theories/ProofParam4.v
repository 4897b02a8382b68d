(** Surface inversion: flat patches, outdated derivatives, degree 1, sorting. *)
From Coq Require Import Permutation Sorted.
From Verif Require Import Py PyLemmas Num ModelKnots ModelBasis ModelCurve ModelSurface ModelParam Spec SpecParam ProofNum ProofSpan ProofBasis ProofCurve ProofCurve2 ProofInit ProofParam ProofParam2 ProofParam3.
Open Scope R_scope.

(** ** Inverse of a 2 x 2 matrix *)
Lemma ok4 a b c d a' b' c' d' : a = a' -> b = b' -> c = c' -> d = d' ->
  Ok (Fin a : Exact, Fin b : Exact, Fin c : Exact, Fin d : Exact) = Ok (Fin a' : Exact, Fin b' : Exact, Fin c' : Exact, Fin d' : Exact).
Proof. congruence. Qed.
Lemma E_inv2 a b c d : a * d - b * c <> 0 ->
  inv2 (Fin a : Exact) (Fin b : Exact) (Fin c : Exact) (Fin d : Exact) =
  Ok (Fin (d / (a * d - b * c)) : Exact, Fin (- b / (a * d - b * c)) : Exact, Fin (- c / (a * d - b * c)) : Exact, Fin (a / (a * d - b * c)) : Exact).
Proof.
  intros HD; unfold inv2.
  rewrite !E_abs, E_ltb.
  destruct (Rltb (Rabs a) (Rabs c)) eqn:EL; cbv beta iota zeta.
  - apply Rltb_true in EL.
    assert (Hc : c <> 0) by (intros ->; rewrite Rabs_R0 in EL; pose proof (Rabs_pos a); lra).
    rewrite !E_ofZ, E_eqb, (proj2 (Reqb_false c 0) Hc).
    rewrite !(E_div _ c) by exact Hc; rewrite !E_mul, !E_sub, E_eqb.
    assert (Ht : b - a / c * d <> 0).
    { intros E; apply HD; replace (a * d - b * c) with (- (b - a / c * d) * c) by (field; exact Hc); rewrite E; ring. }
    rewrite (proj2 (Reqb_false _ 0) Ht).
    rewrite !(E_div _ (b - a / c * d)) by exact Ht; rewrite !E_mul, !E_sub, !E_div by exact Hc.
    assert (Ht' : b * c - a * d <> 0) by lra.
    apply ok4; field; repeat split; try assumption; lra.
  - apply Rltb_false in EL.
    assert (Ha : a <> 0).
    { intros ->; rewrite Rabs_R0 in EL; apply HD; replace c with 0; [ring|].
      destruct (Req_dec c 0) as [->|Hc]; [reflexivity|]; apply Rabs_pos_lt in Hc; lra. }
    rewrite !E_ofZ, E_eqb, (proj2 (Reqb_false a 0) Ha).
    rewrite !(E_div _ a) by exact Ha; rewrite !E_mul, !E_sub, E_eqb.
    assert (Ht : d - c / a * b <> 0).
    { intros E; apply HD; replace (a * d - b * c) with ((d - c / a * b) * a) by (field; exact Ha); rewrite E; ring. }
    rewrite (proj2 (Reqb_false _ 0) Ht).
    rewrite !(E_div _ (d - c / a * b)) by exact Ht; rewrite !E_mul, !E_sub, !E_div by exact Ha.
    apply ok4; field; repeat split; try assumption; lra.
Qed.
Lemma E_inv2_singular a b c d : a * d - b * c = 0 ->
  inv2 (Fin a : Exact) (Fin b : Exact) (Fin c : Exact) (Fin d : Exact) = Err LinAlgError.
Proof.
  intros HD; unfold inv2.
  rewrite !E_abs, E_ltb.
  destruct (Rltb (Rabs a) (Rabs c)) eqn:EL; cbv beta iota zeta.
  - apply Rltb_true in EL.
    assert (Hc : c <> 0) by (intros ->; rewrite Rabs_R0 in EL; pose proof (Rabs_pos a); lra).
    rewrite !E_ofZ, E_eqb, (proj2 (Reqb_false c 0) Hc).
    rewrite !(E_div _ c) by exact Hc; rewrite !E_mul, !E_sub, E_eqb.
    replace (b - a / c * d) with (- (a * d - b * c) / c) by (field; exact Hc); rewrite HD.
    replace (- 0 / c) with 0 by (field; exact Hc); rewrite (proj2 (Reqb_true 0 0) eq_refl); reflexivity.
  - apply Rltb_false in EL; rewrite !E_ofZ, E_eqb.
    destruct (Reqb a 0) eqn:E0; [reflexivity|]; apply Reqb_false in E0.
    rewrite !(E_div _ a) by exact E0; rewrite !E_mul, !E_sub, E_eqb.
    replace (d - c / a * b) with ((a * d - b * c) / a) by (field; exact E0); rewrite HD.
    replace (0 / a) with 0 by (field; exact E0); rewrite (proj2 (Reqb_true 0 0) eq_refl); reflexivity.
Qed.

(** ** Flat patches *)
Section Patch.
Variables (s : surf_beh Exact) (O A B P : list R).
Hypotheses (HS : acts_as_patch s O A B) (LO : length O = 3%nat) (LA : length A = 3%nat) (LB : length B = 3%nat) (LP : length P = 3%nat).
Variables (e1 e2 : R).
Hypotheses (He1 : 0 <= e1) (He2 : 0 <= e2).

Lemma patch_rows u v : 0 <= u <= 1 -> 0 <= v <= 1 ->
  get_surf_rows s (Fin u : Exact) (Fin v : Exact) = Ok (mkRows (fin A) (fin B) (fin [0; 0; 0]) (fin [0; 0; 0]) (fin [0; 0; 0])).
Proof.
  intros Hu Hv; destruct (HS u v Hu Hv) as (_ & r5 & rest & E); unfold get_surf_rows; rewrite E; cbn [bind].
  match goal with |- context [fin2 ?l0] => set (l := l0) end.
  assert (LE : (7 <= zlen (fin2 l : list (list Exact)))%Z) by (rewrite zlen_fin2; unfold l, len; rewrite app_length; cbn [length]; lia).
  rewrite !(aget_nth _ _ ([] : list Exact)) by lia; reflexivity.
Qed.
Lemma patch_res u v : 0 <= u <= 1 -> 0 <= v <= 1 ->
  surf_res s (fin P) (Fin u : Exact) (Fin v : Exact) = Ok (fin (subR (patch O A B u v) P)).
Proof.
  intros Hu Hv; destruct (HS u v Hu Hv) as (E & _); unfold surf_res; rewrite E; cbn [bind].
  apply E_np_sub; rewrite LP; reflexivity.
Qed.
Lemma patch_res_len u v : length (subR (patch O A B u v) P) = 3%nat.
Proof. rewrite subR_length by (rewrite LP; reflexivity); reflexivity. Qed.

Variables (tu tv : R).
Hypotheses (Htu : 0 <= tu <= 1) (Htv : 0 <= tv <= 1)
  (HA : dotR A (subR (patch O A B tu tv) P) = 0) (HB : dotR B (subR (patch O A B tu tv) P) = 0)
  (HD : 0 < dotR A A * dotR B B - dotR A B * dotR A B).
Lemma patch_newton u v : 0 <= u <= 1 -> 0 <= v <= 1 ->
  surf_newton s (fin P) (Fin u : Exact) (Fin v : Exact) (mkRows (fin A) (fin B) (fin [0; 0; 0]) (fin [0; 0; 0]) (fin [0; 0; 0])) =
  Ok (Fin tu : Exact, Fin tv : Exact).
Proof.
  intros Hu Hv; unfold surf_newton; rewrite (patch_res u v Hu Hv); cbn [bind sr_u sr_v sr_uu sr_vv sr_uv].
  pose proof (patch_res_len u v) as LR.
  rewrite !E_dot by (rewrite ?LR, ?LA, ?LB; reflexivity); cbn [bind]; cbv zeta.
  rewrite !E_vnorm, !E_mul, !E_add.
  set (a := normR A * normR A + dotR (subR (patch O A B u v) P) [0; 0; 0]).
  set (b := dotR A B + dotR (subR (patch O A B u v) P) [0; 0; 0]).
  set (d := normR B * normR B + dotR (subR (patch O A B u v) P) [0; 0; 0]).
  assert (Ea : a = dotR A A).
  { unfold a, normR; rewrite sqrt_sqrt by apply dotR_self_nonneg.
    destruct P as [|p0 [|p1 [|p2 [|]]]]; try discriminate LP; unfold dotR, subR, patch; cbn; ring. }
  assert (Ed : d = dotR B B).
  { unfold d, normR; rewrite sqrt_sqrt by apply dotR_self_nonneg.
    destruct P as [|p0 [|p1 [|p2 [|]]]]; try discriminate LP; unfold dotR, subR, patch; cbn; ring. }
  assert (Eb : b = dotR A B).
  { unfold b; destruct P as [|p0 [|p1 [|p2 [|]]]]; try discriminate LP; unfold dotR, subR, patch; cbn; ring. }
  rewrite Ea, Eb, Ed.
  assert (HD' : dotR A A * dotR B B - dotR A B * dotR A B <> 0) by lra.
  rewrite E_inv2 by exact HD'; cbn [bind].
  rewrite !E_ofZ, !E_opp, !E_mul, !E_add.
  assert (X1 : dotR (subR (patch O A B u v) P) A = (u - tu) * dotR A A + (v - tv) * dotR A B).
  { transitivity ((u - tu) * dotR A A + (v - tv) * dotR A B + dotR A (subR (patch O A B tu tv) P)); [|rewrite HA; ring].
    clear - LO LA LB LP.
    destruct P as [|p0 [|p1 [|p2 [|]]]]; try discriminate LP.
    destruct A as [|a0 [|a1 [|a2 [|]]]]; try discriminate LA.
    destruct B as [|b0 [|b1 [|b2 [|]]]]; try discriminate LB.
    unfold dotR, subR, patch; cbn; ring. }
  assert (X2 : dotR (subR (patch O A B u v) P) B = (u - tu) * dotR A B + (v - tv) * dotR B B).
  { transitivity ((u - tu) * dotR A B + (v - tv) * dotR B B + dotR B (subR (patch O A B tu tv) P)); [|rewrite HB; ring].
    clear - LO LA LB LP.
    destruct P as [|p0 [|p1 [|p2 [|]]]]; try discriminate LP.
    destruct A as [|a0 [|a1 [|a2 [|]]]]; try discriminate LA.
    destruct B as [|b0 [|b1 [|b2 [|]]]]; try discriminate LB.
    unfold dotR, subR, patch; cbn; ring. }
  rewrite X1, X2.
  assert (EC : forall x y, x = y -> 0 <= y <= 1 -> clamp01 (Fin x : Exact) = Fin y).
  { intros x y -> Hy; unfold clamp01; rewrite !E_ofZ, !E_ltb.
    destruct (Rltb y 0) eqn:E0; [apply Rltb_true in E0; lra|].
    destruct (Rltb 1 y) eqn:E1; [apply Rltb_true in E1; lra|reflexivity]. }
  f_equal; f_equal; apply EC; try assumption; field; exact HD'.
Qed.
Lemma norm_pos a : 0 < dotR a a -> 0 < normR a.
Proof. intros H; apply sqrt_lt_R0; exact H. Qed.
Lemma patch_norms : 0 < normR A /\ 0 < normR B.
Proof using HD.
  clear - HD; pose proof (dotR_self_nonneg A); pose proof (dotR_self_nonneg B); pose proof (Rle_0_sqr (dotR A B)) as Hs; unfold Rsqr in Hs.
  split; apply norm_pos.
  - destruct (Req_dec (dotR A A) 0) as [E|]; [|lra]; rewrite E in HD; lra.
  - destruct (Req_dec (dotR B B) 0) as [E|]; [|lra]; rewrite E in HD; lra.
Qed.
Lemma patch_cos a u v : length a = 3%nat -> 0 < normR a -> 0 < normR (subR (patch O A B u v) P) ->
  surf_cos (fin a) (fin (subR (patch O A B u v) P)) =
  Ok (Fin (Rabs (dotR a (subR (patch O A B u v) P)) / (normR a * normR (subR (patch O A B u v) P))) : Exact).
Proof.
  intros La Ha Hr; unfold surf_cos; rewrite E_dot by (rewrite patch_res_len; exact La); cbn [bind].
  rewrite E_snorm, !E_vnorm, E_mul, E_div; [reflexivity|].
  apply Rgt_not_eq, Rmult_lt_0_compat; assumption.
Qed.
Lemma patch_loop f mi n u v : 0 <= u <= 1 -> 0 <= v <= 1 ->
  surf_loop (S f) s (fin P) (Fin e1 : Exact) (Fin e2 : Exact) mi n (Fin u : Exact) (Fin v : Exact)
    (mkRows (fin A) (fin B) (fin [0; 0; 0]) (fin [0; 0; 0]) (fin [0; 0; 0])) = Ok (Fin tu : Exact, Fin tv : Exact).
Proof.
  intros Hu Hv; cbn [surf_loop]; rewrite (patch_newton u v Hu Hv); cbn [bind sr_u sr_v].
  rewrite !E_sub.
  assert (V : forall x l, vscale (Fin x : Exact) (fin l) = fin (map (Rmult x) l)).
  { intros x l; unfold vscale, fin; rewrite !map_map; apply map_ext; intros; apply E_mul. }
  rewrite !V; rewrite (E_np_bin _ Rplus) by (try (intros; apply E_add); rewrite !map_length, LA, LB; reflexivity); cbn [bind].
  match goal with |- (if ?b then _ else _) = _ => destruct b; [reflexivity|] end.
  rewrite (patch_rows u v Hu Hv); cbn [bind sr_u sr_v]; rewrite (patch_res tu tv Htu Htv); cbn [bind].
  rewrite E_vnorm, E_leb.
  destruct (Rleb _ e1) eqn:EL; [reflexivity|]; apply Rleb_false in EL.
  destruct patch_norms as [NA NB].
  rewrite !patch_cos by (try assumption; lra); cbn [bind].
  rewrite HA, HB, Rabs_R0.
  replace (0 / (normR A * normR (subR (patch O A B tu tv) P))) with 0 by (unfold Rdiv; ring).
  replace (0 / (normR B * normR (subR (patch O A B tu tv) P))) with 0 by (unfold Rdiv; ring).
  rewrite E_leb, (proj2 (Rleb_true 0 e2) He2); reflexivity.
Qed.
Lemma patch_inversion mi : (1 <= sb_nu s)%Z -> (1 <= sb_nv s)%Z ->
  exists u v, 0 <= u <= 1 /\ 0 <= v <= 1 /\
    surface_inversion s (fin P) (Fin e1 : Exact) (Fin e2 : Exact) mi = Ok (Fin u : Exact, Fin v : Exact) /\
    ((u = tu /\ v = tv) \/
     (initial_guess_surf s (fin P) = Ok (Fin u : Exact, Fin v : Exact) /\
      let r := subR (patch O A B u v) P in
      normR r <= e1 \/ (Rabs (dotR A r) <= e2 * (normR A * normR r) /\ Rabs (dotR B r) <= e2 * (normR B * normR r)))).
Proof.
  intros Hnu Hnv.
  destruct (initial_guess_surf_spec s P (fun i j => patch O A B (IZR i / IZR (2 * sb_nu s - 1)) (IZR j / IZR (2 * sb_nv s - 1)))
              _ _ eq_refl eq_refl Hnu Hnv) as (k & l & Hk & Hl & EG & _).
  { intros i j Hi Hj; split; [apply HS; apply samples_range; lia|rewrite LP; reflexivity]. }
  set (u := IZR k / IZR (2 * sb_nu s - 1)) in *; set (v := IZR l / IZR (2 * sb_nv s - 1)) in *.
  assert (Hu : 0 <= u <= 1) by (apply samples_range; lia); assert (Hv : 0 <= v <= 1) by (apply samples_range; lia).
  unfold surface_inversion, surface_inversion_fuel; rewrite EG; cbn [bind].
  rewrite (patch_rows u v Hu Hv); cbn [bind sr_u sr_v]; rewrite (patch_res u v Hu Hv); cbn [bind].
  rewrite E_vnorm, E_leb.
  destruct (Rleb _ e1) eqn:EL.
  { apply Rleb_true in EL; exists u, v; repeat split; try apply Hu; try apply Hv; right; split; [reflexivity|left; exact EL]. }
  apply Rleb_false in EL; destruct patch_norms as [NA NB].
  rewrite !patch_cos by (try assumption; lra); cbn [bind]; rewrite !E_leb.
  destruct (Rleb _ e2 && Rleb _ e2) eqn:EC.
  { apply andb_prop in EC; destruct EC as [C1 C2]; apply Rleb_true in C1, C2.
    exists u, v; repeat split; try apply Hu; try apply Hv; right; split; [reflexivity|right].
    assert (D : forall x n, 0 < n -> x / n <= e2 -> x <= e2 * n).
    { intros x n Hn Hx; apply (Rmult_le_compat_r n) in Hx; [|lra]; unfold Rdiv in Hx; rewrite Rmult_assoc, Rinv_l in Hx; lra. }
    split; apply D; try assumption; apply Rmult_lt_0_compat; lra. }
  exists tu, tv; split; [exact Htu|]; split; [exact Htv|]; split; [apply patch_loop; assumption|left; auto].
Qed.
End Patch.

(** ** The second step uses the derivatives of the first *)
Lemma full_rows {K : Num} nu nv pt (ders : K -> K -> res (list (list K))) u v : full_ders ders ->
  exists d, get_surf_rows (mkSBeh nu nv pt ders) u v = Ok d /\ length (sr_u d) = 3%nat /\ length (sr_v d) = 3%nat.
Proof.
  intros H; destruct (H u v) as (m & E & L & F); unfold get_surf_rows; cbn [sb_ders]; rewrite E; cbn [bind].
  rewrite !(aget_nth _ _ ([] : list K)) by (unfold zlen; lia); cbn [bind].
  eexists; split; [reflexivity|]; cbn [sr_u sr_v]; rewrite Forall_forall in F; split; apply F, nth_In; lia.
Qed.
Lemma surf_cos_len {K : Num} (a b r : list K) : length a = length b ->
  (exists x y, surf_cos a r = Ok x /\ surf_cos b r = Ok y) \/ (exists e, surf_cos a r = Err e /\ surf_cos b r = Err e).
Proof.
  intros L; unfold surf_cos, matmul11, zlen; rewrite <- L.
  destruct (_ =? _)%Z; cbn [bind]; [left; eexists; eexists; split; reflexivity|right; eexists; split; reflexivity].
Qed.
Lemma surf_two_steps (K : Num) nu nv pt (ders ders' : K -> K -> res (list (list K))) P e1 e2 u v :
  initial_guess_surf (mkSBeh nu nv pt ders) P = Ok (u, v) -> ders u v = ders' u v -> full_ders ders -> full_ders ders' ->
  surface_inversion (mkSBeh nu nv pt ders) P e1 e2 1 = surface_inversion (mkSBeh nu nv pt ders') P e1 e2 1.
Proof.
  intros EG ED HF HF'; unfold surface_inversion, surface_inversion_fuel.
  assert (EG' : initial_guess_surf (mkSBeh nu nv pt ders') P = Ok (u, v)) by (rewrite <- EG; reflexivity).
  assert (ER : get_surf_rows (mkSBeh nu nv pt ders) u v = get_surf_rows (mkSBeh nu nv pt ders') u v).
  { unfold get_surf_rows; cbn [sb_ders]; rewrite ED; reflexivity. }
  rewrite EG, EG'; cbn [bind]; rewrite ER.
  destruct (full_rows nu nv pt ders' u v HF') as (d & E & _); rewrite E in *; cbn [bind].
  change (surf_res (mkSBeh nu nv pt ders)) with (surf_res (mkSBeh nu nv pt ders')).
  destruct (surf_res _ P u v) as [r| |]; cbn [bind]; try reflexivity.
  match goal with |- (if ?b then _ else _) = _ => destruct b; [reflexivity|] end.
  destruct (surf_cos (sr_u d) r); cbn [bind]; try reflexivity.
  destruct (surf_cos (sr_v d) r); cbn [bind]; try reflexivity.
  match goal with |- (if ?b then _ else _) = _ => destruct b; [reflexivity|] end.
  change (S (Z.to_nat (1 + 1))) with 3%nat; cbn [surf_loop].
  change (surf_newton (mkSBeh nu nv pt ders)) with (surf_newton (mkSBeh nu nv pt ders')).
  destruct (surf_newton _ P u v d) as [[u1 v1]| |]; cbn [bind]; try reflexivity.
  destruct (np_bin _ _ _); cbn [bind]; try reflexivity.
  match goal with |- (if ?b then _ else _) = _ => destruct b; [reflexivity|] end.
  rewrite ER, E; cbn [bind].
  change (surf_res (mkSBeh nu nv pt ders)) with (surf_res (mkSBeh nu nv pt ders')).
  destruct (surf_res _ P u1 v1) as [r1| |]; cbn [bind]; try reflexivity.
  match goal with |- (if ?b then _ else _) = _ => destruct b; [reflexivity|] end.
  destruct (surf_cos (sr_u d) r1); cbn [bind]; try reflexivity.
  destruct (surf_cos (sr_v d) r1); cbn [bind]; try reflexivity.
  match goal with |- (if ?b then _ else _) = _ => destruct b; [reflexivity|] end.
  change (1 <=? 0)%Z with false; change (0 + 1)%Z with 1%Z; cbv beta iota.
  destruct (surf_newton _ P u1 v1 d) as [[u2 v2]| |]; cbn [bind]; try reflexivity.
  destruct (np_bin _ _ _); cbn [bind]; try reflexivity.
  match goal with |- (if ?b then _ else _) = _ => destruct b; [reflexivity|] end.
  destruct (full_rows nu nv pt ders u1 v1 HF) as (da & -> & LA1 & LA2).
  destruct (full_rows nu nv pt ders' u1 v1 HF') as (db & -> & LB1 & LB2); cbn [bind].
  destruct (surf_res _ P u2 v2) as [r2| |]; cbn [bind]; try reflexivity.
  match goal with |- (if ?b then _ else _) = _ => destruct b; [reflexivity|] end.
  destruct (surf_cos_len (sr_u da) (sr_u db) r2) as [(x & y & -> & ->)|(e & -> & ->)]; [congruence| |reflexivity].
  destruct (surf_cos_len (sr_v da) (sr_v db) r2) as [(x' & y' & -> & ->)|(e & -> & ->)]; [congruence| |reflexivity].
  cbn [bind]; change (1 <=? 1)%Z with true; cbv iota.
  repeat match goal with |- context [if ?b then _ else _] => destruct b end; reflexivity.
Qed.

(** ** Degree one *)
Lemma aset_row_len {K : Num} (m : list (list K)) i r m' : aset_row m i r = Ok m' -> length m' = length m.
Proof.
  unfold aset_row; destruct (aget m i) as [w| |]; cbn [bind]; try discriminate.
  destruct (broadcast _ _); cbn [bind]; try discriminate; intros H; apply aset_len in H; unfold zlen in H; lia.
Qed.
Lemma surf_derivatives_len {K : Num} (s : surf K) u v ou ov nrm m : surf_derivatives s u v ou ov nrm = Ok m ->
  Z.of_nat (length m) = Z.max 0 ((Z.min ou (s_pu s) + 1) * (Z.min ov (s_pv s) + 1)).
Proof.
  unfold surf_derivatives; destruct (negb _); [discriminate|]; destruct (negb _); [discriminate|]; cbv zeta.
  destruct (find_span (s_nu s) _ _ _); cbn [bind]; try discriminate.
  destruct (find_span (s_nv s) _ _ _); cbn [bind]; try discriminate.
  destruct (basis_function_ders _ u _ _ _); cbn [bind]; try discriminate.
  destruct (basis_function_ders _ v _ _ _); cbn [bind]; try discriminate.
  destruct (surf_arrays s); cbn [bind]; try discriminate.
  destruct (np_full2 _ _ _) as [d0| |] eqn:E0; cbn [bind]; try discriminate.
  match goal with |- (let* _ := ?X in _) = _ -> _ => destruct X as [st| |] eqn:E end; cbn [bind]; try discriminate.
  intros H; injection H as <-.
  assert (LE : length (snd st) = length d0).
  { refine (for_range_pres (fun st : Z * list (list K) => length (snd st) = length d0) _ _ _ _ _ _ E eq_refl).
    intros i st1 st2 E2 HS.
    refine (for_range_pres (fun st : Z * list (list K) => length (snd st) = length d0) _ _ _ _ _ _ E2 HS).
    intros j st3 st4 E3 HS3; unfold surf_deriv_entry in E3.
    destruct (acol _ i); cbn [bind] in E3; try discriminate.
    destruct (acol _ j); cbn [bind] in E3; try discriminate.
    destruct (surf_contract _ _ _ _ _ _); cbn [bind] in E3; try discriminate.
    destruct (aset_row _ _ _) as [m'| |] eqn:EA; cbn [bind] in E3; try discriminate.
    injection E3 as <-; cbn [snd]; apply aset_row_len in EA; congruence. }
  rewrite LE; revert E0; unfold np_full2.
  destruct ((_ <? 0) || _)%Z eqn:EN; [discriminate|]; intros H; injection H as <-.
  rewrite repeat_length; apply orb_false_elim in EN; destruct EN as [EN _]; apply Z.ltb_ge in EN; lia.
Qed.
Lemma surf_degree_one (K : Num) (s : surf K) P e1 e2 mi r : (s_pu s = 1 \/ s_pv s = 1)%Z ->
  surface_inversion (beh_of_surf s) P e1 e2 mi <> Ok r.
Proof.
  intros Hd; unfold surface_inversion, surface_inversion_fuel.
  destruct (initial_guess_surf _ P) as [[u v]| |]; cbn [bind]; try discriminate.
  unfold get_surf_rows; cbn [beh_of_surf sb_ders].
  destruct (surf_derivatives s u v 2 2 false) as [m| |] eqn:E; cbn [bind]; try discriminate.
  apply surf_derivatives_len in E.
  assert (L : (Z.of_nat (length m) <= 6)%Z) by (destruct Hd as [Hd | Hd]; rewrite Hd in E; change (Z.min 2 1) with 1%Z in E; lia).
  destruct (aget m 3); cbn [bind]; try discriminate.
  destruct (aget m 1); cbn [bind]; try discriminate.
  rewrite (aget_out m 6) by (unfold zlen; lia); discriminate.
Qed.

(** ** parameterize_surface *)
Lemma parameterize_surface_perm (K : Num) (s : surf_beh K) rows out : Forall (fun r => length r = 3%nat) rows ->
  parameterize_surface s (mkData 3 rows) = Ok out ->
  exists uvs, Forall2 (fun r uv => surface_inversion s r lit_1em5 lit_1em5 100 = Ok uv) rows uvs /\
    Permutation out (map (fun t => fst t ++ [fst (snd t); snd (snd t)]) (combine rows uvs)).
Proof.
  intros HF; unfold parameterize_surface; cbn [dt_rows dt_cols].
  destruct (mapM _ rows) as [us| |] eqn:E; cbn [bind]; try discriminate.
  apply mapM_spec in E; change (3 + 2)%Z with (Z.of_nat 5); change 5%Z with (Z.of_nat 5).
  rewrite sort_view_rows; [|lia|].
  - intros H; injection H as <-; exists us; split; [exact E|apply rec_sort_perm].
  - rewrite Forall_forall in *; intros r Hr; apply in_map_iff in Hr; destruct Hr as ([a b] & <- & Hab).
    apply in_combine_l in Hab; cbn [fst snd]; rewrite app_length, (HF a Hab); reflexivity.
Qed.
Lemma parameterize_surface_bad (K : Num) (s : surf_beh K) d out : ((dt_cols d + 2) mod 5 <> 0)%Z -> parameterize_surface s d <> Ok out.
Proof.
  intros H; unfold parameterize_surface; destruct (mapM _ _); cbn [bind]; try discriminate.
  rewrite sort_view_bad by exact H; discriminate.
Qed.
Definition fin_pair (t : R * R) : Exact * Exact := (Fin (fst t) : Exact, Fin (snd t) : Exact).
Lemma zip_fin2 rows (us : list (R * R)) :
  map (fun t => fst t ++ [fst (snd t); snd (snd t)]) (combine (fin2 rows) (map fin_pair us)) =
  fin2 (map (fun t => fst t ++ [fst (snd t); snd (snd t)]) (combine rows us)).
Proof.
  revert us; induction rows as [|r rows IH]; intros [|u us]; try reflexivity.
  cbn [fin2 map combine fst snd]; fold (fin2 rows).
  cbn [map]; rewrite IH; cbn [fst snd]; f_equal; unfold fin; rewrite map_app; reflexivity.
Qed.
Lemma parameterize_surface_sorted (s : surf_beh Exact) rows out : Forall (fun r => length r = 3%nat) rows ->
  (forall u v q, sb_point s u v = Ok q -> unit_fin u /\ unit_fin v) ->
  (forall u v m, sb_ders s u v = Ok m -> Forall (fun r => length r = 3%nat) m) ->
  parameterize_surface s (mkData 3 (fin2 rows)) = Ok out ->
  exists uvs sorted,
    Forall2 (fun r uv => surface_inversion s (fin r) lit_1em5 lit_1em5 100 = Ok (Fin (fst uv) : Exact, Fin (snd uv) : Exact) /\
                         0 <= fst uv <= 1 /\ 0 <= snd uv <= 1) rows uvs /\
    out = fin2 sorted /\ Permutation sorted (map (fun t => fst t ++ [fst (snd t); snd (snd t)]) (combine rows uvs)) /\
    StronglySorted (lex_le [3%nat; 4%nat; 0%nat; 1%nat; 2%nat]) sorted.
Proof.
  intros HF HP HD; unfold parameterize_surface; cbn [dt_rows dt_cols].
  destruct (mapM _ (fin2 rows)) as [us| |] eqn:E; cbn [bind]; try discriminate.
  apply mapM_spec in E; change (3 + 2)%Z with (Z.of_nat 5); change 5%Z with (Z.of_nat 5).
  assert (EU : exists us', us = map fin_pair us' /\
    Forall2 (fun r uv => surface_inversion s (fin r) lit_1em5 lit_1em5 100 = Ok (Fin (fst uv) : Exact, Fin (snd uv) : Exact) /\
                         0 <= fst uv <= 1 /\ 0 <= snd uv <= 1) rows us').
  { clear HF; revert us E; induction rows as [|r rows IH]; intros us E; inversion E as [|? x ? us2 E1 E2]; subst.
    - exists []; split; [reflexivity|constructor].
    - destruct (IH _ E2) as (us' & -> & H); destruct x as [x y].
      destruct (surf_result_range _ _ _ _ _ _ _ HP HD E1) as ((ux & -> & Hx) & (uy & -> & Hy)).
      exists ((ux, uy) :: us'); split; [reflexivity|constructor; [split; [exact E1|split; assumption]|exact H]]. }
  destruct EU as (us' & -> & HU); rewrite zip_fin2, sort_view_rows; [|lia|].
  - rewrite rec_sort_fin; intros H; injection H as <-.
    eexists us', (lex_sort [3%nat; 4%nat; 0%nat; 1%nat; 2%nat] _).
    split; [exact HU|]; split; [reflexivity|]; split; [apply lex_sort_perm|apply lex_sort_sorted].
  - rewrite Forall_forall in *; intros r Hr; unfold fin2 in Hr; rewrite in_map_iff in Hr; destruct Hr as (r' & <- & Hr).
    apply in_map_iff in Hr; destruct Hr as ([a b] & <- & Hab).
    apply in_combine_l in Hab; unfold fin; rewrite map_length; cbn [fst snd]; rewrite app_length, (HF a Hab); reflexivity.
Qed.

(** ** What is known about a returned parameter *)
Ltac dif := match goal with |- (if ?b then _ else _) = _ -> _ => destruct b eqn:? end.
Lemma curve_exit (K : Num) (c : curve_beh K) P e1 e2 mi u : (0 <= mi)%Z -> curve_inversion c P e1 e2 mi = Ok u ->
  (initial_guess_curve c P = Ok u /\ curve_accepts c P e1 e2 u) \/
  (exists pt d1 d2 u', curve_rows c u = Ok (pt, d1, d2) /\ curve_newton u pt d1 d2 P = Ok u' /\
     ((vnorm (map (fun i => (i * (u' - u))%num) d1) <=? e1)%num = true \/ curve_accepts c P e1 e2 u')) \/
  curve_inversion_fuel (Z.to_nat (mi + 1)) c P e1 e2 mi = Diverge.
Proof.
  intros Hm; unfold curve_inversion, curve_inversion_fuel.
  destruct (initial_guess_curve c P) as [u0| |] eqn:EG; cbn [bind]; try discriminate.
  destruct (curve_rows c u0) as [[[pt d1] d2]| |] eqn:ER; cbn [bind]; try discriminate.
  destruct (curve_dist c P u0) as [x| |] eqn:ED; cbn [bind]; try discriminate.
  dif; [intros H; injection H as <-; left; split; [reflexivity|left; eauto]|].
  destruct (curve_cos pt d1 P) as [y| |] eqn:EC; cbn [bind]; try discriminate.
  dif; [intros H; injection H as <-; left; split; [reflexivity|right; exists pt, d1, d2, y; auto]|].
  intros H; right.
  assert (G : forall f g j ui pt d1 d2, curve_rows c ui = Ok (pt, d1, d2) -> (Z.of_nat f = mi + 2 - j)%Z ->
     Z.of_nat g = (mi + 1 - j)%Z ->
     curve_loop f c P e1 e2 mi j ui pt d1 d2 = Ok u ->
     (exists pt d1 d2 u', curve_rows c u = Ok (pt, d1, d2) /\ curve_newton u pt d1 d2 P = Ok u' /\
        ((vnorm (map (fun i => (i * (u' - u))%num) d1) <=? e1)%num = true \/ curve_accepts c P e1 e2 u')) \/
     curve_loop g c P e1 e2 mi j ui pt d1 d2 = Diverge).
  { clear - Hm; induction f as [|f IH]; intros g j ui pt d1 d2 ER Hf Hg; cbn [curve_loop]; [discriminate|].
    destruct (curve_newton ui pt d1 d2 P) as [u'| |] eqn:EN; cbn [bind]; try discriminate.
    dif; [intros H; injection H as <-; left; exists pt, d1, d2, u'; auto|].
    destruct (curve_rows c u') as [[[pt' d1'] d2']| |] eqn:ER'; cbn [bind]; try discriminate.
    destruct (curve_dist c P u') as [x| |] eqn:ED; cbn [bind]; try discriminate.
    dif; [intros H; injection H as <-; left; exists pt, d1, d2, u'; repeat split; auto; right; left; eauto|].
    destruct (curve_cos pt' d1' P) as [y| |] eqn:EC; cbn [bind]; try discriminate.
    dif; [intros H; injection H as <-; left; exists pt, d1, d2, u'; repeat split; auto; right; right; exists pt', d1', d2', y; auto|].
    destruct (Z.ltb_spec mi j).
    { intros _; right; destruct g; [reflexivity|lia]. }
    intros H'; destruct g as [|g]; [right; reflexivity|]; cbn [curve_loop].
    rewrite EN; cbn [bind]; rewrite Heqb, ER'; cbn [bind]; rewrite ED; cbn [bind]; rewrite Heqb0, EC; cbn [bind]; rewrite Heqb1.
    destruct (Z.ltb_spec mi j); [lia|].
    apply (IH g (j + 1)%Z u' pt' d1' d2' ER'); [lia|lia|exact H']. }
  rewrite (curve_loop_fuel K c P e1 e2 mi _ (Z.to_nat (mi + 2))) in H by lia.
  destruct (G (Z.to_nat (mi + 2)) (Z.to_nat (mi + 1)) 0%Z _ _ _ _ ER ltac:(lia) ltac:(lia) H) as [G1|G1]; [left; exact G1|right].
  exact G1.
Qed.
Lemma surf_exit (K : Num) (s : surf_beh K) P e1 e2 mi u v : (0 <= mi)%Z -> surface_inversion s P e1 e2 mi = Ok (u, v) ->
  (initial_guess_surf s P = Ok (u, v) /\ surf_accepts s P e1 e2 u v u v) \/
  (exists a b d, surf_newton s P a b d = Ok (u, v) /\
     ((exists t, np_bin nadd (vscale (u - a)%num (sr_u d)) (vscale (v - b)%num (sr_v d)) = Ok t /\ (vnorm t <=? e1)%num = true) \/
      surf_accepts s P e1 e2 a b u v)) \/
  surface_inversion_fuel (Z.to_nat mi) s P e1 e2 mi = Diverge.
Proof.
  intros Hm; unfold surface_inversion, surface_inversion_fuel.
  destruct (initial_guess_surf s P) as [[u0 v0]| |] eqn:EG; cbn [bind]; try discriminate.
  destruct (get_surf_rows s u0 v0) as [d| |] eqn:ER; cbn [bind]; try discriminate.
  destruct (surf_res s P u0 v0) as [r| |] eqn:ED; cbn [bind]; try discriminate.
  dif; [intros H; injection H as <- <-; left; split; [reflexivity|exists r; auto]|].
  destruct (surf_cos (sr_u d) r) as [x| |] eqn:EC; cbn [bind]; try discriminate.
  destruct (surf_cos (sr_v d) r) as [y| |] eqn:EC'; cbn [bind]; try discriminate.
  dif.
  { intros H; injection H as <- <-; left; split; [reflexivity|exists r; split; [exact ED|right]].
    apply andb_prop in Heqb0; exists d, x, y; tauto. }
  intros H; right.
  assert (G : forall f g n ui vi d, (Z.of_nat f = mi + 1 - n)%Z -> Z.of_nat g = (mi - n)%Z ->
     surf_loop f s P e1 e2 mi n ui vi d = Ok (u, v) ->
     (exists a b d, surf_newton s P a b d = Ok (u, v) /\
       ((exists t, np_bin nadd (vscale (u - a)%num (sr_u d)) (vscale (v - b)%num (sr_v d)) = Ok t /\ (vnorm t <=? e1)%num = true) \/
        surf_accepts s P e1 e2 a b u v)) \/
     surf_loop g s P e1 e2 mi n ui vi d = Diverge).
  { clear - Hm; induction f as [|f IH]; intros g n ui vi d Hf Hg; cbn [surf_loop]; [discriminate|].
    destruct (surf_newton s P ui vi d) as [[u1 v1]| |] eqn:EN; cbn [bind]; try discriminate.
    destruct (np_bin _ _ _) as [t| |] eqn:ET; cbn [bind]; try discriminate.
    dif; [intros H; injection H as <- <-; left; exists ui, vi, d; split; [exact EN|left; eauto]|].
    destruct (get_surf_rows s ui vi) as [d'| |] eqn:ER; cbn [bind]; try discriminate.
    destruct (surf_res s P u1 v1) as [r| |] eqn:ED; cbn [bind]; try discriminate.
    dif; [intros H; injection H as <- <-; left; exists ui, vi, d; split; [exact EN|right; exists r; auto]|].
    destruct (surf_cos (sr_u d') r) as [x| |] eqn:EC; cbn [bind]; try discriminate.
    destruct (surf_cos (sr_v d') r) as [y| |] eqn:EC'; cbn [bind]; try discriminate.
    dif.
    { intros H; injection H as <- <-; left; exists ui, vi, d; split; [exact EN|right; exists r; split; [exact ED|right]].
      apply andb_prop in Heqb1; exists d', x, y; tauto. }
    destruct (Z.leb_spec mi n).
    { intros _; right; destruct g; [reflexivity|lia]. }
    intros H'; destruct g as [|g]; [right; reflexivity|]; cbn [surf_loop].
    rewrite EN; cbn [bind]; rewrite ET; cbn [bind]; rewrite Heqb, ER; cbn [bind]; rewrite ED; cbn [bind]; rewrite Heqb0, EC; cbn [bind].
    rewrite EC'; cbn [bind]; rewrite Heqb1.
    destruct (Z.leb_spec mi n); [lia|].
    apply (IH g (n + 1)%Z u1 v1 d'); [lia|lia|exact H']. }
  rewrite (surf_loop_fuel K s P e1 e2 mi _ (Z.to_nat (mi + 1))) in H by lia.
  destruct (G (Z.to_nat (mi + 1)) (Z.to_nat mi) 0%Z _ _ _ ltac:(lia) ltac:(lia) H) as [G1|G1]; [left; exact G1|right].
  exact G1.
Qed.

(** Curves of degree 1 have no second derivative row. *)
Lemma derivatives3_len {K : Num} (c : curve_obj K) p u o m : c_degree c = Some p -> derivatives3 c u o = Ok m ->
  Z.of_nat (length m) = Z.max 0 (Z.min o p + 1).
Proof.
  intros Hp; unfold derivatives3; destruct (negb _); [discriminate|]; destruct (o <=? 1)%Z; [discriminate|]; cbv zeta.
  unfold curve_fields; rewrite Hp; destruct (c_ctrl c) as [P|]; [|discriminate]; destruct (c_kv c) as [kv|]; [|discriminate]; cbn [bind].
  destruct (find_span _ _ _ _); cbn [bind]; try discriminate.
  destruct (basis_function_ders _ u _ _ _); cbn [bind]; try discriminate.
  destruct (np_full2 _ _ _) as [d0| |] eqn:E0; cbn [bind]; try discriminate.
  intros E.
  assert (LE : length m = length d0).
  { refine (for_range_pres (fun st : list (list K) => length st = length d0) _ _ _ _ _ _ E eq_refl).
    intros i st1 st2 E2 HS; unfold curve_deriv_row3 in E2.
    repeat match type of E2 with (let* _ := ?X in _) = _ => destruct X; cbn [bind] in E2; try discriminate end.
    apply aset_row_len in E2; congruence. }
  rewrite LE; revert E0; unfold np_full2.
  destruct ((_ <? 0) || _)%Z eqn:EN; [discriminate|]; intros H; injection H as <-.
  rewrite repeat_length; apply orb_false_elim in EN; destruct EN as [EN _]; apply Z.ltb_ge in EN; lia.
Qed.
Lemma curve_degree_one (K : Num) (c : curve_obj K) P e1 e2 mi u : c_degree c = Some 1%Z ->
  curve_inversion (beh_of_curve3 c) P e1 e2 mi <> Ok u.
Proof.
  intros Hd; unfold curve_inversion, curve_inversion_fuel.
  destruct (initial_guess_curve _ P) as [u0| |]; cbn [bind]; try discriminate.
  unfold curve_rows; cbn [beh_of_curve3 cb_ders].
  destruct (derivatives3 c u0 2) as [m| |] eqn:E; cbn [bind]; try discriminate.
  apply (derivatives3_len _ _ _ _ _ Hd) in E; change (Z.min 2 1) with 1%Z in E.
  destruct (aget m 0); cbn [bind]; try discriminate.
  destruct (aget m 1); cbn [bind]; try discriminate.
  rewrite (aget_out m 2) by (unfold zlen; lia); discriminate.
Qed.
