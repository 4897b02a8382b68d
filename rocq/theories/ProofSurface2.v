(** Derivatives of surfaces (model: ModelSurface.v) in exact arithmetic, and the
    surface object. *)
From Verif Require Import Py PyLemmas Num ModelKnots ModelBasis ModelCurve ModelSurface Spec MathCox MathKnots MathDeriv ProofNum ProofSpan ProofBasis ProofSpan2 ProofKnots ProofInsert2 ProofDers ProofDers2 ProofCurve ProofCurve2 ProofSurface.
Open Scope R_scope.

(** ** Rules for iterated derivatives *)
Lemma nd_ext k : forall f f' g g', (forall x, f x = f' x) -> (forall x, g x = g' x) ->
  nth_derivative k f g -> nth_derivative k f' g'.
Proof.
  induction k as [|k IH]; intros f f' g g' Hf Hg; cbn [nth_derivative].
  - intros H x; rewrite <- Hf, <- Hg; apply H.
  - intros (h & H1 & H2); exists h; split; [apply (IH f f' h h Hf (fun x => eq_refl) H1)|].
    intros x; rewrite <- Hg; apply H2.
Qed.
Lemma nd_zero k : nth_derivative k (fun _ => 0) (fun _ => 0).
Proof.
  induction k as [|k IH]; [intros x; reflexivity|].
  exists (fun _ => 0); split; [exact IH|intros x; apply derivable_pt_lim_const].
Qed.
Lemma nd_plus k : forall f1 f2 g1 g2, nth_derivative k f1 g1 -> nth_derivative k f2 g2 ->
  nth_derivative k (fun x => f1 x + f2 x) (fun x => g1 x + g2 x).
Proof.
  induction k as [|k IH]; intros f1 f2 g1 g2; cbn [nth_derivative].
  - intros H1 H2 x; rewrite H1, H2; reflexivity.
  - intros (h1 & A1 & B1) (h2 & A2 & B2); exists (fun x => h1 x + h2 x); split; [apply IH; assumption|].
    intros x; apply derivable_pt_lim_plus; [apply B1|apply B2].
Qed.
Lemma nd_scal k c : forall f g, nth_derivative k f g -> nth_derivative k (fun x => c * f x) (fun x => c * g x).
Proof.
  induction k as [|k IH]; intros f g; cbn [nth_derivative].
  - intros H x; rewrite H; reflexivity.
  - intros (h & A & B); exists (fun x => c * h x); split; [apply IH; exact A|].
    intros x; apply derivable_pt_lim_scal, B.
Qed.
Lemma nd_zsum k a n (f g : Z -> R -> R) : (forall i, nth_derivative k (f i) (g i)) ->
  nth_derivative k (fun x => zsum a n (fun i => f i x)) (fun x => zsum a n (fun i => g i x)).
Proof.
  intros H; induction n as [|n IH]; cbn [zsum]; [apply nd_zero|].
  apply nd_plus; [exact IH|apply H].
Qed.

(** ** Mixed partial derivatives of a surface piece *)
Definition surface_ders U V s t (p q nu nv : nat) (a b : nat) (c : list R) (u v : R) : R :=
  zsum 0 nu (fun i => zsum 0 nv (fun j =>
    Dx (delta s) (kn U) a p i u * Dx (delta t) (kn V) b q j v * nth (Z.to_nat (i * Z.of_nat nv + j)) c 0)).
Lemma surface_ders_partial U V s t p q nu nv a b c : nondecreasing U -> nondecreasing V ->
  mixed_partial a b (surface_piece U V s t p q nu nv c) (surface_ders U V s t p q nu nv a b c).
Proof.
  intros HU HV.
  exists (fun u v => zsum 0 nu (fun i => zsum 0 nv (fun j =>
    Dx (delta s) (kn U) a p i u * piece V t q j v * nth (Z.to_nat (i * Z.of_nat nv + j)) c 0))); split.
  - intros v; unfold surface_piece.
    apply (nd_zsum a 0 nu (fun i u => zsum 0 nv (fun j => piece U s p i u * piece V t q j v * nth (Z.to_nat (i * Z.of_nat nv + j)) c 0))
      (fun i u => zsum 0 nv (fun j => Dx (delta s) (kn U) a p i u * piece V t q j v * nth (Z.to_nat (i * Z.of_nat nv + j)) c 0))).
    intros i.
    apply (nd_zsum a 0 nv (fun j u => piece U s p i u * piece V t q j v * nth (Z.to_nat (i * Z.of_nat nv + j)) c 0)
      (fun j u => Dx (delta s) (kn U) a p i u * piece V t q j v * nth (Z.to_nat (i * Z.of_nat nv + j)) c 0)).
    intros j.
    apply (nd_ext a (fun u => (piece V t q j v * nth (Z.to_nat (i * Z.of_nat nv + j)) c 0) * piece U s p i u) _
      (fun u => (piece V t q j v * nth (Z.to_nat (i * Z.of_nat nv + j)) c 0) * Dx (delta s) (kn U) a p i u));
      [intros; ring|intros; ring|].
    apply nd_scal, (Dx_nth_derivative (delta s) (kn U) (kn_mono U HU)).
  - intros u; unfold surface_ders.
    apply (nd_zsum b 0 nu (fun i v => zsum 0 nv (fun j => Dx (delta s) (kn U) a p i u * piece V t q j v * nth (Z.to_nat (i * Z.of_nat nv + j)) c 0))
      (fun i v => zsum 0 nv (fun j => Dx (delta s) (kn U) a p i u * Dx (delta t) (kn V) b q j v * nth (Z.to_nat (i * Z.of_nat nv + j)) c 0))).
    intros i.
    apply (nd_zsum b 0 nv (fun j v => Dx (delta s) (kn U) a p i u * piece V t q j v * nth (Z.to_nat (i * Z.of_nat nv + j)) c 0)
      (fun j v => Dx (delta s) (kn U) a p i u * Dx (delta t) (kn V) b q j v * nth (Z.to_nat (i * Z.of_nat nv + j)) c 0)).
    intros j.
    apply (nd_ext b (fun v => (Dx (delta s) (kn U) a p i u * nth (Z.to_nat (i * Z.of_nat nv + j)) c 0) * piece V t q j v) _
      (fun v => (Dx (delta s) (kn U) a p i u * nth (Z.to_nat (i * Z.of_nat nv + j)) c 0) * Dx (delta t) (kn V) b q j v));
      [intros; ring|intros; ring|].
    apply nd_scal, (Dx_nth_derivative (delta t) (kn V) (kn_mono V HV)).
Qed.
Lemma Dx_support U s k p i u : (i < s - Z.of_nat p \/ s < i)%Z -> Dx (delta s) (kn U) k p i u = 0.
Proof.
  intros H; apply Dx_ext_zero; intros j Hj; unfold delta; destruct (Z.eqb_spec j s); [lia|reflexivity].
Qed.
Lemma contract_ders U V s t p q nu nv a b c u v : (Z.of_nat p <= s < Z.of_nat nu)%Z -> (Z.of_nat q <= t < Z.of_nat nv)%Z ->
  contract s t p q nv (fun i => Dx (delta s) (kn U) a p i u) (fun j => Dx (delta t) (kn V) b q j v) c
  = surface_ders U V s t p q nu nv a b c u v.
Proof.
  intros Hs Ht; unfold contract, surface_ders; rewrite zsum_swap; symmetry.
  transitivity (zsum 0 nv (fun j => zsum 0 nu (fun i => Dx (delta s) (kn U) a p i u * net nv c i j) * Dx (delta t) (kn V) b q j v)).
  - apply zsum_ext; intros j Hj; rewrite <- zsum_scal_r; apply zsum_ext; intros i Hi; unfold net; ring.
  - rewrite (zsum_window 0 nv (t - Z.of_nat q) (S q)); [|lia|lia|].
    + apply zsum_ext; intros j Hj; f_equal; apply zsum_window; try lia.
      intros i Hi Ho; rewrite Dx_support by lia; ring.
    + intros j Hj Ho; rewrite (Dx_support V) by lia; ring.
Qed.

(** ** The loops *)
Definition unitise (v : list R) : list R := map (fun x => x / norm3 v) v.
Lemma vnorm3 x y z : vnorm (fin [x; y; z]) = (Fin (norm3 [x; y; z]) : Exact).
Proof.
  unfold vnorm; rewrite E_vdot.
  assert (E : rdot [x; y; z] [x; y; z] = x * x + y * y + z * z) by (unfold rdot; cbn; ring).
  rewrite E_sqrt by (rewrite E; nra).
  unfold norm3; cbn [nth]; rewrite E; reflexivity.
Qed.
Lemma norm3_nonneg v : 0 <= norm3 v.
Proof. apply sqrt_pos. Qed.
Lemma close_norm n : 0 <= n -> (close (1/100000) (1/100000000) n 0 <-> n <= 1/100000000).
Proof. intros H; unfold close; rewrite Rminus_0_r, Rabs_R0, Rabs_right by lra; lra. Qed.
Lemma unit_norm x y z : 0 < norm3 [x; y; z] -> norm3 (unitise [x; y; z]) = 1.
Proof.
  intros H; unfold unitise; set (n := norm3 [x; y; z]) in *; cbn [map]; unfold norm3; cbn [nth].
  assert (E : n * n = x * x + y * y + z * z) by (unfold n, norm3; cbn [nth]; apply sqrt_sqrt; nra).
  replace (x / n * (x / n) + y / n * (y / n) + z / n * (z / n)) with ((x * x + y * y + z * z) / (n * n)) by (field; lra).
  rewrite <- E; unfold Rdiv; rewrite Rinv_r by nra; apply sqrt_1.
Qed.

Definition finish (nrm : bool) (k : Z) (v : list R) : list R :=
  if nrm then if Rle_dec (norm3 v) (1/100000000) then v else if (k =? 0)%Z then v else unitise v else v.
Lemma finish_model nrm k x y z :
  (if nrm && negb (isclose (vnorm (fin [x; y; z])) (0 : Exact)%num) && negb (k =? 0)%Z
   then map (fun w => (w / vnorm (fin [x; y; z]))%num) (fin [x; y; z]) else fin [x; y; z])
  = fin (finish nrm k [x; y; z]).
Proof.
  rewrite vnorm3; unfold finish; destruct nrm; [|reflexivity]; cbn [andb].
  pose proof (norm3_nonneg [x; y; z]) as N.
  destruct (Rle_dec (norm3 [x; y; z]) (1/100000000)) as [H|H].
  - apply (close_norm _ N) in H; apply E_isclose in H; rewrite E_ofZ; rewrite H; reflexivity.
  - rewrite E_ofZ; rewrite (proj2 (E_isclose_false _ _)) by (rewrite close_norm by exact N; exact H); cbn [negb andb].
    destruct (k =? 0)%Z; cbn [negb]; [reflexivity|].
    unfold unitise, fin; rewrite !map_map; apply map_ext; intros w; apply E_div; lra.
Qed.

Section Ders.
Variables (p q nu nv : nat) (U V : list R) (P : list (list R)) (u v : R) (s t : Z) (mu mv : nat) (nrm : bool).
Hypothesis HF : Forall (fun row => length row = 3%nat) P.
Hypothesis HL : length P = (nu * nv)%nat.
Hypothesis KU : knots_for (Z.of_nat p) (Z.of_nat nu) U.
Hypothesis KV : knots_for (Z.of_nat q) (Z.of_nat nv) V.
Hypothesis Hs : (Z.of_nat p <= s < Z.of_nat nu)%Z.
Hypothesis Ht : (Z.of_nat q <= t < Z.of_nat nv)%Z.
Let S := surf_of p q nu nv U V P.
Let W := (Z.of_nat mv + 1)%Z.
Let N := ((mu + 1) * (mv + 1))%nat.
Let arrays := (tab nu (fun i => fin (tab nv (net nv (coords 0 P) i)) : list Exact),
     tab nu (fun i => fin (tab nv (net nv (coords 1 P) i)) : list Exact),
     tab nu (fun i => fin (tab nv (net nv (coords 2 P) i)) : list Exact)).
Definition raw_row (k : Z) : list R :=
  map (fun c => surface_ders U V s t p q nu nv (Z.to_nat (k / W)) (Z.to_nat (k mod W)) (coords c P) u v) [0%nat; 1%nat; 2%nat].
Let row (k : Z) : list Exact := fin (finish nrm k (raw_row k)).
Let Z3 : list Exact := repeat (0 : Exact)%num 3.
Let F (k : Z) : Z * list (list Exact) := (k, tab N (fun i => if (i <? k)%Z then row i else Z3)).

Lemma ders_col (X : list R) (r : Z) (x : R) (d n a : nat) : (a <= n)%nat ->
  acol (fin2 (ders_table X r x d n) : list (list Exact)) (Z.of_nat a)
  = Ok (fin (tab (Datatypes.S d) (fun i => Dx (delta r) (kn X) a d (r - Z.of_nat d + i) x))).
Proof.
  intros Ha; unfold ders_table, tab2, fin2; rewrite map_tab, fin_tab_fun; apply mapM_tab; intros i Hi.
  rewrite fin_tab_fun, aget_tab by lia; rewrite Nat2Z.id; reflexivity.
Qed.
Lemma row_len k : zlen (row k) = 3%Z.
Proof.
  unfold row, fin, zlen, finish; rewrite map_length.
  destruct nrm; [destruct (Rle_dec _ _); [|destruct (k =? 0)%Z]|]; try reflexivity.
Qed.

Lemma entry_ok a b : (0 <= a <= Z.of_nat mu)%Z -> (0 <= b <= Z.of_nat mv)%Z ->
  surf_deriv_entry S nrm s t arrays (fin2 (ders_table U s u p mu)) (fin2 (ders_table V t v q mv)) a b (F (a * W + b))
  = Ok (F (a * W + b + 1)).
Proof.
  intros Ha Hb; unfold surf_deriv_entry.
  rewrite <- (Z2Nat.id a) at 1 by lia; rewrite ders_col by lia; cbn [bind].
  rewrite <- (Z2Nat.id b) at 1 by lia; rewrite ders_col by lia; cbn [bind].
  unfold S, arrays; rewrite (surf_contract_ok p q nu nv U V P s t (fun i => Dx (delta s) (kn U) (Z.to_nat a) p i u)
    (fun j => Dx (delta t) (kn V) (Z.to_nat b) q j v)) by assumption; cbn [bind fst snd F].
  assert (EQ : ((a * W + b) / W = a)%Z) by (unfold W; rewrite Z.div_add_l, Z.div_small by lia; lia).
  assert (ER : ((a * W + b) mod W = b)%Z).
  { rewrite Z.add_comm; unfold W; rewrite Z.mod_add, Z.mod_small by lia; reflexivity. }
  assert (ERaw : map (fun c => contract s t p q nv (fun i => Dx (delta s) (kn U) (Z.to_nat a) p i u)
      (fun j => Dx (delta t) (kn V) (Z.to_nat b) q j v) (coords c P)) [0%nat; 1%nat; 2%nat] = raw_row (a * W + b)).
  { unfold raw_row; rewrite EQ, ER; apply map_ext; intros c; apply contract_ders; assumption. }
  rewrite ERaw; clear ERaw; cbv zeta.
  assert (EF : (if nrm && negb (isclose (vnorm (fin (raw_row (a * W + b)))) (0 : Exact)%num) && negb (a * W + b =? 0)%Z
     then map (fun x => (x / vnorm (fin (raw_row (a * W + b))))%num) (fin (raw_row (a * W + b)))
     else fin (raw_row (a * W + b))) = row (a * W + b)) by (unfold row, raw_row; cbn [map]; apply finish_model).
  rewrite EF; clear EF.
  assert (B : (0 <= a * W + b < Z.of_nat N)%Z) by (unfold N, W; nia).
  rewrite (aset_row_tab _ _ _ _ 3); [|exact B| |apply row_len].
  - cbn [bind]; unfold F; do 2 f_equal; apply tab_ext; intros i Hi; unfold fupd.
    destruct (Z.eqb_spec i (a * W + b)) as [E|E].
    + destruct (Z.ltb_spec i (a * W + b + 1)); [rewrite E; reflexivity|lia].
    + destruct (Z.ltb_spec i (a * W + b + 1)), (Z.ltb_spec i (a * W + b)); try lia; reflexivity.
  - destruct (_ <? _)%Z; [apply row_len|reflexivity].
Qed.

Lemma surf_derivatives_ok order_u order_v : 0 <= u <= 1 -> 0 <= v <= 1 ->
  find_span (Z.of_nat nu) (Z.of_nat p) (Fin u : Exact) (fin U) = Ok s ->
  find_span (Z.of_nat nv) (Z.of_nat q) (Fin v : Exact) (fin V) = Ok t ->
  kn U s < kn U (s + 1) -> kn V t < kn V (t + 1) ->
  Z.of_nat mu = Z.min order_u (Z.of_nat p) -> Z.of_nat mv = Z.min order_v (Z.of_nat q) ->
  surf_derivatives S (Fin u : Exact) (Fin v : Exact) order_u order_v nrm
  = Ok (fin2 (tab N (fun k => finish nrm k (raw_row k)))).
Proof.
  intros Hu Hv Es Et Hs' Ht' Emu Emv; unfold surf_derivatives.
  rewrite (proj2 (validate_fin u) Hu), (proj2 (validate_fin v) Hv); cbn [negb]; cbv zeta.
  cbn [S surf_of s_nu s_nv s_pu s_pv s_ku s_kv]; rewrite Es, Et, <- Emu, <- Emv; cbn [bind].
  destruct KU as (_ & _ & LU & HU); destruct KV as (_ & _ & LV & HV).
  rewrite !basis_function_ders_table by (try assumption; lia); cbn [bind].
  assert (EA : surf_arrays S = Ok arrays) by (apply surf_arrays_ok; assumption).
  rewrite EA; cbn [bind].
  rewrite (np_full2_tab N 3) by (unfold N; lia); cbn [bind].
  rewrite (for_range_fun (fun a => F (a * W)) 0 (Z.of_nat mu + 1)).
  - cbn [bind]; unfold F; cbn [snd]; f_equal; unfold fin2; rewrite map_tab; apply tab_ext; intros i Hi.
    destruct (Z.ltb_spec i ((Z.of_nat mu + 1) * W)); [reflexivity|].
    unfold N, W in *; nia.
  - lia.
  - unfold F; f_equal; unfold tab2; apply tab_ext; intros i Hi; destruct (Z.ltb_spec i (0 * W)); [lia|reflexivity].
  - intros a Ha.
    rewrite (for_range_fun (fun b => F (a * W + b)) 0 (Z.of_nat mv + 1)).
    + do 2 f_equal; unfold W; lia.
    + lia.
    + f_equal; lia.
    + intros b Hb; rewrite entry_ok by lia; do 2 f_equal; lia.
Qed.
Lemma nth_finish_row a b : (a <= mu)%nat -> (b <= mv)%nat ->
  nth (a * (mv + 1) + b) (tab N (fun k => finish nrm k (raw_row k))) []
  = finish nrm (Z.of_nat (a * (mv + 1) + b))
      (map (fun c => surface_ders U V s t p q nu nv a b (coords c P) u v) [0%nat; 1%nat; 2%nat]).
Proof using p q nu nv U V P u v s t mu mv nrm.
  clear KU KV Hs Ht HF HL.
  intros Ha Hb; rewrite nth_tab by (unfold N; nia); unfold raw_row; f_equal; apply map_ext; intros c.
  assert (EQ : (Z.of_nat (a * (mv + 1) + b) / W = Z.of_nat a)%Z).
  { replace (Z.of_nat (a * (mv + 1) + b)) with (Z.of_nat a * W + Z.of_nat b)%Z by (unfold W; lia).
    unfold W; rewrite Z.div_add_l, Z.div_small by lia; lia. }
  assert (ER : (Z.of_nat (a * (mv + 1) + b) mod W = Z.of_nat b)%Z).
  { replace (Z.of_nat (a * (mv + 1) + b)) with (Z.of_nat b + Z.of_nat a * W)%Z by (unfold W; lia).
    unfold W; rewrite Z.mod_add, Z.mod_small by lia; reflexivity. }
  rewrite EQ, ER, !Nat2Z.id; reflexivity.
Qed.
End Ders.

Lemma surf_derivatives_true p q nu nv U V P u v s t ou ov :
  knots_for (Z.of_nat p) (Z.of_nat nu) U -> knots_for (Z.of_nat q) (Z.of_nat nv) V ->
  Forall (fun row => length row = 3%nat) P -> length P = (nu * nv)%nat -> 0 <= u <= 1 -> 0 <= v <= 1 ->
  find_span (Z.of_nat nu) (Z.of_nat p) (Fin u : Exact) (fin U) = Ok s ->
  find_span (Z.of_nat nv) (Z.of_nat q) (Fin v : Exact) (fin V) = Ok t ->
  (Z.of_nat p <= s < Z.of_nat nu)%Z -> (Z.of_nat q <= t < Z.of_nat nv)%Z ->
  kn U s < kn U (s + 1) -> kn V t < kn V (t + 1) ->
  exists m, surf_derivatives (surf_of p q nu nv U V P) (Fin u : Exact) (Fin v : Exact) (Z.of_nat ou) (Z.of_nat ov) false = Ok (fin2 m) /\
    length m = ((Nat.min ou p + 1) * (Nat.min ov q + 1))%nat /\ Forall (fun row => length row = 3%nat) m /\
    surf_point (surf_of p q nu nv U V P) (Fin u : Exact) (Fin v : Exact) = Ok (fin (nth 0 m [])) /\
    (forall a b c, (a <= ou)%nat -> (a <= p)%nat -> (b <= ov)%nat -> (b <= q)%nat -> (c < 3)%nat ->
       exists G, mixed_partial a b (surface_piece U V s t p q nu nv (coords c P)) G /\
         nth c (nth (a * (Nat.min ov q + 1) + b) m []) 0 = G u v) /\
    exists m', surf_derivatives (surf_of p q nu nv U V P) (Fin u : Exact) (Fin v : Exact) (Z.of_nat ou) (Z.of_nat ov) true = Ok (fin2 m') /\
      length m' = length m /\ nth 0 m' [] = nth 0 m [] /\
      forall k, (0 < k < length m)%nat ->
        (norm3 (nth k m []) <= 1/100000000 -> nth k m' [] = nth k m []) /\
        (1/100000000 < norm3 (nth k m []) -> norm3 (nth k m' []) = 1 /\
           nth k m' [] = map (fun x => x / norm3 (nth k m [])) (nth k m [])).
Proof.
  intros KU KV HF HL Hu Hv Es Et Hs Ht Hs' Ht'.
  assert (D : forall nrm, surf_derivatives (surf_of p q nu nv U V P) (Fin u : Exact) (Fin v : Exact) (Z.of_nat ou) (Z.of_nat ov) nrm
     = Ok (fin2 (tab ((Nat.min ou p + 1) * (Nat.min ov q + 1)) (fun k => finish nrm k (raw_row p q nu nv U V P u v s t (Nat.min ov q) k))))).
  { intros nrm; apply surf_derivatives_ok; try assumption; lia. }
  eexists; split; [apply D|]; split; [apply tab_length|]; split; [apply Forall_tab; intros; reflexivity|].
  split; [|split].
  - rewrite (surf_point_span p q nu nv U V P u v s t KU KV HF HL Hu Hv (conj Es (conj Hs Hs')) (conj Et (conj Ht Ht'))).
    pose proof (nth_finish_row p q nu nv U V P u v s t (Nat.min ou p) (Nat.min ov q) false 0 0 ltac:(lia) ltac:(lia)) as E.
    cbn [Nat.mul Nat.add] in E; rewrite E; unfold finish, span2_xyz; do 2 f_equal; apply map_ext; intros c.
    unfold span2; rewrite <- contract_ders by assumption; reflexivity.
  - intros a b c Ha Ha' Hb Hb' Hc; exists (surface_ders U V s t p q nu nv a b (coords c P)); split.
    + apply surface_ders_partial; [apply KU|apply KV].
    + rewrite nth_finish_row by lia; unfold finish; rewrite nth_map3 by exact Hc; reflexivity.
  - eexists; split; [apply D|]; rewrite !tab_length; split; [reflexivity|]; split.
    + rewrite !nth_tab by lia; unfold finish; destruct (Rle_dec _ _); reflexivity.
    + intros k Hk; rewrite !nth_tab by lia; unfold finish.
      destruct (Z.eqb_spec (Z.of_nat k) 0); [lia|].
      destruct (Rle_dec _ _) as [L|L]; split; intros H; try lra; try reflexivity.
      split; [apply unit_norm; unfold raw_row in H; cbn [map] in H; lra|reflexivity].
Qed.

(** ** The surface object *)
Lemma class_eqb_eq a b : class_eqb a b = true <-> a = b.
Proof. destruct a, b; split; intros H; try reflexivity; discriminate H. Qed.
Lemma after_spec cls l : (forall a b, l = a ++ cls :: b -> ~ In cls a -> after cls l = Ok (hd CObject b)) /\ (~ In cls l -> after cls l = Err TypeError).
Proof.
  induction l as [|x t [I1 I2]]; split.
  - intros [|y a] b E; discriminate E.
  - reflexivity.
  - intros [|y a] b E N; cbn [app] in E; injection E as -> Et; cbn [after].
    + rewrite (proj2 (class_eqb_eq cls cls) eq_refl), Et; destruct b; reflexivity.
    + destruct (class_eqb y cls) eqn:Eq; [apply class_eqb_eq in Eq; subst y; exfalso; apply N; left; reflexivity|].
      apply (I1 a b Et); intros H; apply N; right; exact H.
  - intros N; cbn [after]; destruct (class_eqb x cls) eqn:Eq; [apply class_eqb_eq in Eq; subst x; exfalso; apply N; left; reflexivity|].
    apply I2; intros H; apply N; right; exact H.
Qed.
Lemma super_spec c cls : (forall a b, mro c = a ++ cls :: b -> ~ In cls a -> py_super cls c = Ok (hd CObject b)) /\ (~ In cls (mro c) -> py_super cls c = Err TypeError).
Proof. exact (after_spec cls (mro c)). Qed.
Lemma surface_init_fails (K : Num) c degree_u degree_v dimension : c = CSurface \/ c = CBSurface ->
  surface_init (K := K) c degree_u degree_v dimension = Err TypeError.
Proof. intros [->| ->]; reflexivity. Qed.
Lemma surf_ctrl_setter (K : Num) (o : surf_obj K) du dv a : o_degree_u o = Some du -> o_degree_v o = Some dv ->
  (width a = o_dim o -> set_surf_ctrl o a = Err ValueError) /\
  (width a <> o_dim o -> exists o', set_surf_ctrl o a = Ok o' /\ o_ctrl o' = Some a /\
     (o_degree_u o', o_degree_v o', o_num_u o', o_num_v o', o_ku o', o_kv o', o_dim o')
     = (o_degree_u o, o_degree_v o, o_num_u o, o_num_v o, o_ku o, o_kv o, o_dim o)).
Proof.
  intros H1 H2; unfold set_surf_ctrl; rewrite H1, H2; split; intros H.
  - rewrite H, Z.eqb_refl; reflexivity.
  - destruct (Z.eqb_spec (width a) (o_dim o)); [contradiction|]; eexists; split; [reflexivity|]; cbn; rewrite ?H1, ?H2; auto.
Qed.
(** Even if an object existed, knot vectors could not be assigned nor points
    evaluated: the attribute read is never created. *)
Definition surf_stuck {K : Num} (o : surf_obj K) : Prop :=
  o_nc_u o = None /\ o_nc_v o = None /\ o_ku o = None /\ o_kv o = None.
Lemma surf_step_stuck (K : Num) (o : surf_obj K) op : surf_stuck o -> surf_stuck (fst (surf_step o op)).
Proof.
  intros (H1 & H2 & H3 & H4); destruct op; unfold surf_step.
  - unfold set_degree_u; destruct (d <? 1)%Z; cbn; repeat split; assumption.
  - unfold set_degree_v; destruct (d <? 1)%Z; cbn; repeat split; assumption.
  - unfold set_num_u; destruct (o_degree_u o); [destruct (n <? z + 1)%Z|]; cbn; repeat split; assumption.
  - unfold set_num_v; destruct (o_degree_v o); [destruct (n <? z + 1)%Z|]; cbn; repeat split; assumption.
  - unfold set_surf_ctrl; destruct (o_degree_u o), (o_degree_v o); try (cbn; repeat split; assumption).
    destruct (negb _); cbn; repeat split; assumption.
  - unfold set_knot_vector_u; destruct (o_degree_u o), (o_ctrl o); rewrite ?H1; cbn; repeat split; assumption.
  - unfold set_knot_vector_v; destruct (o_degree_v o), (o_ctrl o); rewrite ?H2; cbn; repeat split; assumption.
Qed.
Lemma surf_run_stuck (K : Num) ops : forall o : surf_obj K, surf_stuck o -> surf_stuck (surf_run o ops).
Proof. induction ops as [|op ops IH]; intros o H; [exact H|]; cbn [surf_run fold_left]; apply IH, surf_step_stuck, H. Qed.
Lemma history_surface (K : Num) degree_u degree_v (ops : list (surf_op K)) (u v : K) :
  let o := surf_run (surf_fresh degree_u degree_v) ops in
  o_ku o = None /\ o_kv o = None /\
  (validate_knot u = true -> validate_knot v = true -> obj_single_point o u v = Err AttributeError).
Proof.
  cbn zeta; destruct (surf_run_stuck K ops (surf_fresh degree_u degree_v)) as (H1 & H2 & H3 & H4); [repeat split|].
  split; [exact H3|]; split; [exact H4|]; intros Hu Hv; unfold obj_single_point; rewrite Hu, Hv, H1; reflexivity.
Qed.
Lemma Forall2_weaken {A B} (Q Q' : A -> B -> Prop) l m : (forall a b, Q a b -> Q' a b) -> Forall2 Q l m -> Forall2 Q' l m.
Proof. intros H; induction 1; constructor; auto. Qed.
Lemma surf_points_spec (K : Num) (s : surf K) m rows :
  surf_points s (ND2 m) = Ok rows <->
  Forall2 (fun r row => exists u v, aget r 0 = Ok u /\ aget r 1 = Ok v /\ surf_point s u v = Ok row) m rows.
Proof.
  cbn [surf_points]; rewrite mapM_spec; split; intros H; refine (Forall2_weaken _ _ _ _ _ H); cbn beta.
  - intros r row E; destruct (aget r 0) as [u| |]; cbn [bind] in E; try discriminate.
    destruct (aget r 1) as [v| |]; cbn [bind] in E; try discriminate; exists u, v; auto.
  - intros r row (u & v & E1 & E2 & E3); rewrite E1; cbn [bind]; rewrite E2; exact E3.
Qed.
Lemma surf_points_rank (K : Num) (s : surf K) (a : ndarray K) : (forall m, a <> ND2 m) -> surf_points s a = Err ValueError.
Proof. destruct a; intros H; try reflexivity; exfalso; eapply H; reflexivity. Qed.
Lemma surf_derivatives_rejects (K : Num) (s : surf K) (u v : K) ou ov nz :
  validate_knot u = false \/ validate_knot v = false -> surf_derivatives s u v ou ov nz = Err ValueError.
Proof.
  intros H; unfold surf_derivatives; destruct (validate_knot u); cbn [negb]; [|reflexivity].
  destruct H as [H|H]; [discriminate|rewrite H; reflexivity].
Qed.
Lemma surf_derivatives_outside (s : surf Exact) (u v : Exact) ou ov nz :
  (forall x, u = Fin x -> x < 0 \/ 1 < x) \/ (forall x, v = Fin x -> x < 0 \/ 1 < x) ->
  surf_derivatives s u v ou ov nz = Err ValueError.
Proof. intros [H|H]; apply surf_derivatives_rejects; [left|right]; apply validate_outside; exact H. Qed.
(** ** The setters of the surface object *)
Lemma surf_setters (K : Num) (o : surf_obj K) :
  (forall d, (d < 1)%Z -> surf_step o (SDegreeU d) = (o, Some ValueError) /\ surf_step o (SDegreeV d) = (o, Some ValueError)) /\
  (forall d, (1 <= d)%Z ->
     surf_step o (SDegreeU d) = (mkSurfObj (Some d) (o_degree_v o) (o_num_u o) (o_num_v o) (o_nc_u o) (o_nc_v o) (o_ctrl o) (o_ku o) (o_kv o) (o_dim o), None) /\
     surf_step o (SDegreeV d) = (mkSurfObj (o_degree_u o) (Some d) (o_num_u o) (o_num_v o) (o_nc_u o) (o_nc_v o) (o_ctrl o) (o_ku o) (o_kv o) (o_dim o), None)) /\
  (forall n, o_degree_u o = None -> surf_step o (SNumU n) = (o, Some TypeError)) /\
  (forall n, o_degree_v o = None -> surf_step o (SNumV n) = (o, Some TypeError)) /\
  (forall n d, o_degree_u o = Some d -> (n <= d)%Z -> surf_step o (SNumU n) = (o, Some ValueError)) /\
  (forall n d, o_degree_v o = Some d -> (n <= d)%Z -> surf_step o (SNumV n) = (o, Some ValueError)) /\
  (forall n d, o_degree_u o = Some d -> (d < n)%Z ->
     surf_step o (SNumU n) = (mkSurfObj (Some d) (o_degree_v o) (Some n) (o_num_v o) (o_nc_u o) (o_nc_v o) (o_ctrl o) (o_ku o) (o_kv o) (o_dim o), None)) /\
  (forall n d, o_degree_v o = Some d -> (d < n)%Z ->
     surf_step o (SNumV n) = (mkSurfObj (o_degree_u o) (Some d) (o_num_u o) (Some n) (o_nc_u o) (o_nc_v o) (o_ctrl o) (o_ku o) (o_kv o) (o_dim o), None)) /\
  (o_degree_u o = None \/ o_degree_v o = None -> forall a, surf_step o (SCtrl a) = (o, Some ValueError)) /\
  (o_degree_u o = None \/ o_ctrl o = None -> forall kv, surf_step o (SKnotU kv) = (o, Some ValueError)) /\
  (o_degree_v o = None \/ o_ctrl o = None -> forall kv, surf_step o (SKnotV kv) = (o, Some ValueError)).
Proof.
  unfold surf_step; cbn zeta; unfold set_degree_u, set_degree_v, set_num_u, set_num_v, set_surf_ctrl, set_knot_vector_u, set_knot_vector_v.
  repeat match goal with |- _ /\ _ => split end.
  - intros d H; destruct (Z.ltb_spec d 1); [split; reflexivity|lia].
  - intros d H; destruct (Z.ltb_spec d 1); [lia|split; reflexivity].
  - intros n ->; reflexivity.
  - intros n ->; reflexivity.
  - intros n d -> H; destruct (Z.ltb_spec n (d + 1)); [reflexivity|lia].
  - intros n d -> H; destruct (Z.ltb_spec n (d + 1)); [reflexivity|lia].
  - intros n d -> H; destruct (Z.ltb_spec n (d + 1)); [lia|reflexivity].
  - intros n d -> H; destruct (Z.ltb_spec n (d + 1)); [lia|reflexivity].
  - intros [->| ->] a; [reflexivity|destruct (o_degree_u o); reflexivity].
  - intros [->| ->] kv; [reflexivity|destruct (o_degree_u o); reflexivity].
  - intros [->| ->] kv; [reflexivity|destruct (o_degree_v o); reflexivity].
Qed.
(** Before a knot vector was ever stored none can be. *)
Lemma history_knots (K : Num) degree_u degree_v (ops : list (surf_op K)) kv :
  let o := surf_run (surf_fresh degree_u degree_v) ops in
  surf_step o (SKnotU kv) = (o, Some (if o_degree_u o then if o_ctrl o then AttributeError else ValueError else ValueError)) /\
  surf_step o (SKnotV kv) = (o, Some (if o_degree_v o then if o_ctrl o then AttributeError else ValueError else ValueError)).
Proof.
  cbn zeta; destruct (surf_run_stuck K ops (surf_fresh degree_u degree_v)) as (H1 & H2 & H3 & H4); [repeat split|].
  unfold surf_step, set_knot_vector_u, set_knot_vector_v; cbn zeta; rewrite H1, H2.
  split; [destruct (o_degree_u _)|destruct (o_degree_v _)]; try reflexivity; destruct (o_ctrl _); reflexivity.
Qed.
(** Degrees and counts of any history. *)
Definition surf_counts {K : Num} (o : surf_obj K) : Prop :=
  (forall d, o_degree_u o = Some d -> (1 <= d)%Z) /\ (forall d, o_degree_v o = Some d -> (1 <= d)%Z) /\
  (forall n, o_num_u o = Some n -> (2 <= n)%Z /\ o_degree_u o <> None) /\ (forall n, o_num_v o = Some n -> (2 <= n)%Z /\ o_degree_v o <> None).
Lemma surf_step_counts (K : Num) (o : surf_obj K) op : surf_counts o -> surf_counts (fst (surf_step o op)).
Proof.
  intros C; pose proof C as (H1 & H2 & H3 & H4); destruct op; unfold surf_step; cbn zeta.
  - unfold set_degree_u; destruct (Z.ltb_spec d 1); [exact C|]; unfold surf_counts; cbn.
    split; [intros x Hx; injection Hx as <-; assumption|]; split; [exact H2|]; split; [|exact H4].
    intros n Hn; split; [apply (H3 n Hn)|discriminate].
  - unfold set_degree_v; destruct (Z.ltb_spec d 1); [exact C|]; unfold surf_counts; cbn.
    split; [exact H1|]; split; [intros x Hx; injection Hx as <-; assumption|]; split; [exact H3|].
    intros n Hn; split; [apply (H4 n Hn)|discriminate].
  - unfold set_num_u; destruct (o_degree_u o) as [d|] eqn:E; [|exact C]; destruct (Z.ltb_spec n (d + 1)); [exact C|].
    pose proof (H1 d eq_refl); unfold surf_counts; cbn; split; [intros x Hx; injection Hx as <-; assumption|]; split; [exact H2|]; split; [|exact H4].
    intros x Hx; injection Hx as <-; split; [lia|discriminate].
  - unfold set_num_v; destruct (o_degree_v o) as [d|] eqn:E; [|exact C]; destruct (Z.ltb_spec n (d + 1)); [exact C|].
    pose proof (H2 d eq_refl); unfold surf_counts; cbn; split; [exact H1|]; split; [intros x Hx; injection Hx as <-; assumption|]; split; [exact H3|].
    intros x Hx; injection Hx as <-; split; [lia|discriminate].
  - unfold set_surf_ctrl; destruct (o_degree_u o) eqn:E1, (o_degree_v o) eqn:E2; try exact C.
    destruct (negb _); [exact C|]; unfold surf_counts; cbn; rewrite ?E1, ?E2; auto.
  - unfold set_knot_vector_u; destruct (o_degree_u o) eqn:E1; [|exact C]; destruct (o_ctrl o); [|exact C]; destruct (o_nc_u o); [|exact C]; destruct (o_ku o); [|exact C].
    destruct (check_knot_vector _ _ _) as [[]|e|]; cbn [bind fst]; try exact C; unfold surf_counts; cbn; rewrite ?E1; auto.
  - unfold set_knot_vector_v; destruct (o_degree_v o) eqn:E1; [|exact C]; destruct (o_ctrl o); [|exact C]; destruct (o_nc_v o); [|exact C]; destruct (o_kv o); [|exact C].
    destruct (check_knot_vector _ _ _) as [[]|e|]; cbn [bind fst]; try exact C; unfold surf_counts; cbn; rewrite ?E1; auto.
Qed.
Lemma history_counts (K : Num) (ops : list (surf_op K)) :
  let o := surf_run (surf_fresh None None) ops in
  (forall d, o_degree_u o = Some d -> (1 <= d)%Z) /\ (forall d, o_degree_v o = Some d -> (1 <= d)%Z) /\
  (forall n, o_num_u o = Some n -> (2 <= n)%Z /\ o_degree_u o <> None) /\ (forall n, o_num_v o = Some n -> (2 <= n)%Z /\ o_degree_v o <> None).
Proof.
  cbv zeta; assert (G : forall ops (o : surf_obj K), surf_counts o -> surf_counts (surf_run o ops)).
  { induction ops0 as [|op l IH]; intros o H; [exact H|]; cbn [surf_run fold_left]; apply IH, surf_step_counts, H. }
  apply (G ops (surf_fresh None None)); repeat split; discriminate.
Qed.
