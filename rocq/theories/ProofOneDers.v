(** Lemmas about [one_basis_function_ders] (model: ModelBasis.v). *)
From Verif Require Import Py PyLemmas Num ModelBasis Spec ProofNum MathCox MathKnots MathDeriv
  ProofSpan ProofBasis ProofOneBasis ProofDers.
Open Scope R_scope.

Lemma Dx_ext B B' U k : forall p i u, (forall j, B j = B' j) -> Dx B U k p i u = Dx B' U k p i u.
Proof.
  induction k as [|k IH]; intros p i u H; [cbn [Dx]; apply cox_ext; auto|].
  destruct p as [|q]; [reflexivity|]; cbn [Dx]; rewrite !(IH q _ u H); reflexivity.
Qed.

Section OneDers.
Variables (U : list R) (i : Z) (u : R) (p : nat).
Hypothesis HU : nondecreasing U.
Hypothesis Hi : (0 <= i)%Z.
Hypothesis Hlen : (i + Z.of_nat p + 1 < len U)%Z.

Notation C q j := (cox (hbase U u) (kn U) q j u).
Notation M q j := (Mx (hbase U u) (kn U) q j u).
Notation D k q j := (Dx (hbase U u) (kn U) k q j u).
Notation zp := (Z.of_nat p).

(** Columns [0..q] of the table hold the values of degree [0..q]. *)
Definition obd_ok (q : Z) (N : list (list Exact)) : Prop :=
  exists f, N = tab2 (S p) (S p) f /\
    forall k j, (0 <= k <= q)%Z -> (0 <= j <= zp - k)%Z -> f j k = Fin (C (Z.to_nat k) (i + j)).

Lemma obd_base :
  exists N, for_range 0 (zp + 1) (fun j N =>
      let* b := in_half_open (fin U) (Fin u : Exact) (i + j) in
      if b then aset2 N j 0 (1 : Exact)%num else Ok N) (tab2 (S p) (S p) (fun _ _ => (0 : Exact)%num)) = Ok N /\ obd_ok 0 N.
Proof.
  destruct (for_range_inv (fun k N => exists f, N = tab2 (S p) (S p) f /\
      forall j, (0 <= j <= zp)%Z -> f j 0%Z = (Fin (if (j <? k)%Z then hbase U u (i + j) else 0) : Exact))
    0 (zp + 1) (fun j N =>
      let* b := in_half_open (fin U) (Fin u : Exact) (i + j) in
      if b then aset2 N j 0 (1 : Exact)%num else Ok N) (tab2 (S p) (S p) (fun _ _ => (0 : Exact)%num)))
    as (N & E & f & EN & Hf).
  - lia.
  - exists (fun _ _ => (0 : Exact)%num); split; [reflexivity|].
    intros j Hj; destruct (Z.ltb_spec j 0); [lia|reflexivity].
  - intros k N Hk (f & -> & Hf); rewrite (in_half_open_fin U u p) by lia; cbn [bind].
    destruct (Req_EM_T (hbase U u (i + k)) 1) as [E|E].
    + rewrite aset2_tab2 by lia; eexists; split; [reflexivity|]; eexists; split; [reflexivity|].
      intros j Hj; destruct (Z.eq_dec j k) as [->|].
      * rewrite fupd2_same; destruct (Z.ltb_spec k (k + 1)); [|lia]; rewrite E; reflexivity.
      * rewrite fupd2_other by lia; rewrite Hf by lia; destruct (Z.ltb_spec j k); destruct (Z.ltb_spec j (k + 1)); try lia; reflexivity.
    + eexists; split; [reflexivity|]; exists f; split; [reflexivity|].
      intros j Hj; rewrite Hf by lia; destruct (Z.ltb_spec j k); destruct (Z.ltb_spec j (k + 1)); try lia; try reflexivity.
      replace j with k by lia; destruct (hbase_01 U u (i + k)) as [->|E']; [reflexivity|contradiction].
  - exists N; split; [exact E|]; exists f; split; [exact EN|].
    intros k j Hk Hj; assert (k = 0)%Z as -> by lia; rewrite Hf by lia.
    destruct (Z.ltb_spec j (zp + 1)); [reflexivity|lia].
Qed.

Lemma obd_round_ok q N : (0 <= q < zp)%Z -> obd_ok q N ->
  exists N', obd_round zp (fin U) i (Fin u : Exact) (q + 1) N = Ok N' /\ obd_ok (q + 1) N'.
Proof.
  intros Hq (f & -> & Hf); unfold obd_round.
  set (m := Z.to_nat q).
  rewrite aget2_tab2 by lia; cbn [bind]; replace (q + 1 - 1)%Z with q by lia.
  assert (F0 : f 0%Z q = Fin (C m i)) by (rewrite Hf by lia; do 2 f_equal; lia).
  rewrite F0, eqb0.
  assert (ES : (if negb (Reqb (C m i) 0)
     then let* ui := aget (fin U) i in let* uk := aget (fin U) (i + (q + 1)) in
          Ok (((Fin u : Exact) - ui) * (Fin (C m i) : Exact) / (uk - ui))%num
     else Ok (0 : Exact)%num) = Ok (Fin ((u - kn U i) * M m i) : Exact)).
  { destruct (Reqb (C m i) 0) eqn:E; cbn [negb].
    - apply Reqb_true in E; rewrite M_zero by exact E; rewrite Rmult_0_r; reflexivity.
    - apply Reqb_false in E; rewrite !aget_fin by lia; cbn [bind].
      rewrite (M_nz U u p HU) by exact E; apply (C_nz U u p HU) in E.
      replace (i + Z.of_nat m + 1)%Z with (i + (q + 1))%Z in * by lia.
      rewrite !E_sub, E_mul, E_div by lra; do 2 f_equal; field; lra. }
  rewrite ES; cbn [bind].
  destruct (for_range_inv (fun j st => exists f, fst st = tab2 (S p) (S p) f /\
      snd st = (Fin ((u - kn U (i + j)) * M m (i + j)) : Exact) /\
      (forall r, (0 <= r < j)%Z -> f r (q + 1)%Z = (Fin (C (S m) (i + r)) : Exact)) /\
      (forall k r, (0 <= k <= q)%Z -> (0 <= r <= zp - k)%Z -> f r k = Fin (C (Z.to_nat k) (i + r))))
    0 (zp - (q + 1) + 1) (obd_inner (fin U) i (Fin u : Exact) (q + 1))
    (tab2 (S p) (S p) f, Fin ((u - kn U i) * M m i) : Exact)) as ([N sv] & E & g & EN & _ & Hg & Hg2).
  - lia.
  - exists f; cbn [fst snd]; split; [reflexivity|]; split; [rewrite Z.add_0_r; reflexivity|].
    split; [intros; lia|exact Hf].
  - intros j [N sv] Hj (g & EN & Esv & H1 & H2); cbn [fst snd] in *; subst N sv.
    unfold obd_inner; rewrite !aget_fin by lia; cbn [bind fst snd].
    rewrite aget2_tab2 by lia; cbn [bind]; replace (q + 1 - 1)%Z with q by lia; rewrite H2 by lia; fold m; rewrite eqb0.
    replace (i + (j + 1))%Z with (i + j + 1)%Z by lia.
    destruct (Reqb (C m (i + j + 1)) 0) eqn:E.
    + apply Reqb_true in E; rewrite aset2_tab2 by lia; cbn [bind].
      eexists; split; [reflexivity|]; eexists; cbn [fst snd]; split; [reflexivity|].
      split; [rewrite M_zero by exact E; rewrite Rmult_0_r; reflexivity|]; split.
      * intros r Hr; destruct (Z.eq_dec r j) as [->|]; [|rewrite fupd2_other by lia; apply H1; lia].
        rewrite fupd2_same, cox_S, (M_zero U u m (i + j + 1)) by exact E; f_equal; ring.
      * intros k r Hk Hr; rewrite fupd2_other by lia; apply H2; lia.
    + apply Reqb_false in E; pose proof (M_nz U u p HU _ _ E) as EM; pose proof (C_nz U u p HU _ _ E) as HW.
      replace (i + j + 1 + Z.of_nat m + 1)%Z with (i + j + (q + 1) + 1)%Z in * by lia.
      rewrite !E_sub, E_div, !E_mul, E_add by lra; rewrite aset2_tab2 by lia; cbn [bind].
      eexists; split; [reflexivity|]; eexists; cbn [fst snd]; split; [reflexivity|].
      split; [rewrite <- EM; reflexivity|]; split.
      * intros r Hr; destruct (Z.eq_dec r j) as [->|]; [|rewrite fupd2_other by lia; apply H1; lia].
        rewrite fupd2_same, cox_S, <- EM; do 3 f_equal.
        do 2 f_equal; lia.
      * intros k r Hk Hr; rewrite fupd2_other by lia; apply H2; lia.
  - rewrite E; cbn [bind fst]; exists N; split; [reflexivity|].
    exists g; split; [exact EN|]; intros k r Hk Hr.
    destruct (Z.eq_dec k (q + 1)) as [->|]; [|apply Hg2; lia].
    rewrite Hg by lia; replace (Z.to_nat (q + 1)) with (S m) by lia; reflexivity.
Qed.

Lemma obd_table :
  exists N, (let* N := np_full2 (zp + 1) (zp + 1) (0 : Exact)%num in
   let* N := for_range 0 (zp + 1) (fun j N =>
      let* b := in_half_open (fin U) (Fin u : Exact) (i + j) in
      if b then aset2 N j 0 (1 : Exact)%num else Ok N) N in
   for_range 1 (zp + 1) (obd_round zp (fin U) i (Fin u : Exact)) N) = Ok N /\ obd_ok zp N.
Proof.
  rewrite (np_full2_tab (S p) (S p)) by lia; cbn [bind].
  destruct obd_base as (N0 & E0 & H0); rewrite E0; cbn [bind].
  destruct (for_range_inv (fun k N => obd_ok (k - 1) N) 1 (zp + 1)
    (obd_round zp (fin U) i (Fin u : Exact)) N0) as (N & E & HN).
  - lia.
  - exact H0.
  - intros k N Hk HN; destruct (obd_round_ok (k - 1) N ltac:(lia) HN) as (N' & E' & H').
    replace (k - 1 + 1)%Z with k in E', H' by lia.
    replace (k + 1 - 1)%Z with k by lia; eauto.
  - exists N; split; [exact E|]; replace zp with (zp + 1 - 1)%Z by lia; exact HN.
Qed.

(** ** Derivative levels *)
Lemma D_nz k q j : D k q j <> 0 -> kn U j < kn U (j + Z.of_nat q + 1).
Proof.
  intros H; destruct (Rlt_dec (kn U j) (kn U (j + Z.of_nat q + 1))) as [L|L]; [exact L|].
  exfalso; apply H, Dx_ext_zero, (zero_width U u p HU); lra.
Qed.
Notation W k q j := (sdiv (D k q j) (kn U (j + Z.of_nat q + 1) - kn U j)).
Lemma W_zero k q j : D k q j = 0 -> W k q j = 0.
Proof. intros ->; apply sdiv_0_l. Qed.
Lemma W_nz k q j : D k q j <> 0 -> W k q j = D k q j / (kn U (j + Z.of_nat q + 1) - kn U j).
Proof. intros H; apply D_nz in H; apply sdiv_nz; lra. Qed.
Lemma D_S k q j : D (S k) (S q) j = INR (S q) * (W k q j - W k q (j + 1)).
Proof.
  cbn [Dx]; replace (j + 1 + Z.of_nat q + 1)%Z with (j + Z.of_nat q + 2)%Z by lia; reflexivity.
Qed.

Variable nd : nat.
Notation ndt := (tab (S nd)).

(** After [jj] levels of order [k]. *)
Definition lev_ok (k jj : Z) (ND : list Exact) : Prop :=
  exists f, ND = ndt f /\
    forall j, (0 <= j <= k - jj)%Z -> f j = Fin (D (Z.to_nat jj) (Z.to_nat (zp - k + jj)) (i + j)).

Lemma obd_level_ok k jj ND : (1 <= jj <= k)%Z -> (k <= zp)%Z -> (k <= Z.of_nat nd)%Z -> lev_ok k (jj - 1) ND ->
  exists ND', obd_level zp (fin U) i k jj ND = Ok ND' /\ lev_ok k jj ND'.
Proof.
  intros Hjj Hk Hnd (f & -> & Hf); unfold obd_level.
  set (m := Z.to_nat (jj - 1)) in *; set (q := Z.to_nat (zp - k + (jj - 1))) in *.
  assert (Eq : (zp - k + jj = Z.of_nat (S q))%Z) by lia.
  rewrite aget_tab by lia; cbn [bind].
  assert (F0 : f 0%Z = Fin (D m q i)) by (rewrite Hf by lia; do 2 f_equal; lia).
  rewrite F0, eqb0.
  replace (i + zp - k + jj)%Z with (i + Z.of_nat q + 1)%Z by lia.
  assert (ES : (if negb (Reqb (D m q i) 0)
     then let* u1 := aget (fin U) (i + Z.of_nat q + 1) in let* u0 := aget (fin U) i in
          Ok ((Fin (D m q i) : Exact) / (u1 - u0))%num
     else Ok (0 : Exact)%num) = Ok (Fin (W m q i) : Exact)).
  { destruct (Reqb (D m q i) 0) eqn:E; cbn [negb].
    - apply Reqb_true in E; rewrite W_zero by exact E; reflexivity.
    - apply Reqb_false in E; rewrite !aget_fin by lia; cbn [bind].
      rewrite W_nz by exact E; apply D_nz in E; rewrite E_sub, E_div by lra; reflexivity. }
  rewrite ES; cbn [bind].
  destruct (for_range_inv (fun j st => exists f, fst st = ndt f /\ snd st = (Fin (W m q (i + j)) : Exact) /\
      (forall r, (0 <= r < j)%Z -> f r = (Fin (D (S m) (S q) (i + r)) : Exact)) /\
      (forall r, (j <= r <= k - jj + 1)%Z -> f r = (Fin (D m q (i + r)) : Exact)))
    0 (k - jj + 1) (obd_dinner zp (fin U) i k jj) (ndt f, Fin (W m q i) : Exact))
    as ([N sv] & E & g & EN & _ & Hg & _).
  - lia.
  - exists f; cbn [fst snd]; split; [reflexivity|]; split; [rewrite Z.add_0_r; reflexivity|].
    split; [intros; lia|]; intros r Hr; apply Hf; lia.
  - intros j [N sv] Hj (g & EN & Esv & H1 & H2); cbn [fst snd] in *; subst N sv.
    unfold obd_dinner; rewrite !aget_fin by lia; cbn [bind fst snd].
    rewrite aget_tab by lia; cbn [bind]; rewrite H2 by lia; rewrite eqb0.
    replace (i + (j + 1))%Z with (i + j + 1)%Z by lia.
    replace (i + j + zp - k + jj + 1)%Z with (i + j + 1 + Z.of_nat q + 1)%Z by lia.
    rewrite Eq, E_ofZ, <- INR_IZR_INZ.
    destruct (Reqb (D m q (i + j + 1)) 0) eqn:E.
    + apply Reqb_true in E; rewrite E_mul, aset_tab by lia; cbn [bind].
      eexists; split; [reflexivity|]; eexists; cbn [fst snd]; split; [reflexivity|].
      split; [rewrite W_zero by exact E; reflexivity|]; split.
      * intros r Hr; unfold fupd; destruct (Z.eqb_spec r j) as [->|]; [|apply H1; lia].
        rewrite D_S, (W_zero m q (i + j + 1)) by exact E; do 2 f_equal; ring.
      * intros r Hr; rewrite fupd_other by lia; apply H2; lia.
    + apply Reqb_false in E; pose proof (W_nz _ _ _ E) as EM; pose proof (D_nz _ _ _ E) as HW.
      rewrite !E_sub, E_div by lra; rewrite E_sub, E_mul by lra; rewrite aset_tab by lia; cbn [bind].
      eexists; split; [reflexivity|]; eexists; cbn [fst snd]; split; [reflexivity|].
      split; [rewrite <- EM; reflexivity|]; split.
      * intros r Hr; unfold fupd; destruct (Z.eqb_spec r j) as [->|]; [|apply H1; lia].
        rewrite D_S, <- EM; reflexivity.
      * intros r Hr; rewrite fupd_other by lia; apply H2; lia.
  - rewrite E; cbn [bind fst]; exists N; split; [reflexivity|].
    exists g; split; [exact EN|]; intros r Hr; rewrite Hg by lia.
    replace (Z.to_nat jj) with (S m) by lia; replace (Z.to_nat (zp - k + jj)) with (S q) by lia; reflexivity.
Qed.

Lemma obd_order_ok k N ND g : (1 <= k <= zp)%Z -> (k <= Z.of_nat nd)%Z -> obd_ok zp N ->
  exists ND', obd_order zp (fin U) i N k (ndt ND, ndt g) =
    Ok (ndt ND', ndt (fupd g k (Fin (D (Z.to_nat k) p i) : Exact))).
Proof.
  intros Hk Hnd (f & -> & Hf); unfold obd_order; cbn [fst snd].
  destruct (for_range_inv (fun j A => exists h, A = ndt h /\
      forall r, (0 <= r < j)%Z -> h r = (Fin (C (Z.to_nat (zp - k)) (i + r)) : Exact))
    0 (k + 1) (fun j ND => let* x := aget2 (tab2 (S p) (S p) f) j (zp - k) in aset ND j x) (ndt ND))
    as (A & EA & h & EA' & Hh).
  - lia.
  - exists ND; split; [reflexivity|intros; lia].
  - intros j A Hj (h & -> & Hh); rewrite aget2_tab2 by lia; cbn [bind]; rewrite aset_tab by lia.
    eexists; split; [reflexivity|]; eexists; split; [reflexivity|].
    intros r Hr; unfold fupd; destruct (Z.eqb_spec r j) as [->|]; [apply Hf; lia|apply Hh; lia].
  - rewrite EA; cbn [bind].
    destruct (for_range_inv (fun jj A => lev_ok k (jj - 1) A) 1 (k + 1) (obd_level zp (fin U) i k) A)
      as (A' & EA2 & h' & -> & Hh').
    + lia.
    + exists h; split; [exact EA'|]; intros j Hj; rewrite Hh by lia.
      replace (1 - 1)%Z with 0%Z by lia; rewrite Z.add_0_r; reflexivity.
    + intros jj A'' Hjj HA; destruct (obd_level_ok k jj A'' ltac:(lia) ltac:(lia) Hnd HA) as (A3 & E3 & H3).
      replace (jj + 1 - 1)%Z with jj by lia; eauto.
    + rewrite EA2; cbn [bind]; rewrite aget_tab by lia; cbn [bind]; rewrite aset_tab by lia; cbn [bind].
      exists h'; rewrite Hh' by lia; do 3 f_equal.
      replace (Z.to_nat (k + 1 - 1)) with (Z.to_nat k) by lia.
      replace (Z.to_nat (zp - k + (k + 1 - 1))) with p by lia; rewrite Z.add_0_r; reflexivity.
Qed.

Lemma obd_orders K N ND g : (0 <= K <= zp)%Z -> (K <= Z.of_nat nd)%Z -> obd_ok zp N ->
  exists ND', for_range 1 (K + 1) (obd_order zp (fin U) i N) (ndt ND, ndt g) =
    Ok (ndt ND', ndt (fun k => if ((1 <=? k) && (k <=? K))%Z then Fin (D (Z.to_nat k) p i) : Exact else g k)).
Proof.
  intros HK Hnd HN.
  destruct (for_range_inv (fun k st => exists ND', st = (ndt ND', ndt (fun c =>
      if ((1 <=? c) && (c <? k))%Z then Fin (D (Z.to_nat c) p i) : Exact else g c)))
    1 (K + 1) (obd_order zp (fin U) i N) (ndt ND, ndt g)) as (st & E & ND' & ->).
  - lia.
  - exists ND; f_equal; apply tab_ext; intros c Hc.
    destruct (Z.leb_spec 1 c); cbn [andb]; [|reflexivity]; destruct (Z.ltb_spec c 1); [lia|reflexivity].
  - intros k st Hk (ND' & ->).
    destruct (obd_order_ok k N ND' (fun c =>
      if ((1 <=? c) && (c <? k))%Z then Fin (D (Z.to_nat c) p i) : Exact else g c) ltac:(lia) ltac:(lia) HN) as (ND2 & E2).
    eexists; split; [exact E2|]; exists ND2; f_equal; apply tab_ext; intros c Hc; unfold fupd.
    destruct (Z.eqb_spec c k) as [->|].
    + destruct (Z.leb_spec 1 k); [|lia]; cbn [andb]; destruct (Z.ltb_spec k (k + 1)); [reflexivity|lia].
    + destruct (Z.leb_spec 1 c); cbn [andb]; [|reflexivity].
      destruct (Z.ltb_spec c k); destruct (Z.ltb_spec c (k + 1)); try lia; reflexivity.
  - exists ND'; rewrite E; do 2 f_equal; apply tab_ext; intros c Hc.
    destruct (Z.leb_spec 1 c); cbn [andb]; [|reflexivity].
    destruct (Z.ltb_spec c (K + 1)); destruct (Z.leb_spec c K); try lia; reflexivity.
Qed.

Lemma obd_outside_zero : u < kn U i \/ kn U (i + zp + 1) <= u ->
  one_basis_function_ders zp (fin U) i (Fin u : Exact) (Z.of_nat nd) = Ok (fin (repeat 0 (S nd))).
Proof.
  intros H; unfold one_basis_function_ders.
  rewrite (np_full_tab' _ (S nd)) by lia; cbn [bind]; rewrite aget_fin by lia; cbn [bind]; rewrite E_ltb.
  assert (E : ndt (fun _ => (0 : Exact)%num) = fin (repeat 0 (S nd))).
  { unfold fin; rewrite (repeat_tab 0 (S nd)), map_tab; reflexivity. }
  destruct (Rltb u (kn U i)) eqn:E1; cbn [bind]; [rewrite E; reflexivity|].
  rewrite aget_fin by lia; cbn [bind]; rewrite E_leb.
  apply Rltb_false in E1; replace (Rleb (kn U (i + zp + 1)) u) with true; [rewrite E; reflexivity|].
  symmetry; apply Rleb_true; lra.
Qed.

Lemma obd_inside : kn U i <= u < kn U (i + zp + 1) ->
  (nd <= p)%nat ->
  one_basis_function_ders zp (fin U) i (Fin u : Exact) (Z.of_nat nd)
  = Ok (ndt (fun k => Fin (D (Z.to_nat k) p i) : Exact)).
Proof.
  intros H Hnd; unfold one_basis_function_ders.
  rewrite (np_full_tab' _ (S nd)) by lia; cbn [bind]; rewrite aget_fin by lia; cbn [bind]; rewrite E_ltb.
  replace (Rltb u (kn U i)) with false by (symmetry; apply Rltb_false; lra).
  rewrite aget_fin by lia; cbn [bind]; rewrite E_leb.
  replace (Rleb (kn U (i + zp + 1)) u) with false by (symmetry; apply Rleb_false; lra).
  destruct obd_table as (N & E & HN).
  destruct (np_full2 (zp + 1) (zp + 1) (0 : Exact)%num) as [N0| |]; try discriminate; cbn [bind] in *.
  destruct (for_range 0 (zp + 1) _ N0) as [N1| |]; try discriminate; cbn [bind] in *.
  rewrite E; cbn [bind]; pose proof HN as (f & EN & Hf); rewrite EN at 1; rewrite aget2_tab2 by lia; cbn [bind].
  rewrite aset_tab by lia; cbn [bind].
  destruct (obd_orders (Z.of_nat nd) N (fun _ => (0 : Exact)%num) (fupd (fun _ => (0 : Exact)%num) 0 (f 0%Z zp))
    ltac:(lia) ltac:(lia) HN) as (ND' & E2).
  rewrite E2; cbn [bind snd]; f_equal; apply tab_ext; intros k Hk.
  destruct (Z.leb_spec 1 k); cbn [andb].
  - destruct (Z.leb_spec k (Z.of_nat nd)); [reflexivity|lia].
  - assert (k = 0)%Z as -> by lia; rewrite fupd_same, Hf by lia; cbn [Z.to_nat Dx]; rewrite Nat2Z.id, Z.add_0_r; reflexivity.
Qed.

(** An order above the degree indexes outside the table. *)
Lemma obd_order_above : kn U i <= u < kn U (i + zp + 1) -> (p < nd)%nat ->
  one_basis_function_ders zp (fin U) i (Fin u : Exact) (Z.of_nat nd) = Err IndexError.
Proof.
  intros H Hnd; unfold one_basis_function_ders.
  rewrite (np_full_tab' _ (S nd)) by lia; cbn [bind]; rewrite aget_fin by lia; cbn [bind]; rewrite E_ltb.
  replace (Rltb u (kn U i)) with false by (symmetry; apply Rltb_false; lra).
  rewrite aget_fin by lia; cbn [bind]; rewrite E_leb.
  replace (Rleb (kn U (i + zp + 1)) u) with false by (symmetry; apply Rleb_false; lra).
  destruct obd_table as (N & E & HN).
  destruct (np_full2 (zp + 1) (zp + 1) (0 : Exact)%num) as [N0| |]; try discriminate; cbn [bind] in *.
  destruct (for_range 0 (zp + 1) _ N0) as [N1| |]; try discriminate; cbn [bind] in *.
  rewrite E; cbn [bind]; pose proof HN as (f & EN & Hf); rewrite EN at 1; rewrite aget2_tab2 by lia; cbn [bind].
  rewrite aset_tab by lia; cbn [bind].
  rewrite (for_range_split 1 (zp + 1)) by lia.
  destruct (obd_orders zp N (fun _ => (0 : Exact)%num) (fupd (fun _ => (0 : Exact)%num) 0 (f 0%Z zp))
    ltac:(lia) ltac:(lia) HN) as (ND' & E2).
  rewrite E2; cbn [bind]; rewrite for_range_step by lia.
  replace (obd_order zp (fin U) i N (zp + 1) _) with (Err (A := list Exact * list Exact) IndexError); [reflexivity|].
  symmetry; unfold obd_order; cbn [fst snd].
  destruct (for_range_inv (fun _ A => exists h, A = ndt h) 0 (zp + 1)
    (fun j ND => let* x := aget2 N j (zp - (zp + 1)) in aset ND j x) (ndt ND')) as (A & EA & h & ->).
  - lia.
  - eauto.
  - intros j A Hj (h & ->); rewrite EN; unfold aget2, tab2; rewrite aget_tab by lia; cbn [bind].
    rewrite aget_tab_neg by lia; cbn [bind]; rewrite aset_tab by lia; eauto.
  - rewrite (for_range_split 0 (zp + 1)) by lia; rewrite EA; cbn [bind]; rewrite for_range_step by lia.
    rewrite EN; unfold aget2; rewrite aget_out; [reflexivity|]; right; unfold tab2; rewrite zlen_tab; lia.
Qed.
End OneDers.

Lemma hbase_delta U s u : nondecreasing U -> kn U s <= u < kn U (s + 1) -> forall j, hbase U u j = delta s j.
Proof.
  intros HU Hs j; unfold hbase; destruct (Z.eq_dec j s) as [->|Ne].
  - rewrite delta_same; destruct (Rle_dec _ _); [|lra]; destruct (Rlt_dec _ _); [reflexivity|lra].
  - rewrite delta_other by exact Ne.
    destruct (Rle_dec (kn U j) u); [|reflexivity]; destruct (Rlt_dec u (kn U (j + 1))); [|reflexivity].
    exfalso; destruct (Z_lt_dec j s).
    + pose proof (kn_mono U HU (j + 1) s ltac:(lia)); lra.
    + pose proof (kn_mono U HU (s + 1) j ltac:(lia)); lra.
Qed.

Lemma one_basis_ders_true U i u p nd :
  nondecreasing U -> (0 <= i)%Z -> (i + Z.of_nat p + 1 < len U)%Z -> (nd <= p)%nat ->
  kn U i <= u < kn U (i + Z.of_nat p + 1) ->
  exists s d, (i <= s <= i + Z.of_nat p)%Z /\ kn U s <= u < kn U (s + 1) /\
    one_basis_function_ders (Z.of_nat p) (fin U) i (Fin u : Exact) (Z.of_nat nd) = Ok (fin d) /\ length d = S nd /\
    nth 0 d 0 = bspline U p i u /\
    forall k, (k <= nd)%nat -> exists g, nth_derivative k (piece U s p i) g /\ nth k d 0 = g u.
Proof.
  intros HU Hi Hl Hnd Hu.
  pose proof (kn_mono U HU 0 i Hi) as M0.
  assert (ML : kn U (i + Z.of_nat p + 1) <= last U 0) by (rewrite <- kn_last; apply kn_mono; [exact HU|lia]).
  destruct (in_span_exists U u HU) as (s & _ & HI); [lra|lra|].
  assert (Hs : kn U s <= u < kn U (s + 1)) by (destruct HI as [HI|HI]; lra).
  exists s, (tab (S nd) (fun k => Dx (hbase U u) (kn U) (Z.to_nat k) p i u)).
  split; [split|]; [| |split; [exact Hs|split; [|split; [|split]]]].
  - apply Z.nlt_ge; intros L; pose proof (kn_mono U HU (s + 1) i ltac:(lia)); lra.
  - apply Z.nlt_ge; intros L; pose proof (kn_mono U HU (i + Z.of_nat p + 1) s ltac:(lia)); lra.
  - rewrite obd_inside by assumption; rewrite fin_tab_fun; reflexivity.
  - apply tab_length.
  - rewrite nth_tab by lia; cbn [Z.of_nat Z.to_nat Dx]; apply cox_ext; [|reflexivity].
    intros j _; apply hbase_base; lra.
  - intros k Hk; exists (Dx (delta s) (kn U) k p i); split.
    + apply (Dx_nth_derivative (delta s) (kn U) (kn_mono U HU)).
    + rewrite nth_tab by lia; rewrite Nat2Z.id; apply Dx_ext, hbase_delta; assumption.
Qed.
