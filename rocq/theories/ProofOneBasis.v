(** Lemmas about [one_basis_function] (model: ModelBasis.v). *)
From Verif Require Import Py PyLemmas Num ModelBasis Spec ProofNum MathCox MathKnots ProofSpan ProofBasis.
Open Scope R_scope.

(** Half-open degree-0 functions. *)
Definition hbase (U : list R) (u : R) (j : Z) : R :=
  if Rle_dec (kn U j) u then if Rlt_dec u (kn U (j + 1)) then 1 else 0 else 0.

Section OneBasis.
Variables (U : list R) (i : Z) (u : R) (p : nat).
Hypothesis HU : nondecreasing U.
Hypothesis Hi : (0 <= i)%Z.
Hypothesis Hlen : (i + Z.of_nat p + 1 < len U)%Z.

Notation C q j := (cox (hbase U u) (kn U) q j u).
Notation M q j := (Mx (hbase U u) (kn U) q j u).
Notation m := (Z.to_nat (i + Z.of_nat p + 1)).

Lemma hbase_nz j : hbase U u j <> 0 -> kn U j < kn U (j + 1).
Proof.
  unfold hbase; destruct (Rle_dec (kn U j) u); [|intros H; contradiction].
  destruct (Rlt_dec u (kn U (j + 1))); [lra|intros H; contradiction].
Qed.
Lemma zero_width q j : kn U (j + Z.of_nat q + 1) <= kn U j ->
  forall r, (j <= r <= j + Z.of_nat q)%Z -> hbase U u r = 0.
Proof.
  intros H r Hr; destruct (Req_EM_T (hbase U u r) 0) as [E|E]; [exact E|].
  apply hbase_nz in E.
  pose proof (kn_mono U HU j r ltac:(lia)).
  pose proof (kn_mono U HU (r + 1) (j + Z.of_nat q + 1) ltac:(lia)); lra.
Qed.
Lemma C_nz q j : C q j <> 0 -> kn U j < kn U (j + Z.of_nat q + 1).
Proof.
  intros H; destruct (Rlt_dec (kn U j) (kn U (j + Z.of_nat q + 1))) as [L|L]; [exact L|].
  exfalso; apply H, cox_zero, zero_width; lra.
Qed.
Lemma M_zero q j : C q j = 0 -> M q j = 0.
Proof. intros H; unfold Mx; rewrite H; apply sdiv_0_l. Qed.
Lemma M_nz q j : C q j <> 0 -> M q j = C q j / (kn U (j + Z.of_nat q + 1) - kn U j).
Proof. intros H; apply C_nz in H; unfold Mx; apply sdiv_nz; lra. Qed.

Lemma in_half_open_fin j : (0 <= j)%Z -> (j + 1 < len U)%Z ->
  in_half_open (fin U) (Fin u : Exact) j = Ok (if Req_EM_T (hbase U u j) 1 then true else false).
Proof.
  intros H1 H2; unfold in_half_open; rewrite aget_fin by lia; cbn [bind]; rewrite E_leb.
  unfold Rleb, hbase; destruct (Rle_dec (kn U j) u); [|destruct (Req_EM_T 0 1); [lra|reflexivity]].
  rewrite aget_fin by lia; cbn [bind]; rewrite E_ltb; unfold Rltb.
  destruct (Rlt_dec u (kn U (j + 1))); [destruct (Req_EM_T 1 1); [reflexivity|contradiction]|].
  destruct (Req_EM_T 0 1); [lra|reflexivity].
Qed.
Lemma hbase_01 j : hbase U u j = 0 \/ hbase U u j = 1.
Proof. unfold hbase; destruct (Rle_dec _ _); auto; destruct (Rlt_dec _ _); auto. Qed.

Definition ob_ok (q : nat) (N : list Exact) : Prop :=
  exists f, N = tab m f /\ forall j, (0 <= j <= Z.of_nat p - Z.of_nat q)%Z -> f j = Fin (C q (i + j)).

Lemma ob_base :
  exists N, for_range 0 (Z.of_nat p + 1) (fun j N =>
      let* b := in_half_open (fin U) (Fin u : Exact) (i + j) in
      if b then aset N j (1 : Exact)%num else Ok N) (tab m (fun _ => (0 : Exact)%num)) = Ok N /\ ob_ok 0 N.
Proof.
  destruct (for_range_inv (fun k N => exists f, N = tab m f /\
      forall j, (0 <= j <= Z.of_nat p)%Z -> f j = (Fin (if (j <? k)%Z then hbase U u (i + j) else 0) : Exact))
    0 (Z.of_nat p + 1) (fun j N =>
      let* b := in_half_open (fin U) (Fin u : Exact) (i + j) in
      if b then aset N j (1 : Exact)%num else Ok N) (tab m (fun _ => (0 : Exact)%num)))
    as (N & E & f & EN & Hf).
  - lia.
  - exists (fun _ => (0 : Exact)%num); split; [reflexivity|].
    intros j Hj; destruct (Z.ltb_spec j 0); [lia|reflexivity].
  - intros k N Hk (f & -> & Hf); rewrite in_half_open_fin by lia; cbn [bind].
    destruct (Req_EM_T (hbase U u (i + k)) 1) as [E|E].
    + rewrite aset_tab by lia; eexists; split; [reflexivity|]; eexists; split; [reflexivity|].
      intros j Hj; unfold fupd; destruct (Z.eqb_spec j k) as [->|].
      * destruct (Z.ltb_spec k (k + 1)); [|lia]; rewrite E; reflexivity.
      * rewrite Hf by lia; destruct (Z.ltb_spec j k); destruct (Z.ltb_spec j (k + 1)); try lia; reflexivity.
    + eexists; split; [reflexivity|]; exists f; split; [reflexivity|].
      intros j Hj; rewrite Hf by lia; destruct (Z.ltb_spec j k); destruct (Z.ltb_spec j (k + 1)); try lia; try reflexivity.
      replace j with k by lia; destruct (hbase_01 (i + k)) as [->|E']; [reflexivity|contradiction].
  - exists N; split; [exact E|]; exists f; split; [exact EN|].
    intros j Hj; rewrite Hf by lia; destruct (Z.ltb_spec j (Z.of_nat p + 1)); [reflexivity|lia].
Qed.

Lemma eqb0 x : neqb (Fin x : Exact) (0 : Exact)%num = Reqb x 0.
Proof. reflexivity. Qed.

Lemma ob_round_ok q N : (S q <= p)%nat -> ob_ok q N ->
  exists N', ob_round (Z.of_nat p) (fin U) i (Fin u : Exact) (Z.of_nat (S q)) N = Ok N' /\ ob_ok (S q) N'.
Proof.
  intros Hq (f & -> & Hf); unfold ob_round.
  rewrite aget_tab by lia; cbn [bind].
  assert (F0 : f 0%Z = Fin (C q i)) by (rewrite Hf by lia; do 2 f_equal; lia).
  rewrite F0, eqb0.
  assert (ES : (if negb (Reqb (C q i) 0)
     then let* ui := aget (fin U) i in let* uk := aget (fin U) (i + Z.of_nat (S q)) in
          Ok (((Fin u : Exact) - ui) * (Fin (C q i) : Exact) / (uk - ui))%num
     else Ok (0 : Exact)%num) = Ok (Fin ((u - kn U i) * M q i) : Exact)).
  { destruct (Reqb (C q i) 0) eqn:E; cbn [negb].
    - apply Reqb_true in E; rewrite M_zero by exact E; rewrite Rmult_0_r; reflexivity.
    - apply Reqb_false in E; rewrite !aget_fin by lia; cbn [bind].
      rewrite M_nz by exact E; apply C_nz in E.
      replace (i + Z.of_nat q + 1)%Z with (i + Z.of_nat (S q))%Z in * by lia.
      rewrite !E_sub, E_mul, E_div by lra; do 2 f_equal; field; lra. }
  rewrite ES; cbn [bind].
  destruct (for_range_inv (fun j st => exists f, fst st = tab m f /\
      snd st = (Fin ((u - kn U (i + j)) * M q (i + j)) : Exact) /\
      (forall r, (0 <= r < j)%Z -> f r = (Fin (C (S q) (i + r)) : Exact)) /\
      (forall r, (j <= r <= Z.of_nat p - Z.of_nat q)%Z -> f r = (Fin (C q (i + r)) : Exact)))
    0 (Z.of_nat p - Z.of_nat (S q) + 1) (ob_inner (fin U) i (Fin u : Exact) (Z.of_nat (S q)))
    (tab m f, Fin ((u - kn U i) * M q i) : Exact)) as ([N sv] & E & g & EN & _ & Hg & _).
  - lia.
  - exists f; cbn [fst snd]; split; [reflexivity|]; split; [rewrite Z.add_0_r; reflexivity|].
    split; [intros; lia|]; intros r Hr; apply Hf; lia.
  - intros j [N sv] Hj (g & EN & Esv & H1 & H2); cbn [fst snd] in *; subst N sv.
    unfold ob_inner; rewrite !aget_fin by lia; cbn [bind fst snd].
    rewrite aget_tab by lia; cbn [bind]; rewrite H2 by lia; rewrite eqb0.
    replace (i + (j + 1))%Z with (i + j + 1)%Z by lia.
    destruct (Reqb (C q (i + j + 1)) 0) eqn:E.
    + apply Reqb_true in E; rewrite aset_tab by lia; cbn [bind].
      eexists; split; [reflexivity|]; eexists; cbn [fst snd]; split; [reflexivity|].
      split; [rewrite M_zero by exact E; rewrite Rmult_0_r; reflexivity|]; split.
      * intros r Hr; unfold fupd; destruct (Z.eqb_spec r j) as [->|]; [|apply H1; lia].
        rewrite cox_S, (M_zero q (i + j + 1)) by exact E; f_equal; ring.
      * intros r Hr; rewrite fupd_other by lia; apply H2; lia.
    + apply Reqb_false in E; pose proof (M_nz _ _ E) as EM; pose proof (C_nz _ _ E) as HW.
      replace (i + j + 1 + Z.of_nat q + 1)%Z with (i + j + Z.of_nat (S q) + 1)%Z in * by lia.
      rewrite !E_sub, E_div, !E_mul, E_add by lra; rewrite aset_tab by lia; cbn [bind].
      eexists; split; [reflexivity|]; eexists; cbn [fst snd]; split; [reflexivity|].
      split; [rewrite <- EM; reflexivity|]; split.
      * intros r Hr; unfold fupd; destruct (Z.eqb_spec r j) as [->|]; [|apply H1; lia].
        rewrite cox_S, <- EM; do 3 f_equal.
        do 2 f_equal; lia.
      * intros r Hr; rewrite fupd_other by lia; apply H2; lia.
  - rewrite E; cbn [bind fst]; exists N; split; [reflexivity|].
    exists g; split; [exact EN|]; intros r Hr; apply Hg; lia.
Qed.

Lemma one_basis_inner :
  (let* N := np_full (i + Z.of_nat p + 1) (0 : Exact)%num in
   let* N := for_range 0 (Z.of_nat p + 1) (fun j N =>
      let* b := in_half_open (fin U) (Fin u : Exact) (i + j) in
      if b then aset N j (1 : Exact)%num else Ok N) N in
   let* N := for_range 1 (Z.of_nat p + 1) (ob_round (Z.of_nat p) (fin U) i (Fin u : Exact)) N in
   aget N 0) = Ok (Fin (C p i)).
Proof.
  rewrite (np_full_tab' _ m) by lia; cbn [bind].
  destruct ob_base as (N0 & E0 & H0); rewrite E0; cbn [bind].
  destruct (for_range_inv (fun k N => ob_ok (Z.to_nat (k - 1)) N) 1 (Z.of_nat p + 1)
    (ob_round (Z.of_nat p) (fin U) i (Fin u : Exact)) N0) as (N & E & HN).
  - lia.
  - exact H0.
  - intros k N Hk HN; destruct (ob_round_ok (Z.to_nat (k - 1)) N ltac:(lia) HN) as (N' & E' & H').
    replace (Z.of_nat (S (Z.to_nat (k - 1)))) with k in E' by lia.
    replace (S (Z.to_nat (k - 1))) with (Z.to_nat (k + 1 - 1)) in H' by lia; eauto.
  - rewrite E; cbn [bind]; destruct HN as (f & -> & Hf); rewrite aget_tab by lia.
    rewrite Hf by lia; replace (Z.to_nat (Z.of_nat p + 1 - 1)) with p by lia; rewrite Z.add_0_r; reflexivity.
Qed.
End OneBasis.

(** Strictly clamped: the end knots have multiplicity exactly p+1. *)
Section Clamped.
Variables (U : list R) (p : nat) (n : Z) (u : R).
Hypothesis HC : clamped (Z.of_nat p) n U.

Lemma hbase_base j : u < last U 0 -> hbase U u j = base U u j.
Proof.
  intros Hu; unfold hbase, base.
  destruct (Rle_dec (kn U j) u); [|reflexivity].
  destruct (Rlt_dec u (kn U (j + 1))); [reflexivity|].
  destruct (Rlt_dec (kn U j) (kn U (j + 1))); [|reflexivity].
  destruct (Req_EM_T u (kn U (j + 1))); [|reflexivity].
  destruct (Req_EM_T u (last U 0)); [lra|reflexivity].
Qed.
Lemma hbase_end j : nondecreasing U -> last U 0 <= u -> hbase U u j = 0.
Proof.
  intros HU Hu; unfold hbase.
  destruct (Rle_dec (kn U j) u); [|reflexivity].
  destruct (Rlt_dec u (kn U (j + 1))) as [L|]; [|reflexivity]; exfalso.
  assert (kn U (j + 1) <= last U 0).
  { destruct (Z_le_dec (j + 1) (len U - 1)); [rewrite <- kn_last; apply kn_mono; [exact HU|lia]|].
    rewrite kn_big by lia; lra. }
  lra.
Qed.

Lemma bspline_first : kn U (Z.of_nat p) < kn U (Z.of_nat p + 1) ->
  bspline U p 0 (kn U 0) = 1.
Proof.
  intros Hlt; destruct (clamped_facts _ _ _ HC) as (_ & Hn & HL & HU & Hl & _ & HE & H0 & _).
  assert (HI : in_span U (Z.of_nat p) (kn U 0)) by (left; rewrite H0; lra).
  rewrite (bspline_piece U _ _ HU HI).
  rewrite (piece_start U (Z.of_nat p) p _ Hlt); [|intros j Hj; apply Hl; lia|exact H0].
  replace (Z.of_nat p - Z.of_nat p)%Z with 0%Z by lia; apply delta_same.
Qed.
Lemma bspline_end j : kn U (n - 1) < kn U n -> bspline U p j (last U 0) = delta (n - 1) j.
Proof.
  intros Hlt; destruct (clamped_facts _ _ _ HC) as (_ & Hn & HL & HU & _ & Hr & HE & H0 & _).
  assert (En : (n - 1 + 1 = n)%Z) by lia.
  assert (HI : in_span U (n - 1) (last U 0)) by (right; rewrite En, HE; lra).
  rewrite (bspline_piece U _ _ HU HI).
  apply (piece_end U (n - 1) p); rewrite ?En; [exact Hlt| |exact HE].
  intros k Hk; apply Hr; lia.
Qed.

Lemma one_basis_function_bspline i : (0 <= i < n)%Z ->
  kn U (Z.of_nat p) < kn U (Z.of_nat p + 1) -> kn U (n - 1) < kn U n ->
  one_basis_function (Z.of_nat p) (fin U) i (Fin u : Exact) = Ok (Fin (bspline U p i u)).
Proof.
  intros Hi Hfirst Hlast.
  destruct (clamped_facts _ _ _ HC) as (_ & Hn & HL & HU & Hl & Hr & HE & H0 & Hlt).
  unfold one_basis_function.
  assert (ES : ob_special (Z.of_nat p) (fin U) i (Fin u : Exact) = Ok (if Req_EM_T u (kn U 0) then if (i =? 0)%Z then true
                                else if Req_EM_T u (last U 0) then (i =? n - 1)%Z else false
                             else if Req_EM_T u (last U 0) then (i =? n - 1)%Z else false)).
  { unfold ob_special; rewrite zlen_fin, HL.
    replace (n + Z.of_nat p + 1 - Z.of_nat p - 2)%Z with (n - 1)%Z by lia.
    destruct (Z.eqb_spec i 0).
    - rewrite aget_fin by lia; cbn [bind]; rewrite E_eqb; unfold Reqb.
      destruct (Req_EM_T u (kn U 0)); [reflexivity|].
      destruct (Z.eqb_spec i (n - 1)).
      + rewrite aget_fin by lia; cbn [bind]; rewrite E_eqb; unfold Reqb.
        replace (n + Z.of_nat p + 1 - 1)%Z with (len U - 1)%Z by lia; rewrite kn_last.
        destruct (Req_EM_T u (last U 0)); reflexivity.
      + destruct (Req_EM_T u (last U 0)); reflexivity.
    - cbn [bind]; destruct (Z.eqb_spec i (n - 1)).
      + rewrite aget_fin by lia; cbn [bind]; rewrite E_eqb; unfold Reqb.
        replace (n + Z.of_nat p + 1 - 1)%Z with (len U - 1)%Z by lia; rewrite kn_last.
        destruct (Req_EM_T u (kn U 0)); destruct (Req_EM_T u (last U 0)); reflexivity.
      + destruct (Req_EM_T u (kn U 0)); destruct (Req_EM_T u (last U 0)); reflexivity. }
  rewrite ES; clear ES; cbn [bind].
  match goal with |- (if ?b then _ else _) = _ => destruct b eqn:Eb end.
  - rewrite E_ofZ; do 2 f_equal; symmetry.
    assert (D : (u = kn U 0 /\ i = 0%Z) \/ (u = last U 0 /\ i = (n - 1)%Z)).
    { destruct (Req_EM_T u (kn U 0)); destruct (Z.eqb_spec i 0); auto;
        destruct (Req_EM_T u (last U 0)); try discriminate; right; split; auto; apply Z.eqb_eq; exact Eb. }
    destruct D as [[-> ->]|[-> ->]]; [apply bspline_first; exact Hfirst|].
    rewrite bspline_end by exact Hlast; apply delta_same.
  - unfold ob_outside; rewrite aget_fin by lia; cbn [bind]; rewrite E_ltb.
    destruct (Rltb u (kn U i)) eqn:E1; cbn [bind].
    + apply Rltb_true in E1; rewrite bspline_support by auto; reflexivity.
    + rewrite aget_fin by lia; cbn [bind]; rewrite E_ltb.
      destruct (Rltb (kn U (i + Z.of_nat p + 1)) u) eqn:E2.
      * apply Rltb_true in E2; rewrite bspline_support by auto; reflexivity.
      * apply Rltb_false in E1, E2.
        rewrite one_basis_inner by (try assumption; lia); do 2 f_equal.
        destruct (Rlt_dec u (last U 0)) as [L|L].
        { apply cox_ext; [|reflexivity]; intros j _; apply hbase_base; exact L. }
        assert (kn U (i + Z.of_nat p + 1) <= last U 0).
        { destruct (Z_le_dec (i + Z.of_nat p + 1) (len U - 1)); [rewrite <- kn_last; apply kn_mono; [exact HU|lia]|].
          rewrite kn_big by lia; lra. }
        assert (Eu : u = last U 0) by lra.
        rewrite cox_zero by (intros j _; apply hbase_end; [exact HU|lra]).
        rewrite Eu, bspline_end by exact Hlast; symmetry; apply delta_other; intros En.
        rewrite Eu in Eb; destruct (Req_EM_T (last U 0) (last U 0)); [|contradiction].
        rewrite (proj2 (Z.eqb_eq i (n - 1)) En) in Eb.
        destruct (Req_EM_T _ _) in Eb; [destruct (Z.eqb i 0) in Eb|]; discriminate.
Qed.
End Clamped.
