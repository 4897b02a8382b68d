(** Lemmas about [basis_functions] (model: ModelBasis.v). *)
From Verif Require Import Py PyLemmas Num ModelBasis Spec ProofNum MathCox MathKnots ProofSpan.
Open Scope R_scope.

Lemma fin_tab_fun n (g : Z -> R) : fin (tab n g) = tab n (fun i => Fin (g i) : Exact).
Proof. unfold fin; apply map_tab. Qed.

Section BasisFunctions.
Variables (U : list R) (s : Z) (u : R) (p : nat).
Hypothesis HU : nondecreasing U.
Hypothesis Hs : kn U s < kn U (s + 1).
Hypothesis Hlo : (Z.of_nat p - 1 <= s)%Z.
Hypothesis Hhi : (s + Z.of_nat p < len U)%Z.

Notation N q i := (cox (delta s) (kn U) q i u).
Notation M q i := (Mx (delta s) (kn U) q i u).

Lemma span_width_kn q i : (s - Z.of_nat q <= i <= s)%Z ->
  0 < kn U (i + Z.of_nat q + 1) - kn U i.
Proof.
  intros Hi.
  pose proof (kn_mono U HU i s ltac:(lia)).
  pose proof (kn_mono U HU (s + 1) (i + Z.of_nat q + 1) ltac:(lia)); lra.
Qed.
Lemma M_out q i : (i < s - Z.of_nat q \/ s < i)%Z -> M q i = 0.
Proof. intros H; unfold Mx; rewrite cox_support by exact H; apply sdiv_0_l. Qed.

(** State after [j] rounds. *)
Definition bfN (q : nat) : Z -> Exact :=
  fun r => if (r <=? Z.of_nat q)%Z then Fin (N q (s - Z.of_nat q + r)) else Fin 1.
Definition bfL (q : nat) : Z -> Exact :=
  fun r => if ((1 <=? r) && (r <=? Z.of_nat q))%Z then Fin (u - kn U (s + 1 - r)) else Fin 0.
Definition bfR (q : nat) : Z -> Exact :=
  fun r => if ((1 <=? r) && (r <=? Z.of_nat q))%Z then Fin (kn U (s + r) - u) else Fin 0.

(** Inside round [q+1], before step [r]. *)
Definition bfNi (q : nat) (r : Z) : Z -> Exact :=
  fun i => if (i <? r)%Z then Fin (N (S q) (s - Z.of_nat (S q) + i)) else bfN q i.

Lemma bf_inner_step q r : (S q <= p)%nat -> (0 <= r < Z.of_nat (S q))%Z ->
  bf_inner (tab (S p) (bfL (S q))) (tab (S p) (bfR (S q))) (Z.of_nat (S q)) r
    (tab (S p) (bfNi q r), Fin ((u - kn U (s - Z.of_nat (S q) + r)) * M q (s - Z.of_nat (S q) + r)))
  = Ok (tab (S p) (bfNi q (r + 1)),
        Fin ((u - kn U (s - Z.of_nat (S q) + (r + 1))) * M q (s - Z.of_nat (S q) + (r + 1)))).
Proof.
  intros Hq Hr; unfold bf_inner; cbn [fst snd].
  rewrite !aget_tab by lia; cbn [bind].
  set (i := (s - Z.of_nat q + r)%Z).
  pose proof (span_width_kn q i ltac:(lia)) as HW.
  assert (V1 : bfNi q r r = Fin (N q i)).
  { unfold bfNi, bfN; destruct (Z.ltb_spec r r); [lia|].
    destruct (Z.leb_spec r (Z.of_nat q)); [reflexivity|lia]. }
  assert (V2 : bfR (S q) (r + 1) = Fin (kn U (i + Z.of_nat q + 1) - u)).
  { unfold bfR; destruct (Z.leb_spec 1 (r + 1)); [|lia].
    destruct (Z.leb_spec (r + 1) (Z.of_nat (S q))); [|lia]; cbn [andb].
    do 3 f_equal; lia. }
  assert (V3 : bfL (S q) (Z.of_nat (S q) - r) = Fin (u - kn U i)).
  { unfold bfL; destruct (Z.leb_spec 1 (Z.of_nat (S q) - r)); [|lia].
    destruct (Z.leb_spec (Z.of_nat (S q) - r) (Z.of_nat (S q))); [|lia]; cbn [andb].
    do 3 f_equal; lia. }
  rewrite V1, V2, V3, E_add, E_div by lra.
  rewrite !E_mul, !E_add, aset_tab by lia; cbn [bind].
  assert (EM : N q i / (kn U (i + Z.of_nat q + 1) - u + (u - kn U i)) = M q i).
  { unfold Mx; rewrite sdiv_nz by lra; f_equal; ring. }
  rewrite EM.
  replace (s - Z.of_nat (S q) + (r + 1))%Z with i by lia.
  f_equal; f_equal.
  apply tab_ext; intros j Hj; unfold fupd, bfNi.
  destruct (Z.eqb_spec j r) as [->|].
  - destruct (Z.ltb_spec r (r + 1)); [|lia].
    rewrite cox_S; f_equal; f_equal.
    replace (s - Z.of_nat (S q) + r + Z.of_nat q + 2)%Z with (i + Z.of_nat q + 1)%Z by lia.
    replace (s - Z.of_nat (S q) + r + 1)%Z with i by lia; reflexivity.
  - destruct (Z.ltb_spec j r); destruct (Z.ltb_spec j (r + 1)); try lia; reflexivity.
Qed.

Lemma bf_round_step q : (S q <= p)%nat ->
  bf_round s (Fin u : Exact) (fin U) (Z.of_nat (S q)) (tab (S p) (bfN q), tab (S p) (bfL q), tab (S p) (bfR q))
  = Ok (tab (S p) (bfN (S q)), tab (S p) (bfL (S q)), tab (S p) (bfR (S q))).
Proof.
  intros Hq; unfold bf_round.
  rewrite aget_fin by lia; cbn [bind]; rewrite aset_tab by lia; cbn [bind].
  rewrite aget_fin by lia; cbn [bind]; rewrite aset_tab by lia; cbn [bind].
  rewrite !E_sub.
  replace (tab (S p) (fupd (bfL q) (Z.of_nat (S q)) (Fin (u - kn U (s + 1 - Z.of_nat (S q))) : Exact)))
    with (tab (S p) (bfL (S q))).
  2:{ apply tab_ext; intros j Hj; unfold fupd, bfL; destruct (Z.eqb_spec j (Z.of_nat (S q))) as [->|].
      - destruct (Z.leb_spec 1 (Z.of_nat (S q))); [|lia].
        destruct (Z.leb_spec (Z.of_nat (S q)) (Z.of_nat (S q))); [reflexivity|lia].
      - destruct (Z.leb_spec j (Z.of_nat (S q))); destruct (Z.leb_spec j (Z.of_nat q)); try lia; reflexivity. }
  replace (tab (S p) (fupd (bfR q) (Z.of_nat (S q)) (Fin (kn U (s + Z.of_nat (S q)) - u) : Exact)))
    with (tab (S p) (bfR (S q))).
  2:{ apply tab_ext; intros j Hj; unfold fupd, bfR; destruct (Z.eqb_spec j (Z.of_nat (S q))) as [->|].
      - destruct (Z.leb_spec 1 (Z.of_nat (S q))); [|lia].
        destruct (Z.leb_spec (Z.of_nat (S q)) (Z.of_nat (S q))); [reflexivity|lia].
      - destruct (Z.leb_spec j (Z.of_nat (S q))); destruct (Z.leb_spec j (Z.of_nat q)); try lia; reflexivity. }
  rewrite (for_range_fun (fun r => (tab (S p) (bfNi q r) : list Exact,
     Fin ((u - kn U (s - Z.of_nat (S q) + r)) * M q (s - Z.of_nat (S q) + r)) : Exact))).
  - cbn [bind fst snd]; rewrite aset_tab by lia; cbn [bind].
    f_equal; f_equal; f_equal; apply tab_ext; intros j Hj; unfold fupd, bfNi, bfN.
    destruct (Z.eqb_spec j (Z.of_nat (S q))) as [->|].
    + destruct (Z.leb_spec (Z.of_nat (S q)) (Z.of_nat (S q))); [|lia].
      rewrite cox_S, (M_out q (_ + 1)) by lia; f_equal; ring.
    + destruct (Z.ltb_spec j (Z.of_nat (S q))).
      * destruct (Z.leb_spec j (Z.of_nat (S q))); [reflexivity|lia].
      * destruct (Z.leb_spec j (Z.of_nat (S q))); [lia|].
        destruct (Z.leb_spec j (Z.of_nat q)); [lia|reflexivity].
  - lia.
  - f_equal.
    + apply tab_ext; intros j Hj; unfold bfNi; destruct (Z.ltb_spec j 0); [lia|reflexivity].
    + rewrite (M_out q) by lia; rewrite Rmult_0_r; reflexivity.
  - intros r Hr; apply bf_inner_step; assumption.
Qed.

Lemma basis_functions_cox :
  basis_functions s (Fin u : Exact) (Z.of_nat p) (fin U)
  = Ok (tab (S p) (fun r => Fin (N p (s - Z.of_nat p + r)))).
Proof.
  unfold basis_functions.
  rewrite !(np_full_tab' _ (S p)) by lia; cbn [bind].
  rewrite (for_range_fun (fun j => (tab (S p) (bfN (Z.to_nat (j - 1))), tab (S p) (bfL (Z.to_nat (j - 1))),
                                   tab (S p) (bfR (Z.to_nat (j - 1)))))).
  - cbn [bind fst]; replace (Z.to_nat (Z.of_nat p + 1 - 1)) with p by lia; f_equal.
    apply tab_ext; intros j Hj; unfold bfN; destruct (Z.leb_spec j (Z.of_nat p)); [reflexivity|lia].
  - lia.
  - cbn [Z.sub Z.to_nat Z.add Z.opp Z.pos_sub]; f_equal; [f_equal|]; apply tab_ext; intros j Hj.
    + unfold bfN; destruct (Z.leb_spec j (Z.of_nat 0)); [|reflexivity].
      assert (j = 0)%Z as -> by lia; cbn [cox]; replace (s - Z.of_nat 0 + 0)%Z with s by lia.
      rewrite delta_same; reflexivity.
    + unfold bfL; destruct (Z.leb_spec 1 j); destruct (Z.leb_spec j (Z.of_nat 0)); try lia; reflexivity.
    + unfold bfR; destruct (Z.leb_spec 1 j); destruct (Z.leb_spec j (Z.of_nat 0)); try lia; reflexivity.
  - intros j Hj; replace (Z.to_nat (j + 1 - 1)) with (S (Z.to_nat (j - 1))) by lia.
    replace j with (Z.of_nat (S (Z.to_nat (j - 1)))) at 1 by lia.
    apply bf_round_step; lia.
Qed.
End BasisFunctions.

Lemma piece_cox U s p i u : piece U s p i u = cox (delta s) (kn U) p i u.
Proof. reflexivity. Qed.

(** The vector of the p+1 pieces on span s. *)
Definition pieces (U : list R) (s : Z) (p : nat) (u : R) : list R :=
  tab (S p) (fun r => piece U s p (s - Z.of_nat p + r) u).

Lemma basis_functions_pieces U s u p : nondecreasing U -> kn U s < kn U (s + 1) ->
  (Z.of_nat p - 1 <= s)%Z -> (s + Z.of_nat p < len U)%Z ->
  basis_functions s (Fin u : Exact) (Z.of_nat p) (fin U) = Ok (fin (pieces U s p u)).
Proof.
  intros; rewrite basis_functions_cox by assumption; unfold pieces; rewrite fin_tab_fun; reflexivity.
Qed.

Lemma fold_right_tab n (f : Z -> R) : fold_right Rplus 0 (tab n f) = zsum 0 n f.
Proof.
  revert f; induction n as [|n IH]; intros f; [reflexivity|].
  rewrite tab_cons, zsum_first; cbn [fold_right]; rewrite IH.
  replace 1%Z with (0 + 1)%Z at 2 by lia; rewrite zsum_shift; reflexivity.
Qed.

Lemma Forall_tab {A} (P : A -> Prop) n f :
  (forall i, (0 <= i < Z.of_nat n)%Z -> P (f i)) -> Forall P (tab n f).
Proof.
  intros H; apply Forall_forall; intros x Hx; unfold tab in Hx; apply in_map_iff in Hx.
  destruct Hx as (k & <- & Hk); apply in_seq in Hk; apply H; lia.
Qed.

Lemma pieces_sum U s p u : nondecreasing U -> kn U s < kn U (s + 1) ->
  fold_right Rplus 0 (pieces U s p u) = 1.
Proof.
  intros HU Hs; unfold pieces; rewrite fold_right_tab.
  rewrite <- (piece_unity U s p u HU Hs).
  replace (s - Z.of_nat p)%Z with (0 + (s - Z.of_nat p))%Z by lia; rewrite zsum_shift.
  apply zsum_ext; intros i _; f_equal; lia.
Qed.
Lemma pieces_range U s p u : nondecreasing U -> kn U s < kn U (s + 1) ->
  kn U s <= u <= kn U (s + 1) -> Forall (fun x => 0 <= x <= 1) (pieces U s p u).
Proof.
  intros HU Hs Hu; apply Forall_tab; intros i _; split;
    [apply piece_nonneg|apply piece_le_1]; assumption.
Qed.

Lemma pieces_start p n U s : clamped (Z.of_nat p) n U -> in_span U s (kn U (Z.of_nat p)) ->
  pieces U s p (kn U (Z.of_nat p)) = 1 :: repeat 0 p.
Proof.
  intros HC HI; destruct (clamped_facts _ _ U HC) as (_ & H2 & _ & HU & Hl & Hr & HL & H0 & Hlt).
  pose proof (clamped_span_range _ _ U s _ HC HI) as Hs.
  pose proof (kn_mono U HU (Z.of_nat p) s ltac:(lia)) as M1.
  assert (Es : kn U (Z.of_nat p) = kn U s) by (apply in_span_closed in HI; lra).
  unfold pieces; rewrite repeat_tab, tab_cons; f_equal.
  - rewrite piece_start; [|eapply in_span_width; exact HI| |exact Es].
    + rewrite Z.add_0_r; apply delta_same.
    + intros j Hj; destruct (Z_le_dec j (Z.of_nat p)); [rewrite Hl by assumption; exact Es|].
      pose proof (kn_mono U HU (Z.of_nat p) j ltac:(lia)); pose proof (kn_mono U HU j s ltac:(lia)); lra.
  - apply tab_ext; intros i Hi.
    rewrite piece_start; [|eapply in_span_width; exact HI| |exact Es].
    + apply delta_other; lia.
    + intros j Hj; destruct (Z_le_dec j (Z.of_nat p)); [rewrite Hl by assumption; exact Es|].
      pose proof (kn_mono U HU (Z.of_nat p) j ltac:(lia)); pose proof (kn_mono U HU j s ltac:(lia)); lra.
Qed.
Lemma pieces_end p n U s : clamped (Z.of_nat p) n U -> in_span U s (kn U n) ->
  pieces U s p (kn U n) = repeat 0 p ++ [1].
Proof.
  intros HC HI; destruct (clamped_facts _ _ U HC) as (_ & H2 & _ & HU & Hl & Hr & HL & H0 & Hlt).
  pose proof (clamped_span_range _ _ U s _ HC HI) as Hs.
  pose proof (kn_mono U HU (s + 1) n ltac:(lia)) as M1.
  assert (Es : kn U n = kn U (s + 1)) by (destruct HI as [H|H]; lra).
  assert (HE : forall i, piece U s p i (kn U n) = delta s i).
  { apply piece_end; [eapply in_span_width; exact HI| |exact Es].
    intros j Hj; destruct (Z_le_dec n j); [rewrite Hr by assumption; exact Es|].
    pose proof (kn_mono U HU (s + 1) j ltac:(lia)); pose proof (kn_mono U HU j n ltac:(lia)); lra. }
  unfold pieces; rewrite repeat_tab, tab_S; f_equal.
  - apply tab_ext; intros i Hi; rewrite HE; apply delta_other; lia.
  - rewrite HE; f_equal; replace (s - Z.of_nat p + Z.of_nat p)%Z with s by lia; apply delta_same.
Qed.

(** ** The empty span *)
Section Empty.
Variables (U : list R) (s : Z) (u : R) (p : nat).
Hypothesis Hu : kn U s = u.
Hypothesis Hu1 : kn U (s + 1) = u.
Hypothesis Hp : (1 <= p)%nat.
Hypothesis Hlo : (Z.of_nat p - 1 <= s)%Z.
Hypothesis Hhi : (s + Z.of_nat p < len U)%Z.

Lemma nan_div (x : Exact) : ndiv (NaN : Exact) x = NaN.
Proof. destruct x; reflexivity. Qed.
Lemma nan_mul (x : Exact) : nmul x (NaN : Exact) = NaN.
Proof. destruct x; reflexivity. Qed.
Lemma nan_add (x : Exact) : nadd x (NaN : Exact) = NaN.
Proof. destruct x; reflexivity. Qed.

Definition nanN (q : Z) : Z -> Exact := fun r => if (r <=? q)%Z then NaN else Fin 1.

(** Once the first [q+1] entries are NaN, the next round makes the first [q+2] NaN. *)
Lemma nan_inner (L R : Z -> Exact) (j : Z) (r : Z) (f : Z -> Exact) saved :
  (1 <= j <= Z.of_nat p)%Z -> (0 <= r < j)%Z -> f r = NaN ->
  exists w, bf_inner (tab (S p) L) (tab (S p) R) j r (tab (S p) f, saved) = Ok (tab (S p) (fupd f r NaN), w) /\ w = NaN.
Proof.
  intros Hj Hr Hf; unfold bf_inner; cbn [fst snd]; rewrite !aget_tab by lia; cbn [bind].
  rewrite Hf, nan_div, !nan_mul, nan_add, aset_tab by lia; cbn [bind].
  exists NaN; split; reflexivity.
Qed.

Lemma nan_round q (L R : Z -> Exact) : (1 <= q)%Z -> (q + 1 <= Z.of_nat p)%Z ->
  exists L' R', bf_round s (Fin u : Exact) (fin U) (q + 1) (tab (S p) (nanN q), tab (S p) L, tab (S p) R)
    = Ok (tab (S p) (nanN (q + 1)), tab (S p) L', tab (S p) R').
Proof.
  intros Hq Hqp; unfold bf_round.
  rewrite aget_fin by lia; cbn [bind]; rewrite aset_tab by lia; cbn [bind].
  rewrite aget_fin by lia; cbn [bind]; rewrite aset_tab by lia; cbn [bind].
  set (L' := fupd L _ _); set (R' := fupd R _ _).
  destruct (for_range_inv (fun r st => fst st = tab (S p) (nanN q) /\ ((0 < r)%Z -> snd st = (NaN : Exact))) 0 (q + 1)
     (bf_inner (tab (S p) L') (tab (S p) R') (q + 1)) (tab (S p) (nanN q), (0%num : Exact))) as (st & Est & E1 & E2).
  - lia.
  - split; [reflexivity|lia].
  - intros r [N' sv] Hr [E1 E2]; cbn [fst snd] in *; subst N'.
    destruct (nan_inner L' R' (q + 1) r (nanN q) sv) as (w & Ew & ->); [lia|lia| |].
    + unfold nanN; destruct (Z.leb_spec r q); [reflexivity|lia].
    + exists (tab (S p) (fupd (nanN q) r NaN), NaN); split; [exact Ew|]; cbn [fst snd]; split; [|reflexivity].
      apply tab_ext; intros i Hi; unfold fupd, nanN; destruct (Z.eqb_spec i r) as [->|]; [|reflexivity].
      destruct (Z.leb_spec r q); [reflexivity|lia].
  - exists L', R'; rewrite Est; cbn [bind]; rewrite E1, E2 by lia; rewrite aset_tab by lia; cbn [bind].
    f_equal; f_equal; f_equal; apply tab_ext; intros i Hi; unfold fupd, nanN.
    destruct (Z.eqb_spec i (q + 1)) as [->|].
    + destruct (Z.leb_spec (q + 1) (q + 1)); [reflexivity|lia].
    + destruct (Z.leb_spec i q); destruct (Z.leb_spec i (q + 1)); try lia; reflexivity.
Qed.

Lemma basis_functions_empty :
  basis_functions s (Fin u : Exact) (Z.of_nat p) (fin U) = Ok (repeat (NaN : Exact) (S p)).
Proof.
  unfold basis_functions; rewrite !(np_full_tab' _ (S p)) by lia; cbn [bind].
  destruct (for_range_inv (fun j st => exists N' L R, st = (tab (S p) N', tab (S p) L, tab (S p) R) /\
      (j = 1%Z -> N' = (fun _ => (1%num : Exact))) /\ ((1 < j)%Z -> N' = nanN (j - 1))) 1 (Z.of_nat p + 1)
     (bf_round s (Fin u : Exact) (fin U))
     (tab (S p) (fun _ => (1%num : Exact)), tab (S p) (fun _ => (0%num : Exact)), tab (S p) (fun _ => (0%num : Exact))))
    as (st & Est & N' & L & R & -> & _ & E).
  - lia.
  - do 3 eexists; split; [reflexivity|split; [reflexivity|lia]].
  - intros j st Hj (N' & L & R & -> & E1 & E2).
    destruct (Z.eq_dec j 1) as [->|Hj1].
    + rewrite E1 by reflexivity; clear E1 E2.
      unfold bf_round.
      rewrite aget_fin by lia; cbn [bind]; rewrite aset_tab by lia; cbn [bind].
      rewrite aget_fin by lia; cbn [bind]; rewrite aset_tab by lia; cbn [bind].
      replace (s + 1 - 1)%Z with s by lia; rewrite !E_sub, Hu, Hu1.
      unfold for_range; rewrite zrange_cons, zrange_nil by lia; cbn [for_list].
      unfold bf_inner; cbn [fst snd]; rewrite !aget_tab by lia; cbn [bind Z.add Z.sub Z.opp Z.pos_sub].
      rewrite !fupd_same.
      rewrite E_add, !E_ofZ.
      replace (u - u + (u - u)) with 0 by ring; replace (u - u) with 0 by ring.
      assert (D : ndiv (Fin 1 : Exact) (Fin 0) = PInf).
      { cbn; destruct (Req_EM_T 0 0); [|contradiction]; destruct (Req_EM_T 1 0); [lra|].
        destruct (Rlt_dec 1 0); [lra|reflexivity]. }
      rewrite D.
      assert (D2 : nmul (Fin 0 : Exact) PInf = NaN).
      { cbn; unfold xinf_mul; destruct (Req_EM_T 0 0); [reflexivity|contradiction]. }
      rewrite D2, nan_add, aset_tab by lia; cbn [bind fst snd].
      rewrite aset_tab by lia; cbn [bind].
      eexists; split; [reflexivity|]; do 3 eexists; split; [|split; [lia|intros _; reflexivity]].
      f_equal; f_equal; apply tab_ext; intros i Hi; unfold fupd, nanN; cbn.
      destruct (Z.eqb_spec i 1) as [->|]; [reflexivity|].
      destruct (Z.eqb_spec i 0) as [->|]; [reflexivity|].
      destruct (Z.leb_spec i 1); [lia|reflexivity].
    + rewrite E2 by lia.
      destruct (nan_round (j - 1) L R) as (L' & R' & E); [lia|lia|].
      replace (j - 1 + 1)%Z with j in E by lia.
      eexists; split; [exact E|]; do 3 eexists; split; [reflexivity|split; [lia|]].
      intros _; replace (j + 1 - 1)%Z with j by lia; reflexivity.
  - unfold bf_round in *; rewrite Est; cbn [bind fst]; rewrite E by lia; rewrite repeat_tab; f_equal.
    apply tab_ext; intros i Hi; unfold nanN; destruct (Z.leb_spec i (Z.of_nat p + 1 - 1)); [reflexivity|lia].
Qed.
End Empty.
