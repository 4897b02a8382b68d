(** Curve points at 0 and 1 on binary64 numbers (models: ModelBasis.v, ModelCurve.v). *)
From Coq Require Import Reals Lra Lia ZArith List Floats.
From Flocq Require Import Core.Core IEEE754.BinarySingleNaN IEEE754.PrimFloat.
From Verif Require Import Py PyLemmas Num ModelKnots ModelBasis ModelCurve Spec SpecB64 MathCox MathKnots ProofNum ProofBasis ProofKnots ProofSpan ProofSpan2
  ProofB64 ProofB64Basis ProofB64Span ProofB64Curve.
Import ListNotations.
Open Scope R_scope.

Definition exactly (v : R) (x : PrimFloat.float) : Prop := finite64 x /\ value x = v.

(** ** Operations with zero *)
Lemma add_0_l a b v : exactly 0 a -> exactly v b -> exactly v (PrimFloat.add a b).
Proof.
  intros (Fa & Va) (Fb & Vb); destruct (add64 a b Fa Fb) as (F & V).
  - rewrite Va, Rplus_0_l, rnd_fmt by apply value_fmt; rewrite value_B; apply abs_B2R_lt_emax.
  - split; [exact F|]; rewrite V, Va, Rplus_0_l, rnd_fmt by apply value_fmt; exact Vb.
Qed.
Lemma add_0_r a b v : exactly v a -> exactly 0 b -> exactly v (PrimFloat.add a b).
Proof.
  intros (Fa & Va) (Fb & Vb); destruct (add64 a b Fa Fb) as (F & V).
  - rewrite Vb, Rplus_0_r, rnd_fmt by apply value_fmt; rewrite value_B; apply abs_B2R_lt_emax.
  - split; [exact F|]; rewrite V, Vb, Rplus_0_r, rnd_fmt by apply value_fmt; exact Va.
Qed.
Lemma mul_0_l a b : exactly 0 a -> finite64 b -> exactly 0 (PrimFloat.mul a b).
Proof.
  intros (Fa & Va) Fb; destruct (mul64 a b Fa Fb) as (F & V).
  - rewrite Va, Rmult_0_l, rnd_0, Rabs_R0; apply bpow_gt_0.
  - split; [exact F|]; rewrite V, Va, Rmult_0_l, rnd_0; reflexivity.
Qed.
Lemma mul_0_r a b : finite64 a -> exactly 0 b -> exactly 0 (PrimFloat.mul a b).
Proof.
  intros Fa (Fb & Vb); destruct (mul64 a b Fa Fb) as (F & V).
  - rewrite Vb, Rmult_0_r, rnd_0, Rabs_R0; apply bpow_gt_0.
  - split; [exact F|]; rewrite V, Vb, Rmult_0_r, rnd_0; reflexivity.
Qed.
Lemma mul_1_l a b v : exactly 1 a -> exactly v b -> exactly v (PrimFloat.mul a b).
Proof.
  intros (Fa & Va) (Fb & Vb); destruct (mul64 a b Fa Fb) as (F & V).
  - rewrite Va, Rmult_1_l, rnd_fmt by apply value_fmt; rewrite value_B; apply abs_B2R_lt_emax.
  - split; [exact F|]; rewrite V, Va, Rmult_1_l, rnd_fmt by apply value_fmt; exact Vb.
Qed.
Lemma div_0_l a b : exactly 0 a -> finite64 b -> value b <> 0 -> exactly 0 (PrimFloat.div a b).
Proof.
  intros (Fa & Va) Fb Nb; destruct (div64 a b Fa Fb Nb) as (F & V).
  - rewrite Va; unfold Rdiv; rewrite Rmult_0_l, rnd_0, Rabs_R0; apply bpow_gt_0.
  - split; [exact F|]; rewrite V, Va; unfold Rdiv; rewrite Rmult_0_l, rnd_0; reflexivity.
Qed.
(** A width by which 1 can be divided and multiplied back. *)
Definition good_width (w : R) : Prop := / 2 ^ 1000 <= w <= 1 /\ rnd (w * rnd (1 / w)) = 1.
Lemma good_pos w : good_width w -> 0 < w.
Proof. intros ((H & _) & _); pose proof (Rinv_0_lt_compat (2 ^ 1000) ltac:(apply pow_lt; lra)); lra. Qed.
Lemma width_inv w : good_width w -> Rabs (1 / w) <= bpow radix2 1000.
Proof.
  intros G; pose proof (good_pos w G) as P; destruct G as ((H & _) & _).
  assert (0 < 1 / w) by (apply Rdiv_lt_0_compat; lra); rewrite Rabs_right by lra.
  replace (bpow radix2 1000) with (/ / 2 ^ 1000) by (rewrite Rinv_inv, bpow_powerRZ; reflexivity).
  unfold Rdiv; rewrite Rmult_1_l; apply Rinv_le_contravar; [apply Rinv_0_lt_compat, pow_lt; lra|exact H].
Qed.
Lemma back a d w v : exactly 1 a -> exactly w d -> exactly w v -> good_width w -> exactly 1 (PrimFloat.mul v (PrimFloat.div a d)).
Proof.
  intros (Fa & Va) (Fd & Vd) (Fv & Vv) G; pose proof (good_pos w G) as P; pose proof (width_inv w G) as B.
  destruct (div64 a d Fa Fd) as (F & V); [rewrite Vd; lra|rewrite Va, Vd; apply rnd_safe with 1000%Z; [lia|exact B]|].
  destruct G as ((H & H1) & E); rewrite Va, Vd in V.
  destruct (mul64 v (a / d)%float Fv F) as (F2 & V2).
  - rewrite Vv, V, E, Rabs_R1; change 1 with (bpow radix2 0); apply bpow_lt; lia.
  - split; [exact F2|]; rewrite V2, Vv, V; exact E.
Qed.

(** ** The rows of the triangle when every entry is 0 or 1 *)
Section Exactly.
Variables (U : list Binary64) (s : Z) (x : Binary64) (p : nat).
Hypothesis Hlo : (Z.of_nat p - 1 <= s)%Z.
Hypothesis Hs0 : (0 <= s)%Z.
Hypothesis Hhi : (s + Z.of_nat p < len U)%Z.
Notation fL := (fL U s x).
Notation fR := (fR U s x).
Notation bL := (bL U s x).
Notation bR := (bR U s x).
Variables (E : nat -> Z -> R) (Sv : nat -> Z -> R).
Hypothesis E0 : E 0 0 = 1.
Hypothesis S0 : forall q, (S q <= p)%nat -> Sv q 0 = 0.
Hypothesis SE : forall q, (S q <= p)%nat -> Sv q (Z.of_nat (S q)) = E (S q) (Z.of_nat (S q)).
Hypothesis Step : forall q r (nr saved : PrimFloat.float), (S q <= p)%nat -> (0 <= r < Z.of_nat (S q))%Z ->
  exactly (E q r) nr -> exactly (Sv q r) saved ->
  let t := PrimFloat.div nr (PrimFloat.add (fR (r + 1)) (fL (Z.of_nat (S q) - r))) in
  exactly (E (S q) r) (PrimFloat.add saved (PrimFloat.mul (fR (r + 1)) t)) /\
  exactly (Sv q (r + 1)) (PrimFloat.mul (fL (Z.of_nat (S q) - r)) t).

Definition rowE (q : nat) (f : Z -> Binary64) : Prop := forall r, (0 <= r <= Z.of_nat q)%Z -> exactly (E q r) (f r).

Lemma exact_round q f0 : (S q <= p)%nat -> rowE q f0 ->
  exists f, bf_round s x U (Z.of_nat (S q)) (tab (S p) f0, tab (S p) (bL q), tab (S p) (bR q))
    = Ok (tab (S p) f, tab (S p) (bL (S q)), tab (S p) (bR (S q))) /\ rowE (S q) f.
Proof.
  intros Hq Hok; unfold bf_round.
  assert (HL : forall i, (0 <= i < len U)%Z -> aget U i = Ok (fU U i)) by (intros i Hi; apply aget_nth; exact Hi).
  rewrite HL by lia; cbn [bind]; rewrite aset_tab by lia; cbn [bind].
  rewrite HL by lia; cbn [bind]; rewrite aset_tab by lia; cbn [bind].
  fold (fL (Z.of_nat (S q))); fold (fR (Z.of_nat (S q))).
  replace (tab (S p) (fupd (bL q) (Z.of_nat (S q)) (fL (Z.of_nat (S q))))) with (tab (S p) (bL (S q))).
  2:{ apply tab_ext; intros j Hj; unfold fupd, ProofB64Basis.bL; destruct (Z.eqb_spec j (Z.of_nat (S q))) as [->|].
      - destruct (Z.leb_spec 1 (Z.of_nat (S q))); [|lia].
        destruct (Z.leb_spec (Z.of_nat (S q)) (Z.of_nat (S q))); [reflexivity|lia].
      - destruct (Z.leb_spec j (Z.of_nat (S q))); destruct (Z.leb_spec j (Z.of_nat q)); try lia; reflexivity. }
  replace (tab (S p) (fupd (bR q) (Z.of_nat (S q)) (fR (Z.of_nat (S q))))) with (tab (S p) (bR (S q))).
  2:{ apply tab_ext; intros j Hj; unfold fupd, ProofB64Basis.bR; destruct (Z.eqb_spec j (Z.of_nat (S q))) as [->|].
      - destruct (Z.leb_spec 1 (Z.of_nat (S q))); [|lia].
        destruct (Z.leb_spec (Z.of_nat (S q)) (Z.of_nat (S q))); [reflexivity|lia].
      - destruct (Z.leb_spec j (Z.of_nat (S q))); destruct (Z.leb_spec j (Z.of_nat q)); try lia; reflexivity. }
  destruct (for_range_inv (fun r (st : list Binary64 * Binary64) => exists f : Z -> Binary64, fst st = tab (S p) f /\ (forall i, (r <= i)%Z -> f i = f0 i) /\
       (forall i, (0 <= i < r)%Z -> exactly (E (S q) i) (f i)) /\ exactly (Sv q r) (snd st)) 0 (Z.of_nat (S q))
     (bf_inner (tab (S p) (bL (S q))) (tab (S p) (bR (S q))) (Z.of_nat (S q))) (tab (S p) f0, (0%num : Binary64)))
    as ([N' saved] & Est & f & EN & Hf & HF & Fs).
  - lia.
  - cbn [fst snd]; exists f0; split; [reflexivity|]; split; [reflexivity|]; split; [intros; lia|].
    rewrite S0 by exact Hq; split; [exact finite_0|exact value_0].
  - intros r [N0 saved] Hr (f & EN & Hf & HF & Fs); cbn [fst snd] in *; subst N0.
    unfold bf_inner; cbn [fst snd]; rewrite !aget_tab by lia; cbn [bind].
    assert (V2 : bR (S q) (r + 1) = fR (r + 1)).
    { unfold ProofB64Basis.bR; destruct (Z.leb_spec 1 (r + 1)); [|lia].
      destruct (Z.leb_spec (r + 1) (Z.of_nat (S q))); [reflexivity|lia]. }
    assert (V3 : bL (S q) (Z.of_nat (S q) - r) = fL (Z.of_nat (S q) - r)).
    { unfold ProofB64Basis.bL; destruct (Z.leb_spec 1 (Z.of_nat (S q) - r)); [|lia].
      destruct (Z.leb_spec (Z.of_nat (S q) - r) (Z.of_nat (S q))); [reflexivity|lia]. }
    rewrite V2, V3, (Hf r) by lia; rewrite aset_tab by lia; cbn [bind].
    destruct (Step q r (f0 r) saved Hq ltac:(lia) (Hok r ltac:(lia)) Fs) as (A & B).
    eexists; split; [reflexivity|]; cbn [fst snd]; eexists; split; [reflexivity|].
    split; [intros j Hj; rewrite fupd_other by lia; apply Hf; lia|].
    split; [|exact B].
    intros j Hj; unfold fupd; destruct (Z.eqb_spec j r) as [->|]; [exact A|apply HF; lia].
  - rewrite Est; cbn [bind fst snd] in *; subst N'; rewrite aset_tab by lia; cbn [bind].
    eexists; split; [reflexivity|].
    intros r Hr; unfold fupd; destruct (Z.eqb_spec r (Z.of_nat (S q))) as [->|]; [rewrite <- SE by exact Hq; exact Fs|apply HF; lia].
Qed.

Lemma exact_basis : exists f, basis_functions s x (Z.of_nat p) U = Ok (tab (S p) f) /\ rowE p f.
Proof.
  unfold basis_functions; rewrite !(np_full_tab' _ (S p)) by lia; cbn [bind].
  destruct (for_range_inv (fun j st => exists f, st = (tab (S p) f, tab (S p) (bL (Z.to_nat (j - 1))), tab (S p) (bR (Z.to_nat (j - 1)))) /\
      rowE (Z.to_nat (j - 1)) f) 1 (Z.of_nat p + 1) (bf_round s x U)
     (tab (S p) (fun _ => 1%num), tab (S p) (fun _ => 0%num), tab (S p) (fun _ => 0%num)))
    as (st & Est & f & -> & Hf).
  - lia.
  - exists (fun _ => 1%num); cbn [Z.sub Z.to_nat Z.add Z.opp Z.pos_sub]; split.
    + f_equal; [f_equal|]; apply tab_ext; intros j Hj; [unfold ProofB64Basis.bL|unfold ProofB64Basis.bR];
        destruct (Z.leb_spec 1 j); destruct (Z.leb_spec j (Z.of_nat 0)); try lia; reflexivity.
    + intros r Hr; assert (r = 0%Z) as -> by lia; rewrite E0; split; [exact finite_1|exact value_1].
  - intros j st Hj (f & -> & Hf).
    destruct (exact_round (Z.to_nat (j - 1)) f ltac:(lia) Hf) as (f' & EE & Hf').
    replace (Z.of_nat (S (Z.to_nat (j - 1)))) with j in EE by lia.
    eexists; split; [exact EE|]; exists f'.
    replace (Z.to_nat (j + 1 - 1)) with (S (Z.to_nat (j - 1))) by lia; split; [reflexivity|exact Hf'].
  - rewrite Est; cbn [bind fst]; exists f.
    replace (Z.to_nat (Z.of_nat p + 1 - 1)) with p in Hf by lia; split; [reflexivity|exact Hf].
Qed.
End Exactly.

(** ** Basis functions at the ends of a clamped knot vector *)
Section Ends.
Variables (U : list Binary64) (s : Z) (x : Binary64) (p : nat).
Hypothesis HW : within 0 1 U.
Hypothesis HU : nondecreasing (values U).
Hypothesis Fx : finite64 x.
Hypothesis Hx : kn (values U) s <= value x <= kn (values U) (s + 1).
Hypothesis Hgap : / 2 ^ 1000 <= kn (values U) (s + 1) - kn (values U) s.
Hypothesis Hlo : (Z.of_nat p - 1 <= s)%Z.
Hypothesis Hs0 : (0 <= s)%Z.
Hypothesis Hhi : (s + Z.of_nat p < len U)%Z.
Hypothesis Hhi1 : (s + 1 < len U)%Z.
Notation k := (kn (values U)).
Notation fL := (fL (U : list Binary64) s x).
Notation fR := (fR (U : list Binary64) s x).
Lemma left_val r : (1 <= r <= s + 1)%Z -> exactly (rnd (value x - k (s + 1 - r))) (fL r) /\ 0 <= value x - k (s + 1 - r) <= 1.
Proof.
  intros Hr; destruct (fU_val U HW (s + 1 - r) ltac:(lia)) as (F & V & B); pose proof (x_range U s x p HW Hx Hs0 Hhi1) as Bx.
  pose proof (kn_mono _ HU (s + 1 - r) s ltac:(lia)) as Mo.
  split; [|lra]; destruct (sub64 x (fU U (s + 1 - r)) Fx F) as (F' & V').
  - rewrite V; apply rnd_safe with 0%Z; [lia|]; change (bpow radix2 0) with 1; apply Rabs_le; lra.
  - split; [exact F'|]; rewrite <- V; exact V'.
Qed.
Lemma right_val r : (1 <= r)%Z -> (s + r < len U)%Z -> exactly (rnd (k (s + r) - value x)) (fR r) /\ 0 <= k (s + r) - value x <= 1.
Proof.
  intros Hr Hr'; destruct (fU_val U HW (s + r) ltac:(lia)) as (F & V & B); pose proof (x_range U s x p HW Hx Hs0 Hhi1) as Bx.
  pose proof (kn_mono _ HU (s + 1) (s + r) ltac:(lia)) as Mo.
  split; [|lra]; destruct (sub64 (fU U (s + r)) x F Fx) as (F' & V').
  - rewrite V; apply rnd_safe with 0%Z; [lia|]; change (bpow radix2 0) with 1; apply Rabs_le; lra.
  - split; [exact F'|]; rewrite <- V; exact V'.
Qed.
Lemma rnd_pos a : / 2 ^ 1000 <= a -> rnd a <> 0.
Proof.
  intros H E; pose proof (rnd_le _ _ H) as L; rewrite E in L.
  replace (/ 2 ^ 1000) with (bpow radix2 (-1000)) in L by (rewrite bpow_powerRZ; reflexivity).
  rewrite rnd_fmt in L by (apply fmt_bpow; lia); pose proof (bpow_gt_0 radix2 (-1000)); lra.
Qed.

(** At the left end of the span: the first function is 1, the others are 0. *)
Lemma first_basis : value x = k s -> k s = k (s - Z.of_nat p + 1) -> good_width (rnd (k (s + 1) - value x)) ->
  exists f, basis_functions s x (Z.of_nat p) (U : list Binary64) = Ok (tab (S p) f) /\
    forall r, (0 <= r <= Z.of_nat p)%Z -> exactly (if (r =? 0)%Z then 1 else 0) (f r : Binary64).
Proof.
  intros Ex Ek G.
  destruct (exact_basis (U : list Binary64) s x p Hlo Hs0 Hhi (fun _ r => if (r =? 0)%Z then 1 else 0) (fun _ _ => 0)) as (f & E & R).
  - reflexivity.
  - reflexivity.
  - intros q Hq; destruct (Z.eqb_spec (Z.of_nat (S q)) 0); [lia|reflexivity].
  - intros q r nr saved Hq Hr Hn Hsv; cbv zeta.
    destruct (left_val (Z.of_nat (S q) - r) ltac:(lia)) as (L & BL).
    destruct (right_val (r + 1) ltac:(lia) ltac:(lia)) as (R & BR).
    assert (E0 : k (s + 1 - (Z.of_nat (S q) - r)) = value x).
    { pose proof (kn_mono _ HU (s - Z.of_nat p + 1) (s + 1 - (Z.of_nat (S q) - r)) ltac:(lia)).
      pose proof (kn_mono _ HU (s + 1 - (Z.of_nat (S q) - r)) s ltac:(lia)); lra. }
    rewrite E0, Rminus_eq_0, rnd_0 in L.
    pose proof (add_0_r _ _ _ R L) as D.
    assert (ND : rnd (k (s + (r + 1)) - value x) <> 0).
    { apply rnd_pos; pose proof (kn_mono _ HU (s + 1) (s + (r + 1)) ltac:(lia)); lra. }
    destruct (Z.eqb_spec r 0) as [->|Hr0].
    + rewrite Z.add_0_l in *.
      pose proof (back nr _ _ _ Hn D R G) as B1.
      assert (FT : finite64 (PrimFloat.div nr (PrimFloat.add (fR 1) (fL (Z.of_nat (S q) - 0))))).
      { destruct Hn as (Fn & Vn); destruct D as (Fd & Vd); apply (div64 nr _ Fn Fd); [rewrite Vd; exact ND|].
        rewrite Vn, Vd; apply rnd_safe with 1000%Z; [lia|exact (width_inv _ G)]. }
      split; [apply add_0_l; assumption|apply mul_0_l; assumption].
    + pose proof (div_0_l nr _ Hn (proj1 D) ltac:(rewrite (proj2 D); exact ND)) as T.
      split; [apply add_0_l; [exact Hsv|apply mul_0_r; [exact (proj1 R)|exact T]]|apply mul_0_r; [exact (proj1 L)|exact T]].
  - exists f; split; [exact E|exact R].
Qed.
(** At the right end: the last function is 1. *)
Lemma last_basis : value x = k (s + 1) -> k (s + 1) = k (s + Z.of_nat p) -> good_width (rnd (value x - k s)) ->
  exists f, basis_functions s x (Z.of_nat p) (U : list Binary64) = Ok (tab (S p) f) /\
    forall r, (0 <= r <= Z.of_nat p)%Z -> exactly (if (r =? Z.of_nat p)%Z then 1 else 0) (f r : Binary64).
Proof.
  intros Ex Ek G.
  destruct (exact_basis (U : list Binary64) s x p Hlo Hs0 Hhi (fun q r => if (r =? Z.of_nat q)%Z then 1 else 0)
    (fun q r => if (r =? Z.of_nat (S q))%Z then 1 else 0)) as (f & E & R).
  - reflexivity.
  - reflexivity.
  - reflexivity.
  - intros q r nr saved Hq Hr Hn Hsv; cbv zeta.
    destruct (left_val (Z.of_nat (S q) - r) ltac:(lia)) as (L & BL).
    destruct (right_val (r + 1) ltac:(lia) ltac:(lia)) as (R & BR).
    assert (E0 : k (s + (r + 1)) = value x).
    { pose proof (kn_mono _ HU (s + 1) (s + (r + 1)) ltac:(lia)).
      pose proof (kn_mono _ HU (s + (r + 1)) (s + Z.of_nat p) ltac:(lia)); lra. }
    rewrite E0, Rminus_eq_0, rnd_0 in R.
    pose proof (add_0_l _ _ _ R L) as D.
    assert (ND : rnd (value x - k (s + 1 - (Z.of_nat (S q) - r))) <> 0).
    { apply rnd_pos; pose proof (kn_mono _ HU (s + 1 - (Z.of_nat (S q) - r)) s ltac:(lia)); lra. }
    destruct (Z.eqb_spec r (Z.of_nat (S q))) as [|_]; [lia|].
    destruct (Z.eqb_spec r (Z.of_nat q)) as [->|Hr0].
    + replace (s + 1 - (Z.of_nat (S q) - Z.of_nat q))%Z with s in * by lia.
      destruct (Z.eqb_spec (Z.of_nat q + 1) (Z.of_nat (S q))) as [_|]; [|lia].
      pose proof (back nr _ _ _ Hn D L G) as B1.
      assert (FT : finite64 (PrimFloat.div nr (PrimFloat.add (fR (Z.of_nat q + 1)) (fL (Z.of_nat (S q) - Z.of_nat q))))).
      { destruct Hn as (Fn & Vn); destruct D as (Fd & Vd); apply (div64 nr _ Fn Fd); [rewrite Vd; exact ND|].
        rewrite Vn, Vd; apply rnd_safe with 1000%Z; [lia|exact (width_inv _ G)]. }
      split; [apply add_0_l; [exact Hsv|apply mul_0_l; assumption]|exact B1].
    + destruct (Z.eqb_spec (r + 1) (Z.of_nat (S q))) as [|_]; [lia|].
      pose proof (div_0_l nr _ Hn (proj1 D) ltac:(rewrite (proj2 D); exact ND)) as T.
      split; [apply add_0_l; [exact Hsv|apply mul_0_r; [exact (proj1 R)|exact T]]|apply mul_0_r; [exact (proj1 L)|exact T]].
  - exists f; split; [exact E|exact R].
Qed.
End Ends.

(** ** Weighted sums with one weight *)
Lemma pick_sum (l : list PrimFloat.float) : forall acc v m w, exactly v acc -> (m < length l)%nat ->
  (forall i, (i < length l)%nat -> exactly (if Nat.eqb i m then w else 0) (nth i l 0%float)) -> v = 0 ->
  exactly w (fold_left PrimFloat.add l acc).
Proof.
  induction l as [|a l IH]; intros acc v m w Ha Hm Hl Hv; [cbn in Hm; lia|]; cbn [fold_left].
  pose proof (Hl 0%nat ltac:(cbn; lia)) as H0; cbn [nth] in H0; subst v.
  destruct m as [|m].
  - cbn [Nat.eqb] in H0; pose proof (add_0_l _ _ _ Ha H0) as H1; clear IH.
    assert (Hz : Forall (exactly 0) l).
    { apply Forall_forall; intros y Hy; apply (In_nth _ _ 0%float) in Hy; destruct Hy as (i & Hi & <-).
      exact (Hl (S i) ltac:(cbn; lia)). }
    clear Hl Ha H0 Hm; revert H1; generalize (acc + a)%float; induction Hz as [|y l Hy _ IH]; intros b Hb; cbn [fold_left]; [exact Hb|].
    apply IH; apply add_0_r; assumption.
  - cbn [Nat.eqb] in H0; eapply (IH _ 0 m w); [apply add_0_l; assumption|cbn in Hm; lia| |reflexivity].
    intros i Hi; exact (Hl (S i) ltac:(cbn; lia)).
Qed.
Lemma pick_dot n (f g : Z -> Binary64) m : (0 <= m < Z.of_nat n)%Z ->
  (forall i, (0 <= i < Z.of_nat n)%Z -> exactly (if (i =? m)%Z then 1 else 0) (f i)) ->
  (forall i, (0 <= i < Z.of_nat n)%Z -> finite64 (g i)) ->
  exactly (value (g m)) (vdot (tab n f) (tab n g)).
Proof.
  intros Hm Hf Hg; unfold vdot, nsum.
  assert (E : vmap2 (K := Binary64) nmul (tab n f) (tab n g) = tab n (fun i => PrimFloat.mul (f i) (g i))).
  { unfold vmap2; rewrite combine_tab, map_tab; reflexivity. }
  rewrite E; apply (pick_sum _ _ 0 (Z.to_nat m)); [split; [exact finite_0|exact value_0]| | |reflexivity].
  - rewrite tab_length; lia.
  - rewrite tab_length; intros i Hi; rewrite nth_tab by exact Hi.
    specialize (Hf (Z.of_nat i) ltac:(lia)); specialize (Hg (Z.of_nat i) ltac:(lia)).
    destruct (Nat.eqb_spec i (Z.to_nat m)) as [->|Hn].
    + rewrite Z2Nat.id in * by lia; rewrite Z.eqb_refl in Hf; apply mul_1_l; [exact Hf|split; [exact Hg|reflexivity]].
    + destruct (Z.eqb_spec (Z.of_nat i) m); [lia|]; apply mul_0_l; assumption.
Qed.

(** ** Points *)
Lemma pick_point p (U : list PrimFloat.float) (P : list (list PrimFloat.float)) (x : Binary64) s f m :
  find_span (len P) (Z.of_nat p) x (U : list Binary64) = Ok s -> (Z.of_nat p <= s < len P)%Z ->
  basis_functions s x (Z.of_nat p) (U : list Binary64) = Ok (tab (S p) f) ->
  (0 <= m <= Z.of_nat p)%Z -> (forall r, (0 <= r <= Z.of_nat p)%Z -> exactly (if (r =? m)%Z then 1 else 0) (f r : Binary64)) ->
  Forall (fun r => length r = 3%nat /\ Forall finite64 r) P ->
  exists y : list PrimFloat.float, curve_point (K := Binary64) (Z.of_nat p) P U x = Ok y /\ Forall finite64 y /\
    values y = values (nth (Z.to_nat (s - Z.of_nat p + m)) P []).
Proof.
  intros Hsp Hs EB Hm Hf HP.
  assert (H3 : Forall (fun row => length row = 3%nat) P) by (eapply Forall_impl; [|exact HP]; intros r (L & _); exact L).
  set (g := fun c i => nth c (nth (Z.to_nat (s - Z.of_nat p + i)) P []) (0%float : Binary64)).
  assert (HC : forall c, (c < 3)%nat ->
    acol (slice (P : list (list Binary64)) (s - Z.of_nat p) (s + 1)) (Z.of_nat c) = Ok (tab (S p) (g c))).
  { intros c Hc; replace (s + 1)%Z with (s - Z.of_nat p + Z.of_nat (S p))%Z by lia.
    apply (active_col_any (P : list (list Binary64)) (0%float : Binary64)); try assumption; try lia; change (len P) with (len (P : list (list PrimFloat.float))) in *; lia. }
  assert (HR : forall i, (0 <= i < Z.of_nat (S p))%Z -> length (nth (Z.to_nat (s - Z.of_nat p + i)) P []) = 3%nat /\ Forall finite64 (nth (Z.to_nat (s - Z.of_nat p + i)) P [])).
  { intros i Hi; rewrite Forall_forall in HP; apply HP, nth_In; unfold len in Hs; lia. }
  assert (HD : forall c, (c < 3)%nat -> matmul11 (tab (S p) f) (tab (S p) (g c)) = Ok (vdot (tab (S p) f) (tab (S p) (g c))) /\
    exactly (value (g c m)) (vdot (tab (S p) f) (tab (S p) (g c)))).
  { intros c Hc; split; [apply matmul_dot; rewrite !tab_length; reflexivity|].
    apply pick_dot; [lia|intros i Hi; apply Hf; lia|].
    intros i Hi; destruct (HR i Hi) as (L & F); rewrite Forall_forall in F; apply F, nth_In; rewrite L; exact Hc. }
  destruct (HD 0%nat ltac:(lia)) as (X1 & X2 & X3); destruct (HD 1%nat ltac:(lia)) as (Y1 & Y2 & Y3);
    destruct (HD 2%nat ltac:(lia)) as (Z1 & Z2 & Z3).
  exists [vdot (tab (S p) f) (tab (S p) (g 0%nat)); vdot (tab (S p) f) (tab (S p) (g 1%nat)); vdot (tab (S p) f) (tab (S p) (g 2%nat))].
  split; [|split].
  - unfold curve_point; change (zlen P) with (len P).
    transitivity (let* knot_span := find_span (len P) (Z.of_nat p) x U in
      let* basis_funs := basis_functions knot_span x (Z.of_nat p) U in
      let active := slice (P : list (list Binary64)) (knot_span - Z.of_nat p) (knot_span + 1) in
      let* cx := acol active (Z.of_nat 0) in let* vx := matmul11 basis_funs cx in
      let* cy := acol active (Z.of_nat 1) in let* vy := matmul11 basis_funs cy in
      let* cz := acol active (Z.of_nat 2) in let* vz := matmul11 basis_funs cz in Ok [vx; vy; vz]); [reflexivity|].
    rewrite Hsp; cbn [bind].
    match goal with |- bind ?b _ = _ => replace b with (Ok (tab (S p) f) : res (list Binary64)) by (symmetry; exact EB) end; cbn [bind].
    cbv zeta; rewrite (HC 0%nat) by lia; cbn [bind]; rewrite X1; cbn [bind].
    rewrite (HC 1%nat) by lia; cbn [bind]; rewrite Y1; cbn [bind].
    rewrite (HC 2%nat) by lia; cbn [bind]; rewrite Z1; reflexivity.
  - repeat (apply Forall_cons; [assumption|]); apply Forall_nil.
  - destruct (HR m ltac:(lia)) as (L & _); unfold g in *; destruct (nth (Z.to_nat (s - Z.of_nat p + m)) P []) as [|a [|b [|c [|]]]]; try discriminate L.
    cbn [nth] in X3, Y3, Z3; unfold values; cbn [map]; rewrite X3, Y3, Z3; reflexivity.
Qed.

Lemma width_good (w : PrimFloat.float) : finite64 w -> / 2 ^ 1000 <= value w <= 1 -> (w * (1 / w))%float = 1%float -> good_width (value w).
Proof.
  intros F B E; split; [exact B|].
  assert (P : 0 < value w) by (pose proof (Rinv_0_lt_compat (2 ^ 1000) ltac:(apply pow_lt; lra)); lra).
  assert (I : Rabs (1 / value w) <= bpow radix2 1000).
  { assert (0 < 1 / value w) by (apply Rdiv_lt_0_compat; lra); rewrite Rabs_right by lra.
    replace (bpow radix2 1000) with (/ / 2 ^ 1000) by (rewrite Rinv_inv, bpow_powerRZ; reflexivity).
    unfold Rdiv; rewrite Rmult_1_l; apply Rinv_le_contravar; [apply Rinv_0_lt_compat, pow_lt; lra|apply B]. }
  pose proof value_1 as V1; change (1%num : Binary64) with 1%float in V1.
  destruct (div64 1%float w finite_1 F) as (F2 & V2); [lra|rewrite V1; apply rnd_safe with 1000%Z; [lia|exact I]|].
  rewrite V1 in V2; assert (I2 : Rabs (rnd (1 / value w)) <= bpow radix2 1000) by (apply rnd_bound; [lia|exact I]).
  destruct (mul64 w (1 / w)%float F F2) as (F3 & V3).
  - rewrite V2; apply rnd_safe with 1000%Z; [lia|]; rewrite Rabs_mult, (Rabs_right (value w)) by lra.
    pose proof (Rabs_pos (rnd (1 / value w))); nra.
  - rewrite <- V2, <- V3, E; exact V1.
Qed.
Lemma pow2_good j : (j <= 1000)%nat -> good_width (/ 2 ^ j).
Proof.
  intros Hj; assert (E : / 2 ^ j = bpow radix2 (- Z.of_nat j)) by (rewrite bpow_opp, bpow_powerRZ, <- pow_powerRZ; reflexivity).
  assert (E2 : 2 ^ j = bpow radix2 (Z.of_nat j)) by (rewrite bpow_powerRZ, <- pow_powerRZ; reflexivity).
  assert (0 < 2 ^ j) by (apply pow_lt; lra).
  split; [split; [apply Rinv_le_contravar; [lra|apply Rle_pow; [lra|exact Hj]]|]|].
  - rewrite <- Rinv_1; apply Rinv_le_contravar; [lra|apply pow_R1_Rle; lra].
  - replace (1 / / 2 ^ j) with (2 ^ j) by (field; lra); rewrite (rnd_fmt (2 ^ j)) by (rewrite E2; apply fmt_bpow; lia); rewrite Rinv_l by lra.
    apply rnd_fmt; change 1 with (bpow radix2 0); apply fmt_bpow; lia.
Qed.

(** The span of [x] among the knots of [n] functions of degree [p] is found, and
    function [i] is 1, the others are 0. *)
Definition picks (p : nat) (n : Z) (U : list PrimFloat.float) (x : Binary64) (i : Z) : Prop :=
  finite64 x /\ 0 <= value x <= 1 /\
  exists s f m, find_span n (Z.of_nat p) x (U : list Binary64) = Ok s /\ (Z.of_nat p <= s < n)%Z /\
    basis_functions s x (Z.of_nat p) (U : list Binary64) = Ok (tab (S p) f) /\ (0 <= m <= Z.of_nat p)%Z /\ (s - Z.of_nat p + m)%Z = i /\
    forall r, (0 <= r <= Z.of_nat p)%Z -> exactly (if (r =? m)%Z then 1 else 0) (f r : Binary64).

Section Picks.
Variables (p : nat) (n : Z) (U : list PrimFloat.float).
Hypothesis HW : within 0 1 U.
Hypothesis HC : clamped (Z.of_nat p) n (values U).
Hypothesis Hp : (1 <= p)%nat.
Hypothesis K0 : kn (values U) (Z.of_nat p) = 0.
Hypothesis K1 : kn (values U) n = 1.
Notation k := (kn (values U)).

Lemma start_picks : good_width (k (Z.of_nat p + 1)) -> picks p n U 0%float 0.
Proof.
  intros G; pose proof (good_pos _ G) as GP.
  pose proof value_0 as V0; change (0%num : Binary64) with 0%float in V0.
  destruct (find_span_strict64 _ _ 0%float U HW HC K0 K1 finite_0 ltac:(lra) ltac:(lra)) as (s & E & Hs & Hc).
  destruct (clamped_facts _ _ _ HC) as (Hp0 & Hn & HL & HU & Hl & Hr & _); rewrite len_values in HL.
  assert (Es : s = Z.of_nat p).
  { destruct (Z.le_gt_cases (Z.of_nat p + 1) s) as [L|L]; [|lia]; pose proof (kn_mono _ HU (Z.of_nat p + 1) s ltac:(lia)); lra. }
  subst s.
  assert (FM : rnd (k (Z.of_nat p + 1) - value 0%float) = k (Z.of_nat p + 1)).
  { rewrite V0, Rminus_0_r; apply rnd_fmt; rewrite (kn_values U _ 0%float) by lia; apply value_fmt. }
  assert (Hg : / 2 ^ 1000 <= k (Z.of_nat p + 1) - k (Z.of_nat p)) by (destruct G as ((G & _) & _); lra).
  destruct (first_basis U (Z.of_nat p) 0%float p HW HU finite_0 Hc Hg) as (f & EB & Hf);
    [lia|lia|change (@len Binary64 U) with (len U); lia|change (@len Binary64 U) with (len U); lia|lra| |rewrite FM; exact G|].
  { rewrite Z.sub_diag, K0; symmetry; apply Rle_antisym; [|]. 
    - pose proof (kn_mono _ HU (0 + 1) (Z.of_nat p) ltac:(lia)); lra.
    - pose proof (within_nth 0 1 U 1 0%float HW ltac:(lia)) as (_ & B); rewrite <- kn_values in B by lia; rewrite Z.add_0_l; lra. }
  split; [exact finite_0|]; split; [lra|]; exists (Z.of_nat p), f, 0%Z; split; [exact E|]; split; [exact Hs|]; split; [exact EB|].
  split; [lia|]; split; [lia|exact Hf].
Qed.
Lemma end_picks : good_width (rnd (1 - k (n - 1))) -> / 2 ^ 1000 <= 1 - k (n - 1) -> picks p n U 1%float (n - 1).
Proof.
  intros G Hg; assert (GP : 0 < / 2 ^ 1000) by (apply Rinv_0_lt_compat, pow_lt; lra).
  pose proof value_1 as V1; change (1%num : Binary64) with 1%float in V1.
  destruct (clamped_facts _ _ _ HC) as (Hp0 & Hn & HL & HU & Hl & Hr & _); rewrite len_values in HL.
  destruct (find_span_strict64 _ _ 1%float U HW HC K0 K1 finite_1 ltac:(lra) ltac:(lra)) as (s & E & Hs & Hc).
  assert (Es : s = (n - 1)%Z).
  { destruct (Z.le_gt_cases (s + 1) (n - 1)) as [L|L]; [|lia]; pose proof (kn_mono _ HU (s + 1) (n - 1) ltac:(lia)); lra. }
  subst s; replace (n - 1 + 1)%Z with n in * by lia.
  destruct (last_basis U (n - 1) 1%float p HW HU finite_1) as (f & EB & Hf);
    try (replace (n - 1 + 1)%Z with n in * by lia); rewrite ?K1, ?V1; try assumption; try lra; try lia;
    try (change (@len Binary64 U) with (len U); lia).
  { apply Rle_antisym.
    - rewrite <- K1; apply kn_mono; [exact HU|lia].
    - pose proof (within_nth 0 1 U (n - 1 + Z.of_nat p) 0%float HW ltac:(lia)) as (_ & B); rewrite <- kn_values in B by lia; lra. }
  split; [exact finite_1|]; split; [lra|]; exists (n - 1)%Z, f, (Z.of_nat p); split; [exact E|]; split; [exact Hs|]; split; [exact EB|].
  split; [lia|]; split; [lia|exact Hf].
Qed.
Lemma start_picks_w : let w := nth (S p) U 0%float in / 2 ^ 1000 <= value w -> (w * (1 / w))%float = 1%float -> picks p n U 0%float 0.
Proof.
  intros w Hw Ew; destruct (clamped_facts _ _ _ HC) as (Hp0 & Hn & HL & HU & _); rewrite len_values in HL.
  destruct (within_nth 0 1 U (Z.of_nat p + 1) 0%float HW ltac:(lia)) as (F & B).
  replace (Z.to_nat (Z.of_nat p + 1)) with (S p) in F, B by lia; fold w in F, B.
  apply start_picks; rewrite (kn_values U _ 0%float) by lia; replace (Z.to_nat (Z.of_nat p + 1)) with (S p) by lia.
  apply width_good; [exact F|split; [exact Hw|exact (proj2 B)]|exact Ew].
Qed.
Lemma end_picks_w : let w := (1 - nth (Z.to_nat (n - 1)) U 0)%float in / 2 ^ 1000 <= value w -> (w * (1 / w))%float = 1%float ->
  picks p n U 1%float (n - 1).
Proof.
  intros w Hw Ew; destruct (clamped_facts _ _ _ HC) as (Hp0 & Hn & HL & HU & _); rewrite len_values in HL.
  pose proof value_1 as V1; change (1%num : Binary64) with 1%float in V1.
  destruct (within_nth 0 1 U (n - 1) 0%float HW ltac:(lia)) as (F & B).
  pose proof (kn_values U (n - 1) 0%float ltac:(lia)) as EK.
  destruct (sub64 1%float (nth (Z.to_nat (n - 1)) U 0%float) finite_1 F) as (Fw & Vw).
  { rewrite V1; apply rnd_safe with 0%Z; [lia|]; change (bpow radix2 0) with 1; apply Rabs_le; lra. }
  fold w in Fw, Vw; rewrite V1, <- EK in Vw.
  assert (Bw : value w <= 1).
  { rewrite Vw; apply Rle_trans with (1 := Rle_abs _); apply (rnd_bound _ 0); [lia|change (bpow radix2 0) with 1; apply Rabs_le; lra]. }
  apply end_picks; rewrite <- ?Vw; [apply width_good; [exact Fw|lra|exact Ew]|].
  destruct (Rle_or_lt (/ 2 ^ 1000) (1 - k (n - 1))) as [|L]; [assumption|exfalso].
  assert (E : 1 - k (n - 1) = 0 \/ bpow radix2 (-53) <= 1 - k (n - 1)).
  { destruct (Rle_or_lt 1 (k (n - 1))) as [G|G]; [left; lra|right].
    pose proof (value_fmt (nth (Z.to_nat (n - 1)) U 0%float)) as FM; rewrite <- EK in FM.
    assert (P1 : k (n - 1) <= pred radix2 (FLT_exp (-1074) 53) 1).
    { apply pred_ge_gt; [apply FLT_exp_valid; reflexivity|exact FM|change 1 with (bpow radix2 0); apply fmt_bpow; lia|exact G]. }
    change 1 with (bpow radix2 0) in P1; rewrite pred_bpow in P1; unfold FLT_exp in P1; cbn [Z.max Z.sub Z.add Z.opp Z.pos_sub Z.compare Pos.compare Pos.compare_cont] in P1.
    change (bpow radix2 0) with 1 in P1; cbn in P1 |- *; lra. }
  destruct E as [E|E].
  - rewrite E, rnd_0 in Vw; pose proof (Rinv_0_lt_compat (2 ^ 1000) ltac:(apply pow_lt; lra)); lra.
  - replace (/ 2 ^ 1000) with (bpow radix2 (-1000)) in L by (rewrite bpow_powerRZ; reflexivity).
    assert (bpow radix2 (-1000) <= bpow radix2 (-53)) by (apply bpow_le; lia); lra.
Qed.
End Picks.

Lemma picked_point p (U : list PrimFloat.float) (P : list (list PrimFloat.float)) (x : Binary64) i d : picks p (len P) U x i ->
  Forall (fun r => length r = 3%nat /\ Forall finite64 r) P ->
  exists y : list PrimFloat.float, single_point (mkCurve (K := Binary64) (Some (Z.of_nat p)) (Some P) (Some U) d) x = Ok y /\
    Forall finite64 y /\ values y = values (nth (Z.to_nat i) P []).
Proof.
  intros (Fx & Bx & s & f & m & E & Hs & EB & Hm & Ei & Hf) HP.
  destruct (pick_point p U P x s f m E Hs EB Hm Hf HP) as (y & Ey & Fy & Vy).
  exists y; split; [|split; [exact Fy|rewrite <- Ei; exact Vy]].
  unfold single_point; rewrite (validate64 x Fx Bx); exact Ey.
Qed.
Section CurveEnds.
Variables (p : nat) (U : list PrimFloat.float) (P : list (list PrimFloat.float)) (d : Z).
Hypothesis HW : within 0 1 U.
Hypothesis HC : clamped (Z.of_nat p) (len P) (values U).
Hypothesis Hp : (1 <= p)%nat.
Hypothesis K0 : kn (values U) (Z.of_nat p) = 0.
Hypothesis K1 : kn (values U) (len P) = 1.
Hypothesis HP : Forall (fun r => length r = 3%nat /\ Forall finite64 r) P.
Notation k := (kn (values U)).

Lemma curve_start64 : good_width (k (Z.of_nat p + 1)) ->
  exists y : list PrimFloat.float, single_point (mkCurve (K := Binary64) (Some (Z.of_nat p)) (Some P) (Some U) d) 0%float = Ok y /\
    Forall finite64 y /\ values y = values (nth 0 P []).
Proof.
  intros G; exact (picked_point p U P 0%float 0 d (start_picks p (len P) U HW HC Hp K0 K1 G) HP).
Qed.
Lemma curve_end64 : good_width (rnd (1 - k (len P - 1))) -> / 2 ^ 1000 <= 1 - k (len P - 1) ->
  exists y : list PrimFloat.float, single_point (mkCurve (K := Binary64) (Some (Z.of_nat p)) (Some P) (Some U) d) 1%float = Ok y /\
    Forall finite64 y /\ values y = values (last P []).
Proof.
  intros G Hg; destruct (picked_point p U P 1%float _ d (end_picks p (len P) U HW HC Hp K0 K1 G Hg) HP) as (y & E & F & V).
  exists y; split; [exact E|]; split; [exact F|]; rewrite V, last_nth; do 2 f_equal; unfold len; lia.
Qed.
(** The same with the widths as doubles. *)
Lemma curve_start_w : let w := nth (S p) U 0%float in / 2 ^ 1000 <= value w -> (w * (1 / w))%float = 1%float ->
  exists y : list PrimFloat.float, single_point (mkCurve (K := Binary64) (Some (Z.of_nat p)) (Some P) (Some U) d) 0%float = Ok y /\
    Forall finite64 y /\ values y = values (nth 0 P []).
Proof.
  intros w Hw Ew; exact (picked_point p U P 0%float 0 d (start_picks_w p (len P) U HW HC Hp K0 K1 Hw Ew) HP).
Qed.
Lemma curve_end_w : let w := (1 - nth (length P - 1) U 0)%float in / 2 ^ 1000 <= value w -> (w * (1 / w))%float = 1%float ->
  exists y : list PrimFloat.float, single_point (mkCurve (K := Binary64) (Some (Z.of_nat p)) (Some P) (Some U) d) 1%float = Ok y /\
    Forall finite64 y /\ values y = values (last P []).
Proof.
  intros w Hw Ew; pose proof (end_picks_w p (len P) U HW HC Hp K0 K1) as G; cbv zeta in G.
  replace (Z.to_nat (len P - 1)) with (length P - 1)%nat in G by (unfold len; lia).
  destruct (picked_point p U P 1%float _ d (G Hw Ew) HP) as (y & E & F & V).
  exists y; split; [exact E|]; split; [exact F|]; rewrite V, last_nth; do 2 f_equal; unfold len; lia.
Qed.
End CurveEnds.
