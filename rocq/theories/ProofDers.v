(** Lemmas about [basis_function_ders] (model: ModelBasis.v). *)
From Verif Require Import Py PyLemmas Num ModelBasis Spec ProofNum MathCox MathKnots MathDeriv ProofSpan ProofBasis.
Open Scope R_scope.

Lemma fupd2_same {A} (f : Z -> Z -> A) i j v : fupd2 f i j v i j = v.
Proof. unfold fupd2; rewrite !Z.eqb_refl; reflexivity. Qed.
Lemma fupd2_other {A} (f : Z -> Z -> A) i j v a b : (a <> i \/ b <> j) -> fupd2 f i j v a b = f a b.
Proof.
  intros H; unfold fupd2; destruct (Z.eqb_spec a i); destruct (Z.eqb_spec b j); cbn; try reflexivity; tauto.
Qed.

Section Ders.
Variables (U : list R) (s : Z) (u : R) (p : nat).
Hypothesis HU : nondecreasing U.
Hypothesis Hs : kn U s < kn U (s + 1).
Hypothesis Hlo : (Z.of_nat p - 1 <= s)%Z.
Hypothesis Hhi : (s + Z.of_nat p < len U)%Z.

Notation N q i := (cox (delta s) (kn U) q i u).
Notation M q i := (Mx (delta s) (kn U) q i u).
Notation zp := (Z.of_nat p).
(** Knot difference stored below the diagonal. *)
Notation Dk j r := (kn U (s + r + 1) - kn U (s + 1 - j + r)).

Lemma Dk_pos j r : (0 <= r < j)%Z -> 0 < Dk j r.
Proof.
  intros H; pose proof (kn_mono U HU (s + 1) (s + r + 1) ltac:(lia)).
  pose proof (kn_mono U HU (s + 1 - j + r) s ltac:(lia)); lra.
Qed.

(** ** The triangle *)
Definition tri (q : Z) (f : Z -> Z -> Exact) : Prop :=
  (forall r j, (0 <= r <= j)%Z -> (j <= q)%Z -> f r j = Fin (N (Z.to_nat j) (s - j + r))) /\
  (forall r j, (0 <= r < j)%Z -> (j <= q)%Z -> f j r = Fin (Dk j r)).

Definition lr (q : Z) (L R : Z -> Exact) : Prop :=
  forall r, (1 <= r <= q)%Z -> L r = Fin (u - kn U (s + 1 - r)) /\ R r = Fin (kn U (s + r) - u).

Lemma bd_round_ok q f L R : (0 <= q < zp)%Z -> tri q f -> lr q L R ->
  exists f' L' R', bd_round s (Fin u : Exact) (fin U) (q + 1) (tab2 (S p) (S p) f, tab (S p) L, tab (S p) R)
    = Ok (tab2 (S p) (S p) f', tab (S p) L', tab (S p) R') /\ tri (q + 1) f' /\ lr (q + 1) L' R'.
Proof.
  intros Hq [HT1 HT2] HLR; unfold bd_round.
  rewrite aget_fin by lia; cbn [bind]; rewrite aset_tab by lia; cbn [bind].
  rewrite aget_fin by lia; cbn [bind]; rewrite aset_tab by lia; cbn [bind]; rewrite !E_sub.
  set (L' := fupd L (q + 1) _); set (R' := fupd R (q + 1) _).
  assert (HLR' : lr (q + 1) L' R').
  { intros r Hr; unfold L', R', fupd; destruct (Z.eqb_spec r (q + 1)) as [->|]; [split; reflexivity|apply HLR; lia]. }
  destruct (for_range_inv (fun r st => exists g, fst st = tab2 (S p) (S p) g /\
      snd st = (Fin ((u - kn U (s - (q + 1) + r)) * M (Z.to_nat q) (s - (q + 1) + r)) : Exact) /\ tri q g /\
      (forall r', (0 <= r' < r)%Z -> g r' (q + 1)%Z = (Fin (N (Z.to_nat (q + 1)) (s - (q + 1) + r')) : Exact) /\
                                     g (q + 1)%Z r' = (Fin (Dk (q + 1) r') : Exact)))
    0 (q + 1) (bd_inner (tab (S p) L') (tab (S p) R') (q + 1)) (tab2 (S p) (S p) f, (0 : Exact)%num))
    as ([ndu sv] & E & g & Eg & Esv & [HG1 HG2] & Hrow).
  - lia.
  - exists f; cbn [fst snd]; split; [reflexivity|]; split; [|split; [split; assumption|intros; lia]].
    unfold Mx; rewrite cox_support by lia; rewrite sdiv_0_l, Rmult_0_r; reflexivity.
  - intros r [ndu sv] Hr (g & Eg & Esv & [HG1 HG2] & Hrow); cbn [fst snd] in *; subst ndu sv.
    unfold bd_inner; cbn [fst snd]; rewrite !aget_tab by lia; cbn [bind].
    destruct (HLR' (r + 1)%Z ltac:(lia)) as [_ ER]; destruct (HLR' (q + 1 - r)%Z ltac:(lia)) as [EL _].
    rewrite ER, EL, E_add, aset2_tab2 by lia; cbn [bind].
    rewrite !aget2_tab2 by lia; cbn [bind]; rewrite fupd2_same, fupd2_other by lia.
    rewrite HG1 by lia.
    pose proof (Dk_pos (q + 1) r ltac:(lia)) as HD.
    replace (s + 1 - (q + 1 - r))%Z with (s + 1 - (q + 1) + r)%Z by lia.
    replace (s + (r + 1))%Z with (s + r + 1)%Z by lia.
    replace (kn U (s + r + 1) - u + (u - kn U (s + 1 - (q + 1) + r))) with (Dk (q + 1) r) by ring.
    rewrite E_div by lra; rewrite !E_mul, E_add, aset2_tab2 by lia; cbn [bind].
    assert (EM : N (Z.to_nat (q + 1 - 1)) (s - (q + 1 - 1) + r) / Dk (q + 1) r = M (Z.to_nat q) (s - q + r)).
    { unfold Mx; rewrite sdiv_nz; replace (s - q + r + Z.of_nat (Z.to_nat q) + 1)%Z with (s + r + 1)%Z by lia;
        replace (s - q + r)%Z with (s + 1 - (q + 1) + r)%Z by lia; [|lra].
      replace (q + 1 - 1)%Z with q by lia; do 2 f_equal; lia. }
    rewrite EM; eexists; split; [reflexivity|]; eexists; cbn [fst snd]; split; [reflexivity|].
    split; [|split; [split|]].
    + f_equal; f_equal; [do 2 f_equal; lia|f_equal; lia].
    + intros r' j H1 H2; rewrite fupd2_other by lia; rewrite fupd2_other by lia; apply HG1; lia.
    + intros r' j H1 H2; rewrite fupd2_other by lia; rewrite fupd2_other by lia; apply HG2; lia.
    + intros r' Hr'; destruct (Z.eq_dec r' r) as [->|Ne].
      * split; [rewrite fupd2_same|rewrite fupd2_other by lia; rewrite fupd2_same].
        { replace (Z.to_nat (q + 1)) with (S (Z.to_nat q)) by lia; rewrite cox_S; f_equal; f_equal; f_equal.
          - do 2 f_equal; lia.
          - f_equal; lia. }
        { reflexivity. }
      * rewrite !fupd2_other by lia; apply Hrow; lia.
  - rewrite E; cbn [bind fst snd] in *; subst ndu sv.
    rewrite aset2_tab2 by lia; cbn [bind].
    exists (fupd2 g (q + 1) (q + 1) (Fin ((u - kn U (s - (q + 1) + (q + 1))) * M (Z.to_nat q) (s - (q + 1) + (q + 1))) : Exact)), L', R'.
    split; [reflexivity|]; split; [split|exact HLR'].
    + intros r j H1 H2; destruct (Z.eq_dec j (q + 1)) as [->|Nj].
      * destruct (Z.eq_dec r (q + 1)) as [->|Nr].
        { rewrite fupd2_same; replace (Z.to_nat (q + 1)) with (S (Z.to_nat q)) by lia; rewrite cox_S.
          unfold Mx at 3; rewrite (cox_support s (kn U) _ (s - (q + 1) + (q + 1) + 1)) by lia.
          rewrite sdiv_0_l; f_equal; ring. }
        { rewrite fupd2_other by lia; apply Hrow; lia. }
      * rewrite fupd2_other by lia; apply HG1; lia.
    + intros r j H1 H2; rewrite fupd2_other by lia.
      destruct (Z.eq_dec j (q + 1)) as [->|Nj]; [apply Hrow; lia|apply HG2; lia].
Qed.

Lemma bd_triangle :
  exists f L R, for_range 1 (zp + 1) (bd_round s (Fin u : Exact) (fin U))
      (tab2 (S p) (S p) (fupd2 (fun _ _ => (1 : Exact)%num) 0 0 (1 : Exact)%num),
       tab (S p) (fun _ => (1 : Exact)%num), tab (S p) (fun _ => (1 : Exact)%num))
    = Ok (tab2 (S p) (S p) f, tab (S p) L, tab (S p) R) /\ tri zp f.
Proof.
  destruct (for_range_inv (fun j st => exists f L R,
      st = (tab2 (S p) (S p) f, tab (S p) L, tab (S p) R) /\ tri (j - 1) f /\ lr (j - 1) L R)
    1 (zp + 1) (bd_round s (Fin u : Exact) (fin U))
    (tab2 (S p) (S p) (fupd2 (fun _ _ => (1 : Exact)%num) 0 0 (1 : Exact)%num),
       tab (S p) (fun _ => (1 : Exact)%num), tab (S p) (fun _ => (1 : Exact)%num)))
    as (st & E & f & L & R & -> & HT & _).
  - lia.
  - do 3 eexists; split; [reflexivity|]; split; [split|].
    + intros r j H1 H2; assert (r = 0)%Z as -> by lia; assert (j = 0)%Z as -> by lia.
      rewrite fupd2_same; cbn [Z.to_nat cox]; replace (s - 0 + 0)%Z with s by lia; rewrite delta_same; reflexivity.
    + intros; lia.
    + intros r Hr; lia.
  - intros j st Hj (f & L & R & -> & HT & HLR).
    destruct (bd_round_ok (j - 1) f L R ltac:(lia) HT HLR) as (f' & L' & R' & E & HT' & HLR').
    replace (j - 1 + 1)%Z with j in E, HT', HLR' by lia.
    eexists; split; [exact E|]; exists f', L', R'; split; [reflexivity|].
    replace (j + 1 - 1)%Z with j by lia; auto.
  - exists f, L, R; split; [exact E|]; replace (zp + 1 - 1)%Z with zp in HT by lia; exact HT.
Qed.

(** ** Derivatives of one function *)
Section OneFunction.
Variables (ndu : Z -> Z -> Exact) (r : Z).
Hypothesis HT : tri zp ndu.
Hypothesis Hr : (0 <= r <= zp)%Z.

Notation i0 := (s - zp + r)%Z.
Definition ac (k : Z) (j : Z) : R := acoef (kn U) p i0 (Z.to_nat k) j.
Definition term (k j : Z) : R := ac k j * N (Z.to_nat (zp - k)) (i0 + j).
Definition lo (k : Z) : Z := Z.max 0 (k - r).
Definition hi (k : Z) : Z := Z.min k (zp - r).

Lemma ac_step k j : (1 <= k <= zp)%Z -> (lo k <= j <= hi k)%Z ->
  ac k j = (ac (k - 1) j - ac (k - 1) (j - 1)) / Dk (zp - k + 1) (r - k + j).
Proof.
  intros Hk Hj; unfold lo, hi in Hj; unfold ac.
  replace (Z.to_nat k) with (S (Z.to_nat (k - 1))) by lia; cbn [acoef].
  pose proof (Dk_pos (zp - k + 1) (r - k + j) ltac:(lia)) as HD.
  replace (i0 + zp + j - Z.of_nat (Z.to_nat (k - 1)))%Z with (s + (r - k + j) + 1)%Z by lia.
  replace (i0 + j)%Z with (s + 1 - (zp - k + 1) + (r - k + j))%Z by lia.
  apply sdiv_nz; lra.
Qed.

Definition row_ok (k : Z) (row : Z -> Exact) : Prop :=
  forall j, (lo k <= j <= hi k)%Z -> row j = Fin (ac k j).

Lemma ndu_D k j : (1 <= k <= zp)%Z -> (lo k <= j <= hi k)%Z ->
  ndu (zp - k + 1)%Z (r - k + j)%Z = Fin (Dk (zp - k + 1) (r - k + j)).
Proof. intros Hk Hj; unfold lo, hi in Hj; apply HT; lia. Qed.
Lemma ndu_N k j : (1 <= k <= zp)%Z -> (lo k <= j <= hi k)%Z ->
  ndu (r - k + j)%Z (zp - k)%Z = Fin (N (Z.to_nat (zp - k)) (i0 + j)).
Proof.
  intros Hk Hj; unfold lo, hi in Hj; destruct HT as [HT1 _]; rewrite HT1 by lia; do 2 f_equal; lia.
Qed.

(** The accumulated sum up to, excluding, [j]. *)
Notation acc k j := (zsum (lo k) (Z.to_nat (j - lo k)) (term k)).
Lemma acc_step k j : (lo k <= j)%Z -> acc k j + term k j = acc k (j + 1).
Proof.
  intros H; replace (Z.to_nat (j + 1 - lo k)) with (S (Z.to_nat (j - lo k))) by lia; cbn [zsum].
  do 2 f_equal; lia.
Qed.

Lemma acc_all k : (0 <= k <= zp)%Z -> acc k (hi k + 1) = zsum 0 (S (Z.to_nat k)) (term k).
Proof.
  intros Hk; symmetry; apply zsum_window; unfold lo, hi; try lia.
  intros j Hj Hout; unfold term; rewrite cox_support by lia; ring.
Qed.

Variable nd : nat.
Notation T2 := (tab2 (S p) (S nd)).
Notation A2 := (tab2 2 (S p)).

Lemma bd_korder_ok k g a s1 s2 : (1 <= k <= zp)%Z -> (k <= Z.of_nat nd)%Z ->
  ((s1 = 0 /\ s2 = 1) \/ (s1 = 1 /\ s2 = 0))%Z -> row_ok (k - 1) (a s1) ->
  exists a', bd_korder zp (tab2 (S p) (S p) ndu) r k (T2 g, A2 a, s1, s2)
    = Ok (T2 (fupd2 g r k (Fin (zsum 0 (S (Z.to_nat k)) (term k)) : Exact)), A2 a', s2, s1) /\ row_ok k (a' s2).
Proof.
  intros Hk Hnd Hs12 Ha; unfold bd_korder.
  (* j = 0 *)
  match goal with |- context [if (k <=? r)%Z then ?x else ?y] => set (first := if (k <=? r)%Z then x else y) end.
  set (start := if (-1 <=? r - k)%Z then 1%Z else (- (r - k))%Z).
  set (stop := ((if (r - 1 <=? zp - k)%Z then k - 1 else zp - r) + 1)%Z).
  assert (Estop : stop = Z.min k (zp - r + 1)) by (unfold stop; destruct (Z.leb_spec (r - 1) (zp - k)); lia).
  assert (Estart : start = Z.max 1 (k - r)) by (unfold start; destruct (Z.leb_spec (-1) (r - k)); lia).
  clearbody stop start.
  set (I := fun (j : Z) (st : list (list Exact) * Exact) => exists b, fst st = A2 b /\
      snd st = (Fin (acc k j) : Exact) /\ (forall j', b s1 j' = a s1 j') /\
      (forall j', (lo k <= j' < j)%Z -> b s2 j' = (Fin (ac k j') : Exact))).
  assert (H0 : exists st, first = Ok st /\ I start st).
  { unfold first; destruct (Z.leb_spec k r).
    - rewrite aget2_tab2 by lia; cbn [bind]; rewrite aget2_tab2 by lia; cbn [bind].
      rewrite Ha by (unfold lo, hi; lia).
      pose proof (ndu_D k 0 Hk ltac:(unfold lo, hi; lia)) as ED; rewrite Z.add_0_r in ED; rewrite ED.
      pose proof (Dk_pos (zp - k + 1) (r - k) ltac:(lia)) as HD.
      rewrite E_div by lra; rewrite aset2_tab2 by lia; cbn [bind].
      rewrite aget2_tab2 by lia; cbn [bind]; rewrite aget2_tab2 by lia; cbn [bind].
      pose proof (ndu_N k 0 Hk ltac:(unfold lo, hi; lia)) as EN; rewrite (Z.add_0_r (r - k)) in EN; rewrite EN.
      rewrite fupd2_same, E_mul.
      pose proof (ac_step k 0 Hk ltac:(unfold lo, hi; lia)) as EA; rewrite Z.add_0_r in EA.
      unfold ac at 3 in EA; rewrite acoef_out in EA by lia; rewrite Rminus_0_r in EA.
      rewrite <- EA.
      eexists; split; [reflexivity|]; eexists; cbn [fst snd]; split; [reflexivity|]; split; [|split].
      + assert (start = 1)%Z as -> by lia; unfold lo; replace (Z.max 0 (k - r)) with 0%Z by lia.
        change (Z.to_nat (1 - 0)) with 1%nat; cbn [zsum]; change (0 + Z.of_nat 0)%Z with 0%Z.
        unfold term; f_equal; ring.
      + intros j'; apply fupd2_other; lia.
      + intros j' Hj'; unfold lo in Hj'; assert (j' = 0)%Z as -> by lia; apply fupd2_same.
    - eexists; split; [reflexivity|]; exists a; cbn [fst snd]; split; [reflexivity|]; split; [|split].
      + unfold lo; replace (start - Z.max 0 (k - r))%Z with 0%Z by lia; reflexivity.
      + reflexivity.
      + intros j' Hj'; unfold lo in Hj'; lia. }
  destruct H0 as (st0 & -> & I0); cbn [bind].
  destruct (for_range_inv I start stop (bd_jstep (tab2 (S p) (S p) ndu) (zp - k) (r - k) s1 s2) st0)
    as (st1 & E1 & I1).
  - lia.
  - exact I0.
  - intros j [A d] Hj (b & EA & Ed & Hb1 & Hb2); cbn [fst snd] in *; subst A d.
    assert (Hj' : (lo k <= j <= hi k)%Z) by (unfold lo, hi; lia).
    unfold bd_jstep; cbn [fst snd].
    rewrite aget2_tab2 by lia; cbn [bind]; rewrite aget2_tab2 by lia; cbn [bind].
    rewrite aget2_tab2 by lia; cbn [bind].
    rewrite !Hb1, !Ha by (unfold lo, hi; lia); rewrite (ndu_D k j Hk Hj'), E_sub.
    pose proof (Dk_pos (zp - k + 1) (r - k + j) ltac:(unfold lo, hi in Hj'; lia)) as HD.
    rewrite E_div by lra; rewrite aset2_tab2 by lia; cbn [bind].
    rewrite aget2_tab2 by lia; cbn [bind]; rewrite aget2_tab2 by lia; cbn [bind].
    rewrite (ndu_N k j Hk Hj'), fupd2_same, E_mul, E_add, <- (ac_step k j Hk Hj').
    eexists; split; [reflexivity|]; eexists; cbn [fst snd]; split; [reflexivity|]; split; [|split].
    + rewrite <- acc_step by lia; reflexivity.
    + intros j'; rewrite fupd2_other by lia; apply Hb1.
    + intros j' Hj2; destruct (Z.eq_dec j' j) as [->|]; [apply fupd2_same|].
      rewrite fupd2_other by lia; apply Hb2; lia.
  - rewrite E1; cbn [bind]; destruct st1 as [A d]; destruct I1 as (b & EA & Ed & Hb1 & Hb2); cbn [fst snd] in *; subst A d.
    match goal with |- context [if (r <=? zp - k)%Z then ?x else ?y] => set (final := if (r <=? zp - k)%Z then x else y) end.
    assert (H2 : exists b', final = Ok (A2 b', Fin (acc k (hi k + 1)) : Exact) /\ row_ok k (b' s2)).
    { unfold final; destruct (Z.leb_spec r (zp - k)).
      - assert (Hh : hi k = k) by (unfold hi; lia).
        rewrite aget2_tab2 by lia; cbn [bind].
        replace (aget2 (tab2 (S p) (S p) ndu) (zp - k + 1) r) with
          (aget2 (tab2 (S p) (S p) ndu) (zp - k + 1) (r - k + k)) by (f_equal; lia).
        replace (aget2 (tab2 (S p) (S p) ndu) r (zp - k)) with
          (aget2 (tab2 (S p) (S p) ndu) (r - k + k) (zp - k)) by (f_equal; lia).
        rewrite aget2_tab2 by lia; cbn [bind].
        rewrite Hb1, Ha by (unfold lo, hi; lia); rewrite (ndu_D k k Hk) by (unfold lo, hi; lia).
        pose proof (Dk_pos (zp - k + 1) (r - k + k) ltac:(lia)) as HD.
        rewrite E_opp, E_div by lra; rewrite aset2_tab2 by lia; cbn [bind].
        rewrite aget2_tab2 by lia; cbn [bind]; rewrite aget2_tab2 by lia; cbn [bind].
        rewrite (ndu_N k k Hk) by (unfold lo, hi; lia).
        pose proof (ac_step k k Hk ltac:(unfold lo, hi; lia)) as EA.
        unfold ac at 2 in EA; rewrite acoef_out in EA by lia; rewrite Rminus_0_l in EA.
        rewrite fupd2_same, E_mul, E_add, <- EA.
        eexists; split; [f_equal; f_equal; f_equal|].
        + rewrite Hh, <- acc_step by (unfold lo; lia); assert (stop = k) as -> by lia; reflexivity.
        + intros j Hj; destruct (Z.eq_dec j k) as [->|]; [apply fupd2_same|].
          rewrite fupd2_other by lia; apply Hb2; unfold hi in Hj; lia.
      - exists b; split; [do 4 f_equal; unfold hi; lia|].
        intros j Hj; apply Hb2; unfold hi in Hj; lia. }
    destruct H2 as (b' & -> & Hrow); cbn [bind fst snd].
    rewrite aset2_tab2 by lia; cbn [bind]; rewrite acc_all by lia.
    exists b'; split; [reflexivity|exact Hrow].
Qed.

(** Orders above the degree leave zeros. *)
Lemma bd_korder_zero k g a s1 s2 : (zp < k <= Z.of_nat nd)%Z ->
  bd_korder zp (tab2 (S p) (S p) ndu) r k (T2 g, A2 a, s1, s2)
    = Ok (T2 (fupd2 g r k (0 : Exact)%num), A2 a, s2, s1).
Proof.
  intros Hk; unfold bd_korder.
  destruct (Z.leb_spec k r); [lia|]; cbn [bind].
  rewrite for_range_empty.
  2:{ destruct (Z.leb_spec (-1) (r - k)); destruct (Z.leb_spec (r - 1) (zp - k)); lia. }
  cbn [bind]; destruct (Z.leb_spec r (zp - k)); [lia|]; cbn [bind fst snd].
  rewrite aset2_tab2 by lia; reflexivity.
Qed.

(** Entry written for order [k] of function [r], before the correction factors. *)
Definition raw (k : Z) : Exact :=
  if (k <=? zp)%Z then Fin (zsum 0 (S (Z.to_nat k)) (term k)) else (0 : Exact)%num.

Lemma bd_function_ok g a : exists g' a',
  bd_function zp (Z.of_nat nd) (tab2 (S p) (S p) ndu) r (T2 g, A2 a) = Ok (T2 g', A2 a') /\
  (forall k, (1 <= k <= Z.of_nat nd)%Z -> g' r k = raw k) /\
  (forall r' k, (r' <> r \/ k < 1)%Z -> g' r' k = g r' k).
Proof.
  unfold bd_function; cbn [fst snd]; rewrite aset2_tab2 by lia; cbn [bind].
  set (a0 := fupd2 a 0 0 (1 : Exact)%num).
  destruct (for_range_inv (fun k st => exists g' a' s1 s2, st = (T2 g', A2 a', s1, s2) /\
      ((s1 = 0 /\ s2 = 1) \/ (s1 = 1 /\ s2 = 0))%Z /\ ((k - 1 <= zp)%Z -> row_ok (k - 1) (a' s1)) /\
      (forall k', (1 <= k' < k)%Z -> g' r k' = raw k') /\
      (forall r' k', (r' <> r \/ k' < 1)%Z -> g' r' k' = g r' k'))
    1 (Z.of_nat nd + 1) (bd_korder zp (tab2 (S p) (S p) ndu) r) (T2 g, A2 a0, 0%Z, 1%Z))
    as (st & E & g' & a' & s1 & s2 & -> & _ & _ & H1 & H2).
  - lia.
  - exists g, a0, 0%Z, 1%Z; split; [reflexivity|]; split; [auto|]; split; [|split; [intros; lia|auto]].
    intros _ j Hj; unfold lo, hi in Hj; assert (j = 0)%Z as -> by lia.
    unfold a0; rewrite fupd2_same; reflexivity.
  - intros k st Hk (g' & a' & s1 & s2 & -> & Hs12 & Ha & H1 & H2).
    destruct (Z_le_dec k zp) as [L|L].
    + destruct (bd_korder_ok k g' a' s1 s2 ltac:(lia) ltac:(lia) Hs12 (Ha ltac:(lia))) as (a'' & E & Hrow).
      eexists; split; [exact E|]; do 4 eexists; split; [reflexivity|]; split; [lia|].
      split; [intros _; replace (k + 1 - 1)%Z with k by lia; exact Hrow|]; split.
      * intros k' Hk'; destruct (Z.eq_dec k' k) as [->|].
        { rewrite fupd2_same; unfold raw; destruct (Z.leb_spec k zp); [reflexivity|lia]. }
        { rewrite fupd2_other by lia; apply H1; lia. }
      * intros r' k' Hr'; rewrite fupd2_other by lia; apply H2; lia.
    + rewrite bd_korder_zero by lia.
      eexists; split; [reflexivity|]; do 4 eexists; split; [reflexivity|]; split; [lia|].
      split; [intros; lia|]; split.
      * intros k' Hk'; destruct (Z.eq_dec k' k) as [->|].
        { rewrite fupd2_same; unfold raw; destruct (Z.leb_spec k zp); [lia|reflexivity]. }
        { rewrite fupd2_other by lia; apply H1; lia. }
      * intros r' k' Hr'; rewrite fupd2_other by lia; apply H2; lia.
  - rewrite E; cbn [bind]; exists g', a'; split; [reflexivity|]; split; [|exact H2].
    intros k Hk; apply H1; lia.
Qed.
End OneFunction.

(** ** Correction factors *)

Fixpoint zfact (k : nat) : Z := match k with O => 1 | S m => zfact m * (zp - Z.of_nat m) end%Z.
Lemma zfact_ffact k : (k <= p)%nat -> IZR (zfact k) = ffact p k.
Proof.
  induction k as [|k IH]; intros Hk; [reflexivity|]; cbn [zfact ffact].
  rewrite mult_IZR, IH by lia; rewrite INR_IZR_INZ; do 2 f_equal; lia.
Qed.

Lemma bd_correct_ok nd k g : (1 <= k <= Z.of_nat nd)%Z ->
  bd_correct zp k (tab2 (S p) (S nd) g, zfact (Z.to_nat k))
  = Ok (tab2 (S p) (S nd) (fun r c => if (c =? k)%Z then (g r c * ofZ (zfact (Z.to_nat k)))%num : Exact else g r c),
        zfact (Z.to_nat (k + 1))).
Proof.
  intros Hk; unfold bd_correct; cbn [fst snd].
  rewrite (for_range_fun (fun j => tab2 (S p) (S nd) (fun r c =>
     if ((c =? k) && (r <? j))%Z then (g r c * ofZ (zfact (Z.to_nat k)))%num : Exact else g r c))).
  - cbn [bind]; f_equal; f_equal.
    + apply tab2_ext; intros r c Hr Hc; destruct (Z.eqb_spec c k); [|reflexivity].
      destruct (Z.ltb_spec r (zp + 1)); [reflexivity|lia].
    + replace (Z.to_nat (k + 1)) with (S (Z.to_nat k)) by lia; cbn [zfact]; f_equal; lia.
  - lia.
  - apply tab2_ext; intros r c Hr Hc; destruct (Z.eqb_spec c k); [|reflexivity].
    destruct (Z.ltb_spec r 0); [lia|reflexivity].
  - intros j Hj; rewrite aget2_tab2 by lia; cbn [bind]; rewrite aset2_tab2 by lia; f_equal.
    apply tab2_ext; intros r c Hr Hc.
    destruct (Z.eq_dec r j) as [->|Nr]; [destruct (Z.eq_dec c k) as [->|Nc]|].
    + rewrite fupd2_same, Z.eqb_refl; destruct (Z.ltb_spec j j); [lia|].
      destruct (Z.ltb_spec j (j + 1)); [reflexivity|lia].
    + rewrite fupd2_other by lia; destruct (Z.eqb_spec c k); [lia|reflexivity].
    + rewrite fupd2_other by lia; destruct (Z.eqb_spec c k); [|reflexivity]; cbn [andb].
      destruct (Z.ltb_spec r j); destruct (Z.ltb_spec r (j + 1)); try lia; reflexivity.
Qed.

Lemma Dx_above k : forall q i, (q < k)%nat -> Dx (delta s) (kn U) k q i u = 0.
Proof.
  induction k as [|k IH]; intros q i Hq; [lia|].
  destruct q as [|q]; [reflexivity|]; cbn [Dx]; rewrite !IH by lia; rewrite !sdiv_0_l; ring.
Qed.

Lemma basis_function_ders_eq nd :
  basis_function_ders s (Fin u : Exact) zp (fin U) (Z.of_nat nd)
  = Ok (tab2 (S p) (S nd) (fun r k => Fin (Dx (delta s) (kn U) (Z.to_nat k) p (s - zp + r) u) : Exact)).
Proof.
  unfold basis_function_ders.
  rewrite (np_full2_tab (S p) (S nd)), (np_full2_tab (S p) (S p)), (np_full2_tab 2 (S p)) by lia; cbn [bind].
  rewrite aset2_tab2 by lia; cbn [bind]; rewrite !(np_full_tab' _ (S p)) by lia; cbn [bind].
  destruct bd_triangle as (f & L & R & -> & HT); cbn [bind fst].
  rewrite (for_range_fun (fun j => tab2 (S p) (S nd) (fun r c =>
    if ((c =? 0) && (r <? j))%Z then f r zp else (0 : Exact)%num))); [| lia | |].
  2:{ apply tab2_ext; intros r c Hr Hc; destruct (Z.eqb_spec c 0); [|reflexivity].
      destruct (Z.ltb_spec r 0); [lia|reflexivity]. }
  2:{ intros j Hj; rewrite aget2_tab2 by lia; cbn [bind]; rewrite aset2_tab2 by lia; f_equal.
      apply tab2_ext; intros r c Hr Hc.
      destruct (Z.eq_dec r j) as [->|Nr]; [destruct (Z.eq_dec c 0) as [->|Nc]|].
      - rewrite fupd2_same; destruct (Z.ltb_spec j (j + 1)); [reflexivity|lia].
      - rewrite fupd2_other by lia; destruct (Z.eqb_spec c 0); [lia|reflexivity].
      - rewrite fupd2_other by lia; destruct (Z.eqb_spec c 0); [|reflexivity]; cbn [andb].
        destruct (Z.ltb_spec r j); destruct (Z.ltb_spec r (j + 1)); try lia; reflexivity. }
  cbn [bind].
  set (g0 := fun r c : Z => if ((c =? 0) && (r <? zp + 1))%Z then f r zp else (0 : Exact)%num).
  destruct (for_range_inv (fun r st => exists g a, st = (tab2 (S p) (S nd) g, tab2 2 (S p) a) /\
      (forall r' k, (0 <= r' < r)%Z -> (1 <= k <= Z.of_nat nd)%Z -> g r' k = raw r' k) /\
      (forall r', (0 <= r' <= zp)%Z -> g r' 0%Z = g0 r' 0%Z))
    0 (zp + 1) (bd_function zp (Z.of_nat nd) (tab2 (S p) (S p) f)) (tab2 (S p) (S nd) g0, tab2 2 (S p) (fun _ _ => (1 : Exact)%num)))
    as (st & E & g & a & -> & Hg1 & Hg0).
  - lia.
  - do 2 eexists; split; [reflexivity|]; split; [intros; lia|reflexivity].
  - intros r st Hr (g & a & -> & Hg1 & Hg0).
    destruct (bd_function_ok f r HT ltac:(lia) nd g a) as (g' & a' & E & H1 & H2).
    eexists; split; [exact E|]; exists g', a'; split; [reflexivity|]; split.
    + intros r' k Hr' Hk; destruct (Z.eq_dec r' r) as [->|]; [apply H1; lia|rewrite H2 by lia; apply Hg1; lia].
    + intros r' Hr'; rewrite H2 by lia; apply Hg0; exact Hr'.
  - rewrite E; cbn [bind fst].
    rewrite (for_range_fun (fun k => (tab2 (S p) (S nd) (fun r c =>
        if ((1 <=? c) && (c <? k))%Z then (g r c * ofZ (zfact (Z.to_nat c)))%num : Exact else g r c), zfact (Z.to_nat k)))).
    + cbn [bind fst]; f_equal; apply tab2_ext; intros r c Hr Hc.
      destruct (Z.leb_spec 1 c) as [Hc1|Hc1]; cbn [andb].
      * destruct (Z.ltb_spec c (Z.of_nat nd + 1)); [|lia].
        rewrite Hg1 by lia; unfold raw; destruct (Z.leb_spec c zp).
        { rewrite E_ofZ, E_mul; f_equal.
          rewrite (Dx_coef (delta s) (kn U) (kn_mono U HU) p (s - zp + r) (Z.to_nat c)) by lia.
          rewrite zfact_ffact, Rmult_comm by lia; f_equal; apply zsum_ext; intros j Hj; unfold term, ac.
          replace (Z.to_nat (zp - c)) with (p - Z.to_nat c)%nat by lia; reflexivity. }
        { rewrite Dx_above by lia; rewrite !E_ofZ, E_mul; f_equal; ring. }
      * assert (c = 0)%Z as -> by lia; rewrite Hg0 by lia; unfold g0; cbn [Z.eqb andb].
        destruct (Z.ltb_spec r (zp + 1)); [|lia]; destruct HT as [HT1 _]; rewrite HT1 by lia.
        cbn [Z.to_nat Dx]; rewrite Nat2Z.id; reflexivity.
    + lia.
    + f_equal.
      * apply tab2_ext; intros r c Hr Hc; destruct (Z.leb_spec 1 c); [|reflexivity].
        destruct (Z.ltb_spec c 1); [lia|reflexivity].
      * change (Z.to_nat 1) with 1%nat; cbn [zfact]; lia.
    + intros k Hk; rewrite bd_correct_ok by lia; f_equal; f_equal; apply tab2_ext; intros r c Hr Hc.
      destruct (Z.eqb_spec c k) as [->|].
      * destruct (Z.leb_spec 1 k); [|lia]; destruct (Z.ltb_spec k k); [lia|].
        destruct (Z.ltb_spec k (k + 1)); [reflexivity|lia].
      * destruct (Z.leb_spec 1 c); cbn [andb]; [|reflexivity].
        destruct (Z.ltb_spec c k); destruct (Z.ltb_spec c (k + 1)); try lia; reflexivity.
Qed.
End Ders.
