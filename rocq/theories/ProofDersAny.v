(** The tables of [basis_functions] and [basis_function_ders] (model:
    ModelBasis.v) written out as functions of the indices, over any numbers:
    the same operations in the same order as the loops. *)
From Verif Require Import Py PyLemmas Num ModelBasis ProofDers.
Open Scope Z_scope.

Section Any.
Context {K : Num}.
Variables (kv : list K) (s : Z) (x : K) (p : nat).
Hypothesis Hlo : Z.of_nat p - 1 <= s.
Hypothesis Hhi : s + Z.of_nat p < zlen kv.
Notation zp := (Z.of_nat p).

Definition gU (i : Z) : K := nth (Z.to_nat i) kv 0%num.
Definition gL (r : Z) : K := (x - gU (s + 1 - r)%Z)%num.
Definition gR (r : Z) : K := (gU (s + r)%Z - x)%num.
(** Knot difference [r] of row [j] of the triangle. *)
Definition gD (j r : Z) : K := (gR (r + 1)%Z + gL (j - r)%Z)%num.
(** What is saved for entry [r] of column [j] computed from column [f]. *)
Definition gS (j : Z) (f : Z -> K) (r : Z) : K :=
  if r =? 0 then 0%num else (gL (j - (r - 1))%Z * (f (r - 1)%Z / gD j (r - 1)%Z))%num.
(** Column [j] of the triangle. *)
Fixpoint gN (j : nat) (r : Z) : K :=
  match j with
  | O => 1%num
  | S q => if r =? Z.of_nat (S q) then gS (Z.of_nat (S q)) (gN q) r
           else (gS (Z.of_nat (S q)) (gN q) r + gR (r + 1)%Z * (gN q r / gD (Z.of_nat (S q)) r))%num
  end.

Lemma aget_kv i : 0 <= i < zlen kv -> aget kv i = Ok (gU i).
Proof. intros H; unfold gU; apply aget_nth; exact H. Qed.

Definition glr (q : Z) (L R : Z -> K) : Prop := forall r, 1 <= r <= q -> L r = gL r /\ R r = gR r.

(** ** [basis_functions] *)
Lemma bf_round_any q f L R : (q < p)%nat ->
  (forall r, 0 <= r <= Z.of_nat q -> f r = gN q r) -> glr (Z.of_nat q) L R ->
  exists f' L' R', bf_round s x kv (Z.of_nat (S q)) (tab (S p) f, tab (S p) L, tab (S p) R)
    = Ok (tab (S p) f', tab (S p) L', tab (S p) R') /\
    (forall r, 0 <= r <= Z.of_nat (S q) -> f' r = gN (S q) r) /\ glr (Z.of_nat (S q)) L' R'.
Proof.
  intros Hq HF HLR; unfold bf_round.
  rewrite aget_kv by lia; cbn [bind]; rewrite aset_tab by lia; cbn [bind].
  rewrite aget_kv by lia; cbn [bind]; rewrite aset_tab by lia; cbn [bind].
  set (L' := fupd L _ _); set (R' := fupd R _ _).
  assert (HLR' : glr (Z.of_nat (S q)) L' R').
  { intros r Hr; unfold L', R', fupd; destruct (Z.eqb_spec r (Z.of_nat (S q))) as [->|]; [split; reflexivity|apply HLR; lia]. }
  destruct (for_range_inv (fun r st => exists g, st = (tab (S p) g, gS (Z.of_nat (S q)) (gN q) r) /\
      (forall r', 0 <= r' < r -> g r' = gN (S q) r') /\ (forall r', r <= r' <= Z.of_nat q -> g r' = gN q r'))
    0 (Z.of_nat (S q)) (bf_inner (tab (S p) L') (tab (S p) R') (Z.of_nat (S q))) (tab (S p) f, 0%num))
    as (st & E & g & -> & Hg & _).
  - lia.
  - exists f; split; [reflexivity|]; split; [intros; lia|exact HF].
  - intros r st Hr (g & -> & Hg1 & Hg2); unfold bf_inner; cbn [fst snd].
    rewrite !aget_tab by lia; cbn [bind].
    destruct (HLR' (r + 1) ltac:(lia)) as [_ ->]; destruct (HLR' (Z.of_nat (S q) - r) ltac:(lia)) as [-> _].
    rewrite Hg2 by lia; rewrite aset_tab by lia; cbn [bind].
    eexists; split; [reflexivity|]; eexists; split; [|split].
    + f_equal; unfold gS at 1; destruct (Z.eqb_spec (r + 1) 0); [lia|].
      replace (r + 1 - 1) with r by lia; reflexivity.
    + intros r' Hr'; unfold fupd; destruct (Z.eqb_spec r' r) as [->|]; [|apply Hg1; lia].
      cbn [gN]; destruct (Z.eqb_spec r (Z.of_nat (S q))); [lia|reflexivity].
    + intros r' Hr'; unfold fupd; destruct (Z.eqb_spec r' r); [lia|apply Hg2; lia].
  - rewrite E; cbn [bind fst snd]; rewrite aset_tab by lia; cbn [bind].
    do 3 eexists; split; [reflexivity|]; split; [|exact HLR'].
    intros r Hr; unfold fupd; destruct (Z.eqb_spec r (Z.of_nat (S q))) as [->|]; [|apply Hg; lia].
    cbn [gN]; rewrite Z.eqb_refl; reflexivity.
Qed.

Lemma basis_functions_any : basis_functions s x zp kv = Ok (tab (S p) (gN p)).
Proof.
  unfold basis_functions; rewrite !(np_full_tab' _ (S p)) by lia; cbn [bind].
  destruct (for_range_inv (fun j st => exists f L R, st = (tab (S p) f, tab (S p) L, tab (S p) R) /\
      (forall r, 0 <= r <= j - 1 -> f r = gN (Z.to_nat (j - 1)) r) /\ glr (j - 1) L R)
    1 (zp + 1) (bf_round s x kv) (tab (S p) (fun _ => 1%num), tab (S p) (fun _ => 0%num), tab (S p) (fun _ => 0%num)))
    as (st & E & f & L & R & -> & HF & _).
  - lia.
  - do 3 eexists; split; [reflexivity|]; split; [reflexivity|intros r Hr; lia].
  - intros j st Hj (f & L & R & -> & HF & HLR).
    destruct (bf_round_any (Z.to_nat (j - 1)) f L R) as (f' & L' & R' & E & HF' & HLR').
    + lia.
    + intros r Hr; apply HF; lia.
    + intros r Hr; apply HLR; lia.
    + replace (Z.of_nat (S (Z.to_nat (j - 1)))) with j in * by lia.
      eexists; split; [exact E|]; do 3 eexists; split; [reflexivity|].
      replace (j + 1 - 1) with j by lia; replace (Z.to_nat j) with (S (Z.to_nat (j - 1))) by lia; auto.
  - rewrite E; cbn [bind fst]; f_equal; apply tab_ext; intros r Hr; rewrite HF by lia.
    f_equal; lia.
Qed.

(** ** The triangle of [basis_function_ders] *)
Definition gtri (q : Z) (f : Z -> Z -> K) : Prop :=
  (forall r j, 0 <= r <= j -> j <= q -> f r j = gN (Z.to_nat j) r) /\
  (forall r j, 0 <= r < j -> j <= q -> f j r = gD j r).

Lemma bd_round_any q f L R : 0 <= q < zp -> gtri q f -> glr q L R ->
  exists f' L' R', bd_round s x kv (q + 1) (tab2 (S p) (S p) f, tab (S p) L, tab (S p) R)
    = Ok (tab2 (S p) (S p) f', tab (S p) L', tab (S p) R') /\ gtri (q + 1) f' /\ glr (q + 1) L' R'.
Proof.
  intros Hq [HT1 HT2] HLR; unfold bd_round.
  rewrite aget_kv by lia; cbn [bind]; rewrite aset_tab by lia; cbn [bind].
  rewrite aget_kv by lia; cbn [bind]; rewrite aset_tab by lia; cbn [bind].
  set (L' := fupd L (q + 1) _); set (R' := fupd R (q + 1) _).
  assert (HLR' : glr (q + 1) L' R').
  { intros r Hr; unfold L', R', fupd; destruct (Z.eqb_spec r (q + 1)) as [->|]; [split; reflexivity|apply HLR; lia]. }
  assert (EQ : Z.of_nat (S (Z.to_nat q)) = q + 1) by lia.
  destruct (for_range_inv (fun r st => exists g, st = (tab2 (S p) (S p) g, gS (q + 1) (gN (Z.to_nat q)) r) /\ gtri q g /\
      (forall r', 0 <= r' < r -> g r' (q + 1) = gN (S (Z.to_nat q)) r' /\ g (q + 1) r' = gD (q + 1) r'))
    0 (q + 1) (bd_inner (tab (S p) L') (tab (S p) R') (q + 1)) (tab2 (S p) (S p) f, 0%num))
    as (st & E & g & -> & [HG1 HG2] & Hrow).
  - lia.
  - exists f; split; [reflexivity|]; split; [split; assumption|intros; lia].
  - intros r st Hr (g & -> & [HG1 HG2] & Hrow).
    unfold bd_inner; cbn [fst snd]; rewrite !aget_tab by lia; cbn [bind].
    destruct (HLR' (r + 1) ltac:(lia)) as [_ ->]; destruct (HLR' (q + 1 - r) ltac:(lia)) as [-> _].
    fold (gD (q + 1) r).
    rewrite aset2_tab2 by lia; cbn [bind].
    rewrite !aget2_tab2 by lia; cbn [bind]; rewrite fupd2_same, fupd2_other by lia.
    rewrite HG1 by lia; replace (q + 1 - 1) with q by lia.
    rewrite aset2_tab2 by lia; cbn [bind].
    eexists; split; [reflexivity|]; eexists; split; [|split; [split|]].
    + f_equal; unfold gS at 1; destruct (Z.eqb_spec (r + 1) 0); [lia|].
      replace (r + 1 - 1) with r by lia; reflexivity.
    + intros r' j H1 H2; rewrite fupd2_other by lia; rewrite fupd2_other by lia; apply HG1; lia.
    + intros r' j H1 H2; rewrite fupd2_other by lia; rewrite fupd2_other by lia; apply HG2; lia.
    + intros r' Hr'; destruct (Z.eq_dec r' r) as [->|Ne].
      * split; [rewrite fupd2_same|rewrite fupd2_other by lia; rewrite fupd2_same; reflexivity].
        cbn [gN]; rewrite EQ; destruct (Z.eqb_spec r (q + 1)); [lia|reflexivity].
      * rewrite !fupd2_other by lia; apply Hrow; lia.
  - rewrite E; cbn [bind fst snd] in *; rewrite aset2_tab2 by lia; cbn [bind].
    do 3 eexists; split; [reflexivity|]; split; [split|exact HLR'].
    + intros r j H1 H2; destruct (Z.eq_dec j (q + 1)) as [->|Nj].
      * replace (Z.to_nat (q + 1)) with (S (Z.to_nat q)) by lia.
        destruct (Z.eq_dec r (q + 1)) as [->|Nr].
        { rewrite fupd2_same; cbn [gN]; rewrite EQ, Z.eqb_refl; reflexivity. }
        { rewrite fupd2_other by lia; apply Hrow; lia. }
      * rewrite fupd2_other by lia; apply HG1; lia.
    + intros r j H1 H2; rewrite fupd2_other by lia.
      destruct (Z.eq_dec j (q + 1)) as [->|Nj]; [apply Hrow; lia|apply HG2; lia].
Qed.

Lemma bd_triangle_any :
  exists f L R, for_range 1 (zp + 1) (bd_round s x kv)
      (tab2 (S p) (S p) (fupd2 (fun _ _ => 1%num) 0 0 1%num), tab (S p) (fun _ => 1%num), tab (S p) (fun _ => 1%num))
    = Ok (tab2 (S p) (S p) f, tab (S p) L, tab (S p) R) /\ gtri zp f.
Proof.
  destruct (for_range_inv (fun j st => exists f L R,
      st = (tab2 (S p) (S p) f, tab (S p) L, tab (S p) R) /\ gtri (j - 1) f /\ glr (j - 1) L R)
    1 (zp + 1) (bd_round s x kv)
    (tab2 (S p) (S p) (fupd2 (fun _ _ => 1%num) 0 0 1%num), tab (S p) (fun _ => 1%num), tab (S p) (fun _ => 1%num)))
    as (st & E & f & L & R & -> & HT & _).
  - lia.
  - do 3 eexists; split; [reflexivity|]; split; [split|].
    + intros r j H1 H2; assert (r = 0) as -> by lia; assert (j = 0) as -> by lia.
      rewrite fupd2_same; reflexivity.
    + intros; lia.
    + intros r Hr; lia.
  - intros j st Hj (f & L & R & -> & HT & HLR).
    destruct (bd_round_any (j - 1) f L R ltac:(lia) HT HLR) as (f' & L' & R' & E & HT' & HLR').
    replace (j - 1 + 1) with j in E, HT', HLR' by lia.
    eexists; split; [exact E|]; exists f', L', R'; split; [reflexivity|].
    replace (j + 1 - 1) with j by lia; auto.
  - exists f, L, R; split; [exact E|]; replace (zp + 1 - 1) with zp in HT by lia; exact HT.
Qed.

(** ** Derivatives of function [r] *)
Section OneFunction.
Variable (r : Z).
Hypothesis Hr : 0 <= r <= zp.
Notation lo k := (lo r k).
Notation hi k := (hi p r k).

(** The coefficients of order [k]. *)
Fixpoint gA (k : nat) (j : Z) : K :=
  match k with
  | O => 1%num
  | S m => let d := gD (zp - Z.of_nat m) (r - Z.of_nat (S m) + j) in
      if j =? 0 then (gA m 0%Z / d)%num
      else if j =? Z.of_nat (S m) then (nopp (gA m (j - 1)%Z) / d)%num
      else ((gA m j - gA m (j - 1)%Z) / d)%num
  end.
Definition gT (k : nat) (j : Z) : K := (gA k j * gN (p - k)%nat (r - Z.of_nat k + j)%Z)%num.
(** The sum of the first [n] terms of order [k], from [lo k]. *)
Fixpoint gsum (k : nat) (n : nat) : K :=
  match n with
  | O => 0%num
  | S m => if ((m =? 0)%nat && (Z.of_nat k <=? r))%bool then gT k 0
           else (gsum k m + gT k (lo (Z.of_nat k) + Z.of_nat m)%Z)%num
  end.
Definition graw (k : Z) : K :=
  if k <=? zp then gsum (Z.to_nat k) (Z.to_nat (hi k + 1 - lo k)) else 0%num.

Variable (ndu : Z -> Z -> K).
Hypothesis HT : gtri zp ndu.
Variable nd : nat.
Notation T2 := (tab2 (S p) (S nd)).
Notation A2 := (tab2 2 (S p)).

Definition grow_ok (k : Z) (row : Z -> K) : Prop := forall j, lo k <= j <= hi k -> row j = gA (Z.to_nat k) j.

Lemma gndu_D k j : 1 <= k <= zp -> lo k <= j <= hi k -> ndu (zp - k + 1) (r - k + j) = gD (zp - k + 1) (r - k + j).
Proof. intros Hk Hj; unfold ProofDers.lo, ProofDers.hi in Hj; apply HT; lia. Qed.
Lemma gndu_N k j : 1 <= k <= zp -> lo k <= j <= hi k -> ndu (r - k + j) (zp - k) = gN (p - Z.to_nat k) (r - k + j).
Proof. intros Hk Hj; unfold ProofDers.lo, ProofDers.hi in Hj; destruct HT as [HT1 _]; rewrite HT1 by lia; f_equal; lia. Qed.

Lemma gA_step k j : 1 <= k <= zp -> 1 <= j -> j < k ->
  gA (Z.to_nat k) j = ((gA (Z.to_nat (k - 1)) j - gA (Z.to_nat (k - 1)) (j - 1)%Z) / gD (zp - k + 1)%Z (r - k + j)%Z)%num.
Proof.
  intros Hk Hj Hj'; replace (Z.to_nat k) with (S (Z.to_nat (k - 1))) by lia; cbn [gA].
  destruct (Z.eqb_spec j 0); [lia|]; destruct (Z.eqb_spec j (Z.of_nat (S (Z.to_nat (k - 1))))); [lia|].
  do 2 f_equal; lia.
Qed.
Lemma gA_first k : 1 <= k <= zp -> gA (Z.to_nat k) 0 = (gA (Z.to_nat (k - 1)) 0%Z / gD (zp - k + 1)%Z (r - k)%Z)%num.
Proof.
  intros Hk; replace (Z.to_nat k) with (S (Z.to_nat (k - 1))) by lia; cbn [gA].
  destruct (Z.eqb_spec 0 0); [|lia]; do 2 f_equal; lia.
Qed.
Lemma gA_last k : 1 <= k <= zp -> gA (Z.to_nat k) k = (nopp (gA (Z.to_nat (k - 1)) (k - 1)%Z) / gD (zp - k + 1)%Z r)%num.
Proof.
  intros Hk; replace (Z.to_nat k) with (S (Z.to_nat (k - 1))) by lia; cbn [gA].
  destruct (Z.eqb_spec k 0); [lia|]; destruct (Z.eqb_spec k (Z.of_nat (S (Z.to_nat (k - 1))))); [|lia].
  do 2 f_equal; lia.
Qed.

Notation acc k j := (gsum (Z.to_nat k) (Z.to_nat (j - lo k))).
Lemma gacc_step k j : 1 <= k -> 1 <= j -> lo k <= j -> (acc k j%Z + gT (Z.to_nat k) j)%num = acc k (j + 1).
Proof.
  intros Hk Hj Hl; replace (Z.to_nat (j + 1 - lo k)) with (S (Z.to_nat (j - lo k))) by lia; cbn [gsum].
  rewrite Z2Nat.id by lia.
  destruct (Nat.eqb_spec (Z.to_nat (j - lo k)) 0); destruct (Z.leb_spec k r); cbn [andb];
    try (do 2 f_equal; lia); unfold ProofDers.lo in *; lia.
Qed.

Lemma bd_korder_any k g a s1 s2 : 1 <= k <= zp -> k <= Z.of_nat nd ->
  ((s1 = 0 /\ s2 = 1) \/ (s1 = 1 /\ s2 = 0)) -> grow_ok (k - 1) (a s1) ->
  exists a', bd_korder zp (tab2 (S p) (S p) ndu) r k (T2 g, A2 a, s1, s2)
    = Ok (T2 (fupd2 g r k (graw k)), A2 a', s2, s1) /\ grow_ok k (a' s2).
Proof.
  intros Hk Hnd Hs12 Ha; unfold bd_korder.
  match goal with |- context [if (k <=? r)%Z then ?x else ?y] => set (first := if (k <=? r)%Z then x else y) end.
  set (start := if (-1 <=? r - k)%Z then 1%Z else (- (r - k))%Z).
  set (stop := ((if (r - 1 <=? zp - k)%Z then k - 1 else zp - r) + 1)%Z).
  assert (Estop : stop = Z.min k (zp - r + 1)) by (unfold stop; destruct (Z.leb_spec (r - 1) (zp - k)); lia).
  assert (Estart : start = Z.max 1 (k - r)) by (unfold start; destruct (Z.leb_spec (-1) (r - k)); lia).
  clearbody stop start.
  set (I := fun (j : Z) (st : list (list K) * K) => exists b, st = (A2 b, acc k j) /\
      (forall j', b s1 j' = a s1 j') /\ (forall j', lo k <= j' < j -> b s2 j' = gA (Z.to_nat k) j')).
  assert (H0 : exists st, first = Ok st /\ I start st).
  { unfold first; destruct (Z.leb_spec k r).
    - rewrite aget2_tab2 by lia; cbn [bind]; rewrite aget2_tab2 by lia; cbn [bind].
      rewrite Ha by (unfold ProofDers.lo, ProofDers.hi; lia).
      pose proof (gndu_D k 0 Hk ltac:(unfold ProofDers.lo, ProofDers.hi; lia)) as ED; rewrite Z.add_0_r in ED; rewrite ED.
      rewrite <- gA_first by lia.
      rewrite aset2_tab2 by lia; cbn [bind].
      rewrite aget2_tab2 by lia; cbn [bind]; rewrite aget2_tab2 by lia; cbn [bind].
      pose proof (gndu_N k 0 Hk ltac:(unfold ProofDers.lo, ProofDers.hi; lia)) as EN; rewrite (Z.add_0_r (r - k)) in EN; rewrite EN.
      rewrite fupd2_same.
      eexists; split; [reflexivity|]; eexists; split; [|split].
      + f_equal; assert (start = 1) as -> by lia; unfold ProofDers.lo; replace (1 - Z.max 0 (k - r)) with 1 by lia.
        change (Z.to_nat 1) with 1%nat; cbn [gsum Nat.eqb andb]; destruct (Z.leb_spec (Z.of_nat (Z.to_nat k)) r); [|lia].
        unfold gT; do 2 f_equal; lia.
      + intros j'; apply fupd2_other; lia.
      + intros j' Hj'; unfold ProofDers.lo in Hj'; assert (j' = 0) as -> by lia; apply fupd2_same.
    - eexists; split; [reflexivity|]; exists a; split; [|split].
      + f_equal; unfold ProofDers.lo; replace (start - Z.max 0 (k - r)) with 0 by lia; reflexivity.
      + reflexivity.
      + intros j' Hj'; unfold ProofDers.lo in Hj'; lia. }
  destruct H0 as (st0 & -> & I0); cbn [bind].
  destruct (for_range_inv I start stop (bd_jstep (tab2 (S p) (S p) ndu) (zp - k) (r - k) s1 s2) st0)
    as (st1 & E1 & I1).
  - lia.
  - exact I0.
  - intros j st Hj (b & -> & Hb1 & Hb2).
    assert (Hj' : lo k <= j <= hi k) by (unfold ProofDers.lo, ProofDers.hi; lia).
    unfold bd_jstep; cbn [fst snd].
    rewrite aget2_tab2 by lia; cbn [bind]; rewrite aget2_tab2 by lia; cbn [bind].
    rewrite aget2_tab2 by lia; cbn [bind].
    rewrite !Hb1, !Ha by (unfold ProofDers.lo, ProofDers.hi; lia); rewrite (gndu_D k j Hk Hj').
    rewrite <- gA_step by lia.
    rewrite aset2_tab2 by lia; cbn [bind].
    rewrite aget2_tab2 by lia; cbn [bind]; rewrite aget2_tab2 by lia; cbn [bind].
    rewrite (gndu_N k j Hk Hj'), fupd2_same.
    eexists; split; [reflexivity|]; eexists; split; [|split].
    + f_equal; rewrite <- gacc_step by lia; unfold gT; do 3 f_equal; lia.
    + intros j'; rewrite fupd2_other by lia; apply Hb1.
    + intros j' Hj2; destruct (Z.eq_dec j' j) as [->|]; [apply fupd2_same|].
      rewrite fupd2_other by lia; apply Hb2; lia.
  - rewrite E1; cbn [bind]; destruct I1 as (b & -> & Hb1 & Hb2); cbn [fst snd].
    match goal with |- context [if (r <=? zp - k)%Z then ?x else ?y] => set (final := if (r <=? zp - k)%Z then x else y) end.
    assert (H2 : exists b', final = Ok (A2 b', acc k (hi k + 1)) /\ grow_ok k (b' s2)).
    { unfold final; destruct (Z.leb_spec r (zp - k)).
      - assert (Hh : hi k = k) by (unfold ProofDers.hi; lia).
        rewrite aget2_tab2 by lia; cbn [bind].
        replace (aget2 (tab2 (S p) (S p) ndu) (zp - k + 1) r) with
          (aget2 (tab2 (S p) (S p) ndu) (zp - k + 1) (r - k + k)) by (f_equal; lia).
        replace (aget2 (tab2 (S p) (S p) ndu) r (zp - k)) with
          (aget2 (tab2 (S p) (S p) ndu) (r - k + k) (zp - k)) by (f_equal; lia).
        rewrite aget2_tab2 by lia; cbn [bind].
        rewrite Hb1, Ha by (unfold ProofDers.lo, ProofDers.hi; lia); rewrite (gndu_D k k Hk) by (unfold ProofDers.lo, ProofDers.hi; lia).
        replace (r - k + k) with r by lia; rewrite <- gA_last by lia.
        rewrite aset2_tab2 by lia; cbn [bind].
        rewrite aget2_tab2 by lia; cbn [bind]; rewrite aget2_tab2 by lia; cbn [bind].
        pose proof (gndu_N k k Hk ltac:(unfold ProofDers.lo, ProofDers.hi; lia)) as EN.
        replace (r - k + k) with r in EN by lia; rewrite EN, fupd2_same.
        eexists; split; [f_equal; f_equal|].
        + rewrite Hh, <- gacc_step by (unfold ProofDers.lo; lia); assert (stop = k) as -> by lia.
          unfold gT; do 3 f_equal; lia.
        + intros j Hj; destruct (Z.eq_dec j k) as [->|]; [apply fupd2_same|].
          rewrite fupd2_other by lia; apply Hb2; unfold ProofDers.hi in Hj; lia.
      - exists b; split; [do 4 f_equal; unfold ProofDers.hi; lia|].
        intros j Hj; apply Hb2; unfold ProofDers.hi in Hj; lia. }
    destruct H2 as (b' & -> & Hrow); cbn [bind fst snd].
    rewrite aset2_tab2 by lia; cbn [bind].
    exists b'; split; [|exact Hrow]; unfold graw; destruct (Z.leb_spec k zp); [reflexivity|lia].
Qed.

Lemma bd_korder_zero_any k g a s1 s2 : zp < k <= Z.of_nat nd ->
  bd_korder zp (tab2 (S p) (S p) ndu) r k (T2 g, A2 a, s1, s2) = Ok (T2 (fupd2 g r k (graw k)), A2 a, s2, s1).
Proof.
  intros Hk; unfold bd_korder.
  destruct (Z.leb_spec k r); [lia|]; cbn [bind].
  rewrite for_range_empty.
  2:{ destruct (Z.leb_spec (-1) (r - k)); destruct (Z.leb_spec (r - 1) (zp - k)); lia. }
  cbn [bind]; destruct (Z.leb_spec r (zp - k)); [lia|]; cbn [bind fst snd].
  rewrite aset2_tab2 by lia; unfold graw; destruct (Z.leb_spec k zp); [lia|reflexivity].
Qed.

Lemma bd_function_any g a : exists g' a',
  bd_function zp (Z.of_nat nd) (tab2 (S p) (S p) ndu) r (T2 g, A2 a) = Ok (T2 g', A2 a') /\
  (forall k, 1 <= k <= Z.of_nat nd -> g' r k = graw k) /\
  (forall r' k, (r' <> r \/ k < 1) -> g' r' k = g r' k).
Proof.
  unfold bd_function; cbn [fst snd]; rewrite aset2_tab2 by lia; cbn [bind].
  set (a0 := fupd2 a 0 0 1%num).
  destruct (for_range_inv (fun k st => exists g' a' s1 s2, st = (T2 g', A2 a', s1, s2) /\
      ((s1 = 0 /\ s2 = 1) \/ (s1 = 1 /\ s2 = 0)) /\ (k - 1 <= zp -> grow_ok (k - 1) (a' s1)) /\
      (forall k', 1 <= k' < k -> g' r k' = graw k') /\
      (forall r' k', (r' <> r \/ k' < 1) -> g' r' k' = g r' k'))
    1 (Z.of_nat nd + 1) (bd_korder zp (tab2 (S p) (S p) ndu) r) (T2 g, A2 a0, 0, 1))
    as (st & E & g' & a' & s1 & s2 & -> & _ & _ & H1 & H2).
  - lia.
  - exists g, a0, 0, 1; split; [reflexivity|]; split; [auto|]; split; [|split; [intros; lia|auto]].
    intros _ j Hj; unfold ProofDers.lo, ProofDers.hi in Hj; assert (j = 0) as -> by lia.
    unfold a0; rewrite fupd2_same; reflexivity.
  - intros k st Hk (g' & a' & s1 & s2 & -> & Hs12 & Ha & H1 & H2).
    assert (X : exists a'', bd_korder zp (tab2 (S p) (S p) ndu) r k (T2 g', A2 a', s1, s2)
        = Ok (T2 (fupd2 g' r k (graw k)), A2 a'', s2, s1) /\ (k <= zp -> grow_ok k (a'' s2))).
    { destruct (Z_le_dec k zp) as [Lk|Lk].
      - destruct (bd_korder_any k g' a' s1 s2 ltac:(lia) ltac:(lia) Hs12 (Ha ltac:(lia))) as (a'' & E & Hrow).
        exists a''; split; [exact E|intros _; exact Hrow].
      - exists a'; split; [apply bd_korder_zero_any; lia|intros; lia]. }
    destruct X as (a'' & E & Hrow).
    eexists; split; [exact E|]; do 4 eexists; split; [reflexivity|]; split; [lia|].
    split; [intros Hz; replace (k + 1 - 1) with k by lia; apply Hrow; lia|]; split.
    + intros k' Hk'; destruct (Z.eq_dec k' k) as [->|]; [apply fupd2_same|].
      rewrite fupd2_other by lia; apply H1; lia.
    + intros r' k' Hr'; rewrite fupd2_other by lia; apply H2; lia.
  - rewrite E; cbn [bind]; exists g', a'; split; [reflexivity|]; split; [|exact H2].
    intros k Hk; apply H1; lia.
Qed.
End OneFunction.

(** ** Correction factors and the result *)
Lemma bd_correct_any nd k g : 1 <= k <= Z.of_nat nd ->
  bd_correct zp k (tab2 (S p) (S nd) g, zfact p (Z.to_nat k))
  = Ok (tab2 (S p) (S nd) (fun r c => if (c =? k)%Z then (g r c * ofZ (zfact p (Z.to_nat k)))%num : K else g r c),
        zfact p (Z.to_nat (k + 1))).
Proof.
  intros Hk; unfold bd_correct; cbn [fst snd].
  rewrite (for_range_fun (fun j => tab2 (S p) (S nd) (fun r c =>
     if ((c =? k) && (r <? j))%Z then (g r c * ofZ (zfact p (Z.to_nat k)))%num : K else g r c))).
  - cbn [bind]; f_equal; f_equal.
    + apply tab2_ext; intros r c Hr Hc; destruct (Z.eqb_spec c k); [|reflexivity].
      destruct (Z.ltb_spec r (zp + 1)); [reflexivity|lia].
    + replace (Z.to_nat (k + 1)) with (S (Z.to_nat k)) by lia; cbn [zfact]; f_equal; lia.
  - lia.
  - apply tab2_ext; intros r c Hr Hc; destruct (Z.eqb_spec c k); [|reflexivity].
    destruct (Z.ltb_spec r 0); [lia|reflexivity].
  - intros j Hj; rewrite aget2_tab2 by lia; cbn [bind]; rewrite aset2_tab2 by lia; f_equal.
    apply tab2_ext; intros r c Hr Hc.
    destruct (Z.eq_dec r j) as [->|Nr]; [destruct (Z.eq_dec c k) as [->|Nc]|].
    + rewrite fupd2_same, Z.eqb_refl; destruct (Z.ltb_spec j j); [lia|].
      destruct (Z.ltb_spec j (j + 1)); [reflexivity|lia].
    + rewrite fupd2_other by lia; destruct (Z.eqb_spec c k); [lia|reflexivity].
    + rewrite fupd2_other by lia; destruct (Z.eqb_spec c k); [|reflexivity]; cbn [andb].
      destruct (Z.ltb_spec r j); destruct (Z.ltb_spec r (j + 1)); try lia; reflexivity.
Qed.

(** Entry [k] of row [r]. *)
Definition gder (r k : Z) : K := if k =? 0 then gN p r else (graw r k * ofZ (zfact p (Z.to_nat k)))%num.

Lemma basis_function_ders_any nd :
  basis_function_ders s x zp kv (Z.of_nat nd) = Ok (tab2 (S p) (S nd) gder).
Proof.
  unfold basis_function_ders.
  rewrite (np_full2_tab (S p) (S nd)), (np_full2_tab (S p) (S p)), (np_full2_tab 2 (S p)) by lia; cbn [bind].
  rewrite aset2_tab2 by lia; cbn [bind]; rewrite !(np_full_tab' _ (S p)) by lia; cbn [bind].
  destruct bd_triangle_any as (f & L & R & -> & HT); cbn [bind fst].
  rewrite (for_range_fun (fun j => tab2 (S p) (S nd) (fun r c =>
    if ((c =? 0) && (r <? j))%Z then f r zp else (0 : K)%num))); [| lia | |].
  2:{ apply tab2_ext; intros r c Hr Hc; destruct (Z.eqb_spec c 0); [|reflexivity].
      destruct (Z.ltb_spec r 0); [lia|reflexivity]. }
  2:{ intros j Hj; rewrite aget2_tab2 by lia; cbn [bind]; rewrite aset2_tab2 by lia; f_equal.
      apply tab2_ext; intros r c Hr Hc.
      destruct (Z.eq_dec r j) as [->|Nr]; [destruct (Z.eq_dec c 0) as [->|Nc]|].
      - rewrite fupd2_same; destruct (Z.ltb_spec j (j + 1)); [reflexivity|lia].
      - rewrite fupd2_other by lia; destruct (Z.eqb_spec c 0); [lia|reflexivity].
      - rewrite fupd2_other by lia; destruct (Z.eqb_spec c 0); [|reflexivity]; cbn [andb].
        destruct (Z.ltb_spec r j); destruct (Z.ltb_spec r (j + 1)); try lia; reflexivity. }
  cbn [bind].
  set (g0 := fun r c : Z => if ((c =? 0) && (r <? zp + 1))%Z then f r zp else (0 : K)%num).
  destruct (for_range_inv (fun r st => exists g a, st = (tab2 (S p) (S nd) g, tab2 2 (S p) a) /\
      (forall r' k, 0 <= r' < r -> 1 <= k <= Z.of_nat nd -> g r' k = graw r' k) /\
      (forall r', 0 <= r' <= zp -> g r' 0 = g0 r' 0))
    0 (zp + 1) (bd_function zp (Z.of_nat nd) (tab2 (S p) (S p) f)) (tab2 (S p) (S nd) g0, tab2 2 (S p) (fun _ _ => (1 : K)%num)))
    as (st & E & g & a & -> & Hg1 & Hg0).
  - lia.
  - do 2 eexists; split; [reflexivity|]; split; [intros; lia|reflexivity].
  - intros r st Hr (g & a & -> & Hg1 & Hg0).
    destruct (bd_function_any r ltac:(lia) f HT nd g a) as (g' & a' & E & H1 & H2).
    eexists; split; [exact E|]; exists g', a'; split; [reflexivity|]; split.
    + intros r' k Hr' Hk; destruct (Z.eq_dec r' r) as [->|]; [apply H1; lia|rewrite H2 by lia; apply Hg1; lia].
    + intros r' Hr'; rewrite H2 by lia; apply Hg0; exact Hr'.
  - rewrite E; cbn [bind fst].
    rewrite (for_range_fun (fun k => (tab2 (S p) (S nd) (fun r c =>
        if ((1 <=? c) && (c <? k))%Z then (g r c * ofZ (zfact p (Z.to_nat c)))%num : K else g r c), zfact p (Z.to_nat k)))).
    + cbn [bind fst]; f_equal; apply tab2_ext; intros r c Hr Hc; unfold gder.
      destruct (Z.leb_spec 1 c) as [Hc1|Hc1]; cbn [andb].
      * destruct (Z.ltb_spec c (Z.of_nat nd + 1)); [|lia].
        rewrite Hg1 by lia; destruct (Z.eqb_spec c 0); [lia|reflexivity].
      * assert (c = 0) as -> by lia; rewrite Hg0 by lia; unfold g0; cbn [Z.eqb andb].
        destruct (Z.ltb_spec r (zp + 1)); [|lia]; destruct HT as [HT1 _]; rewrite HT1 by lia.
        rewrite Nat2Z.id; reflexivity.
    + lia.
    + f_equal.
      * apply tab2_ext; intros r c Hr Hc; destruct (Z.leb_spec 1 c); [|reflexivity].
        destruct (Z.ltb_spec c 1); [lia|reflexivity].
      * change (Z.to_nat 1) with 1%nat; cbn [zfact]; lia.
    + intros k Hk; rewrite bd_correct_any by lia; f_equal; f_equal; apply tab2_ext; intros r c Hr Hc.
      destruct (Z.eqb_spec c k) as [->|].
      * destruct (Z.leb_spec 1 k); [|lia]; destruct (Z.ltb_spec k k); [lia|].
        destruct (Z.ltb_spec k (k + 1)); [reflexivity|lia].
      * destruct (Z.leb_spec 1 c); cbn [andb]; [|reflexivity].
        destruct (Z.ltb_spec c k); destruct (Z.ltb_spec c (k + 1)); try lia; reflexivity.
Qed.
End Any.
