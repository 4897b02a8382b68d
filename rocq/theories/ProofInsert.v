(** Lemmas about [curve_knot_insertion] (model: ModelKnots.v): what the loops
    compute, over any number system. *)
From Verif Require Import Py PyLemmas Num ModelKnots.
Open Scope Z_scope.

Section Insert.
Context {K : Num}.
Variables (n p r : nat) (k s : Z) (u : Z -> K) (x : K) (P : Z -> list K).
Notation zn := (Z.of_nat n).
Notation zp := (Z.of_nat p).
Notation zr := (Z.of_nat r).
Hypothesis Hk : zp <= k < zn.
Hypothesis Hs : 0 <= s.
Hypothesis Hr : s + zr <= zp.
Hypothesis HP : forall i, 0 <= i < zn -> zlen (P i) = 3.

(** Control points after [j] insertions. *)
Definition ins_alpha (j : nat) (i : Z) : K :=
  ((x - u i) / (u (i + zp - Z.of_nat j)%Z - u i))%num.
Fixpoint QX (j : nat) (i : Z) : list K :=
  match j with
  | O => P i
  | S j' =>
      if i <=? k - zp + Z.of_nat j' then QX j' i
      else if i <=? k - s then
        vadd (vscale (ins_alpha j' i) (QX j' i)) (vscale (1 - ins_alpha j' i)%num (QX j' (i - 1)))
      else QX j' (i - 1)
  end.

Lemma zlen_vscale (c : K) v : zlen (vscale c v) = zlen v.
Proof. unfold zlen, vscale; rewrite map_length; reflexivity. Qed.
Lemma zlen_vadd (a b : list K) w : zlen a = w -> zlen b = w -> zlen (vadd a b) = w.
Proof. unfold zlen, vadd, vmap2; rewrite map_length, combine_length; lia. Qed.

Lemma QX_width j : forall i, 0 <= i < zn + Z.of_nat j -> zlen (QX j i) = 3.
Proof.
  induction j as [|j IH]; intros i Hi; cbn [QX]; [apply HP; lia|].
  destruct (Z.leb_spec i (k - zp + Z.of_nat j)); [apply IH; lia|].
  destruct (Z.leb_spec i (k - s)); [|apply IH; lia].
  apply zlen_vadd; rewrite zlen_vscale; apply IH; lia.
Qed.
Lemma QX_low j j' i : (j <= j')%nat -> i <= k - zp + Z.of_nat j -> QX j' i = QX j i.
Proof.
  induction j' as [|j' IH]; intros Hj Hi; [replace j with O by lia; reflexivity|].
  destruct (Nat.eq_dec j (S j')) as [->|]; [reflexivity|]; cbn [QX].
  destruct (Z.leb_spec i (k - zp + Z.of_nat j')); [apply IH; lia|lia].
Qed.
Lemma QX_high j j' i : (j <= j')%nat -> s + Z.of_nat j' <= zp -> k - s <= i ->
  QX j' (i + Z.of_nat j' - Z.of_nat j) = QX j i.
Proof.
  induction j' as [|j' IH]; intros Hj Hp Hi; [replace j with O by lia; f_equal; lia|].
  destruct (Nat.eq_dec j (S j')) as [->|]; [f_equal; lia|]; cbn [QX].
  destruct (Z.leb_spec (i + Z.of_nat (S j') - Z.of_nat j) (k - zp + Z.of_nat j')); [lia|].
  destruct (Z.leb_spec (i + Z.of_nat (S j') - Z.of_nat j) (k - s)); [lia|].
  rewrite <- IH by lia; f_equal; lia.
Qed.

Notation m := (n + p + 1)%nat.
Notation kv := (tab m u).
Notation Z3 := (repeat (0 : K)%num 3).

(** ** Knots *)
Definition new_knot (i : Z) : K := if i <=? k then u i else if i <=? k + zr then x else u (i - zr).

Lemma ins_knots :
  (let* a := for_range 0 (k + 1) (fun i a => let* y := aget kv i in aset a i y)
               (tab (m + r) (fun _ => (0 : K)%num)) in
   let* a := for_range 1 (zr + 1) (fun i a => aset a (k + i) x) a in
   for_range (k + 1) (zn + zp + 1) (fun i a => let* y := aget kv i in aset a (i + zr) y) a)
  = Ok (tab (m + r) new_knot).
Proof using Hk.
  clear Hr Hs HP.
  rewrite (for_range_fun (fun i => tab (m + r) (fun c => if c <? i then u c else (0 : K)%num))); [|lia| |].
  2:{ apply tab_ext; intros c Hc; destruct (Z.ltb_spec c 0); [lia|reflexivity]. }
  2:{ intros i Hi; rewrite aget_tab by lia; cbn [bind]; rewrite aset_tab by lia; f_equal.
      apply tab_ext; intros c Hc; unfold fupd; destruct (Z.eqb_spec c i) as [->|].
      - destruct (Z.ltb_spec i (i + 1)); [reflexivity|lia].
      - destruct (Z.ltb_spec c i); destruct (Z.ltb_spec c (i + 1)); try lia; reflexivity. }
  cbn [bind].
  rewrite (for_range_fun (fun i => tab (m + r) (fun c => if c <=? k then u c else if c <? k + i then x else (0 : K)%num)));
    [|lia| |].
  2:{ apply tab_ext; intros c Hc; destruct (Z.ltb_spec c (k + 1)); destruct (Z.leb_spec c k); try lia; reflexivity. }
  2:{ intros i Hi; rewrite aset_tab by lia; f_equal.
      apply tab_ext; intros c Hc; unfold fupd; destruct (Z.eqb_spec c (k + i)) as [->|].
      - destruct (Z.leb_spec (k + i) k); [lia|]; destruct (Z.ltb_spec (k + i) (k + (i + 1))); [reflexivity|lia].
      - destruct (Z.leb_spec c k); [reflexivity|].
        destruct (Z.ltb_spec c (k + i)); destruct (Z.ltb_spec c (k + (i + 1))); try lia; reflexivity. }
  cbn [bind].
  rewrite (for_range_fun (fun i => tab (m + r) (fun c =>
     if c <=? k then u c else if c <=? k + zr then x else if c <? i + zr then u (c - zr) else (0 : K)%num)));
    [|lia| |].
  - f_equal; apply tab_ext; intros c Hc; unfold new_knot.
    destruct (Z.leb_spec c k); [reflexivity|]; destruct (Z.leb_spec c (k + zr)); [reflexivity|].
    destruct (Z.ltb_spec c (zn + zp + 1 + zr)); [reflexivity|lia].
  - apply tab_ext; intros c Hc; destruct (Z.leb_spec c k); [reflexivity|].
    destruct (Z.ltb_spec c (k + (zr + 1))); destruct (Z.leb_spec c (k + zr)); try lia; [reflexivity|].
    destruct (Z.ltb_spec c (k + 1 + zr)); [lia|reflexivity].
  - intros i Hi; rewrite aget_tab by lia; cbn [bind]; rewrite aset_tab by lia; f_equal.
    apply tab_ext; intros c Hc; unfold fupd; destruct (Z.eqb_spec c (i + zr)) as [->|].
    + destruct (Z.leb_spec (i + zr) k); [lia|]; destruct (Z.leb_spec (i + zr) (k + zr)); [lia|].
      destruct (Z.ltb_spec (i + zr) (i + 1 + zr)); [|lia]; f_equal; lia.
    + destruct (Z.leb_spec c k); [reflexivity|]; destruct (Z.leb_spec c (k + zr)); [reflexivity|].
      destruct (Z.ltb_spec c (i + zr)); destruct (Z.ltb_spec c (i + 1 + zr)); try lia; reflexivity.
Qed.

(** ** Control points *)
Notation Pt := (tab n P).

Lemma ins_copy :
  exists C, (let* c := for_range 0 (k - zp + 1) (fun i c => let* row := aget Pt i in aset_row c i row)
                 (tab (n + r) (fun _ => Z3)) in
     for_range (k - s) zn (fun i c => let* row := aget Pt i in aset_row c (i + zr) row) c)
    = Ok (tab (n + r) C) /\ (forall c, 0 <= c < zn + zr -> zlen (C c) = 3) /\
    (forall c, 0 <= c <= k - zp -> C c = P c) /\ (forall c, k - s <= c < zn -> C (c + zr) = P c).
Proof.
  rewrite (for_range_fun (fun i => tab (n + r) (fun c => if c <? i then P c else Z3))); [|lia| |].
  2:{ apply tab_ext; intros c Hc; destruct (Z.ltb_spec c 0); [lia|reflexivity]. }
  2:{ intros i Hi; rewrite aget_tab by lia; cbn [bind].
      rewrite (aset_row_tab _ _ _ _ 3); [|lia|destruct (Z.ltb_spec i i); [lia|reflexivity]|apply HP; lia].
      f_equal; apply tab_ext; intros c Hc; unfold fupd; destruct (Z.eqb_spec c i) as [->|].
      - destruct (Z.ltb_spec i (i + 1)); [reflexivity|lia].
      - destruct (Z.ltb_spec c i); destruct (Z.ltb_spec c (i + 1)); try lia; reflexivity. }
  cbn [bind].
  destruct (for_range_inv (fun i st => exists C, st = tab (n + r) C /\
      (forall c, 0 <= c < zn + zr -> zlen (C c) = 3) /\
      (forall c, 0 <= c <= k - zp -> c < i + zr -> k - s + zr <= c -> C c = P (c - zr)) /\
      (forall c, 0 <= c <= k - zp -> c < k - s + zr -> C c = P c) /\
      (forall c, k - s <= c < i -> C (c + zr) = P c))
    (k - s) zn (fun i c => let* row := aget Pt i in aset_row c (i + zr) row)
    (tab (n + r) (fun c => if c <? k - zp + 1 then P c else Z3))) as (st & E & C & -> & HW & _ & HL & HH).
  - lia.
  - eexists; split; [reflexivity|]; split; [|split; [|split]].
    + intros c Hc; destruct (Z.ltb_spec c (k - zp + 1)); [apply HP; lia|reflexivity].
    + intros; lia.
    + intros c Hc _; destruct (Z.ltb_spec c (k - zp + 1)); [reflexivity|lia].
    + intros; lia.
  - intros i st Hi (C & -> & HW & HB & HL & HH); rewrite aget_tab by lia; cbn [bind].
    rewrite (aset_row_tab _ _ _ _ 3) by (try apply HP; try apply HW; lia).
    eexists; split; [reflexivity|]; eexists; split; [reflexivity|]; split; [|split; [|split]].
    + intros c Hc; unfold fupd; destruct (Z.eqb_spec c (i + zr)); [apply HP; lia|apply HW; lia].
    + intros c Hc H1 H2; unfold fupd; destruct (Z.eqb_spec c (i + zr)) as [->|]; [f_equal; lia|apply HB; lia].
    + intros c Hc H1; rewrite fupd_other by lia; apply HL; lia.
    + intros c Hc; unfold fupd; destruct (Z.eqb_spec (c + zr) (i + zr)); [f_equal; lia|apply HH; lia].
  - exists C; split; [exact E|]; split; [exact HW|]; split; [|exact HH].
    intros c Hc; destruct (Z_lt_dec c (k - s + zr)); [apply HL; lia|].
    (* only when nothing is inserted: the index is written twice with the same row *)
    assert (zr = 0) by lia; replace c with (c + zr) by lia; rewrite HH by lia; f_equal; lia.
Qed.

Lemma ins_R :
  exists R, for_range 0 (zp - s + 1) (fun i a => let* row := aget Pt (k - zp + i) in aset_row a i row)
      (tab (S p) (fun _ => Z3)) = Ok (tab (S p) R) /\ (forall c, 0 <= c <= zp -> zlen (R c) = 3) /\
    (forall c, 0 <= c <= zp - s -> R c = P (k - zp + c)).
Proof.
  destruct (for_range_inv (fun i st => exists R, st = tab (S p) R /\ (forall c, 0 <= c <= zp -> zlen (R c) = 3) /\
      (forall c, 0 <= c < i -> R c = P (k - zp + c)))
    0 (zp - s + 1) (fun i a => let* row := aget Pt (k - zp + i) in aset_row a i row)
    (tab (S p) (fun _ => Z3))) as (st & E & R & -> & HW & HR).
  - lia.
  - eexists; split; [reflexivity|]; split; [reflexivity|intros; lia].
  - intros i st Hi (R & -> & HW & HR); rewrite aget_tab by lia; cbn [bind].
    rewrite (aset_row_tab _ _ _ _ 3) by (try apply HP; try apply HW; lia).
    eexists; split; [reflexivity|]; eexists; split; [reflexivity|]; split.
    + intros c Hc; unfold fupd; destruct (Z.eqb_spec c i); [apply HP; lia|apply HW; lia].
    + intros c Hc; unfold fupd; destruct (Z.eqb_spec c i) as [->|]; [reflexivity|apply HR; lia].
  - exists R; split; [exact E|]; split; [exact HW|]; intros; apply HR; lia.
Qed.

Definition ins_ok (j : nat) (st : list (list K) * list (list K)) : Prop :=
  exists C R, st = (tab (n + r) C, tab (S p) R) /\
    (forall c, 0 <= c < zn + zr -> zlen (C c) = 3) /\ (forall c, 0 <= c <= zp -> zlen (R c) = 3) /\
    (forall c, 0 <= c <= zp - Z.of_nat j - s -> R c = QX j (k - zp + Z.of_nat j + c)) /\
    (forall c, 0 <= c <= k - zp + Z.of_nat j -> C c = QX r c) /\
    (forall c, k - s + zr - Z.of_nat j <= c < zn + zr -> C c = QX r c).

Lemma ins_round_ok j st : (S j <= r)%nat -> ins_ok j st ->
  exists st', insertion_round zp k s zr x kv (Z.of_nat (S j)) st = Ok st' /\ ins_ok (S j) st'.
Proof.
  intros Hj (C & R & -> & HCW & HRW & HR & HL & HH); unfold insertion_round; cbn [fst snd].
  set (J := Z.of_nat (S j)); assert (EJ : J = Z.of_nat j + 1) by lia.
  destruct (for_range_inv (fun i st => exists R, st = tab (S p) R /\ (forall c, 0 <= c <= zp -> zlen (R c) = 3) /\
      (forall c, 0 <= c < i -> R c = QX (S j) (k - zp + J + c)) /\
      (forall c, i <= c <= zp - Z.of_nat j - s -> R c = QX j (k - zp + Z.of_nat j + c)))
    0 (zp - J - s + 1) (fun i r =>
      let* ul := aget kv (k - zp + J + i) in
      let* ur := aget kv (i + k + 1) in
      let alpha := ((x - ul) / (ur - ul))%num in
      let* r1 := aget r (i + 1) in
      let* r0 := aget r i in
      aset_row r i (vadd (vscale alpha r1) (vscale (1 - alpha)%num r0))) (tab (S p) R))
    as (R1 & E & R' & -> & HRW' & HR' & _).
  - lia.
  - exists R; split; [reflexivity|]; split; [exact HRW|]; split; [intros; lia|intros; apply HR; lia].
  - intros i st Hi (Q & -> & HQW & HQ1 & HQ2).
    rewrite !aget_tab by lia; cbn [bind].
    rewrite (aset_row_tab _ _ _ _ 3).
    2:{ lia. } 2:{ apply HQW; lia. } 2:{ apply zlen_vadd; rewrite zlen_vscale; apply HQW; lia. }
    eexists; split; [reflexivity|]; eexists; split; [reflexivity|]; split; [|split].
    + intros c Hc; unfold fupd; destruct (Z.eqb_spec c i); [|apply HQW; lia].
      apply zlen_vadd; rewrite zlen_vscale; apply HQW; lia.
    + intros c Hc; unfold fupd; destruct (Z.eqb_spec c i) as [->|]; [|apply HQ1; lia].
      rewrite !HQ2 by lia; cbn [QX].
      destruct (Z.leb_spec (k - zp + J + i) (k - zp + Z.of_nat j)); [lia|].
      destruct (Z.leb_spec (k - zp + J + i) (k - s)); [|lia].
      unfold ins_alpha; replace (k - zp + J + i + zp - Z.of_nat j) with (i + k + 1) by lia.
      replace (k - zp + Z.of_nat j + (i + 1)) with (k - zp + J + i) by lia.
      replace (k - zp + J + i - 1) with (k - zp + Z.of_nat j + i) by lia; reflexivity.
    + intros c Hc; rewrite fupd_other by lia; apply HQ2; lia.
  - cbv zeta in E |- *; rewrite E; cbn [bind]; rewrite aget_tab by lia; cbn [bind].
    rewrite (aset_row_tab _ _ _ _ 3) by (try apply HCW; try apply HRW'; lia); cbn [bind].
    rewrite aget_tab by lia; cbn [bind].
    rewrite (aset_row_tab _ _ _ _ 3).
    2:{ lia. }
    2:{ unfold fupd; destruct (Z.eqb_spec (k + zr - J - s) (k - zp + J)); [apply HRW'; lia|apply HCW; lia]. }
    2:{ apply HRW'; lia. }
    cbn [bind]; eexists; split; [reflexivity|].
    assert (EL : QX r (k - zp + J) = R' 0).
    { rewrite HR' by lia; rewrite (QX_low (S j) r) by lia; f_equal; lia. }
    assert (EH : QX r (k + zr - J - s) = R' (zp - J - s)).
    { rewrite HR' by lia.
      replace (k + zr - J - s) with (k - s + Z.of_nat r - Z.of_nat (S j)) by lia.
      rewrite (QX_high (S j) r) by lia; f_equal; lia. }
    exists (fupd (fupd C (k - zp + J) (R' 0)) (k + zr - J - s) (R' (zp - J - s))), R'.
    split; [reflexivity|]; split; [|split; [exact HRW'|split; [|split]]].
    + intros c Hc; unfold fupd; destruct (Z.eqb_spec c (k + zr - J - s)); [apply HRW'; lia|].
      destruct (Z.eqb_spec c (k - zp + J)); [apply HRW'; lia|apply HCW; lia].
    + intros c Hc; apply HR'; lia.
    + intros c Hc; unfold fupd; destruct (Z.eqb_spec c (k + zr - J - s)) as [->|]; [symmetry; exact EH|].
      destruct (Z.eqb_spec c (k - zp + J)) as [->|]; [symmetry; exact EL|apply HL; lia].
    + intros c Hc; unfold fupd; destruct (Z.eqb_spec c (k + zr - J - s)) as [->|]; [symmetry; exact EH|].
      destruct (Z.eqb_spec c (k - zp + J)) as [->|]; [symmetry; exact EL|apply HH; lia].
Qed.

Lemma insertion_tables :
  find_span zn zp x kv = Ok k -> find_multiplicity x kv = s ->
  curve_knot_insertion zp kv Pt x zr = Ok (tab (m + r) new_knot, tab (n + r) (QX r)).
Proof.
  intros Hspan Hmult; unfold curve_knot_insertion; cbv zeta; rewrite !zlen_tab, Hspan; cbn [bind]; rewrite Hmult.
  rewrite (np_full_tab' _ (m + r)) by lia; cbn [bind].
  unfold np_full2; destruct (Z.ltb_spec (zn + zr) 0); [lia|]; destruct (Z.ltb_spec (zp + 1) 0); [lia|].
  cbn [Z.ltb orb Z.compare bind].
  replace (Z.to_nat (zn + zr)) with (n + r)%nat by lia.
  replace (Z.to_nat (zp + 1)) with (S p) by lia; change (Z.to_nat 3) with 3%nat.
  rewrite (repeat_tab Z3 (n + r)), (repeat_tab Z3 (S p)).
  assert (EK := ins_knots).
  destruct (for_range 0 (k + 1) (fun i a => let* y := aget kv i in aset a i y) _) as [a1| |]; try discriminate.
  cbn [bind] in *.
  destruct (for_range 1 (zr + 1) (fun i a => aset a (k + i) x) a1) as [a2| |]; try discriminate.
  cbn [bind] in *; rewrite EK; cbn [bind].
  destruct ins_copy as (C & EC & HCW & HCL & HCH).
  destruct (for_range 0 (k - zp + 1) _ (tab (n + r) _)) as [c1| |]; try discriminate.
  cbn [bind] in *; rewrite EC; cbn [bind].
  destruct ins_R as (R & ER & HRW & HR); rewrite ER; cbn [bind].
  destruct (for_range_inv (fun j st => ins_ok (Z.to_nat (j - 1)) st) 1 (zr + 1)
    (insertion_round zp k s zr x kv) (tab (n + r) C, tab (S p) R)) as (st & E & HI).
  - lia.
  - exists C, R; split; [reflexivity|]; split; [exact HCW|]; split; [exact HRW|]; split; [|split].
    + intros c Hc; change (Z.to_nat (1 - 1)) with O in *; rewrite HR by lia; cbn [QX]; f_equal; lia.
    + intros c Hc; change (Z.of_nat (Z.to_nat (1 - 1))) with 0 in Hc; rewrite HCL by lia.
      rewrite (QX_low 0 r) by lia; reflexivity.
    + intros c Hc; change (Z.of_nat (Z.to_nat (1 - 1))) with 0 in Hc.
      replace c with (c - zr + zr) at 1 by lia; rewrite HCH by lia.
      replace c with (c - zr + Z.of_nat r - Z.of_nat 0) at 2 by lia.
      rewrite (QX_high 0 r) by lia; reflexivity.
  - intros j st Hj HI; destruct (ins_round_ok (Z.to_nat (j - 1)) st ltac:(lia) HI) as (st' & E' & HI').
    replace (Z.of_nat (S (Z.to_nat (j - 1)))) with j in E' by lia.
    replace (S (Z.to_nat (j - 1))) with (Z.to_nat (j + 1 - 1)) in HI' by lia; eauto.
  - rewrite E; cbn [bind]; destruct HI as (C' & R' & -> & HCW' & HRW' & HR' & HL' & HH').
    replace (Z.to_nat (zr + 1 - 1)) with r in * by lia; cbn [fst snd].
    destruct (Z_le_dec (k - zp + zr + 1) (k - s)) as [Hle|Hgt].
    + destruct (for_range_inv (fun i st => exists D, st = tab (n + r) D /\
          (forall c, 0 <= c < zn + zr -> zlen (D c) = 3) /\
          (forall c, 0 <= c < i -> D c = QX r c) /\ (forall c, k - s <= c < zn + zr -> D c = QX r c))
        (k - zp + zr + 1) (k - s) (fun i c =>
          let* row := aget (tab (S p) R') (i - (k - zp + zr)) in aset_row c i row) (tab (n + r) C'))
        as (D & ED & D' & -> & _ & HD1 & HD2).
      * lia.
      * exists C'; split; [reflexivity|]; split; [exact HCW'|]; split; [intros; apply HL'; lia|intros; apply HH'; lia].
      * intros i D Hi (D' & -> & HDW & HD1 & HD2); rewrite aget_tab by lia; cbn [bind].
        rewrite (aset_row_tab _ _ _ _ 3) by (try apply HDW; try apply HRW'; lia).
        eexists; split; [reflexivity|]; eexists; split; [reflexivity|]; split; [|split].
        { intros c Hc; unfold fupd; destruct (Z.eqb_spec c i); [apply HRW'; lia|apply HDW; lia]. }
        { intros c Hc; unfold fupd; destruct (Z.eqb_spec c i) as [->|]; [rewrite HR' by lia; f_equal; lia|apply HD1; lia]. }
        { intros c Hc; rewrite fupd_other by lia; apply HD2; lia. }
      * rewrite ED; cbn [bind]; do 2 f_equal; apply tab_ext; intros c Hc.
        destruct (Z_lt_dec c (k - s)); [apply HD1; lia|apply HD2; lia].
    + rewrite for_range_empty by lia; cbn [bind]; do 2 f_equal; apply tab_ext; intros c Hc.
      destruct (Z_le_dec c (k - zp + zr)); [apply HL'; lia|apply HH'; lia].
Qed.
End Insert.
