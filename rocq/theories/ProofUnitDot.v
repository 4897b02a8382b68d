(** Normalised derivative vectors of a surface (model: ModelDotUnit.v) on any
    numbers, whatever the dot products. *)
From Coq Require Import Lia ZArith List Bool.
From Verif Require Import Py PyLemmas Num ModelKnots ModelBasis ModelSurface ModelDot ModelDotParam ModelDotUnit
  ProofCurve2 ProofFit7 ProofParam4 ProofUnitRow.
Import ListNotations.
Open Scope Z_scope.

Lemma surf_unit_left (K : Num) (s : surf K) u v ou ov nrm : surf_derivatives_unit (fun _ => vdot) s u v ou ov nrm = surf_derivatives s u v ou ov nrm.
Proof. reflexivity. Qed.

Section Rows.
Context {K : Num}.
Variable dot : list Z -> list K -> list K -> K.
Lemma surf_unit_plain (s : surf K) u v ou ov : surf_derivatives_unit dot s u v ou ov false = surf_derivatives_dot dot s u v ou ov.
Proof. reflexivity. Qed.
Definition unitd (n : Z) (r : list K) : list K :=
  if isclose (norm dot [n; 3] r) (0%num : K) then r else map (fun x => (x / norm dot [n; 4] r)%num) r.
Lemma surf_contract_dot_len site (s : surf K) us vs ar bu bv val : surf_contract_dot dot site s us vs ar bu bv = Ok val -> length val = 3%nat.
Proof. unfold surf_contract_dot; destruct ar as ((xa & ya) & za); intros H; repeat bind_inv H; injection H as <-; reflexivity. Qed.

(** After [n] entries: the second run's rows before [n], but row 0, are normalised. *)
Definition same_dot (N : nat) (n : Z) (a b : Z * list (list K)) : Prop :=
  fst a = n /\ fst b = n /\ length (snd a) = N /\ length (snd b) = N /\
  Forall (fun r => length r = 3%nat) (snd a) /\ Forall (fun r => length r = 3%nat) (snd b) /\
  forall k, nth k (snd b) [] = if ((0 <? Z.of_nat k) && (Z.of_nat k <? n))%Z then unitd (Z.of_nat k) (nth k (snd a) []) else nth k (snd a) [].
Lemma entry_alike_dot (s : surf K) us vs ar du dv i j N n a b : 0 <= n < Z.of_nat N -> same_dot N n a b ->
  alike (same_dot N (n + 1)) (surf_deriv_entry_unit dot s false us vs ar du dv i j a) (surf_deriv_entry_unit dot s true us vs ar du dv i j b).
Proof.
  intros Hn (F1 & F2 & L1 & L2 & W1 & W2 & HR); unfold surf_deriv_entry_unit; rewrite F1, F2.
  apply alike_same; intros bu _; apply alike_same; intros bv _; apply alike_same; intros val EV.
  pose proof (surf_contract_dot_len _ _ _ _ _ _ _ _ EV) as LV; cbn [andb]; cbv zeta.
  set (m := Z.to_nat n); assert (En : n = Z.of_nat m) by lia.
  set (v' := if negb (isclose (norm dot [n; 3] val) (0%num : K)) && negb (n =? 0) then map (fun x => (x / norm dot [n; 4] val)%num) val else val).
  assert (LV' : length v' = 3%nat) by (unfold v'; destruct (_ && _); [rewrite map_length|]; exact LV).
  assert (EV' : v' = if (0 <? n)%Z then unitd n val else val).
  { unfold v', unitd; destruct (Z.eqb_spec n 0), (Z.ltb_spec 0 n); try lia; cbn [negb andb].
    - rewrite andb_false_r; reflexivity.
    - rewrite andb_true_r; destruct (isclose _ _); reflexivity. }
  clearbody v'.
  assert (AS : forall d v, Forall (fun r : list K => length r = 3%nat) d -> length v = 3%nat -> length d = N -> aset_row d n v = Ok (upd d m v)).
  { intros d v HF Hv HL; rewrite En; apply aset_row_upd; [assumption|assumption|lia]. }
  rewrite !AS by assumption; cbn [bind alike].
  unfold same_dot; cbn [fst snd]; rewrite !upd_length'.
  split; [reflexivity|]; split; [reflexivity|]; split; [exact L1|]; split; [exact L2|].
  split; [apply upd_width; assumption|]; split; [apply upd_width; assumption|].
  intros k; destruct (Nat.eq_dec k m) as [->|E].
  - rewrite !nth_upd_here by lia; rewrite EV', <- En.
    destruct (Z.ltb_spec n (n + 1)); [|lia]; rewrite andb_true_r; reflexivity.
  - rewrite !nth_upd_else, HR by assumption.
    replace (Z.of_nat k <? n + 1) with (Z.of_nat k <? n); [reflexivity|].
    destruct (Z.ltb_spec (Z.of_nat k) n), (Z.ltb_spec (Z.of_nat k) (n + 1)); lia || reflexivity.
Qed.
Lemma surf_alike_dot (s : surf K) u v ou ov : 0 <= ou -> 0 <= ov -> 0 <= s_pu s -> 0 <= s_pv s ->
  alike (fun m m' => length m' = length m /\ Forall (fun r => length r = 3%nat) m /\ nth 0 m' [] = nth 0 m [] /\
      forall k, (0 < k < length m)%nat -> nth k m' [] = unitd (Z.of_nat k) (nth k m []))
    (surf_derivatives_unit dot s u v ou ov false) (surf_derivatives_unit dot s u v ou ov true).
Proof.
  intros Hou Hov Hpu Hpv; unfold surf_derivatives_unit.
  destruct (negb _); [reflexivity|]; destruct (negb _); [reflexivity|]; cbv zeta.
  set (mu := Z.min ou (s_pu s)); set (mv := Z.min ov (s_pv s)).
  assert (Hmu : 0 <= mu) by (unfold mu; lia); assert (Hmv : 0 <= mv) by (unfold mv; lia).
  do 6 (apply alike_same; intros ? ?).
  match goal with E : np_full2 _ _ _ = Ok ?d |- _ => rename d into d0; rename E into ED end.
  set (N := Z.to_nat ((mu + 1) * (mv + 1))).
  assert (EN : Z.of_nat N = (mu + 1) * (mv + 1)) by (unfold N; nia).
  assert (D : d0 = repeat (repeat (0%num : K) 3) N).
  { revert ED; unfold np_full2; destruct ((_ <? 0) || _)%Z; [discriminate|]; intros E; injection E as <-; reflexivity. }
  apply alike_bind with (R := same_dot N ((mu + 1) * (mv + 1))).
  - apply for_alike with (R := fun i => same_dot N (i * (mv + 1))); [lia| |].
    + assert (HW : Forall (fun r : list K => length r = 3%nat) d0) by (subst d0; apply Forall_forall; intros r Hr; apply repeat_spec in Hr; subst r; reflexivity).
      unfold same_dot; cbn [fst snd]; repeat split; try assumption; try (subst d0; apply repeat_length).
      intros k; destruct (Z.ltb_spec (Z.of_nat k) (0 * (mv + 1))); [lia|rewrite andb_false_r; reflexivity].
    + intros i a b Hi HR; replace ((i + 1) * (mv + 1)) with (i * (mv + 1) + (mv + 1)) by ring.
      apply for_alike with (R := fun j => same_dot N (i * (mv + 1) + j)); [lia|rewrite Z.add_0_r; exact HR|].
      intros j a' b' Hj HR'; rewrite Z.add_assoc; apply entry_alike_dot; [nia|exact HR'].
  - intros a b (F1 & F2 & L1 & L2 & W1 & W2 & HR); cbn [alike]; rewrite L1, L2; split; [reflexivity|]; split; [exact W1|]; split.
    + rewrite HR; reflexivity.
    + intros k Hk; rewrite HR; destruct (Z.ltb_spec 0 (Z.of_nat k)); [|lia].
      destruct (Z.ltb_spec (Z.of_nat k) ((mu + 1) * (mv + 1))); [reflexivity|lia].
Qed.
Lemma surf_unit_dot (s : surf K) u v ou ov : 0 <= ou -> 0 <= ov -> 0 <= s_pu s -> 0 <= s_pv s ->
  (forall m, surf_derivatives_dot dot s u v ou ov = Ok m -> exists m', surf_derivatives_unit dot s u v ou ov true = Ok m' /\
     length m' = length m /\ Forall (fun r => length r = 3%nat) m /\ nth 0 m' [] = nth 0 m [] /\
     forall k, (0 < k < length m)%nat -> let r := nth k m [] in
       nth k m' [] = if isclose (nsqrt (dot [Z.of_nat k; 3] r r)) (0%num : K) then r else map (fun x => (x / nsqrt (dot [Z.of_nat k; 4] r r))%num) r) /\
  (forall m', surf_derivatives_unit dot s u v ou ov true = Ok m' -> exists m, surf_derivatives_dot dot s u v ou ov = Ok m) /\
  (forall e, surf_derivatives_dot dot s u v ou ov = Err e <-> surf_derivatives_unit dot s u v ou ov true = Err e).
Proof.
  intros H1 H2 H3 H4; pose proof (surf_alike_dot s u v ou ov H1 H2 H3 H4) as A; rewrite surf_unit_plain in A; revert A.
  destruct (surf_derivatives_dot dot s u v ou ov) as [m|e|], (surf_derivatives_unit dot s u v ou ov true) as [m'|e'|]; cbn [alike]; intros A; try contradiction.
  - split; [|split; [intros m0 _; exists m; reflexivity|intros e; split; discriminate]].
    intros m0 E; injection E as <-; exists m'; split; [reflexivity|exact A].
  - subst e'; split; [intros m E; discriminate E|split; [intros m E; discriminate E|intros e'; split; auto]].
  - split; [intros m E; discriminate E|split; [intros m E; discriminate E|intros e'; split; discriminate]].
Qed.
End Rows.
