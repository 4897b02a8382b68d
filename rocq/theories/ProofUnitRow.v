(** Normalised derivative vectors of a surface (model: ModelSurface.v,
    [surf_derivatives] with the flag set) on any numbers. *)
From Coq Require Import Lia ZArith List Bool.
From Verif Require Import Py PyLemmas Num ModelKnots ModelBasis ModelSurface ProofCurve2 ProofFit7 ProofParam4.
Import ListNotations.
Open Scope Z_scope.

(** Two runs that end alike. *)
Definition alike {A B} (R : A -> B -> Prop) (a : res A) (b : res B) : Prop :=
  match a, b with
  | Ok x, Ok y => R x y
  | Err e, Err e' => e = e'
  | Diverge, Diverge => True
  | _, _ => False
  end.
Lemma alike_bind {A B A' B'} (R : A -> B -> Prop) (Q : A' -> B' -> Prop) a b (f : A -> res A') (g : B -> res B') :
  alike R a b -> (forall x y, R x y -> alike Q (f x) (g y)) -> alike Q (bind a f) (bind b g).
Proof. destruct a, b; cbn; intros H F; try contradiction; auto. Qed.
Lemma alike_same {A A' B'} (Q : A' -> B' -> Prop) (a : res A) (f : A -> res A') (g : A -> res B') :
  (forall x, a = Ok x -> alike Q (f x) (g x)) -> alike Q (bind a f) (bind a g).
Proof. destruct a; cbn; intros F; auto. Qed.
Lemma for_alike {S S'} (R : Z -> S -> S' -> Prop) a b (f : Z -> S -> res S) (g : Z -> S' -> res S') s s' : a <= b -> R a s s' ->
  (forall i s s', a <= i < b -> R i s s' -> alike (R (i + 1)) (f i s) (g i s')) ->
  alike (R b) (for_range a b f s) (for_range a b g s').
Proof.
  intros Hab H0 HS.
  assert (G : forall k a s s', b - a = Z.of_nat k -> a <= b -> R a s s' ->
    (forall i s s', a <= i < b -> R i s s' -> alike (R (i + 1)) (f i s) (g i s')) ->
    alike (R b) (for_range a b f s) (for_range a b g s')).
  { clear; induction k as [|k IH]; intros a s s' Hk Hab H0 HS.
    - rewrite !for_range_empty by lia; cbn; replace b with a by lia; exact H0.
    - rewrite !for_range_step by lia; apply alike_bind with (R := R (a + 1)); [apply HS; [lia|exact H0]|].
      intros x y Hxy; apply IH; try lia; [exact Hxy|]; intros; apply HS; [lia|assumption]. }
  apply (G (Z.to_nat (b - a))); auto; lia.
Qed.

Section Rows.
Context {K : Num}.
Definition unitv (r : list K) : list K :=
  if isclose (vnorm r) (0%num : K) then r else map (fun x => (x / vnorm r)%num) r.
Lemma unitv_len r : length (unitv r) = length r.
Proof. unfold unitv; destruct (isclose _ _); [reflexivity|apply map_length]. Qed.

Lemma nth_upd_here (d : list (list K)) : forall n v, (n < length d)%nat -> nth n (upd d n v) [] = v.
Proof. induction d as [|x d IH]; intros [|n] v H; cbn in *; try lia; [reflexivity|apply IH; lia]. Qed.
Lemma nth_upd_else (d : list (list K)) : forall n k v, k <> n -> nth k (upd d n v) [] = nth k d [].
Proof. induction d as [|x d IH]; intros [|n] [|k] v H; cbn; try reflexivity; try lia; apply IH; lia. Qed.
Lemma upd_width (d : list (list K)) : forall n v, Forall (fun r => length r = 3%nat) d -> length v = 3%nat -> Forall (fun r => length r = 3%nat) (upd d n v).
Proof.
  induction d as [|x d IH]; intros n v HF Hv; destruct n; cbn [upd]; try constructor; try exact Hv.
  - exact (Forall_inv_tail HF).
  - exact (Forall_inv HF).
  - apply IH; [exact (Forall_inv_tail HF)|exact Hv].
Qed.
Lemma aset_row_upd (d : list (list K)) n v : Forall (fun r => length r = 3%nat) d -> length v = 3%nat -> (n < length d)%nat ->
  aset_row d (Z.of_nat n) v = Ok (upd d n v).
Proof.
  intros HF Hv Hn; unfold aset_row.
  assert (E : aget d (Z.of_nat n) = Ok (nth n d [])).
  { unfold aget, zlen; destruct (Z.ltb_spec (Z.of_nat n) 0); [lia|].
    destruct (Z.leb_spec 0 (Z.of_nat n)); [|lia]; destruct (Z.ltb_spec (Z.of_nat n) (Z.of_nat (length d))); [|lia]; cbn [andb].
    rewrite Nat2Z.id, (nth_error_nth' d []) by exact Hn; reflexivity. }
  rewrite E; cbn [bind]; unfold broadcast, zlen; rewrite Hv.
  rewrite (proj1 (Forall_forall _ _) HF (nth n d [])) by (apply nth_In; exact Hn); cbn [Z.eqb Pos.eqb Z.of_nat Pos.of_succ_nat Pos.succ bind].
  unfold aset, zlen; destruct (Z.ltb_spec (Z.of_nat n) 0); [lia|].
  destruct (Z.leb_spec 0 (Z.of_nat n)); [|lia]; destruct (Z.ltb_spec (Z.of_nat n) (Z.of_nat (length d))); [|lia]; cbn [andb].
  rewrite Nat2Z.id; reflexivity.
Qed.
Lemma surf_contract_len (s : surf K) us vs ar bu bv val : surf_contract s us vs ar bu bv = Ok val -> length val = 3%nat.
Proof. unfold surf_contract; destruct ar as ((xa & ya) & za); intros H; repeat bind_inv H; injection H as <-; reflexivity. Qed.

(** After [n] entries: the second run's rows before [n], but row 0, are normalised. *)
Definition same_upto (N : nat) (n : Z) (a b : Z * list (list K)) : Prop :=
  fst a = n /\ fst b = n /\ length (snd a) = N /\ length (snd b) = N /\
  Forall (fun r => length r = 3%nat) (snd a) /\ Forall (fun r => length r = 3%nat) (snd b) /\
  forall k, nth k (snd b) [] = if ((0 <? Z.of_nat k) && (Z.of_nat k <? n))%Z then unitv (nth k (snd a) []) else nth k (snd a) [].
Lemma entry_alike (s : surf K) us vs ar du dv i j N n a b : 0 <= n < Z.of_nat N -> same_upto N n a b ->
  alike (same_upto N (n + 1)) (surf_deriv_entry s false us vs ar du dv i j a) (surf_deriv_entry s true us vs ar du dv i j b).
Proof.
  intros Hn (F1 & F2 & L1 & L2 & W1 & W2 & HR); unfold surf_deriv_entry.
  apply alike_same; intros bu _; apply alike_same; intros bv _; apply alike_same; intros val EV.
  pose proof (surf_contract_len _ _ _ _ _ _ _ EV) as LV; cbn [andb]; cbv zeta; rewrite F1, F2.
  set (m := Z.to_nat n); assert (En : n = Z.of_nat m) by lia.
  set (v' := if negb (isclose (vnorm val) (0%num : K)) && negb (n =? 0) then map (fun x => (x / vnorm val)%num) val else val).
  assert (LV' : length v' = 3%nat) by (unfold v'; destruct (_ && _); [rewrite map_length|]; exact LV).
  rewrite En, !aset_row_upd by (assumption || lia); cbn [bind alike].
  unfold same_upto; cbn [fst snd]; rewrite !upd_length'.
  split; [reflexivity|]; split; [reflexivity|]; split; [exact L1|]; split; [exact L2|].
  split; [apply upd_width; assumption|]; split; [apply upd_width; assumption|].
  intros k; destruct (Nat.eq_dec k m) as [->|E].
  - rewrite !nth_upd_here by lia; unfold v', unitv.
    destruct (Z.ltb_spec (Z.of_nat m) (Z.of_nat m + 1)); [|lia].
    destruct (Z.eqb_spec n 0), (Z.ltb_spec 0 (Z.of_nat m)); try lia; cbn [negb andb].
    + rewrite andb_false_r; reflexivity.
    + rewrite andb_true_r; destruct (isclose _ _); reflexivity.
  - rewrite !nth_upd_else, HR by assumption.
    replace (Z.of_nat k <? Z.of_nat m + 1) with (Z.of_nat k <? n); [reflexivity|].
    destruct (Z.ltb_spec (Z.of_nat k) n), (Z.ltb_spec (Z.of_nat k) (Z.of_nat m + 1)); lia || reflexivity.
Qed.
Lemma surf_alike (s : surf K) u v ou ov : 0 <= ou -> 0 <= ov -> 0 <= s_pu s -> 0 <= s_pv s ->
  alike (fun m m' => length m' = length m /\ nth 0 m' [] = nth 0 m [] /\ forall k, (0 < k < length m)%nat -> nth k m' [] = unitv (nth k m []))
    (surf_derivatives s u v ou ov false) (surf_derivatives s u v ou ov true).
Proof.
  intros Hou Hov Hpu Hpv; unfold surf_derivatives.
  destruct (negb _); [reflexivity|]; destruct (negb _); [reflexivity|]; cbv zeta.
  set (mu := Z.min ou (s_pu s)); set (mv := Z.min ov (s_pv s)).
  assert (Hmu : 0 <= mu) by (unfold mu; lia); assert (Hmv : 0 <= mv) by (unfold mv; lia).
  do 6 (apply alike_same; intros ? ?).
  match goal with E : np_full2 _ _ _ = Ok ?d |- _ => rename d into d0; rename E into ED end.
  set (N := Z.to_nat ((mu + 1) * (mv + 1))).
  assert (EN : Z.of_nat N = (mu + 1) * (mv + 1)) by (unfold N; nia).
  assert (D : d0 = repeat (repeat (0%num : K) 3) N).
  { revert ED; unfold np_full2; destruct ((_ <? 0) || _)%Z; [discriminate|]; intros E; injection E as <-; reflexivity. }
  apply alike_bind with (R := same_upto N ((mu + 1) * (mv + 1))).
  - apply for_alike with (R := fun i => same_upto N (i * (mv + 1))); [lia| |].
    + assert (HW : Forall (fun r : list K => length r = 3%nat) d0) by (subst d0; apply Forall_forall; intros r Hr; apply repeat_spec in Hr; subst r; reflexivity).
      unfold same_upto; cbn [fst snd]; repeat split; try assumption; try (subst d0; apply repeat_length).
      intros k; destruct (Z.ltb_spec (Z.of_nat k) (0 * (mv + 1))); [lia|rewrite andb_false_r; reflexivity].
    + intros i a b Hi HR; replace ((i + 1) * (mv + 1)) with (i * (mv + 1) + (mv + 1)) by ring.
      apply for_alike with (R := fun j => same_upto N (i * (mv + 1) + j)); [lia|rewrite Z.add_0_r; exact HR|].
      intros j a' b' Hj HR'; rewrite Z.add_assoc; apply entry_alike; [nia|exact HR'].
  - intros a b (F1 & F2 & L1 & L2 & W1 & W2 & HR); cbn [alike]; rewrite L1, L2; split; [reflexivity|]; split.
    + rewrite HR; reflexivity.
    + intros k Hk; rewrite HR; destruct (Z.ltb_spec 0 (Z.of_nat k)); [|lia].
      destruct (Z.ltb_spec (Z.of_nat k) ((mu + 1) * (mv + 1))); [reflexivity|lia].
Qed.
(** Both values of the flag end alike; normalising changes rows 1, 2, ... only. *)
Lemma surf_unit (s : surf K) u v ou ov : 0 <= ou -> 0 <= ov -> 0 <= s_pu s -> 0 <= s_pv s ->
  (forall m, surf_derivatives s u v ou ov false = Ok m -> exists m', surf_derivatives s u v ou ov true = Ok m' /\
     length m' = length m /\ nth 0 m' [] = nth 0 m [] /\
     forall k, (0 < k < length m)%nat ->
       nth k m' [] = if isclose (vnorm (nth k m [])) (0%num : K) then nth k m [] else map (fun x => (x / vnorm (nth k m []))%num) (nth k m [])) /\
  (forall m', surf_derivatives s u v ou ov true = Ok m' -> exists m, surf_derivatives s u v ou ov false = Ok m) /\
  (forall e, surf_derivatives s u v ou ov false = Err e <-> surf_derivatives s u v ou ov true = Err e).
Proof.
  intros H1 H2 H3 H4; pose proof (surf_alike s u v ou ov H1 H2 H3 H4) as A; revert A.
  destruct (surf_derivatives s u v ou ov false) as [m|e|], (surf_derivatives s u v ou ov true) as [m'|e'|]; cbn [alike]; intros A; try contradiction.
  - split; [|split; [intros m0 _; exists m; reflexivity|intros e; split; discriminate]].
    intros m0 E; injection E as <-; exists m'; split; [reflexivity|exact A].
  - subst e'; split; [intros m E; discriminate E|split; [intros m E; discriminate E|intros e'; split; auto]].
  - split; [intros m E; discriminate E|split; [intros m E; discriminate E|intros e'; split; discriminate]].
Qed.
End Rows.
