(** Lemmas about [linear_fit_fixed] (model: ModelFit.v). *)
From Verif Require Import Py PyLemmas Num ModelKnots ModelCurve ModelParam ModelFit Spec SpecFit ProofNum ProofCurve2 ProofParam.
Open Scope Z_scope.

(** ** Arrays split at an index *)
Lemma zlen_app {A} (l1 l2 : list A) : zlen (l1 ++ l2) = zlen l1 + zlen l2.
Proof. unfold zlen; rewrite app_length; lia. Qed.
Lemma zlen_cons {A} (x : A) l : zlen (x :: l) = zlen l + 1.
Proof. unfold zlen; cbn [length]; lia. Qed.
Lemma aget_mid {A} (l1 l2 : list A) x i : i = zlen l1 -> aget (l1 ++ x :: l2) i = Ok x.
Proof.
  intros ->; rewrite (aget_nth _ _ x) by (rewrite zlen_app, zlen_cons; pose proof (zlen_nonneg l1); pose proof (zlen_nonneg l2); lia).
  unfold zlen; rewrite Nat2Z.id, nth_middle; reflexivity.
Qed.
Lemma upd_mid {A} (l1 l2 : list A) x v : upd (l1 ++ x :: l2) (length l1) v = l1 ++ v :: l2.
Proof. induction l1 as [|y l1 IH]; cbn; [reflexivity|]; rewrite IH; reflexivity. Qed.
Lemma aset_mid {A} (l1 l2 : list A) x v i : i = zlen l1 -> aset (l1 ++ x :: l2) i v = Ok (l1 ++ v :: l2).
Proof.
  intros ->; unfold aset; rewrite zlen_app, zlen_cons.
  pose proof (zlen_nonneg l1); pose proof (zlen_nonneg l2).
  destruct (Z.ltb_spec (zlen l1) 0); [lia|]; cbn zeta.
  destruct (Z.leb_spec 0 (zlen l1)); [|lia]; destruct (Z.ltb_spec (zlen l1) (zlen l1 + (zlen l2 + 1))); [|lia]; cbn [andb].
  unfold zlen; rewrite Nat2Z.id, upd_mid; reflexivity.
Qed.

(** ** Masks *)
Definition picks b (mask : list bool) : nat := length (filter (Bool.eqb b) mask).
Lemma pick_length {A} b mask (l : list A) : length mask = length l -> length (pick b mask l) = picks b mask.
Proof.
  revert l; induction mask as [|m mask IH]; intros [|x l] H; try discriminate; [reflexivity|].
  cbn in H; injection H as H; unfold picks; cbn [pick filter].
  replace (Bool.eqb b m) with (Bool.eqb m b) by (destruct m, b; reflexivity).
  destruct (Bool.eqb m b); cbn [length]; rewrite IH by exact H; reflexivity.
Qed.
Lemma picks_sum mask : (picks true mask + picks false mask = length mask)%nat.
Proof. unfold picks; induction mask as [|[|] mask IH]; cbn; lia. Qed.
Lemma picks_snoc b mask m : picks b (mask ++ [m]) = (picks b mask + (if Bool.eqb b m then 1 else 0))%nat.
Proof. unfold picks; rewrite filter_app, app_length; cbn; destruct (Bool.eqb b m); reflexivity. Qed.
Lemma pick_snoc {A} b mask (l : list A) m x : length mask = length l ->
  pick b (mask ++ [m]) (l ++ [x]) = pick b mask l ++ (if Bool.eqb m b then [x] else []).
Proof.
  revert l; induction mask as [|m' mask IH]; intros [|y l] H; try discriminate.
  - cbn; destruct (Bool.eqb m b); reflexivity.
  - cbn [app pick]; rewrite IH by (cbn in H; congruence); destruct (Bool.eqb m' b); reflexivity.
Qed.
Lemma pick_map {A B} (f : A -> B) b mask l : pick b mask (map f l) = map f (pick b mask l).
Proof. revert l; induction mask as [|m mask IH]; intros [|x l]; cbn; try reflexivity; destruct (Bool.eqb m b); cbn; rewrite IH; reflexivity. Qed.
Lemma firstn_snoc {A} (l : list A) i d : (i < length l)%nat -> firstn (S i) l = firstn i l ++ [nth i l d].
Proof.
  revert l; induction i as [|i IH]; intros [|x l] H; cbn in H; try lia; [reflexivity|].
  cbn [firstn nth app]; rewrite <- IH by lia; reflexivity.
Qed.

(** ** Filling in the free values *)
Fixpoint merge {A} (mask : list bool) (P y : list A) : list A :=
  match mask, P with
  | true :: mask, x :: P => x :: merge mask P y
  | false :: mask, _ :: P => match y with v :: y => v :: merge mask P y | [] => [] end
  | _, _ => []
  end.

Section Loops.
Context {K : Num}.

Lemma count_loop (P1 P2 : list K) F1 F2 n : length F1 = length P1 ->
  for_list (zrange (zlen P1) (zlen P1 + zlen P2)) (fun i n => let* b := aget (F1 ++ F2) i in Ok (if b : bool then n + 1 else n)) n
  = if zlen P2 <=? zlen F2 then Ok (n + Z.of_nat (picks true (firstn (length P2) F2))) else Err IndexError.
Proof.
  revert P1 F1 F2 n; induction P2 as [|x P2 IH]; intros P1 F1 F2 n HL.
  - rewrite zrange_nil by (unfold zlen; cbn; lia); unfold picks; cbn.
    destruct (Z.leb_spec 0 (zlen F2)); [|pose proof (zlen_nonneg F2); lia].
    f_equal; lia.
  - rewrite zlen_cons, zrange_cons by (pose proof (zlen_nonneg P2); lia); cbn [for_list].
    destruct F2 as [|b F2].
    + rewrite app_nil_r, aget_out by (unfold zlen; rewrite HL; lia); cbn [bind].
      destruct (Z.leb_spec (zlen P2 + 1) (zlen (@nil bool))); [|reflexivity].
      pose proof (zlen_nonneg P2); unfold zlen in *; cbn in *; lia.
    + rewrite aget_mid by (unfold zlen; rewrite HL; reflexivity); cbn [bind].
      specialize (IH (P1 ++ [x]) (F1 ++ [b]) F2 (if b then n + 1 else n)).
      rewrite zlen_app, zlen_cons in IH; change (zlen (@nil K)) with 0 in IH.
      replace (zlen P1 + (0 + 1)) with (zlen P1 + 1) in IH by lia.
      replace (zlen P1 + (zlen P2 + 1)) with (zlen P1 + 1 + zlen P2) by lia.
      rewrite <- app_assoc in IH; cbn [app] in IH.
      rewrite IH by (rewrite !app_length; cbn; lia).
      rewrite zlen_cons.
      destruct (Z.leb_spec (zlen P2) (zlen F2)); destruct (Z.leb_spec (zlen P2 + 1) (zlen F2 + 1)); try lia; [|reflexivity].
      f_equal; cbn [firstn length]; unfold picks; cbn [filter]; destruct b; cbn; lia.
Qed.
Lemma count_fixed_eq (P : list K) fixed :
  count_fixed P fixed = if zlen P <=? zlen fixed then Ok (Z.of_nat (picks true (firstn (length P) fixed))) else Err IndexError.
Proof.
  unfold count_fixed, for_range.
  etransitivity; [exact (count_loop [] P [] fixed 0 eq_refl)|]; reflexivity.
Qed.

Lemma merge_loop (P1 P2 y1 y2 full : list K) F1 F2 : length F1 = length P1 -> length F2 = length P2 -> length full = length P1 ->
  for_list (zrange (zlen P1) (zlen P1 + zlen P2)) (merge_step (P1 ++ P2) (y1 ++ y2) (F1 ++ F2))
    (full ++ repeat (0 : K)%num (length P2), zlen y1)
  = if (picks false F2 <=? length y2)%nat
    then Ok (full ++ merge F2 P2 y2, zlen y1 + Z.of_nat (picks false F2)) else Err IndexError.
Proof.
  revert P1 y1 y2 full F1 F2; induction P2 as [|x P2 IH]; intros P1 y1 y2 full F1 F2 HF HF2 Hf.
  - rewrite zrange_nil by (unfold zlen; cbn; lia); destruct F2; [|discriminate]; cbn; rewrite Z.add_0_r; reflexivity.
  - rewrite zlen_cons, zrange_cons by (pose proof (zlen_nonneg P2); lia); cbn [for_list].
    destruct F2 as [|b F2]; [discriminate|]; cbn in HF2; injection HF2 as HF2.
    unfold merge_step at 1; cbn [fst snd].
    rewrite aget_mid by (unfold zlen; rewrite HF; reflexivity); cbn [bind].
    replace (zlen P1 + (zlen P2 + 1)) with (zlen (P1 ++ [x]) + zlen P2) by (rewrite zlen_app, zlen_cons; unfold zlen; cbn; lia).
    replace (zlen P1 + 1) with (zlen (P1 ++ [x])) by (rewrite zlen_app, zlen_cons; unfold zlen; cbn; lia).
    destruct b.
    + rewrite aget_mid by reflexivity; cbn [bind length repeat].
      rewrite aset_mid by (unfold zlen; rewrite Hf; reflexivity); cbn [bind].
      specialize (IH (P1 ++ [x]) y1 y2 (full ++ [x]) (F1 ++ [true]) F2).
      rewrite <- !app_assoc in IH; cbn [app] in IH.
      rewrite IH by (rewrite ?app_length; cbn; lia).
      unfold picks; cbn [filter merge Bool.eqb]; reflexivity.
    + destruct y2 as [|v y2].
      { rewrite app_nil_r, aget_out by lia; cbn [bind].
        unfold picks; cbn [filter Bool.eqb length]; reflexivity. }
      rewrite aget_mid by reflexivity; cbn [bind length repeat].
      rewrite aset_mid by (unfold zlen; rewrite Hf; reflexivity); cbn [bind].
      specialize (IH (P1 ++ [x]) (y1 ++ [v]) y2 (full ++ [v]) (F1 ++ [false]) F2).
      rewrite <- !app_assoc in IH; cbn [app] in IH.
      replace (zlen y1 + 1) with (zlen (y1 ++ [v])) by (rewrite zlen_app; reflexivity).
      rewrite IH by (rewrite ?app_length; cbn; lia).
      unfold picks; cbn [filter merge Bool.eqb length].
      match goal with |- context [(S ?a <=? S ?b)%nat] => change (S a <=? S b)%nat with (a <=? b)%nat end.
      match goal with |- context [(?a <=? ?b)%nat] => destruct (a <=? b)%nat end; [|reflexivity].
      f_equal; f_equal; rewrite zlen_app; unfold zlen; cbn; lia.
Qed.

(** Entries of the mask beyond P are not looked at. *)
Lemma for_list_ext_in {X S} (l : list X) (f g : X -> S -> res S) s :
  (forall x s, In x l -> f x s = g x s) -> for_list l f s = for_list l g s.
Proof.
  revert s; induction l as [|x l IH]; intros s H; cbn; [reflexivity|].
  rewrite H by (left; reflexivity); destruct (g x s); cbn; auto; apply IH; intros; apply H; right; assumption.
Qed.
Lemma aget_firstn {A} (l : list A) n i : 0 <= i < Z.of_nat n -> (n <= length l)%nat -> aget (firstn n l) i = aget l i.
Proof.
  intros Hi Hn; destruct l as [|d l]; [cbn in Hn; lia|].
  rewrite !(aget_nth _ _ d) by (unfold zlen; rewrite ?firstn_length; lia).
  f_equal; rewrite <- (firstn_skipn n (d :: l)) at 2; rewrite app_nth1; [reflexivity|]; rewrite firstn_length; lia.
Qed.
Lemma merge_all (P y : list K) fixed : (length P <= length fixed)%nat ->
  for_range 0 (zlen P) (merge_step P y fixed) (repeat (0 : K)%num (length P), 0)
  = if (picks false (firstn (length P) fixed) <=? length y)%nat
    then Ok (merge (firstn (length P) fixed) P y, Z.of_nat (picks false (firstn (length P) fixed))) else Err IndexError.
Proof.
  intros H; unfold for_range; rewrite (for_list_ext_in _ _ (merge_step P y (firstn (length P) fixed))).
  - exact (merge_loop [] P [] y [] [] (firstn (length P) fixed) eq_refl ltac:(rewrite firstn_length; lia) eq_refl).
  - intros i s Hi; apply in_zrange in Hi; unfold merge_step; unfold zlen in Hi.
    rewrite aget_firstn by lia; reflexivity.
Qed.
End Loops.

(** ** Facts about [merge] *)
Lemma merge_length {A} mask (P y : list A) : length mask = length P -> (picks false mask <= length y)%nat -> length (merge mask P y) = length P.
Proof.
  revert P y; induction mask as [|m mask IH]; intros [|x P] y H Hy; try discriminate; [reflexivity|].
  cbn in H; injection H as H; unfold picks in *; destruct m; cbn in Hy |- *.
  - rewrite IH; auto.
  - destruct y as [|v y]; cbn in Hy; [lia|]; cbn; rewrite IH; auto; lia.
Qed.
Lemma merge_kept {A} mask (P y : list A) : length mask = length P -> (picks false mask <= length y)%nat ->
  kept mask (merge mask P y) = kept mask P.
Proof.
  unfold kept; revert P y; induction mask as [|m mask IH]; intros [|x P] y H Hy; try discriminate; [reflexivity|].
  cbn in H; injection H as H; unfold picks in *; destruct m; cbn in Hy |- *.
  - rewrite IH; auto.
  - destruct y as [|v y]; cbn in Hy; [lia|]; cbn; rewrite IH; auto; lia.
Qed.
Lemma merge_free {A} mask (P y : list A) : length mask = length P -> (picks false mask <= length y)%nat ->
  free mask (merge mask P y) = firstn (picks false mask) y.
Proof.
  unfold free; revert P y; induction mask as [|m mask IH]; intros [|x P] y H Hy; try discriminate; [reflexivity|].
  cbn in H; injection H as H; unfold picks in *; destruct m; cbn in Hy |- *.
  - rewrite IH; auto.
  - destruct y as [|v y]; cbn in Hy; [lia|]; cbn; rewrite IH; auto; lia.
Qed.
Lemma merge_self {A} mask (P x : list A) : length mask = length P -> length x = length P -> kept mask x = kept mask P ->
  merge mask P (free mask x) = x.
Proof.
  unfold kept, free; revert P x; induction mask as [|m mask IH]; intros [|q P] [|a x] H Hx HK; try discriminate; [reflexivity|].
  cbn in H, Hx; injection H as H; injection Hx as Hx; destruct m; cbn in HK |- *.
  - injection HK as -> HK; rewrite IH; auto.
  - rewrite IH; auto.
Qed.
Lemma merge_nth {A} mask (P y : list A) i d : length mask = length P -> (picks false mask <= length y)%nat ->
  nth i mask false = true -> nth i (merge mask P y) d = nth i P d.
Proof.
  revert P y i; induction mask as [|m mask IH]; intros [|x P] y i H Hy Hm; try discriminate; [destruct i; discriminate|].
  cbn in H; injection H as H; unfold picks in *; destruct m; cbn in Hy |- *.
  - destruct i; cbn; [reflexivity|]; apply IH; auto.
  - destruct y as [|v y]; cbn in Hy; [lia|]; destruct i; [discriminate|]; cbn; apply IH; auto; lia.
Qed.
Lemma picks_all mask : picks true mask = length mask -> Forall (fun b => b = true) mask.
Proof.
  unfold picks; induction mask as [|[|] mask IH]; cbn; intros H; [constructor|constructor; [reflexivity|apply IH; lia]|].
  pose proof (picks_sum mask); unfold picks in *; lia.
Qed.

(** ** C51 *)
Section Any.
Context {K : Num}.
Lemma bind_Ok {A B} (m : res A) (k : A -> res B) r : bind m k = Ok r -> exists a, m = Ok a /\ k a = Ok r.
Proof. destruct m; cbn; intros H; try discriminate; eauto. Qed.

Lemma linear_fit_fixed_result sv (R : list (list K)) Q P fixed lg x : linear_fit_fixed sv R Q P fixed lg = Ok x ->
  (length P <= length fixed)%nat /\
  (x = P /\ Forall (fun b => b = true) (firstn (length P) fixed) \/
   exists A b y, sv_lstsq sv (Z.of_nat (picks false (firstn (length P) fixed))) A b = Ok y /\
     (0 < picks false (firstn (length P) fixed) <= length y)%nat /\ x = merge (firstn (length P) fixed) P y).
Proof.
  unfold linear_fit_fixed; rewrite count_fixed_eq.
  destruct (Z.leb_spec (zlen P) (zlen fixed)) as [HL|]; [|discriminate]; cbn [bind].
  unfold zlen in HL; set (mask := firstn (length P) fixed).
  assert (HM : length mask = length P) by (unfold mask; rewrite firstn_length; lia).
  pose proof (picks_sum mask) as HS.
  intros H; split; [lia|].
  destruct (Z.eqb_spec (Z.of_nat (picks true mask)) (zlen P)) as [E|E].
  - injection H as <-; left; split; [reflexivity|]; apply picks_all; unfold zlen in E; lia.
  - right.
    assert (EZ : zlen P - Z.of_nat (picks true mask) = Z.of_nat (picks false mask)) by (unfold zlen; lia).
    rewrite EZ in H.
    apply bind_Ok in H; destruct H as (Rf & _ & H); apply bind_Ok in H; destruct H as (Rx & _ & H).
    apply bind_Ok in H; destruct H as (Qf & _ & H); apply bind_Ok in H; destruct H as ([[[[A B] Qx] j] k] & _ & H).
    apply bind_Ok in H; destruct H as (_u & _ & H); apply bind_Ok in H; destruct H as (rhs & _ & H).
    apply bind_Ok in H; destruct H as (y & Hy & H); apply bind_Ok in H; destruct H as (full & Hfull & H).
    unfold np_full in Hfull; destruct (zlen P <? 0); [discriminate|]; injection Hfull as <-.
    replace (Z.to_nat (zlen P)) with (length P) in H by (unfold zlen; lia); rewrite merge_all in H by lia; fold mask in H.
    destruct (Nat.leb_spec (picks false mask) (length y)) as [HY|]; [|discriminate]; cbn [bind fst] in H.
    injection H as <-; exists A, rhs, y; split; [exact Hy|]; split; [unfold zlen in E; lia|reflexivity].
Qed.
Lemma linear_fit_fixed_all sv (R : list (list K)) Q P fixed lg : (length P <= length fixed)%nat ->
  Forall (fun b => b = true) (firstn (length P) fixed) -> linear_fit_fixed sv R Q P fixed lg = Ok P.
Proof.
  intros HL HA; unfold linear_fit_fixed; rewrite count_fixed_eq.
  destruct (Z.leb_spec (zlen P) (zlen fixed)); [|unfold zlen in *; lia]; cbn [bind].
  assert (E : picks true (firstn (length P) fixed) = length P).
  { unfold picks; replace (filter (Bool.eqb true) (firstn (length P) fixed)) with (firstn (length P) fixed); [rewrite firstn_length; lia|].
    revert HA; generalize (firstn (length P) fixed); induction l as [|b l IH]; intros HA; [reflexivity|].
    inversion HA; subst; cbn; f_equal; auto. }
  rewrite E; unfold zlen; rewrite Z.eqb_refl; reflexivity.
Qed.
End Any.
