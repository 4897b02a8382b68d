(** Curve fitting on the store (ModelRef.v) against curve fitting on values
    (ModelFit.v), and the arrays the results hold. *)
From Verif Require Import Py Num ModelKnots ModelCurve ModelSurface ModelInit ModelParam ModelFit ModelIO ModelData ModelRef PyLemmas ProofRef.
Open Scope Z_scope.

Section Ref.
Context {K : Num}.
Notation store := (store K).
Implicit Types s : store.

(** Curve [k] keeps its knots, or holds a knot array made since [s0]. *)
Definition kv_from s0 s k : Prop :=
  rc_kv (cur_at s k) = rc_kv (cur_at s0 k) \/ exists a, rc_kv (cur_at s k) = Some a /\ (length (h_vec s0) <= a)%nat.
Definition ctrl_from s0 s k : Prop := exists a, rc_ctrl (cur_at s k) = Some a /\ (length (h_mat s0) <= a)%nat.

Lemma sim_id {A B} n (m : rm A) s (v : res B) R : sim n m s (bind v (fun c => Ok c)) R -> sim n m s v R.
Proof. destruct v; exact (fun H => H). Qed.

Lemma sim_initialize n start stop degree num s : wf s -> (n <= length (h_cur s))%nat ->
  sim n (r_initialize_curve start stop degree num) s (initialize_curve_opt working_class start stop degree num)
    (fun s' k c => curve_val s' k = c /\ (length (h_cur s) <= k < length (h_cur s'))%nat /\
       (forall a, rc_ctrl (cur_at s' k) = Some a -> (length (h_mat s) <= a)%nat) /\ (forall a, rc_kv (cur_at s' k) = Some a -> (length (h_vec s) <= a)%nat)).
Proof.
  intros W Hn; unfold r_initialize_curve.
  apply sim_id.
  apply sim_lift; [exact W|]; intros c Ec.
  eapply sim_seq with (R := fun s' o => option_map (fun a => dt_rows (mat_at s' a)) o = c_ctrl c /\ inrng (h_mat s') o /\
    (forall a, o = Some a -> (length (h_mat s) <= a)%nat) /\ h_vec s' = h_vec s /\ h_cur s' = h_cur s).
  { destruct (c_ctrl c) as [P|]; cbn [new_opt].
    - eapply sim_seq with (R := fun s' a => a = length (h_mat s) /\ mat_at s' a = mkData (width P) P /\ (a < length (h_mat s'))%nat /\ h_vec s' = h_vec s /\ h_cur s' = h_cur s).
      + apply sim_mat; exact W.
      + intros s' a W' E' (Ha & M & L & V & C); apply sim_ok; [exact W'|]; cbn [option_map inrng]; rewrite M; cbn [dt_rows].
        repeat split; try assumption; intros b Hb; injection Hb as <-; lia.
    - apply sim_ok; [exact W|]; repeat split; discriminate. }
  intros s1 o W1 E1 (O1 & O2 & O3 & V1 & C1).
  eapply sim_seq with (R := fun s' o' => option_map (vec_at s') o' = c_kv c /\ inrng (h_vec s') o' /\
    (forall a, o' = Some a -> (length (h_vec s) <= a)%nat) /\ h_mat s' = h_mat s1 /\ h_cur s' = h_cur s).
  { destruct (c_kv c) as [kv|]; cbn [new_opt].
    - eapply sim_seq with (R := fun s' a => a = length (h_vec s1) /\ vec_at s' a = kv /\ (a < length (h_vec s'))%nat /\ h_mat s' = h_mat s1 /\ h_cur s' = h_cur s1).
      + apply sim_vec; exact W1.
      + intros s' a W' E' (Ha & M & L & V & C); apply sim_ok; [exact W'|]; cbn [option_map inrng]; rewrite M.
        repeat split; try assumption; [intros b Hb; injection Hb as <-; rewrite Ha, V1; lia|congruence].
    - apply sim_ok; [exact W1|]; repeat split; try discriminate; exact C1. }
  intros s2 o' W2 E2 (O1' & O2' & O3' & M2 & C2).
  destruct (sim_cur n (mkRC (c_degree c) o o' (c_dim c)) s2 W2) as (W3 & E3 & H3).
  { rewrite C2; exact Hn. }
  { split; cbn [rc_ctrl rc_kv]; [rewrite M2; exact O2|exact O2']. }
  split; [exact W3|]; split; [exact E3|]; cbn [new_cur snd fst] in *; destruct H3 as (_ & C & L & V & M).
  assert (HV : forall a, vec_at (mkStore (h_vec s2) (h_mat s2) (h_cur s2 ++ [mkRC (c_degree c) o o' (c_dim c)]) (h_sur s2) (h_bp s2) (h_bd s2) (h_ip s2)) a = vec_at s2 a) by reflexivity.
  split; [|split; [split; [rewrite C2; lia|exact L]|split; rewrite C; assumption]].
  rewrite (curve_val_eq _ _ _ C); cbn [rc_degree rc_ctrl rc_kv rc_dim].
  replace (option_map (vec_at _) o') with (c_kv c) by (symmetry; exact O1').
  replace (option_map _ o) with (c_ctrl c); [destruct c; reflexivity|].
  rewrite <- O1; destruct o as [a|]; [cbn [option_map]; unfold mat_at; cbn [h_mat]; rewrite M2; reflexivity|reflexivity].
Qed.

Lemma sim_copy n k s : wf s -> (n <= length (h_cur s))%nat -> (k < length (h_cur s))%nat ->
  sim n (r_copy_curve k) s (copy_curve working_class (curve_val s k))
    (fun s' t c => curve_val s' t = c /\ (length (h_cur s) <= t < length (h_cur s'))%nat /\
       rc_ctrl (cur_at s' t) = rc_ctrl (cur_at s k) /\ (rc_kv (cur_at s' t) = rc_kv (cur_at s k) \/ rc_kv (cur_at s' t) = None) /\
       (forall j, (j < length (h_cur s))%nat -> cur_at s' j = cur_at s j) /\ h_vec s' = h_vec s /\ h_mat s' = h_mat s).
Proof.
  intros W Hn Hk; unfold r_copy_curve; apply sim_read; unfold copy_curve.
  destruct (wf_cur s k W Hk) as [Wc Wv].
  assert (Hk' : forall s', (forall j, (j < length (h_cur s))%nat -> cur_at s' j = cur_at s j) -> cur_at s' k = cur_at s k) by auto.
  (* the blank object, with [n] raised to the present number of curves *)
  assert (B : sim (length (h_cur s)) r_blank s (Ok tt) (fun s' t _ => t = length (h_cur s) /\ cur_at s' t = mkRC None None None 0 /\
    (t < length (h_cur s'))%nat /\ h_vec s' = h_vec s /\ h_mat s' = h_mat s)).
  { apply sim_cur; [exact W|lia|split; exact I]. }
  cut (sim (length (h_cur s)) (rbind r_blank (fun t => match rc_degree (cur_at s k) with
    | None => rpure (Err TypeError)
    | Some d => rbind (r_set_degree t d) (fun _ => match rc_ctrl (cur_at s k) with
        | None => rpure (Err AttributeError)
        | Some a => rbind (r_set_ctrl t a) (fun _ => match rc_kv (cur_at s k) with
            | None => rpure (Err AttributeError)
            | Some b => rbind (r_set_kv t b) (fun _ => rpure (Ok t))
            end)
        end)
    end)) s (copy_curve working_class (curve_val s k))
    (fun s' t c => curve_val s' t = c /\ (length (h_cur s) <= t < length (h_cur s'))%nat /\
       rc_ctrl (cur_at s' t) = rc_ctrl (cur_at s k) /\ (rc_kv (cur_at s' t) = rc_kv (cur_at s k) \/ rc_kv (cur_at s' t) = None) /\
       h_vec s' = h_vec s /\ h_mat s' = h_mat s)).
  { intros (W1 & E1 & H1); split; [exact W1|]; split.
    - destruct E1 as (A1 & A2 & [A3 A3'] & A4); split; [exact A1|]; split; [exact A2|]; split; [split; [exact A3|]; intros j Hj; apply A3'; lia|exact A4].
    - unfold copy_curve in H1; cbn [working_class cl_blank cl_set_ctrl] in *; revert H1; destruct (snd _); [|exact (fun H => H)|exact (fun H => H)].
      match goal with |- context [match ?v with Ok _ => _ | Err _ => _ | Diverge => _ end] => destruct v end; try exact (fun H => H).
      intros (X1 & X2 & X3 & X4 & X5 & X6); repeat split; try assumption; try (apply X2); intros j Hj; apply (proj2 (proj1 (proj2 (proj2 E1)))); exact Hj. }
  eapply sim_seq; [exact B|]; clear B; intros s1 t W1 E1 (Ht & C1 & L1 & V1 & M1); unfold copy_curve.
  change (c_degree (curve_val s k)) with (rc_degree (cur_at s k)); destruct (rc_degree (cur_at s k)) as [d|]; [|apply sim_err; exact W1].
  cbn [working_class cl_blank cl_set_ctrl].
  assert (E0 : curve_val s1 t = curve_init None None) by (rewrite (curve_val_eq _ _ _ C1); reflexivity).
  rewrite <- E0; eapply sim_bind; [apply sim_set_degree; [exact W1|lia]|].
  intros s2 [] v2 W2 E2 (X2 & L2 & C2 & V2 & M2); subst v2.
  change (c_ctrl (curve_val s k)) with (option_map (fun a => dt_rows (mat_at s a)) (rc_ctrl (cur_at s k))); destruct (rc_ctrl (cur_at s k)) as [a|] eqn:Ea; cbn [option_map]; [|apply sim_err; exact W2].
  assert (Ma : mat_at s a = mat_at s2 a) by (unfold mat_at; rewrite M2, M1; reflexivity); rewrite Ma.
  eapply sim_bind; [apply sim_set_ctrl; [exact W2|lia|rewrite M2, M1; exact Wc]|].
  intros s3 [] v3 W3 E3 (X3 & L3 & C3 & V3 & M3); subst v3.
  change (c_kv (curve_val s k)) with (option_map (vec_at s) (rc_kv (cur_at s k))); destruct (rc_kv (cur_at s k)) as [b|] eqn:Eb; cbn [option_map]; [|apply sim_err; exact W3].
  assert (Vb : vec_at s b = vec_at s3 b) by (unfold vec_at; rewrite V3, V2, V1; reflexivity); rewrite Vb.
  apply sim_id.
  eapply sim_bind; [apply sim_set_kv; [exact W3|lia|rewrite V3, V2, V1; exact Wv]|].
  intros s4 [] v4 W4 E4 (X4 & L4 & C4 & Q4 & V4 & M4); subst v4; apply sim_ok; [exact W4|].
  split; [reflexivity|]; split; [lia|]; split; [rewrite C4, C3; reflexivity|].
  split; [|split; congruence].
  destruct Q4 as [->| ->]; [left; reflexivity|right; rewrite C3, C2; cbn [rc_kv]; rewrite C1; reflexivity].
Qed.

Lemma single_fit_shape sv (c c' : curve_obj K) rows : single_fit_curve store_ctrl sv c rows = Ok c' ->
  exists P, c' = mkCurve (c_degree c) (Some P) (c_kv c) (c_dim c).
Proof.
  unfold single_fit_curve, store_ctrl; intros H.
  repeat match type of H with bind ?m _ = Ok _ => destruct m as [?|?|]; cbn [bind] in H; try discriminate
    | (let '(_, _) := ?m in _) = Ok _ => destruct m end.
  injection H as <-; eexists; reflexivity.
Qed.
Lemma sim_single_fit n sv k rows s : wf s -> (n <= k < length (h_cur s))%nat ->
  sim n (r_single_fit sv k rows) s (single_fit_curve store_ctrl sv (curve_val s k) rows)
    (fun s' _ c => curve_val s' k = c /\ length (h_cur s') = length (h_cur s) /\ rc_kv (cur_at s' k) = rc_kv (cur_at s k) /\ ctrl_from s s' k /\ h_vec s' = h_vec s).
Proof.
  intros W Hk; unfold r_single_fit; apply sim_read.
  apply sim_id.
  apply sim_lift; [exact W|]; intros c Ec; destruct (single_fit_shape _ _ _ _ Ec) as [P ->]; cbn [c_ctrl].
  eapply sim_seq with (R := fun s' a => a = length (h_mat s) /\ mat_at s' a = mkData (width P) P /\ (a < length (h_mat s'))%nat /\ h_vec s' = h_vec s /\ h_cur s' = h_cur s).
  { apply sim_mat; exact W. }
  intros s1 a W1 E1 (Ha & M1 & L1 & V1 & C1).
  assert (Ev : curve_val s1 k = curve_val s k).
  { apply curve_val_of; [apply wf_cur; [exact W|lia]|unfold cur_at; rewrite C1; reflexivity|intros b _; unfold vec_at; rewrite V1; reflexivity|].
    intros b Hb; eapply ext_mat; [exact E1|exact Hb]. }
  pose proof (sim_set_ctrl n k a s1 W1 ltac:(rewrite C1; exact Hk) L1) as S; rewrite Ev, M1 in S; unfold store_ctrl in S; cbn [dt_rows] in S.
  eapply sim_weaken; [exact S|]; intros s2 [] b W2 E2 (X & L & C & V & M).
  split; [exact X|]; split; [rewrite L, C1; reflexivity|]; split; [rewrite C; unfold cur_at; rewrite C1; reflexivity|].
  split; [exists a; rewrite C; split; [reflexivity|lia]|congruence].
Qed.

Lemma sim_insert n k u s : wf s -> (n <= k < length (h_cur s))%nat ->
  sim n (r_insert_knot k u) s (insert_knot_working (curve_val s k) u)
    (fun s' _ c => curve_val s' k = c /\ length (h_cur s') = length (h_cur s) /\ kv_from s s' k /\ ctrl_from s s' k).
Proof.
  intros W Hk; unfold r_insert_knot, insert_knot_working; apply sim_read.
  destruct (negb (validate_knot u)); [apply sim_err; exact W|].
  apply sim_lift; [exact W|]; intros [[p P] kv] Ef; apply sim_lift; [exact W|]; intros r Er.
  eapply sim_seq with (R := fun s' a => a = length (h_mat s) /\ mat_at s' a = mkData (width (snd r)) (snd r) /\ (a < length (h_mat s'))%nat /\ h_vec s' = h_vec s /\ h_cur s' = h_cur s).
  { apply sim_mat; exact W. }
  intros s1 a W1 E1 (Ha & M1 & L1 & V1 & C1).
  assert (Ev : curve_val s1 k = curve_val s k).
  { apply curve_val_of; [apply wf_cur; [exact W|lia]|unfold cur_at; rewrite C1; reflexivity|intros b _; unfold vec_at; rewrite V1; reflexivity|].
    intros b Hb; eapply ext_mat; [exact E1|exact Hb]. }
  pose proof (sim_set_ctrl n k a s1 W1 ltac:(rewrite C1; exact Hk) L1) as S; rewrite Ev, M1 in S; cbn [dt_rows] in S.
  eapply sim_bind; [exact S|]; clear S; intros s2 [] v2 W2 E2 (X2 & L2 & C2 & V2 & M2); subst v2.
  eapply sim_seq with (R := fun s' b => b = length (h_vec s2) /\ vec_at s' b = fst r /\ (b < length (h_vec s'))%nat /\ h_mat s' = h_mat s2 /\ h_cur s' = h_cur s2).
  { apply sim_vec; exact W2. }
  intros s3 b W3 E3 (Hb & V3 & L3 & M3 & C3).
  assert (Ev3 : curve_val s3 k = curve_val s2 k).
  { apply curve_val_of; [apply wf_cur; [exact W2|rewrite L2, C1; lia]|unfold cur_at; rewrite C3; reflexivity| |intros x _; unfold mat_at; rewrite M3; reflexivity].
    intros x Hx; eapply ext_vec; [exact E3|exact Hx]. }
  pose proof (sim_set_kv n k b s3 W3 ltac:(rewrite C3, L2, C1; exact Hk) L3) as S; rewrite Ev3, V3 in S.
  eapply sim_weaken; [exact S|]; intros s4 [] c W4 E4 (X & L & C & Q & V & M).
  split; [exact X|]; split; [rewrite L, C3, L2, C1; reflexivity|].
  assert (C3k : cur_at s3 k = cur_at s2 k) by (unfold cur_at; rewrite C3; reflexivity).
  assert (C1k : cur_at s1 k = cur_at s k) by (unfold cur_at; rewrite C1; reflexivity).
  split; [destruct Q as [Q|Q]; [right; exists b; split; [exact Q|rewrite Hb, V2, V1; lia]|left; rewrite Q, C3k, C2; cbn [rc_kv]; rewrite C1k; reflexivity]|].
  exists a; rewrite C, C3k, C2; split; [reflexivity|lia].
Qed.

Lemma kv_from_trans n s s1 s2 k : ext n s s1 -> kv_from s s1 k -> kv_from s1 s2 k -> kv_from s s2 k.
Proof.
  intros ([v V] & _) H1 [H2|(a & H2 & L)]; [unfold kv_from; rewrite H2; exact H1|right; exists a; split; [exact H2|rewrite V, app_length in L; lia]].
Qed.
Lemma ctrl_from_grow n s s1 s2 k : ext n s s1 -> ctrl_from s1 s2 k -> ctrl_from s s2 k.
Proof. intros (_ & [m M] & _) (a & H & L); exists a; split; [exact H|rewrite M, app_length in L; lia]. Qed.

Lemma sim_inserts n k knots l s : wf s -> (n <= k < length (h_cur s))%nat ->
  sim n (rfor (fun i => rbind (rpure (aget knots i)) (fun u => r_insert_knot k u)) l) s
    (for_list l (fun i t => let* u := aget knots i in cl_insert working_class t u) (curve_val s k))
    (fun s' _ c => curve_val s' k = c /\ length (h_cur s') = length (h_cur s) /\ kv_from s s' k).
Proof.
  revert s; induction l as [|i l IH]; intros s W Hk; cbn [rfor for_list].
  - apply sim_ok; [exact W|]; repeat split; left; reflexivity.
  - eapply sim_bind.
    + apply sim_lift; [exact W|]; intros u Eu; apply sim_insert; assumption.
    + intros s1 [] c W1 E1 (X1 & L1 & Q1 & _); subst c; eapply sim_weaken; [apply IH; [exact W1|rewrite L1; exact Hk]|].
      intros s2 [] c W2 E2 (X2 & L2 & Q2); split; [exact X2|]; split; [lia|exact (kv_from_trans _ _ _ _ _ E1 Q1 Q2)].
Qed.

Lemma sim_loop n sv data num fuel : forall k s, wf s -> (n <= k < length (h_cur s))%nat ->
  sim n (r_insertion_loop fuel sv data num k) s (insertion_loop fuel working_class sv data num (curve_val s k))
    (fun s' t c => t = k /\ curve_val s' k = c /\ length (h_cur s') = length (h_cur s) /\ kv_from s s' k /\ ctrl_from s s' k).
Proof.
  induction fuel as [|fuel IH]; intros k s W Hk; cbn [r_insertion_loop insertion_loop].
  - split; [exact W|]; split; [apply ext_refl|exact I].
  - apply sim_read; change (cl_beh working_class) with (@beh_of_curve3 K); change (cl_set_ctrl working_class) with (@store_ctrl K).
    apply sim_lift; [exact W|]; intros rows Er.
    eapply sim_bind; [apply sim_single_fit; assumption|].
    intros s1 [] c W1 E1 (X1 & L1 & Q1 & T1 & V1); subst c; apply sim_read.
    destruct (c_ctrl (curve_val s1 k)) as [P|]; [|apply sim_err; exact W1].
    destruct (num <=? zlen P).
    + apply sim_ok; [exact W1|]; split; [reflexivity|]; split; [reflexivity|]; split; [exact L1|]; split; [left; exact Q1|exact T1].
    + apply sim_lift; [exact W1|]; intros [[p P'] kv] Ef; apply sim_lift; [exact W1|]; intros knots Ek.
      eapply sim_bind; [apply sim_inserts; [exact W1|rewrite L1; exact Hk]|].
      intros s2 [] c W2 E2 (X2 & L2 & Q2); subst c.
      eapply sim_weaken; [apply IH; [exact W2|rewrite L2, L1; exact Hk]|].
      intros s3 t c W3 E3 (Ht & X3 & L3 & Q3 & T3); split; [exact Ht|]; split; [exact X3|]; split; [lia|].
      assert (E12 : ext n s s2) by exact (ext_trans _ _ _ _ E1 E2).
      split; [|exact (ctrl_from_grow _ _ _ _ _ E12 T3)].
      apply (kv_from_trans n s s2); [exact E12| |exact Q3].
      apply (kv_from_trans n s s1); [exact E1|left; exact Q1|exact Q2].
Qed.
Lemma sim_fit_insertion n sv k data num s : wf s -> (n <= length (h_cur s))%nat -> (k < length (h_cur s))%nat ->
  sim n (r_fit_insertion sv k data num) s (fit_curve_knot_insertion working_class sv (curve_val s k) data num)
    (fun s' t c => curve_val s' t = c /\ (length (h_cur s) <= t < length (h_cur s'))%nat /\ ctrl_from s s' t /\
       (rc_kv (cur_at s' t) = rc_kv (cur_at s k) \/ rc_kv (cur_at s' t) = None \/ exists a, rc_kv (cur_at s' t) = Some a /\ (length (h_vec s) <= a)%nat)).
Proof.
  intros W Hn Hk; unfold r_fit_insertion, fit_curve_knot_insertion, fit_curve_knot_insertion_fuel.
  eapply sim_bind; [apply sim_copy; assumption|].
  intros s1 t c W1 E1 (X1 & L1 & T1 & Q1 & _ & V1 & M1); subst c.
  eapply sim_weaken; [apply sim_loop; [exact W1|lia]|].
  intros s2 t' c W2 E2 (-> & X2 & L2 & Q2 & T2); split; [exact X2|]; split; [lia|]; split; [exact (ctrl_from_grow _ _ _ _ _ E1 T2)|].
  destruct Q2 as [Q2|(a & Q2 & L)]; [rewrite Q2; destruct Q1 as [Q1|Q1]; rewrite Q1; auto|right; right; exists a; split; [exact Q2|rewrite V1 in L; exact L]].
Qed.

Lemma sim_fit_insertion_opt n sv k data num s : wf s -> (n <= length (h_cur s))%nat -> (k < length (h_cur s))%nat ->
  sim n (r_fit_insertion_opt sv k data num) s (fit_curve_knot_insertion_opt working_class sv (curve_val s k) data num)
    (fun s' t c => curve_val s' t = c /\ (length (h_cur s) <= t < length (h_cur s'))%nat /\ ctrl_from s s' t /\
       (rc_kv (cur_at s' t) = rc_kv (cur_at s k) \/ rc_kv (cur_at s' t) = None \/ exists a, rc_kv (cur_at s' t) = Some a /\ (length (h_vec s) <= a)%nat)).
Proof.
  intros W Hn Hk; unfold r_fit_insertion_opt, fit_curve_knot_insertion_opt; destruct data as [data|]; [destruct num as [num|]|].
  - apply sim_fit_insertion; assumption.
  - eapply sim_bind; [apply sim_copy; assumption|]; intros s1 t c W1 E1 (X1 & L1 & _); subst c; apply sim_read.
    apply sim_lift; [exact W1|]; intros rows Er; eapply sim_bind; [apply sim_single_fit; [exact W1|lia]|].
    intros s2 [] c W2 E2 _; apply sim_err; exact W2.
  - eapply sim_bind; [apply sim_copy; assumption|]; intros s1 t c W1 E1 _; apply sim_err; exact W1.
Qed.

Lemma sim_fit_fixed n sv k data s : wf s -> (n <= length (h_cur s))%nat -> (k < length (h_cur s))%nat ->
  sim n (r_fit_fixed_opt sv k data) s (fit_curve_fixed_ctrlpts_opt working_class sv (curve_val s k) data)
    (fun s' t c => curve_val s' t = c /\ (length (h_cur s) <= t < length (h_cur s'))%nat /\ ctrl_from s s' t /\
       (rc_kv (cur_at s' t) = rc_kv (cur_at s k) \/ rc_kv (cur_at s' t) = None)).
Proof.
  intros W Hn Hk; cut (sim (length (h_cur s)) (r_fit_fixed_opt sv k data) s (fit_curve_fixed_ctrlpts_opt working_class sv (curve_val s k) data)
    (fun s' t c => curve_val s' t = c /\ (length (h_cur s) <= t < length (h_cur s'))%nat /\ ctrl_from s s' t /\
       (rc_kv (cur_at s' t) = rc_kv (cur_at s k) \/ rc_kv (cur_at s' t) = None))).
  { intros (W1 & E1 & H1); split; [exact W1|]; split; [|exact H1].
    destruct E1 as (A1 & A2 & [A3 A3'] & A4); split; [exact A1|]; split; [exact A2|]; split; [split; [exact A3|]; intros j Hj; apply A3'; lia|exact A4]. }
  assert (Keep : forall s1, ext (length (h_cur s)) s s1 -> curve_val s1 k = curve_val s k) by (intros s1 E1; apply (ext_curve (length (h_cur s)) s s1 k W E1); exact Hk).
  unfold r_fit_fixed_opt, fit_curve_fixed_ctrlpts_opt, fit_curve_fixed_ctrlpts; apply sim_read.
  cbn [working_class cl_blank cl_set_ctrl cl_beh] in *; fold (@working_class K).
  destruct (c_ctrl (curve_val s k)) as [P|] eqn:EP; [|destruct data; apply sim_err; exact W].
  destruct data as [data|].
  - apply sim_lift; [exact W|]; intros start Es; apply sim_lift; [exact W|]; intros stop Et.
    destruct (c_degree (curve_val s k)) as [p|]; [|apply sim_err; exact W].
    eapply sim_bind; [apply (sim_initialize (length (h_cur s)) (Some start) (Some stop) (Some p) (Some (p + 1)) s W); lia|].
    intros s1 i c W1 E1 (X1 & L1 & _); subst c; apply sim_read.
    destruct (c_ctrl (curve_val s1 i)) as [P0|]; [|apply sim_err; exact W1].
    eapply sim_bind; [apply sim_fit_insertion; [exact W1|lia|lia]|].
    intros s2 f c W2 E2 (X2 & L2 & _); subst c; apply sim_read; apply sim_lift; [exact W2|]; intros rows Er.
    assert (E02 : ext (length (h_cur s)) s s2) by exact (ext_trans _ _ _ _ E1 E2).
    rewrite <- (Keep s2 E02).
    eapply sim_bind; [apply sim_copy; [exact W2|lia|lia]|].
    intros s3 x c W3 E3 (X3 & L3 & T3 & Q3 & _); subst c.
    eapply sim_bind; [apply sim_single_fit; [exact W3|lia]|].
    intros s4 [] c W4 E4 (X4 & L4 & Q4 & T4 & V4); subst c; apply sim_read; apply sim_lift; [exact W4|]; intros rows' Er'.
    apply sim_id.
    eapply sim_bind; [apply sim_single_fit; [exact W4|lia]|].
    intros s5 [] c W5 E5 (X5 & L5 & Q5 & T5 & V5); apply sim_ok; [exact W5|]; split; [exact X5|]; split; [lia|].
    split; [apply (ctrl_from_grow (length (h_cur s)) s s4); [|exact T5]; exact (ext_trans _ _ _ _ (ext_trans _ _ _ _ E02 E3) E4)|].
    assert (Ck : cur_at s2 k = cur_at s k) by (apply (proj2 (proj1 (proj2 (proj2 E02)))); exact Hk).
    rewrite Q5, Q4; destruct Q3 as [Q3|Q3]; rewrite Q3, ?Ck; auto.
  - apply sim_lift; [exact W|]; intros start Es; apply sim_lift; [exact W|]; intros stop Et.
    destruct (c_degree (curve_val s k)) as [p|]; [|apply sim_err; exact W].
    eapply sim_bind; [apply (sim_initialize (length (h_cur s)) (Some start) (Some stop) (Some p) (Some (p + 1)) s W); lia|].
    intros s1 i c W1 E1 (X1 & L1 & _); subst c; apply sim_read.
    destruct (c_ctrl (curve_val s1 i)) as [P0|]; [|apply sim_err; exact W1].
    eapply sim_bind; [apply sim_copy; [exact W1|lia|lia]|]; intros s2 t c W2 E2 _; apply sim_err; exact W2.
Qed.
End Ref.
