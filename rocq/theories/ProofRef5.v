(** Histories of the reference model: every reachable store is well formed, what
    one request does, writes into arrays, objects that are never shared. *)
From Verif Require Import Py Num ModelKnots ModelCurve ModelSurface ModelInit ModelParam ModelFit ModelIO ModelData ModelRef SpecData SpecRef ProofData ProofData4 ProofRef ProofRef2 ProofRef3 ProofRef4.
Open Scope Z_scope.

Section Ref.
Context {K : Num}.
Implicit Types s : store K.

Lemma has_lt {A} (l : list A) i : has l i = true -> (i < length l)%nat.
Proof. apply Nat.ltb_lt. Qed.
Lemma has_opt_rng {A} (l : list A) i : has_opt l i = true -> inrng l i.
Proof. destruct i as [i|]; cbn [has_opt inrng]; [apply has_lt|trivial]. Qed.
Lemma wf0 : wf (@store0 K).
Proof. split; [|split; [|split; [|split]]]; intros ? []. Qed.

(** ** Requests to a problem *)
Definition did (o : rb_op K) i s s' (r : res unit) : Prop :=
  rb_data (bp_at s' i) = (match o, r with RData x, Ok _ => Some (stored_mat x s) | _, _ => rb_data (bp_at s i) end) /\
  rb_start (bp_at s' i) = (match o, r with RStart x, Ok _ => Some (stored_vec x s) | _, _ => rb_start (bp_at s i) end) /\
  rb_end (bp_at s' i) = (match o, r with REnd x, Ok _ => Some (stored_vec x s) | _, _ => rb_end (bp_at s i) end) /\
  (r = Ok tt -> match o with
    | RInit => fresh_init i s s'
    | RParam => fresh_param i s s'
    | RFit => fresh_fit i s s' /\ fresh_param i s s' /\ (rb_adaptive (bp_at s i) = false -> shared_knots i s')
    | _ => True
    end).
Lemma step_osim sv i o s : wf s -> op_ok s (UDo i o) = true ->
  osim i (r_bp_step sv i o) s (bp_step working_class sv (bp_val s i) (rb_op_val s o)) (fun s' r => made i s s' /\ did o i s s' r).
Proof.
  intros W H; cbn [op_ok] in H; apply andb_prop in H; destruct H as [Hi Hx]; apply has_lt in Hi.
  destruct o; cbn [r_bp_step rb_op_val bp_step].
  - eapply osim_more; [apply osim_degree; assumption|]; intros s' r _ _ [[M (A & B & C)] _]; (split; [exact M|split; [auto|split; [auto|split; [auto|auto]]]]).
  - eapply osim_more; [apply osim_data; assumption|]; intros s' r _ _ (M & A & B & C); (split; [exact M|split; [auto|split; [auto|split; [auto|auto]]]]).
  - eapply osim_more; [apply osim_start; assumption|]; intros s' r _ _ (M & A & B & C); (split; [exact M|split; [auto|split; [auto|split; [auto|auto]]]]).
  - eapply osim_more; [apply osim_end; assumption|]; intros s' r _ _ (M & A & B & C); (split; [exact M|split; [auto|split; [auto|split; [auto|auto]]]]).
  - eapply osim_more; [apply osim_num; assumption|]; intros s' r _ _ [[M (A & B & C)] _]; (split; [exact M|split; [auto|split; [auto|split; [auto|auto]]]]).
  - eapply osim_more; [apply osim_method; assumption|]; intros s' r _ _ [[M (A & B & C)] _]; (split; [exact M|split; [auto|split; [auto|split; [auto|auto]]]]).
  - eapply osim_more; [apply osim_init; assumption|]; intros s' r _ _ [[M (A & B & C)] F]; (split; [exact M|split; [auto|split; [auto|split; [auto|auto]]]]).
  - eapply osim_more; [apply osim_param; assumption|]; intros s' r _ _ [[M (A & B & C)] [_ F]]; (split; [exact M|split; [auto|split; [auto|split; [auto|auto]]]]).
  - eapply osim_more; [apply osim_fit; assumption|]; intros s' r _ _ [[M (A & B & C)] F]; split; [exact M|]; split; [exact A|]; split; [exact B|]; split; [exact C|exact F].
Qed.

Definition idid (o : ri_op K) i s s' (r : res unit) : Prop :=
  ri_data (ip_at s' i) = (match o, r with JData x, Ok _ => Some (stored_mat x s) | _, _ => ri_data (ip_at s i) end) /\
  ri_top (ip_at s' i) = (match o, r with JTop (DBound d), Ok _ => Some d | _, _ => ri_top (ip_at s i) end) /\
  ri_bottom (ip_at s' i) = (match o, r with JBottom (DBound d), Ok _ => Some d | _, _ => ri_bottom (ip_at s i) end) /\
  (r = Ok tt -> match o with
    | JInit => fresh_iinit i s s'
    | JParam => fresh_iparam i s s'
    | JFit => fresh_ifit i s s' /\ fresh_iparam i s s'
    | _ => True
    end).
Lemma step_isim new sv i o s : wf s -> op_ok s (UIDo i o) = true ->
  isim i (r_ip_step new sv i o) s (ip_step new sv (ip_val s i) (ri_op_val s o)) (fun s' r => imade i s s' /\ idid o i s s' r).
Proof.
  intros W H; cbn [op_ok] in H; apply andb_prop in H; destruct H as [Hi Hx]; apply has_lt in Hi.
  destruct o; cbn [r_ip_step ri_op_val ip_step].
  - eapply isim_more; [apply isim_degree; assumption|]; intros s' r _ _ [M (A & B & C)]; (split; [exact M|split; [auto|split; [auto|split; [auto|auto]]]]).
  - eapply isim_more; [apply isim_data; assumption|]; intros s' r _ _ (M & A & B & C); (split; [exact M|split; [auto|split; [auto|split; [auto|auto]]]]).
  - eapply isim_more; [apply isim_num; assumption|]; intros s' r _ _ [M (A & B & C)]; (split; [exact M|split; [auto|split; [auto|split; [auto|auto]]]]).
  - eapply isim_more; [apply isim_top; assumption|]; intros s' r _ _ (M & A & B & C); split; [exact M|]; split; [exact B|]; split; [|split; auto].
    destruct r as [u|e|]; [destruct A as (d & -> & A); exact A|destruct x; exact A|destruct x; exact A].
  - eapply isim_more; [apply isim_bottom; assumption|]; intros s' r _ _ (M & A & B & C); split; [exact M|]; split; [exact B|]; split; [exact C|]; split; [|auto].
    destruct r as [u|e|]; [destruct A as (d & -> & A); exact A|destruct x; exact A|destruct x; exact A].
  - eapply isim_more; [apply isim_init; assumption|]; intros s' r _ _ ([M (A & B & C)] & _ & F); (split; [exact M|split; [auto|split; [auto|split; [auto|auto]]]]).
  - eapply isim_more; [apply isim_param; assumption|]; intros s' r _ _ ([M (A & B & C)] & _ & F); (split; [exact M|split; [auto|split; [auto|split; [auto|auto]]]]).
  - eapply isim_more; [apply isim_fit; assumption|]; intros s' r _ _ ([M (A & B & C)] & _ & F); split; [exact M|]; split; [exact A|]; split; [exact B|]; split; [exact C|exact F].
Qed.

(** ** One operation *)
Lemma rstep_bad new sv o s : op_ok s o = false -> rstep new sv o s = (s, Err NameError).
Proof. intros E; unfold rstep; rewrite E; reflexivity. Qed.
Lemma rstep_do new sv i o s : op_ok s (UDo i o) = true -> rstep new sv (UDo i o) s = r_bp_step sv i o s.
Proof. intros E; unfold rstep; rewrite E; reflexivity. Qed.
Lemma rstep_ido new sv i o s : op_ok s (UIDo i o) = true -> rstep new sv (UIDo i o) s = r_ip_step new sv i o s.
Proof. intros E; unfold rstep; rewrite E; reflexivity. Qed.

(** Assignment to an attribute of a curve. *)
Lemma rbind_pure {A B} (r : res A) (k : A -> rm B) s : rbind (rpure r) k s = match r with Ok a => k a s | Err e => (s, Err e) | Diverge => (s, Diverge) end.
Proof. destruct r; reflexivity. Qed.
Lemma cur_step_shape new sv o k s : cur_op o k -> op_ok s o = true -> exists c, let s' := fst (rstep new sv o s) in
  s' = mkStore (h_vec s) (h_mat s) (put k c (h_cur s)) (h_sur s) (h_bp s) (h_bd s) (h_ip s) /\ (k < length (h_cur s))%nat.
Proof.
  assert (Same : forall k, exists c, s = mkStore (h_vec s) (h_mat s) (put k c (h_cur s)) (h_sur s) (h_bp s) (h_bd s) (h_ip s)).
  { intros k0; exists (cur_at s k0); destruct s as [v m c f b d p]; cbn [h_vec h_mat h_cur h_sur h_bp h_bd h_ip]; f_equal.
    unfold cur_at; cbn [h_cur]; revert k0; induction c as [|x t IH]; intros [|j]; cbn [put nth]; try reflexivity; rewrite <- IH; reflexivity. }
  intros Ho Hk; destruct o; cbn [cur_op] in Ho; try contradiction; subst k0; cbv zeta; unfold rstep; rewrite Hk; cbn [negb]; cbn [op_ok] in Hk.
  - apply has_lt in Hk; unfold r_set_degree; change (rbind (rread ?f) ?g s) with (g (f s) s); cbv beta.
    change (rbind (rread ?f) ?g s) with (g (f s) s); cbv beta; rewrite rbind_pure.
    destruct (set_degree (curve_val s k) d) as [c|e|]; cbn [fst]; [eexists; split; [reflexivity|exact Hk]| |]; destruct (Same k) as [c E]; exists c; auto.
  - apply andb_prop in Hk; destruct Hk as [Hk _]; apply has_lt in Hk; eexists; split; [reflexivity|exact Hk].
  - apply andb_prop in Hk; destruct Hk as [Hk _]; apply has_lt in Hk; unfold r_set_kv.
    do 3 (change (rbind (rread ?f) ?g s) with (g (f s) s); cbv beta).
    destruct (Same k) as [c0 E0]; destruct (c_degree _) as [p|]; [|exists c0; auto]; destruct (c_ctrl _) as [P|]; [|exists c0; auto].
    rewrite rbind_pure; destruct (check_knot_vector _ _ _) as [[]|e|]; cbn [fst]; try (exists c0; split; [exact E0|exact Hk]).
    eexists; split; [reflexivity|exact Hk].
Qed.
(** The curve becomes what the setter makes of it; nothing else changes. *)
Lemma cur_step new sv o k s : wf s -> cur_op o k -> op_ok s o = true -> let '(s', r) := rstep new sv o s in
  wf s' /\ (match cur_op_val s o (curve_val s k) with Ok c => r = Ok tt /\ curve_val s' k = c | Err e => r = Err e /\ s' = s | Diverge => r = Diverge end) /\
  (forall k', k' <> k -> curve_val s' k' = curve_val s k').
Proof.
  intros W Ho Hk; destruct (cur_step_shape new sv o k s Ho Hk) as (c & E & Hc); cbv zeta in E.
  destruct (rstep new sv o s) as [s' r] eqn:Es; cbn [fst] in E.
  assert (Oth : forall k', k' <> k -> curve_val s' k' = curve_val s k').
  { intros k' Hn; unfold curve_val; assert (Ec : cur_at s' k' = cur_at s k') by (rewrite E; unfold cur_at; cbn [h_cur]; apply put_other; congruence).
    rewrite Ec; unfold mat_at, vec_at; rewrite E; reflexivity. }
  destruct o; cbn [cur_op] in Ho; try contradiction; subst k0; unfold rstep in Es; rewrite Hk in Es; cbn [negb] in Es; cbn [cur_op_val].
  - destruct (sim_set_degree 0 k d s W ltac:(lia)) as (W' & _ & H); rewrite Es in W', H; cbn [fst snd] in W', H; split; [exact W'|]; split; [|exact Oth].
    revert H; destruct r as [[]|e|], (set_degree (curve_val s k) d) as [v|e'|] eqn:Ev; cbn; try contradiction; auto.
    + intros (A & _); auto.
    + intros ->; split; [reflexivity|]; revert Es; unfold r_set_degree; change (rbind (rread ?f) ?g s) with (g (f s) s); cbv beta.
      change (rbind (rread ?f) ?g s) with (g (f s) s); cbv beta; rewrite rbind_pure, Ev; intros X; injection X as <-; reflexivity.
  - cbn [op_ok] in Hk; apply andb_prop in Hk; destruct Hk as [_ Ha]; apply has_lt in Ha.
    destruct (sim_set_ctrl 0 k a s W ltac:(lia) Ha) as (W' & _ & H); rewrite Es in W', H; cbn [fst snd] in W', H; split; [exact W'|]; split; [|exact Oth].
    revert H; unfold store_ctrl; destruct r as [[]|e|]; try contradiction; intros (A & _); auto.
  - cbn [op_ok] in Hk; apply andb_prop in Hk; destruct Hk as [_ Ha]; apply has_lt in Ha.
    destruct (sim_set_kv 0 k a s W ltac:(lia) Ha) as (W' & _ & H); rewrite Es in W', H; cbn [fst snd] in W', H; split; [exact W'|]; split; [|exact Oth].
    revert H; destruct r as [[]|e|], (set_knot_vector (curve_val s k) (NdArray (vec_at s a))) as [v|e'|] eqn:Ev; cbn; try contradiction; auto.
    + intros (A & _); auto.
    + intros ->; split; [reflexivity|]; revert Es Ev; unfold r_set_kv, set_knot_vector; do 3 (change (rbind (rread ?f) ?g s) with (g (f s) s); cbv beta).
      destruct (c_degree _) as [p|]; [|intros X; injection X as <-; reflexivity]; destruct (c_ctrl _) as [P|]; [|intros X; injection X as <-; reflexivity].
      rewrite rbind_pure; destruct (check_knot_vector _ _ _) as [[]|e|]; cbn [bind]; try discriminate; intros X; injection X as <-; reflexivity.
Qed.

(** Writing into an array. *)
Lemma write_vec new sv a l s : op_ok s (UWriteVec a l) = true -> length l = length (vec_at s a) ->
  rstep new sv (UWriteVec a l) s = (mkStore (put a l (h_vec s)) (h_mat s) (h_cur s) (h_sur s) (h_bp s) (h_bd s) (h_ip s), Ok tt).
Proof. intros E L; unfold rstep; rewrite E, L, Nat.eqb_refl; reflexivity. Qed.
Lemma write_mat new sv a m s : op_ok s (UWriteMat a m) = true -> same_shape m (mat_at s a) = true ->
  rstep new sv (UWriteMat a m) s = (mkStore (h_vec s) (put a m (h_mat s)) (h_cur s) (h_sur s) (h_bp s) (h_bd s) (h_ip s), Ok tt).
Proof. intros E L; unfold rstep; rewrite E, L; reflexivity. Qed.

Lemma wf_rstep new sv o s : wf s -> wf (fst (rstep new sv o s)).
Proof.
  intros W; destruct (op_ok s o) eqn:E; [|rewrite rstep_bad by exact E; exact W].
  destruct o.
  - unfold rstep; rewrite E; exact (proj1 (sim_vec 0 l s W)).
  - unfold rstep; rewrite E; exact (proj1 (sim_mat 0 m s W)).
  - unfold rstep; rewrite E; cbn [negb]; destruct (_ =? _)%nat; [|exact W]; cbn [fst].
    apply (wf_step s); auto; unfold grown; cbn [h_vec h_mat h_cur h_sur h_bd]; rewrite ?put_length; lia.
  - unfold rstep; rewrite E; cbn [negb]; destruct (same_shape _ _); [|exact W]; cbn [fst].
    apply (wf_step s); auto; unfold grown; cbn [h_vec h_mat h_cur h_sur h_bd]; rewrite ?put_length; lia.
  - unfold rstep; rewrite E; exact (proj1 (sim_cur 0 no_curve s W (Nat.le_0_l _) (conj I I))).
  - pose proof (cur_step new sv (UCurDegree k d) k s W eq_refl E) as H; destruct (rstep _ _ _ _); exact (proj1 H).
  - pose proof (cur_step new sv (UCurCtrl k a) k s W eq_refl E) as H; destruct (rstep _ _ _ _); exact (proj1 H).
  - pose proof (cur_step new sv (UCurKv k a) k s W eq_refl E) as H; destruct (rstep _ _ _ _); exact (proj1 H).
  - unfold rstep; rewrite E; cbn [negb fst]; apply (wf_step s); auto; [unfold grown; cbn [h_vec h_mat h_cur h_sur h_bd]; lia|].
    intros b Hb; cbn [h_bp] in Hb; apply in_app_or in Hb; destruct Hb as [Hb|[<-|[]]]; [auto|right; repeat split].
  - rewrite rstep_do by exact E; exact (proj1 (step_osim sv i o s W E)).
  - unfold rstep; rewrite E; cbn [negb fst]; apply (wf_step s); auto; [unfold grown; cbn [h_vec h_mat h_cur h_sur h_bd]; rewrite app_length; lia|].
    intros x Hb; cbn [h_bd] in Hb; apply in_app_or in Hb; destruct Hb as [Hb|[<-|[]]]; [auto|right].
    cbn [op_ok] in E; apply andb_prop in E; split; apply has_opt_rng; apply E.
  - unfold rstep; rewrite E; cbn [negb fst]; apply (wf_step s); auto; [unfold grown; cbn [h_vec h_mat h_cur h_sur h_bd]; rewrite put_length; lia|].
    intros x Hb; cbn [h_bd] in Hb; apply put_in in Hb; destruct Hb as [->|Hb]; [right|auto].
    cbn [op_ok] in E; apply andb_prop in E; destruct E as [_ E]; apply andb_prop in E; split; apply has_opt_rng; apply E.
  - unfold rstep; rewrite E; cbn [negb fst]; apply (wf_step s); auto; [unfold grown; cbn [h_vec h_mat h_cur h_sur h_bd]; lia|].
    intros b Hb; cbn [h_ip] in Hb; apply in_app_or in Hb; destruct Hb as [Hb|[<-|[]]]; [auto|right; repeat split].
  - rewrite rstep_ido by exact E; exact (proj1 (step_isim new sv i o s W E)).
Qed.
Lemma run_inv new sv (P : store K -> Prop) : (forall o s, wf s -> P s -> P (fst (rstep new sv o s))) ->
  forall ops s, wf s -> P s -> wf (rrun new sv s ops) /\ P (rrun new sv s ops).
Proof.
  intros H; unfold rrun; induction ops as [|o t IH]; intros s W Hs; cbn [fold_left]; [auto|]; apply IH; [apply wf_rstep; exact W|apply H; assumption].
Qed.
Lemma run_wf new sv ops : wf (rrun new sv (@store0 K) ops).
Proof. apply (run_inv new sv (fun _ => True)); auto; apply wf0. Qed.

(** What an operation does to the attributes of problems. *)
Lemma nth_snoc {A} (l : list A) d i : nth i (l ++ [d]) d = nth i l d.
Proof.
  destruct (Nat.lt_ge_cases i (length l)) as [H|H]; [apply app_nth1; exact H|].
  rewrite (nth_overflow l) by exact H; rewrite app_nth2 by exact H; destruct (i - length l)%nat as [|[|j]]; reflexivity.
Qed.
Lemma bp_others new sv o s : wf s -> (forall i o', o <> UDo i o') -> forall j, bp_at (fst (rstep new sv o s)) j = bp_at s j.
Proof.
  intros W H j; destruct (op_ok s o) eqn:E; [|rewrite rstep_bad by exact E; reflexivity].
  assert (Cu : forall k, cur_op o k -> bp_at (fst (rstep new sv o s)) j = bp_at s j).
  { intros k Hk; destruct (cur_step_shape new sv o k s Hk E) as (c & -> & _); reflexivity. }
  destruct o; try (apply (Cu k); reflexivity); try (exfalso; eapply H; reflexivity); clear Cu; try (unfold rstep; rewrite E; reflexivity).
  - unfold rstep; rewrite E; cbn [negb]; destruct (_ =? _)%nat; reflexivity.
  - unfold rstep; rewrite E; cbn [negb]; destruct (same_shape _ _); reflexivity.
  - unfold rstep; rewrite E; cbn [negb fst]; unfold bp_at; cbn [h_bp]; apply nth_snoc.
  - rewrite rstep_ido by exact E; destruct (step_isim new sv i o s W E) as (_ & (_ & _ & _ & B & _) & _); unfold bp_at; rewrite B; reflexivity.
Qed.
Lemma ip_others new sv o s : wf s -> (forall i o', o <> UIDo i o') -> forall j, ip_at (fst (rstep new sv o s)) j = ip_at s j.
Proof.
  intros W H j; destruct (op_ok s o) eqn:E; [|rewrite rstep_bad by exact E; reflexivity].
  assert (Cu : forall k, cur_op o k -> ip_at (fst (rstep new sv o s)) j = ip_at s j).
  { intros k Hk; destruct (cur_step_shape new sv o k s Hk E) as (c & -> & _); reflexivity. }
  destruct o; try (apply (Cu k); reflexivity); try (exfalso; eapply H; reflexivity); clear Cu; try (unfold rstep; rewrite E; reflexivity).
  - unfold rstep; rewrite E; cbn [negb]; destruct (_ =? _)%nat; reflexivity.
  - unfold rstep; rewrite E; cbn [negb]; destruct (same_shape _ _); reflexivity.
  - rewrite rstep_do by exact E; destruct (step_osim sv i o s W E) as (_ & (_ & _ & _ & B & _) & _); unfold ip_at; rewrite B; reflexivity.
  - unfold rstep; rewrite E; cbn [negb fst]; unfold ip_at; cbn [h_ip]; apply nth_snoc.
Qed.
(** Arrays keep their shape. *)
Definition shapes s s' : Prop :=
  (forall a, (a < length (h_vec s))%nat -> length (vec_at s' a) = length (vec_at s a)) /\
  (forall a, (a < length (h_mat s))%nat -> same_shape (mat_at s' a) (mat_at s a) = true).
Lemma same_shape_refl (m : data_array K) : same_shape m m = true.
Proof.
  unfold same_shape; rewrite Z.eqb_refl, Nat.eqb_refl; cbn [andb]; induction (dt_rows m) as [|r t IH]; cbn [combine forallb fst snd]; [reflexivity|].
  rewrite Nat.eqb_refl; exact IH.
Qed.
Lemma gext_shapes s s' : gext s s' -> shapes s s'.
Proof. intros G; split; intros a Ha; [rewrite (gext_vec s s' a G Ha); reflexivity|rewrite (gext_mat s s' a G Ha); apply same_shape_refl]. Qed.
Lemma shapes_same s s' : h_vec s' = h_vec s -> h_mat s' = h_mat s -> shapes s s'.
Proof. intros V M; split; intros a Ha; unfold vec_at, mat_at; rewrite ?V, ?M; [reflexivity|apply same_shape_refl]. Qed.
Lemma rstep_shapes new sv o s : wf s -> shapes s (fst (rstep new sv o s)).
Proof.
  intros W; destruct (op_ok s o) eqn:E; [|rewrite rstep_bad by exact E; apply shapes_same; reflexivity].
  assert (Cu : forall k, cur_op o k -> shapes s (fst (rstep new sv o s))).
  { intros k Hk; destruct (cur_step_shape new sv o k s Hk E) as (c & -> & _); apply shapes_same; reflexivity. }
  destruct o; try (apply (Cu k); reflexivity); clear Cu; try (unfold rstep; rewrite E; apply shapes_same; reflexivity).
  - unfold rstep; rewrite E; cbn [negb fst]; split; intros a Ha; [unfold vec_at, new_vec; cbn [fst h_vec]; rewrite app_nth1 by exact Ha; reflexivity|apply same_shape_refl].
  - unfold rstep; rewrite E; cbn [negb fst]; split; intros a Ha; [reflexivity|unfold mat_at, new_mat; cbn [fst h_mat]; rewrite app_nth1 by exact Ha; apply same_shape_refl].
  - unfold rstep; rewrite E; cbn [negb]; destruct (_ =? _)%nat eqn:L; [|apply shapes_same; reflexivity]; cbn [fst]; apply Nat.eqb_eq in L; split; intros b Hb; [|apply same_shape_refl].
    unfold vec_at; cbn [h_vec]; destruct (Nat.eq_dec a b) as [->|N]; [rewrite put_same by exact Hb; exact L|rewrite put_other by exact N; reflexivity].
  - unfold rstep; rewrite E; cbn [negb]; destruct (same_shape _ _) eqn:L; [|apply shapes_same; reflexivity]; cbn [fst]; split; intros b Hb; [reflexivity|].
    unfold mat_at; cbn [h_mat]; destruct (Nat.eq_dec a b) as [->|N]; [rewrite put_same by exact Hb; exact L|rewrite put_other by exact N; apply same_shape_refl].
  - rewrite rstep_do by exact E; destruct (step_osim sv i o s W E) as (_ & (G & _) & _); apply gext_shapes; exact G.
  - rewrite rstep_ido by exact E; destruct (step_isim new sv i o s W E) as (_ & (G & _) & _); apply gext_shapes; exact G.
Qed.
Lemma same_shape_cols (a b : data_array K) : same_shape a b = true -> dt_cols a = dt_cols b.
Proof. unfold same_shape; intros H; apply andb_prop in H; destruct H as [H _]; apply andb_prop in H; destruct H as [H _]; apply Z.eqb_eq in H; exact H. Qed.

(** ** The guards hold in every history *)
Definition goods s : Prop := forall i, bp_good (bp_val s i) /\ ip_good (ip_val s i).
Lemma shapes_bp s s' i : wf s -> shapes s s' -> bp_at s' i = bp_at s i -> bp_good (bp_val s i) -> bp_good (bp_val s' i).
Proof.
  intros W [SV SM] E (G1 & G2 & G3 & G4 & G5); destruct (wf_bp s i W) as (H1 & H2 & H3 & _).
  unfold bp_val, bp_good in *; rewrite E; cbn [bp_degree bp_data bp_start bp_end bp_num] in *.
  split; [exact G1|]; split; [|split; [|split; [|exact G5]]].
  - destruct (rb_data (bp_at s i)) as [a|]; cbn [option_map inrng] in *; [|discriminate]; intros d X; injection X as <-.
    rewrite (same_shape_cols _ _ (SM a H1)); apply (G2 _ eq_refl).
  - destruct (rb_start (bp_at s i)) as [a|]; cbn [option_map inrng] in *; [|discriminate]; intros d X; injection X as <-.
    unfold zlen; rewrite (SV a H2); apply (G3 _ eq_refl).
  - destruct (rb_end (bp_at s i)) as [a|]; cbn [option_map inrng] in *; [|discriminate]; intros d X; injection X as <-.
    unfold zlen; rewrite (SV a H3); apply (G4 _ eq_refl).
Qed.
Lemma shapes_ip s s' i : wf s -> shapes s s' -> ip_at s' i = ip_at s i -> ip_good (ip_val s i) -> ip_good (ip_val s' i).
Proof.
  intros W [SV SM] E (G1 & G2 & G3); destruct (wf_ip s i W) as (H1 & _).
  unfold ip_val, ip_good in *; rewrite E; cbn [ip_degree ip_data ip_num] in *.
  split; [exact G1|]; split; [|exact G3].
  destruct (ri_data (ip_at s i)) as [a|]; cbn [option_map inrng] in *; [|discriminate]; intros d X; injection X as <-.
  rewrite (same_shape_cols _ _ (SM a H1)); apply (G2 _ eq_refl).
Qed.
Lemma goods_step new sv o s : int_of_positive K -> wf s -> goods s -> goods (fst (rstep new sv o s)).
Proof.
  intros IP W G i; pose proof (rstep_shapes new sv o s W) as S; destruct (G i) as [G1 G2].
  destruct (op_ok s o) eqn:E; [|rewrite rstep_bad by exact E; auto].
  split.
  - assert (D : (exists j o', o = UDo j o') \/ forall j o', o <> UDo j o') by (destruct o; try (right; discriminate); left; eauto).
    destruct D as [(j & o' & ->)|D]; [|apply (shapes_bp s _ i W S); [apply bp_others; assumption|exact G1]].
    destruct (Nat.eq_dec i j) as [->|N].
    + rewrite rstep_do in * by exact E; destruct (step_osim sv j o' s W E) as (_ & _ & V & _); rewrite V; apply step_good; assumption.
    + apply (shapes_bp s _ i W S); [|exact G1]; rewrite rstep_do by exact E; destruct (step_osim sv j o' s W E) as (_ & (_ & _ & B & _) & _); apply B; exact N.
  - assert (D : (exists j o', o = UIDo j o') \/ forall j o', o <> UIDo j o') by (destruct o; try (right; discriminate); left; eauto).
    destruct D as [(j & o' & ->)|D]; [|apply (shapes_ip s _ i W S); [apply ip_others; assumption|exact G2]].
    destruct (Nat.eq_dec i j) as [->|N].
    + rewrite rstep_ido in * by exact E; destruct (step_isim new sv j o' s W E) as (_ & _ & V & _); rewrite V; apply ip_step_good; assumption.
    + apply (shapes_ip s _ i W S); [|exact G2]; rewrite rstep_ido by exact E; destruct (step_isim new sv j o' s W E) as (_ & (_ & _ & B & _) & _); apply B; exact N.
Qed.
Lemma goods0 : goods (@store0 K).
Proof. intros i; unfold bp_val, ip_val, bp_at, ip_at, store0; cbn [h_bp h_ip]; destruct i; cbn [nth]; repeat split; discriminate. Qed.
Lemma run_goods new sv ops : int_of_positive K -> goods (rrun new sv (@store0 K) ops).
Proof. intros IP; apply (run_inv new sv goods); [intros o s W G; apply goods_step; assumption|apply wf0|apply goods0]. Qed.

(** ** No object belongs to two problems *)
Definition single s : Prop :=
  (forall i j k, owned s i k -> owned s j k -> i = j) /\ (forall i k, rb_init (bp_at s i) = Some k -> rb_fit (bp_at s i) = Some k -> False) /\
  (forall i j k, iowned s i k -> iowned s j k -> i = j) /\ (forall i k, ri_init (ip_at s i) = Some k -> ri_fit (ip_at s i) = Some k -> False).
Lemma single0 : single (@store0 K).
Proof.
  unfold single, owned, iowned, bp_at, ip_at, store0; cbn [h_bp h_ip].
  repeat split; intros [|i]; cbn [nth no_problem no_interior rb_init rb_fit ri_init ri_fit]; try (intros k; discriminate); intros j k [H|H]; discriminate.
Qed.
Lemma owned_lt s i k : wf s -> owned s i k -> (k < length (h_cur s))%nat.
Proof. intros W; destruct (wf_bp s i W) as (_ & _ & _ & H1 & _ & H2); intros [E|E]; rewrite E in *; assumption. Qed.
Lemma iowned_lt s i k : wf s -> iowned s i k -> (k < length (h_sur s))%nat.
Proof. intros W; destruct (wf_ip s i W) as (_ & _ & _ & H1 & _ & H2); intros [E|E]; rewrite E in *; assumption. Qed.
Lemma single_step new sv o s : wf s -> single s -> single (fst (rstep new sv o s)).
Proof.
  intros W (S1 & S2 & S3 & S4).
  destruct (op_ok s o) eqn:E; [|rewrite rstep_bad by exact E; exact (conj S1 (conj S2 (conj S3 S4)))].
  assert (P1 : (exists j o', o = UDo j o') \/ forall j o', o <> UDo j o') by (destruct o; try (right; discriminate); left; eauto).
  assert (P2 : (exists j o', o = UIDo j o') \/ forall j o', o <> UIDo j o') by (destruct o; try (right; discriminate); left; eauto).
  assert (A : (forall i j k, owned (fst (rstep new sv o s)) i k -> owned (fst (rstep new sv o s)) j k -> i = j) /\
    (forall i k, rb_init (bp_at (fst (rstep new sv o s)) i) = Some k -> rb_fit (bp_at (fst (rstep new sv o s)) i) = Some k -> False)).
  { destruct P1 as [(n & o' & ->)|P1].
    2:{ unfold owned; split; [intros i j k|intros i k]; rewrite !(bp_others new sv o s W P1); [apply S1|apply S2]. }
    rewrite rstep_do by exact E; destruct (step_osim sv n o' s W E) as (W' & (_ & _ & B & _) & _ & _ & ((I1 & F1 & _) & _)); set (s' := fst (r_bp_step sv n o' s)) in *.
    assert (O : forall i k, owned s' i k -> owned s i k \/ (i = n /\ (length (h_cur s) <= k)%nat)).
    { intros i k; destruct (Nat.eq_dec i n) as [->|N]; [|unfold owned; rewrite B by exact N; auto].
      intros [H|H].
      - destruct I1 as [I1|(k1 & I1 & [[L _] _] & _)]; [left; left; congruence|right; split; [reflexivity|]]; rewrite I1 in H; injection H as <-; exact L.
      - destruct F1 as [F1|(k1 & F1 & [[L _] _] & _)]; [left; right; congruence|right; split; [reflexivity|]]; rewrite F1 in H; injection H as <-; exact L. }
    split.
    - intros i j k Hi Hj; destruct (O i k Hi) as [Oi|[-> Li]], (O j k Hj) as [Oj|[-> Lj]]; [exact (S1 i j k Oi Oj)| | |reflexivity].
      + pose proof (owned_lt s i k W Oi); lia.
      + pose proof (owned_lt s j k W Oj); lia.
    - intros i k Hi Hf; destruct (Nat.eq_dec i n) as [->|N]; [|rewrite B in Hi, Hf by exact N; exact (S2 i k Hi Hf)].
      destruct F1 as [F1|(k1 & F1 & _ & U & _)]; [|rewrite F1 in Hf; injection Hf as <-; contradiction].
      destruct I1 as [I1|(k1 & I1 & [[L _] _] & _)]; [apply (S2 n k); congruence|].
      rewrite I1 in Hi; injection Hi as <-; assert (Of : owned s n k1) by (right; congruence); pose proof (owned_lt s n k1 W Of); lia. }
  destruct A as [A1 A2]; split; [exact A1|]; split; [exact A2|]; clear A1 A2.
  destruct P2 as [(n & o' & ->)|P2].
  2:{ unfold iowned; split; [intros i j k|intros i k]; rewrite !(ip_others new sv o s W P2); [apply S3|apply S4]. }
  rewrite rstep_ido by exact E; destruct (step_isim new sv n o' s W E) as (W' & (_ & _ & B & _) & _ & _ & ((I1 & F1 & _) & _)); set (s' := fst (r_ip_step new sv n o' s)) in *.
  assert (O : forall i k, iowned s' i k -> iowned s i k \/ (i = n /\ (length (h_sur s) <= k)%nat)).
  { intros i k; destruct (Nat.eq_dec i n) as [->|N]; [|unfold iowned; rewrite B by exact N; auto].
    intros [H|H].
    - destruct I1 as [I1|(k1 & I1 & [[L _] _] & _)]; [left; left; congruence|right; split; [reflexivity|]]; rewrite I1 in H; injection H as <-; exact L.
    - destruct F1 as [F1|(k1 & j1 & F1 & _ & _ & [[L _] _] & _)]; [left; right; congruence|right; split; [reflexivity|]]; rewrite F1 in H; injection H as <-; exact L. }
  split.
  - intros i j k Hi Hj; destruct (O i k Hi) as [Oi|[-> Li]], (O j k Hj) as [Oj|[-> Lj]]; [exact (S3 i j k Oi Oj)| | |reflexivity].
    + pose proof (iowned_lt s i k W Oi); lia.
    + pose proof (iowned_lt s j k W Oj); lia.
  - intros i k Hi Hf; destruct (Nat.eq_dec i n) as [->|N]; [|rewrite B in Hi, Hf by exact N; exact (S4 i k Hi Hf)].
    destruct F1 as [F1|(k1 & j1 & F1 & J1 & U & _)]; [|congruence].
    destruct I1 as [I1|(k1 & I1 & [[L _] _] & _)]; [apply (S4 n k); congruence|].
    rewrite I1 in Hi; injection Hi as <-; assert (Of : iowned s n k1) by (right; congruence); pose proof (iowned_lt s n k1 W Of); lia.
Qed.
Lemma run_single new sv ops : single (rrun new sv (@store0 K) ops).
Proof. apply (run_inv new sv single); [intros o s; apply single_step|apply wf0|apply single0]. Qed.

(** ** References stay until they are assigned *)
Definition sets_top (i : nat) (o : rop K) : Prop := exists x, o = UIDo i (JTop x).
Definition sets_bottom (i : nat) (o : rop K) : Prop := exists x, o = UIDo i (JBottom x).
Definition sets_data (i : nat) (o : rop K) : Prop := exists x, o = UDo i (RData x).
Definition sets_idata (i : nat) (o : rop K) : Prop := exists x, o = UIDo i (JData x).
Lemma step_ip_refs new sv o s i : wf s ->
  (~ sets_top i o -> ri_top (ip_at (fst (rstep new sv o s)) i) = ri_top (ip_at s i)) /\
  (~ sets_bottom i o -> ri_bottom (ip_at (fst (rstep new sv o s)) i) = ri_bottom (ip_at s i)) /\
  (~ sets_idata i o -> ri_data (ip_at (fst (rstep new sv o s)) i) = ri_data (ip_at s i)).
Proof.
  intros W; destruct (op_ok s o) eqn:E; [|rewrite rstep_bad by exact E; auto].
  assert (P2 : (exists j o', o = UIDo j o') \/ forall j o', o <> UIDo j o') by (destruct o; try (right; discriminate); left; eauto).
  destruct P2 as [(n & o' & ->)|P2]; [|rewrite (ip_others new sv o s W P2); auto].
  rewrite rstep_ido by exact E; destruct (step_isim new sv n o' s W E) as (_ & (_ & _ & B & _) & _ & _ & (_ & (A1 & A2 & A3 & _))).
  destruct (Nat.eq_dec i n) as [->|N]; [|rewrite B by exact N; auto].
  rewrite A1, A2, A3; unfold sets_top, sets_bottom, sets_idata; split; [|split]; intros H; destruct o'; try reflexivity; exfalso; apply H; eauto.
Qed.
Lemma step_bp_refs new sv o s i : wf s -> ~ sets_data i o -> rb_data (bp_at (fst (rstep new sv o s)) i) = rb_data (bp_at s i).
Proof.
  intros W H; destruct (op_ok s o) eqn:E; [|rewrite rstep_bad by exact E; auto].
  assert (P2 : (exists j o', o = UDo j o') \/ forall j o', o <> UDo j o') by (destruct o; try (right; discriminate); left; eauto).
  destruct P2 as [(n & o' & ->)|P2]; [|rewrite (bp_others new sv o s W P2); auto].
  rewrite rstep_do by exact E; destruct (step_osim sv n o' s W E) as (_ & (_ & _ & B & _) & _ & _ & (_ & (A1 & _))).
  destruct (Nat.eq_dec i n) as [->|N]; [|rewrite B by exact N; auto].
  rewrite A1; unfold sets_data in H; destruct o'; try reflexivity; exfalso; apply H; eauto.
Qed.
Lemma run_app new sv ops ops' s : rrun new sv s (ops ++ ops') = rrun new sv (rrun new sv s ops) ops'.
Proof. unfold rrun; apply fold_left_app. Qed.
Lemma run_keeps {A} new sv (f : store K -> A) (bad : rop K -> Prop) : (forall o s, wf s -> ~ bad o -> f (fst (rstep new sv o s)) = f s) ->
  forall ops s, wf s -> Forall (fun o => ~ bad o) ops -> f (rrun new sv s ops) = f s.
Proof.
  intros H; unfold rrun; induction ops as [|o t IH]; intros s W Hf; cbn [fold_left]; [reflexivity|].
  apply Forall_cons_iff in Hf; destruct Hf as [H1 H2]; rewrite IH; [apply H; assumption|apply wf_rstep; exact W|exact H2].
Qed.
End Ref.
