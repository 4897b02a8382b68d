(** The statements about references, for all reachable stores. *)
From Verif Require Import Py Num ModelKnots ModelCurve ModelSurface ModelInit ModelParam ModelFit ModelIO ModelData ModelRef SpecData SpecRef ProofData ProofData4 ProofRef ProofRef2 ProofRef3 ProofRef4 ProofRef5.
Open Scope Z_scope.

Section Ref.
Context {K : Num}.
Implicit Types s : store K.

(** ** Requests *)
Lemma boundary_request new sv ops i (o : rb_op K) : let s := rrun new sv store0 ops in op_ok s (UDo i o) = true ->
  let '(s', r) := rstep new sv (UDo i o) s in (bp_val s' i, r) = bp_step working_class sv (bp_val s i) (rb_op_val s o).
Proof.
  intros s H; rewrite rstep_do by exact H; destruct (step_osim sv i o s (run_wf new sv ops) H) as (_ & _ & V & R & _).
  destruct (r_bp_step sv i o s) as [s' r]; cbn [fst snd] in *; rewrite V, R; destruct (bp_step _ _ _ _); reflexivity.
Qed.
Lemma interior_request new sv ops i (o : ri_op K) : let s := rrun new sv store0 ops in op_ok s (UIDo i o) = true ->
  let '(s', r) := rstep new sv (UIDo i o) s in (ip_val s' i, r) = ip_step new sv (ip_val s i) (ri_op_val s o).
Proof.
  intros s H; rewrite rstep_ido by exact H; destruct (step_isim new sv i o s (run_wf new sv ops) H) as (_ & _ & V & R & _).
  destruct (r_ip_step new sv i o s) as [s' r]; cbn [fst snd] in *; rewrite V, R; destruct (ip_step _ _ _ _); reflexivity.
Qed.

Lemma request_gext new sv (o : rop K) s : wf s -> (exists i x, o = UDo i x) \/ (exists i x, o = UIDo i x) ->
  let s' := fst (rstep new sv o s) in gext s s' /\
  (forall j, (forall x, o <> UDo j x) -> bp_at s' j = bp_at s j) /\ (forall j, (forall x, o <> UIDo j x) -> ip_at s' j = ip_at s j).
Proof.
  intros W H; cbv zeta; destruct (op_ok s o) eqn:E; [|rewrite rstep_bad by exact E; repeat split; apply gext_refl].
  destruct H as [(i & x & ->)|(i & x & ->)].
  - rewrite rstep_do by exact E; destruct (step_osim sv i x s W E) as (_ & (G & _ & B & P & _) & _); split; [exact G|split].
    + intros j Hj; apply B; intros ->; apply (Hj x); reflexivity.
    + intros j _; unfold ip_at; rewrite P; reflexivity.
  - rewrite rstep_ido by exact E; destruct (step_isim new sv i x s W E) as (_ & (G & _ & B & P & _) & _); split; [exact G|split].
    + intros j _; unfold bp_at; rewrite P; reflexivity.
    + intros j Hj; apply B; intros ->; apply (Hj x); reflexivity.
Qed.
Lemma request_frame new sv ops (o : rop K) : (exists i x, o = UDo i x) \/ (exists i x, o = UIDo i x) ->
  let s := rrun new sv store0 ops in let s' := fst (rstep new sv o s) in
  (forall a, (a < length (h_vec s))%nat -> vec_at s' a = vec_at s a) /\ (forall a, (a < length (h_mat s))%nat -> mat_at s' a = mat_at s a) /\
  (forall k, (k < length (h_cur s))%nat -> curve_val s' k = curve_val s k) /\ (forall k, (k < length (h_sur s))%nat -> surf_val s' k = surf_val s k) /\
  (forall d, (d < length (h_bd s))%nat -> bd_val s' d = bd_val s d) /\
  (forall j, (forall x, o <> UDo j x) -> bp_val s' j = bp_val s j) /\ (forall j, (forall x, o <> UIDo j x) -> ip_val s' j = ip_val s j).
Proof.
  intros H; cbv zeta; set (s := rrun _ _ _ _); pose proof (run_wf new sv ops) as W; fold s in W; destruct (request_gext new sv o s W H) as (G & B & P).
  set (s' := fst (rstep new sv o s)) in *.
  split; [intros a Ha; apply gext_vec; assumption|]; split; [intros a Ha; apply gext_mat; assumption|].
  split; [intros k Hk; apply gext_curve; assumption|]; split; [intros k Hk; apply gext_surf; assumption|].
  split; [intros d Hd; apply gext_bd; assumption|]; split; intros j Hj.
  - change (bp_read s' (bp_at s' j) = bp_read s (bp_at s j)); rewrite (B j Hj); apply gext_bp; [exact W|exact G|apply wf_bp; exact W].
  - change (ip_read s' (ip_at s' j) = ip_read s (ip_at s j)); rewrite (P j Hj); apply gext_ip; [exact W|exact G|apply wf_ip; exact W].
Qed.

Lemma boundary_refs new sv ops i (o : rb_op K) s' r : let s := rrun new sv store0 ops in op_ok s (UDo i o) = true -> rstep new sv (UDo i o) s = (s', r) ->
  let b := bp_at s i in let b' := bp_at s' i in
  (r <> Ok tt -> rb_data b' = rb_data b /\ rb_start b' = rb_start b /\ rb_end b' = rb_end b) /\
  (r = Ok tt ->
    rb_data b' = (match o with RData (AMat a) => Some a | RData _ => Some (length (h_mat s)) | _ => rb_data b end) /\
    rb_start b' = (match o with RStart (AVec a) => Some a | RStart _ => Some (length (h_vec s)) | _ => rb_start b end) /\
    rb_end b' = (match o with REnd (AVec a) => Some a | REnd _ => Some (length (h_vec s)) | _ => rb_end b end) /\
    match o with
    | RInit => exists k, rb_init b' = Some k /\ (length (h_cur s) <= k)%nat /\
        (forall a, rc_ctrl (cur_at s' k) = Some a -> (length (h_mat s) <= a)%nat) /\ (forall a, rc_kv (cur_at s' k) = Some a -> (length (h_vec s) <= a)%nat)
    | RParam => exists a, rb_param b' = Some a /\ (length (h_mat s) <= a)%nat
    | RFit => (exists k, rb_fit b' = Some k /\ (length (h_cur s) <= k)%nat /\ (forall a, rc_ctrl (cur_at s' k) = Some a -> (length (h_mat s) <= a)%nat)) /\
        (exists a, rb_param b' = Some a /\ (length (h_mat s) <= a)%nat) /\
        (rb_adaptive b = false -> exists j k a, rb_init b' = Some j /\ rb_fit b' = Some k /\ rc_kv (cur_at s' j) = Some a /\ rc_kv (cur_at s' k) = Some a)
    | _ => True
    end).
Proof.
  intros s H E; rewrite rstep_do in E by exact H; destruct (step_osim sv i o s (run_wf new sv ops) H) as (_ & _ & _ & _ & (_ & (D & S & T & F))).
  rewrite E in D, S, T, F; cbn [fst snd] in D, S, T, F; cbv zeta; split.
  - intros N; rewrite D, S, T; destruct r as [[]|e|]; [congruence| |]; (split; [|split]; destruct o; reflexivity).
  - intros ->; specialize (F eq_refl); split; [rewrite D; destruct o; try reflexivity; destruct x; reflexivity|].
    split; [rewrite S; destruct o; try reflexivity; destruct x; reflexivity|]; split; [rewrite T; destruct o; try reflexivity; destruct x; reflexivity|].
    destruct o; try exact I.
    + destruct F as (k & A & [[B _] C] & N); exists k; auto.
    + exact F.
    + destruct F as ((k & A & [[B _] C]) & P & Sh); split; [exists k; auto|split; [exact P|]].
      intros Ha; destruct (Sh Ha) as (j & k' & a & X); exists j, k', a; destruct X as (X1 & X2 & X3 & X4); auto.
Qed.
Lemma interior_refs new sv ops i (o : ri_op K) s' r : let s := rrun new sv store0 ops in op_ok s (UIDo i o) = true -> rstep new sv (UIDo i o) s = (s', r) ->
  let p := ip_at s i in let p' := ip_at s' i in
  (r <> Ok tt -> ri_data p' = ri_data p /\ ri_top p' = ri_top p /\ ri_bottom p' = ri_bottom p) /\
  (r = Ok tt ->
    ri_data p' = (match o with JData (AMat a) => Some a | JData _ => Some (length (h_mat s)) | _ => ri_data p end) /\
    ri_top p' = (match o with JTop (DBound d) => Some d | _ => ri_top p end) /\
    ri_bottom p' = (match o with JBottom (DBound d) => Some d | _ => ri_bottom p end) /\
    match o with
    | JInit => exists k d c, ri_init p' = Some k /\ ri_bottom p = Some d /\ rd_fit (bd_at s d) = Some c /\ (length (h_sur s) <= k)%nat /\
        (length (h_mat s) <= rs_ctrl (sur_at s' k))%nat /\ (length (h_vec s) <= rs_kv (sur_at s' k))%nat /\ rc_kv (cur_at s c) = Some (rs_ku (sur_at s' k))
    | JParam => exists a, ri_param p' = Some a /\ (length (h_mat s) <= a)%nat
    | JFit => (exists j k, ri_init p' = Some j /\ ri_fit p' = Some k /\ (length (h_sur s) <= k)%nat /\ (length (h_mat s) <= rs_ctrl (sur_at s' k))%nat /\
        rs_ku (sur_at s' k) = rs_ku (sur_at s' j) /\ rs_kv (sur_at s' k) = rs_kv (sur_at s' j)) /\
        (exists a, ri_param p' = Some a /\ (length (h_mat s) <= a)%nat)
    | _ => True
    end).
Proof.
  intros s H E; rewrite rstep_ido in E by exact H; destruct (step_isim new sv i o s (run_wf new sv ops) H) as (_ & _ & _ & _ & (_ & (D & S & T & F))).
  rewrite E in D, S, T, F; cbn [fst snd] in D, S, T, F; cbv zeta; split.
  - intros N; rewrite D, S, T; destruct r as [[]|e|]; [congruence| |]; (split; [|split]; destruct o; try reflexivity; destruct x; reflexivity).
  - intros ->; specialize (F eq_refl); split; [rewrite D; destruct o; try reflexivity; destruct x; reflexivity|].
    split; [rewrite S; destruct o; try reflexivity; destruct x; reflexivity|]; split; [rewrite T; destruct o; try reflexivity; destruct x; reflexivity|].
    destruct o; try exact I.
    + destruct F as (k & A & [[B _] C] & N & U); exists k; unfold bottom_knots in U.
      destruct (ri_bottom (ip_at s i)) as [d|]; [|discriminate]; destruct (rd_fit (bd_at s d)) as [c|] eqn:Ec; [|discriminate].
      exists d, c; rewrite Ec; auto 8.
    + exact F.
    + destruct F as ((k & j & A1 & A2 & [[B _] C] & U & V) & P); split; [exists j, k; auto 8|exact P].
Qed.

(** ** Writing into arrays *)
Lemma opt_is_map {A} (f g : nat -> A) o a x : (forall b, b <> a -> g b = f b) -> g a = x -> option_map g o = if opt_is o a then Some x else option_map f o.
Proof.
  intros H E; destruct o as [b|]; cbn [option_map opt_is]; [|reflexivity].
  destruct (Nat.eqb_spec a b) as [<-|N]; [rewrite E|rewrite H by congruence]; reflexivity.
Qed.
Lemma vector_write new sv ops a (l : list K) s' r : let s := rrun new sv store0 ops in (a < length (h_vec s))%nat -> rstep new sv (UWriteVec a l) s = (s', r) ->
  (length l <> length (vec_at s a) -> r = Err ValueError /\ s' = s) /\
  (length l = length (vec_at s a) -> r = Ok tt /\
    (forall k, curve_val s' k = let c := curve_val s k in
       mkCurve (c_degree c) (c_ctrl c) (if opt_is (rc_kv (cur_at s k)) a then Some l else c_kv c) (c_dim c)) /\
    (forall k, surf_val s' k = let f := surf_val s k in
       mkSurf (s_pu f) (s_pv f) (s_nu f) (s_nv f) (s_ctrl f) (if (a =? rs_ku (sur_at s k))%nat then l else s_ku f) (if (a =? rs_kv (sur_at s k))%nat then l else s_kv f)) /\
    (forall i, bp_val s' i = let b := bp_val s i in
       mkBP (bp_degree b) (bp_data b) (if opt_is (rb_start (bp_at s i)) a then Some l else bp_start b) (if opt_is (rb_end (bp_at s i)) a then Some l else bp_end b)
         (bp_num b) (bp_adaptive b) (option_map (curve_val s') (rb_init (bp_at s i))) (bp_param b) (option_map (curve_val s') (rb_fit (bp_at s i)))) /\
    (forall i, ip_val s' i = let p := ip_val s i in
       mkIP (ip_degree p) (ip_data p) (ip_num p) (option_map (bd_val s') (ri_top (ip_at s i))) (option_map (bd_val s') (ri_bottom (ip_at s i)))
         (option_map (surf_val s') (ri_init (ip_at s i))) (ip_param p) (option_map (surf_val s') (ri_fit (ip_at s i))))).
Proof.
  intros s Ha E; assert (Ok1 : op_ok s (UWriteVec a l) = true) by (apply Nat.ltb_lt; exact Ha); split; intros L.
  - unfold rstep in E; rewrite Ok1 in E; cbn [negb] in E; destruct (Nat.eqb_spec (length l) (length (vec_at s a))); [contradiction|injection E as <- <-; auto].
  - rewrite write_vec in E by assumption; injection E as <- <-; split; [reflexivity|]; set (s' := mkStore _ _ _ _ _ _ _).
    assert (Va : vec_at s' a = l) by (apply put_same; exact Ha).
    assert (Vb : forall b, b <> a -> vec_at s' b = vec_at s b) by (intros b N; apply put_other; congruence).
    split; [|split; [|split; [|intros i; reflexivity]]].
    + intros k; unfold curve_val; cbv zeta; cbn [c_degree c_ctrl c_kv c_dim]; change (cur_at s' k) with (cur_at s k); f_equal.
      apply opt_is_map; assumption.
    + intros k; unfold surf_val; cbv zeta; cbn [s_pu s_pv s_nu s_nv s_ctrl s_ku s_kv]; change (sur_at s' k) with (sur_at s k); f_equal.
      * destruct (Nat.eqb_spec a (rs_ku (sur_at s k))) as [<-|N]; [exact Va|apply Vb; congruence].
      * destruct (Nat.eqb_spec a (rs_kv (sur_at s k))) as [<-|N]; [exact Va|apply Vb; congruence].
    + intros i; unfold bp_val; cbv zeta; cbn [bp_degree bp_data bp_start bp_end bp_num bp_adaptive bp_param]; change (bp_at s' i) with (bp_at s i); f_equal; apply opt_is_map; assumption.
Qed.
Lemma matrix_write new sv ops a (m : data_array K) s' r : let s := rrun new sv store0 ops in (a < length (h_mat s))%nat -> rstep new sv (UWriteMat a m) s = (s', r) ->
  (same_shape m (mat_at s a) = false -> r = Err ValueError /\ s' = s) /\
  (same_shape m (mat_at s a) = true -> r = Ok tt /\
    (forall k, curve_val s' k = let c := curve_val s k in
       mkCurve (c_degree c) (if opt_is (rc_ctrl (cur_at s k)) a then Some (dt_rows m) else c_ctrl c) (c_kv c) (c_dim c)) /\
    (forall k, surf_val s' k = let f := surf_val s k in
       mkSurf (s_pu f) (s_pv f) (s_nu f) (s_nv f) (if (a =? rs_ctrl (sur_at s k))%nat then dt_rows m else s_ctrl f) (s_ku f) (s_kv f)) /\
    (forall i, bp_val s' i = let b := bp_val s i in
       mkBP (bp_degree b) (if opt_is (rb_data (bp_at s i)) a then Some m else bp_data b) (bp_start b) (bp_end b) (bp_num b) (bp_adaptive b)
         (option_map (curve_val s') (rb_init (bp_at s i))) (if opt_is (rb_param (bp_at s i)) a then Some m else bp_param b) (option_map (curve_val s') (rb_fit (bp_at s i)))) /\
    (forall i, ip_val s' i = let p := ip_val s i in
       mkIP (ip_degree p) (if opt_is (ri_data (ip_at s i)) a then Some m else ip_data p) (ip_num p)
         (option_map (bd_val s') (ri_top (ip_at s i))) (option_map (bd_val s') (ri_bottom (ip_at s i)))
         (option_map (surf_val s') (ri_init (ip_at s i))) (if opt_is (ri_param (ip_at s i)) a then Some m else ip_param p) (option_map (surf_val s') (ri_fit (ip_at s i))))).
Proof.
  intros s Ha E; assert (Ok1 : op_ok s (UWriteMat a m) = true) by (apply Nat.ltb_lt; exact Ha); split; intros L.
  - unfold rstep in E; rewrite Ok1, L in E; cbn [negb] in E; injection E as <- <-; auto.
  - rewrite write_mat in E by assumption; injection E as <- <-; split; [reflexivity|]; set (s' := mkStore _ _ _ _ _ _ _).
    assert (Va : mat_at s' a = m) by (apply put_same; exact Ha).
    assert (Vb : forall b, b <> a -> mat_at s' b = mat_at s b) by (intros b N; apply put_other; congruence).
    split; [|split; [|split]].
    + intros k; unfold curve_val; cbv zeta; cbn [c_degree c_ctrl c_kv c_dim]; change (cur_at s' k) with (cur_at s k); f_equal.
      apply (opt_is_map (fun a => dt_rows (mat_at s a)) (fun a => dt_rows (mat_at s' a))); [intros b N; rewrite Vb by exact N; reflexivity|rewrite Va; reflexivity].
    + intros k; unfold surf_val; cbv zeta; cbn [s_pu s_pv s_nu s_nv s_ctrl s_ku s_kv]; change (sur_at s' k) with (sur_at s k); f_equal.
      destruct (Nat.eqb_spec a (rs_ctrl (sur_at s k))) as [<-|N]; [rewrite Va; reflexivity|rewrite Vb by congruence; reflexivity].
    + intros i; unfold bp_val; cbv zeta; cbn [bp_degree bp_data bp_start bp_end bp_num bp_adaptive bp_param]; change (bp_at s' i) with (bp_at s i); f_equal; apply opt_is_map; assumption.
    + intros i; unfold ip_val; cbv zeta; cbn [ip_degree ip_data ip_num ip_param]; change (ip_at s' i) with (ip_at s i); f_equal; apply opt_is_map; assumption.
Qed.

(** After a fit in fixed mode the knots of both curves are one array. *)
Lemma run_snoc new sv ops (o : rop K) : rrun new sv store0 (ops ++ [o]) = fst (rstep new sv o (rrun new sv store0 ops)).
Proof. rewrite run_app; reflexivity. Qed.
Lemma shared_write new sv ops i s' : let s := rrun new sv (@store0 K) ops in op_ok s (UDo i RFit) = true -> rb_adaptive (bp_at s i) = false ->
  rstep new sv (UDo i RFit) s = (s', Ok tt) ->
  exists a, (a < length (h_vec s'))%nat /\ forall l, length l = length (vec_at s' a) -> exists s'' c c', rstep new sv (UWriteVec a l) s' = (s'', Ok tt) /\
    bp_init (bp_val s' i) = Some c /\ bp_fit (bp_val s' i) = Some c' /\
    bp_init (bp_val s'' i) = Some (mkCurve (c_degree c) (c_ctrl c) (Some l) (c_dim c)) /\
    bp_fit (bp_val s'' i) = Some (mkCurve (c_degree c') (c_ctrl c') (Some l) (c_dim c')).
Proof.
  intros s H Ha E; destruct (boundary_refs new sv ops i RFit s' (Ok tt) H E) as [_ F]; destruct (F eq_refl) as (_ & _ & _ & _ & _ & Sh).
  destruct (Sh Ha) as (j & k & a & Ej & Ek & Aj & Ak).
  assert (Es : s' = rrun new sv store0 (ops ++ [UDo i RFit])) by (rewrite run_snoc; fold s; rewrite E; reflexivity).
  assert (W : wf s') by (rewrite Es; apply run_wf).
  destruct (wf_bp s' i W) as (_ & _ & _ & Hj & _); rewrite Ej in Hj; destruct (wf_cur s' j W Hj) as [_ La]; rewrite Aj in La; cbn [inrng] in La.
  exists a; split; [exact La|]; intros l Hl; destruct (rstep new sv (UWriteVec a l) s') as [s'' r] eqn:E2; rewrite Es in E2, La, Hl.
  destruct (vector_write new sv _ a l s'' r La E2) as [_ V]; destruct (V Hl) as (-> & Vc & _ & Vb & _); rewrite <- Es in Vc, Vb.
  exists s'', (curve_val s' j), (curve_val s' k); split; [reflexivity|].
  assert (Ij : bp_init (bp_val s' i) = Some (curve_val s' j)) by (unfold bp_val; cbn [bp_init]; rewrite Ej; reflexivity).
  assert (Ik : bp_fit (bp_val s' i) = Some (curve_val s' k)) by (unfold bp_val; cbn [bp_fit]; rewrite Ek; reflexivity).
  split; [exact Ij|]; split; [exact Ik|]; rewrite Vb; cbv zeta; cbn [bp_init bp_fit]; rewrite Ej, Ek; cbn [option_map]; rewrite !Vc, Aj, Ak; cbv zeta; cbn [opt_is].
  rewrite Nat.eqb_refl; split; reflexivity.
Qed.

(** Assigning an attribute of a curve object changes that object only. *)
Lemma curve_assigned new sv ops (o : rop K) k s' r : let s := rrun new sv store0 ops in cur_op o k -> op_ok s o = true -> rstep new sv o s = (s', r) ->
  (match cur_op_val s o (curve_val s k) with Ok c => r = Ok tt /\ curve_val s' k = c | Err e => r = Err e /\ s' = s | Diverge => r = Diverge end) /\
  (forall k', k' <> k -> curve_val s' k' = curve_val s k') /\ (forall f, surf_val s' f = surf_val s f) /\
  (forall i, rb_init (bp_at s i) = Some k -> bp_fit (bp_val s' i) = bp_fit (bp_val s i)) /\
  (forall i, rb_fit (bp_at s i) = Some k -> bp_init (bp_val s' i) = bp_init (bp_val s i)) /\
  (forall i, ~ owned s i k -> bp_val s' i = bp_val s i).
Proof.
  intros s Ho Hk E; pose proof (cur_step new sv o k s (run_wf new sv ops) Ho Hk) as C; pose proof (run_single new sv ops) as (S1 & S2 & _); fold s in S1, S2.
  destruct (cur_step_shape new sv o k s Ho Hk) as (c & Es & _); cbv zeta in Es; rewrite E in C, Es; cbn [fst] in Es; destruct C as (_ & C1 & C2).
  split; [exact C1|]; split; [exact C2|]; split; [intros f; rewrite Es; reflexivity|].
  assert (Oth : forall x, x <> Some k -> option_map (curve_val s') x = option_map (curve_val s) x).
  { intros [x|] N; cbn [option_map]; [rewrite C2 by congruence|]; reflexivity. }
  assert (Bp : forall j, bp_at s' j = bp_at s j) by (intros j; rewrite Es; reflexivity).
  split; [|split].
  - intros i Ei; unfold bp_val; cbn [bp_fit]; rewrite Bp; apply Oth; intros Ef; exact (S2 i k Ei Ef).
  - intros i Ef; unfold bp_val; cbn [bp_init]; rewrite Bp; apply Oth; intros Ei; exact (S2 i k Ei Ef).
  - intros j N; unfold bp_val; rewrite Bp.
    assert (N1 : rb_init (bp_at s j) <> Some k) by (intros X; apply N; left; exact X).
    assert (N2 : rb_fit (bp_at s j) <> Some k) by (intros X; apply N; right; exact X).
    rewrite !Oth by assumption; unfold mat_at, vec_at; rewrite Es; reflexivity.
Qed.

(** ** An interior problem and its boundaries *)
Lemma top_stays new sv ops ops' i d : let s := rrun new sv (@store0 K) ops in op_ok s (UIDo i (JTop (DBound d))) = true ->
  snd (rstep new sv (UIDo i (JTop (DBound d))) s) = Ok tt -> Forall (fun o => ~ exists x, o = UIDo i (JTop x)) ops' ->
  let s' := rrun new sv store0 (ops ++ [UIDo i (JTop (DBound d))] ++ ops') in ip_top (ip_val s' i) = Some (bd_val s' d).
Proof.
  intros s H E N; cbv zeta; rewrite run_app; fold s; rewrite run_app.
  set (s1 := rrun new sv s [_]); assert (W1 : wf s1) by (apply (run_inv new sv (fun _ => True)); auto; apply run_wf).
  destruct (rstep new sv (UIDo i (JTop (DBound d))) s) as [s0 r] eqn:E0; cbn [snd] in E; subst r.
  assert (E1 : s1 = s0) by (unfold s1, rrun; cbn [fold_left]; rewrite E0; reflexivity).
  destruct (interior_refs new sv ops i _ s0 (Ok tt) H E0) as [_ F]; destruct (F eq_refl) as (_ & T & _).
  assert (X : ri_top (ip_at (rrun new sv s1 ops') i) = Some d).
  { rewrite (run_keeps new sv (fun s => ri_top (ip_at s i)) (sets_top i)); [rewrite E1; exact T|intros o x W; apply step_ip_refs; exact W|exact W1|exact N]. }
  unfold ip_val; cbn [ip_top]; rewrite X; reflexivity.
Qed.
Lemma bottom_stays new sv ops ops' i d : let s := rrun new sv (@store0 K) ops in op_ok s (UIDo i (JBottom (DBound d))) = true ->
  snd (rstep new sv (UIDo i (JBottom (DBound d))) s) = Ok tt -> Forall (fun o => ~ exists x, o = UIDo i (JBottom x)) ops' ->
  let s' := rrun new sv store0 (ops ++ [UIDo i (JBottom (DBound d))] ++ ops') in ip_bottom (ip_val s' i) = Some (bd_val s' d).
Proof.
  intros s H E N; cbv zeta; rewrite run_app; fold s; rewrite run_app.
  set (s1 := rrun new sv s [_]); assert (W1 : wf s1) by (apply (run_inv new sv (fun _ => True)); auto; apply run_wf).
  destruct (rstep new sv (UIDo i (JBottom (DBound d))) s) as [s0 r] eqn:E0; cbn [snd] in E; subst r.
  assert (E1 : s1 = s0) by (unfold s1, rrun; cbn [fold_left]; rewrite E0; reflexivity).
  destruct (interior_refs new sv ops i _ s0 (Ok tt) H E0) as [_ F]; destruct (F eq_refl) as (_ & _ & T & _).
  assert (X : ri_bottom (ip_at (rrun new sv s1 ops') i) = Some d).
  { rewrite (run_keeps new sv (fun s => ri_bottom (ip_at s i)) (sets_bottom i)); [rewrite E1; exact T|intros o x W; apply step_ip_refs; exact W|exact W1|exact N]. }
  unfold ip_val; cbn [ip_bottom]; rewrite X; reflexivity.
Qed.
(** The data array assigned stays the data array. *)
Lemma data_stays new sv ops ops' i a : let s := rrun new sv (@store0 K) ops in op_ok s (UDo i (RData (AMat a))) = true ->
  snd (rstep new sv (UDo i (RData (AMat a))) s) = Ok tt -> Forall (fun o => ~ exists x, o = UDo i (RData x)) ops' ->
  let s' := rrun new sv store0 (ops ++ [UDo i (RData (AMat a))] ++ ops') in bp_data (bp_val s' i) = Some (mat_at s' a).
Proof.
  intros s H E N; cbv zeta; rewrite run_app; fold s; rewrite run_app.
  set (s1 := rrun new sv s [_]); assert (W1 : wf s1) by (apply (run_inv new sv (fun _ => True)); auto; apply run_wf).
  destruct (rstep new sv (UDo i (RData (AMat a))) s) as [s0 r] eqn:E0; cbn [snd] in E; subst r.
  assert (E1 : s1 = s0) by (unfold s1, rrun; cbn [fold_left]; rewrite E0; reflexivity).
  destruct (boundary_refs new sv ops i _ s0 (Ok tt) H E0) as [_ F]; destruct (F eq_refl) as (T & _).
  assert (X : rb_data (bp_at (rrun new sv s1 ops') i) = Some a).
  { rewrite (run_keeps new sv (fun s => rb_data (bp_at s i)) (sets_data i)); [rewrite E1; exact T|intros o x W; apply step_bp_refs; exact W|exact W1|exact N]. }
  unfold bp_val; cbn [bp_data]; rewrite X; reflexivity.
Qed.

(** Writing into the knots of the bottom boundary's curve changes the u-knots of
    the initial and of the fitted surface. *)
Lemma bottom_write new sv ops i s1 s2 : let s := rrun new sv (@store0 K) ops in
  op_ok s (UIDo i JInit) = true -> rstep new sv (UIDo i JInit) s = (s1, Ok tt) -> rstep new sv (UIDo i JFit) s1 = (s2, Ok tt) ->
  exists d c a j k, ri_bottom (ip_at s i) = Some d /\ rd_fit (bd_at s d) = Some c /\ rc_kv (cur_at s2 c) = Some a /\
    ri_init (ip_at s2 i) = Some j /\ ri_fit (ip_at s2 i) = Some k /\ j <> k /\
    forall l, length l = length (vec_at s2 a) -> exists s3, rstep new sv (UWriteVec a l) s2 = (s3, Ok tt) /\
      c_kv (curve_val s3 c) = Some l /\ s_ku (surf_val s3 j) = l /\ s_ku (surf_val s3 k) = l /\
      s_ctrl (surf_val s3 j) = s_ctrl (surf_val s2 j) /\ s_ctrl (surf_val s3 k) = s_ctrl (surf_val s2 k) /\
      s_kv (surf_val s3 j) = s_kv (surf_val s2 j) /\ s_kv (surf_val s3 k) = s_kv (surf_val s2 k).
Proof.
  intros s H E1 E2; pose proof (run_wf new sv ops) as W; fold s in W.
  assert (X1 : s1 = rrun new sv store0 (ops ++ [UIDo i JInit])) by (rewrite run_snoc; fold s; rewrite E1; reflexivity).
  assert (X2 : s2 = rrun new sv store0 ((ops ++ [UIDo i JInit]) ++ [UIDo i JFit])) by (rewrite run_snoc, <- X1, E2; reflexivity).
  assert (W1 : wf s1) by (rewrite X1; apply run_wf); assert (W2 : wf s2) by (rewrite X2; apply run_wf).
  destruct (interior_refs new sv ops i JInit s1 (Ok tt) H E1) as [_ F]; destruct (F eq_refl) as (_ & _ & _ & (j & d & c & Ij & Bd & Fc & Lj & Cj & Vj & Kc)); fold s in Bd, Fc, Lj, Cj, Vj, Kc.
  assert (H1 : op_ok s1 (UIDo i JFit) = true).
  { cbn [op_ok]; destruct (has (h_ip s1) i) eqn:Eh; [reflexivity|]; unfold rstep in E2; cbn [op_ok] in E2; rewrite Eh in E2; discriminate. }
  destruct (wf_ip s1 i W1) as (_ & _ & _ & Hj & _); rewrite Ij in Hj; cbn [inrng] in Hj.
  pose proof (request_gext new sv (UIDo i JInit) s W (or_intror (ex_intro _ i (ex_intro _ JInit eq_refl)))) as (G1 & _); rewrite E1 in G1; cbn [fst] in G1.
  pose proof (request_gext new sv (UIDo i JFit) s1 W1 (or_intror (ex_intro _ i (ex_intro _ JFit eq_refl)))) as (G2 & _); rewrite E2 in G2; cbn [fst] in G2.
  assert (F2 : exists k, ri_init (ip_at s2 i) = Some j /\ ri_fit (ip_at s2 i) = Some k /\ (length (h_sur s1) <= k)%nat /\
    rs_ku (sur_at s2 k) = rs_ku (sur_at s2 j) /\ rs_kv (sur_at s2 k) = rs_kv (sur_at s2 j)).
  { rewrite rstep_ido in E2 by exact H1; destruct (step_isim new sv i JFit s1 W1 H1) as (_ & _ & _ & _ & ((I2 & _ & _) & (_ & _ & _ & F2))).
    rewrite E2 in I2, F2; cbn [fst snd] in I2, F2; destruct (F2 eq_refl) as [(k & j' & A1 & A2 & [[B _] C] & U & V) _]; exists k.
    assert (j' = j) as ->; [|auto 8].
    (* the fit makes an initial surface only if there is none *)
    destruct (isim_fit new sv i s1 W1 (has_lt _ _ (proj1 (andb_prop _ _ H1)))) as (_ & _ & _ & _ & (_ & Kj & _)).
    change (r_ip_step new sv i JFit s1) with (r_ifit new sv i s1) in E2; rewrite E2 in Kj; cbn [fst] in Kj; rewrite Kj in A2 by congruence; congruence. }
  destruct F2 as (k & J2 & K2 & Lk & Uk & Vk).
  assert (Hd : (d < length (h_bd s))%nat) by (destruct (wf_ip s i W) as (_ & _ & Hb & _); rewrite Bd in Hb; exact Hb).
  assert (Hc : (c < length (h_cur s))%nat) by (destruct (proj1 (proj2 (proj2 (proj2 W))) (bd_at s d) (nth_In _ _ Hd)) as [Hc _]; rewrite Fc in Hc; exact Hc).
  set (a := rs_ku (sur_at s1 j)) in *.
  assert (Kc2 : rc_kv (cur_at s2 c) = Some a).
  { rewrite (gext_cur s1 s2 c G2) by (destruct G1 as (_ & _ & [L _] & _); lia); rewrite (gext_cur s s1 c G1 Hc); exact Kc. }
  assert (Uj : rs_ku (sur_at s2 j) = a) by (rewrite (gext_sur s1 s2 j G2 Hj); reflexivity).
  assert (Ha : (a < length (h_vec s))%nat) by (destruct (wf_cur s c W Hc) as [_ La]; rewrite Kc in La; exact La).
  assert (Ha2 : (a < length (h_vec s2))%nat) by (destruct G1 as ([v1 V1] & _), G2 as ([v2 V2] & _); rewrite V2, V1, !app_length; lia).
  assert (Na : (a =? rs_kv (sur_at s2 j))%nat = false) by (apply Nat.eqb_neq; rewrite (gext_sur s1 s2 j G2 Hj); lia).
  exists d, c, a, j, k; repeat (split; [assumption || lia|]); intros l Hl.
  destruct (rstep new sv (UWriteVec a l) s2) as [s3 r] eqn:E3; rewrite X2 in E3, Ha2, Hl.
  destruct (vector_write new sv _ a l s3 r Ha2 E3) as [_ V]; destruct (V Hl) as (-> & Vc & Vs & _); rewrite <- X2 in Vc, Vs.
  exists s3; split; [reflexivity|]; rewrite Vc, !Vs; cbv zeta; cbn [c_kv s_ku s_kv s_ctrl]; rewrite Kc2; cbn [opt_is]; rewrite Vk, Uk, Uj, Nat.eqb_refl, Na; repeat split.
Qed.
End Ref.
(** Boundaries that are refused; the attributes of a new problem. *)
Section Refused.
Context {K : Num}.
Lemma boundary_refused new sv (s : store K) i x e : (i < length (h_ip s))%nat ->
  (x = DBare /\ e = AttributeError) \/ (x = DOther /\ e = TypeError) \/ (exists j, (j < length (h_bp s))%nat /\ x = DProblem j /\ e = TypeError) \/
  (exists d, (d < length (h_bd s))%nat /\ rd_fit (bd_at s d) = None /\ x = DBound d /\ e = ValueError) ->
  rstep new sv (UIDo i (JTop x)) s = (s, Err e) /\ rstep new sv (UIDo i (JBottom x)) s = (s, Err e).
Proof.
  intros Hi H; assert (Hb : has (h_ip s) i = true) by (apply Nat.ltb_lt; exact Hi).
  unfold rstep, op_ok; rewrite Hb; cbn [andb].
  destruct H as [(-> & ->)|[(-> & ->)|[(j & Hj & -> & ->)|(d & Hd & E & -> & ->)]]]; cbn [barg_ok negb]; try (split; reflexivity).
  - assert (Hj' : has (h_bp s) j = true) by (apply Nat.ltb_lt; exact Hj); rewrite Hj'; split; reflexivity.
  - assert (Hd' : has (h_bd s) d = true) by (apply Nat.ltb_lt; exact Hd); rewrite Hd'; cbn [negb r_ip_step].
    assert (C : check_boundary (barg_val s (DBound d)) = Err ValueError) by (cbn [barg_val check_boundary]; change (bp_fit (bd_val s d)) with (option_map (curve_val s) (rd_fit (bd_at s d))); rewrite E; reflexivity).
    unfold r_set_top, r_set_bottom, r_check_bound, rbind, rread, rpure; rewrite C; split; reflexivity.
Qed.
Lemma new_problems new sv (s : store K) :
  (let '(s', r) := rstep new sv UProblem s in r = Ok tt /\ length (h_bp s') = S (length (h_bp s)) /\
     bp_val s' (length (h_bp s)) = mkBP None None None None None false None None None /\ forall j, (j < length (h_bp s))%nat -> bp_val s' j = bp_val s j) /\
  (let '(s', r) := rstep new sv UInterior s in r = Ok tt /\ length (h_ip s') = S (length (h_ip s)) /\
     ip_val s' (length (h_ip s)) = mkIP None None None None None None None None /\ forall j, (j < length (h_ip s))%nat -> ip_val s' j = ip_val s j).
Proof.
  split; cbn [rstep op_ok negb]; (split; [reflexivity|split; [cbn; rewrite app_length; cbn; lia|split]]).
  - unfold bp_val, bp_at; cbn [h_bp]; rewrite app_nth2, Nat.sub_diag by lia; reflexivity.
  - intros j Hj; unfold bp_val, bp_at; cbn [h_bp]; rewrite app_nth1 by exact Hj; reflexivity.
  - unfold ip_val, ip_at; cbn [h_ip]; rewrite app_nth2, Nat.sub_diag by lia; reflexivity.
  - intros j Hj; unfold ip_val, ip_at; cbn [h_ip]; rewrite app_nth1 by exact Hj; reflexivity.
Qed.
End Refused.
