(** Complete outcomes of Data and Boundary assignments, and of fits, loads and
    initial surfaces with something missing. *)
From Coq Require Import Reals Lra.
From Verif Require Import Py PyLemmas Num ModelKnots ModelBasis ModelCurve ModelSurface ModelInit ModelParam ModelFit ModelIO ModelData Spec SpecFit SpecParam SpecData SpecIO MathKnots ProofNum ProofKnots ProofCurve ProofSurface ProofInit ProofFit6 ProofFit8 ProofFit9 ProofIO ProofData ProofData2 ProofData3.
Open Scope Z_scope.

Section Shaped.
Context {K : Num}.
Lemma do_step_all (o : dobj K) op :
  do_step o op =
    match op with
    | DData x => match shape_value (do_dim o) x with
                 | Some _ => (mkDO (do_boundary o) (do_dim o) (Some x) (do_start o) (do_end o), Ok tt)
                 | None => (o, shape_refusal x)
                 end
    | DStart x => match (if do_boundary o then shape_value (do_dim o) x else Some x) with
                  | Some _ => (mkDO (do_boundary o) (do_dim o) (do_data o) (Some x) (do_end o), Ok tt)
                  | None => (o, shape_refusal x)
                  end
    | DEnd x => match (if do_boundary o then shape_value (do_dim o) x else Some x) with
                | Some _ => (mkDO (do_boundary o) (do_dim o) (do_data o) (do_start o) (Some x), Ok tt)
                | None => (o, shape_refusal x)
                end
    | DDim _ => (o, Err AttributeError)
    end.
Proof.
  destruct op as [x|x|x|d]; cbn [do_step]; unfold do_set_data, do_set_start, do_set_end, do_set_dim; try reflexivity.
  - destruct x as [a|i|i [d|e|]]; try reflexivity; cbn [check_shape bind shape_value shape_refusal]; destruct (d =? do_dim o); reflexivity.
  - destruct (do_boundary o); [|reflexivity]; destruct x as [a|i|i [d|e|]]; try reflexivity; cbn [check_shape bind shape_value shape_refusal]; destruct (d =? do_dim o); reflexivity.
  - destruct (do_boundary o); [|reflexivity]; destruct x as [a|i|i [d|e|]]; try reflexivity; cbn [check_shape bind shape_value shape_refusal]; destruct (d =? do_dim o); reflexivity.
Qed.
Lemma shape_value_same dim (x y : shaped K) : shape_value dim x = Some y -> y = x.
Proof. destruct x as [a|i|i [d|e|]]; cbn; try discriminate; destruct (d =? dim); congruence. Qed.
Lemma do_step_newer (o : dobj K) op :
  fst (do_step o op) = mkDO (do_boundary o) (do_dim o) (newer (ddata_set (do_dim o) op) (do_data o))
    (newer (dstart_set (do_boundary o) (do_dim o) op) (do_start o)) (newer (dend_set (do_boundary o) (do_dim o) op) (do_end o)).
Proof.
  rewrite do_step_all; destruct o as [bd dim da st en]; destruct op as [x|x|x|d]; cbn [do_boundary do_dim do_data do_start do_end ddata_set dstart_set dend_set newer fst];
    try reflexivity.
  - destruct (shape_value dim x) eqn:E; [rewrite (shape_value_same _ _ _ E)|]; reflexivity.
  - destruct bd; [|reflexivity]; destruct (shape_value dim x) eqn:E; [rewrite (shape_value_same _ _ _ E)|]; reflexivity.
  - destruct bd; [|reflexivity]; destruct (shape_value dim x) eqn:E; [rewrite (shape_value_same _ _ _ E)|]; reflexivity.
Qed.
Lemma newer_latest {A B} (f : A -> option B) x l old : newer (latest f l) (newer (f x) old) = newer (latest f (x :: l)) old.
Proof. cbn; destruct (latest f l), (f x); reflexivity. Qed.
Lemma do_run_newer ops : forall o : dobj K,
  do_run o ops = mkDO (do_boundary o) (do_dim o) (newer (latest (ddata_set (do_dim o)) ops) (do_data o))
    (newer (latest (dstart_set (do_boundary o) (do_dim o)) ops) (do_start o)) (newer (latest (dend_set (do_boundary o) (do_dim o)) ops) (do_end o)).
Proof.
  induction ops as [|x l IH]; intros o; [destruct o; reflexivity|]; unfold do_run in *; cbn [fold_left]; rewrite IH.
  rewrite do_step_newer; cbn [do_boundary do_dim do_data do_start do_end]; rewrite !newer_latest; reflexivity.
Qed.
Lemma newer_none {A} (x : option A) : newer x None = x.
Proof. destruct x; reflexivity. Qed.
Lemma do_history boundary dim ops :
  do_run (do_new (K := K) boundary dim) ops =
    let dim := match dim with Some d => d | None => 0 end in
    mkDO boundary dim (latest (ddata_set dim) ops) (latest (dstart_set boundary dim) ops) (latest (dend_set boundary dim) ops).
Proof. rewrite do_run_newer; cbn [do_new do_boundary do_dim do_data do_start do_end]; rewrite !newer_none; reflexivity. Qed.
End Shaped.

(** A fit without data. *)
Lemma fit_no_data sv (b : bproblem Exact) a e p n : bp_data b = None ->
  bp_init b = None -> bp_start b = Some (fin a) -> bp_end b = Some (fin e) -> length a = 3%nat -> length e = 3%nat ->
  bp_degree b = Some (Z.of_nat p) -> (1 <= p)%nat -> (if bp_adaptive b then n = Z.of_nat p + 1 else bp_num b = Some n) -> Z.of_nat p + 1 <= n ->
  exists c, initialize_curve (fin a : list Exact) (fin e) (Z.of_nat p) n = Ok c /\
    bp_fit_run working_class sv b = (mkBP (bp_degree b) None (bp_start b) (bp_end b) (bp_num b) (bp_adaptive b) (Some c) (bp_param b) (bp_fit b), Err TypeError).
Proof.
  intros HD HI Hs He La Le Hd Hp Hn Hpn.
  exists (curve_of (Z.of_nat p) (uniform (Z.of_nat p) n) (segment a e n) 0); split.
  { apply initialize_eq; unfold len; lia. }
  unfold bp_fit_run; rewrite HI, (set_init_exact b a e p n) by assumption; cbn [andthen bp_init bp_adaptive bp_data bp_num bp_degree]; rewrite HD.
  assert (LS : len (segment a e n) = n) by (apply segment_len; lia).
  assert (E : (if bp_adaptive b then fit_curve_knot_insertion_opt working_class sv (curve_of (Z.of_nat p) (uniform (Z.of_nat p) n) (segment a e n) 0) None (bp_num b)
               else fit_curve_fixed_ctrlpts_opt working_class sv (curve_of (Z.of_nat p) (uniform (Z.of_nat p) n) (segment a e n) 0) None) = Err TypeError).
  { destruct (bp_adaptive b).
    - unfold fit_curve_knot_insertion_opt; erewrite copy_bezier; [reflexivity|exact Hp|exact Hpn|exact LS|reflexivity].
    - unfold fit_curve_fixed_ctrlpts_opt; cbn [curve_of c_ctrl c_degree].
      destruct (ends_of (segment a e n) ltac:(lia)) as [E0 E1]; rewrite E0, E1; cbn [bind].
      destruct (segment_ends a e n ltac:(lia) La Le) as [-> ->].
      rewrite init_bezier by assumption; cbn [bind curve_of c_ctrl].
      erewrite copy_bezier; [reflexivity|exact Hp| |apply segment_len|reflexivity]; lia. }
  rewrite E; reflexivity.
Qed.

Lemma ip_load_after (K : Num) step cd (p : iproblem K) s name d : ip_fit p = Some s -> ip_load step cd p name d = (d, Err ValueError).
Proof. unfold ip_load; intros ->; reflexivity. Qed.

(** The ruled surface of boundaries with something missing. *)
Section Missing.
Context {K : Num}.
Lemma init_surface_unset (t b : bproblem K) degree num : bp_degree t = bp_degree b -> bp_num t = bp_num b ->
  bp_degree b = None \/ degree = None \/ bp_num b = None \/ num = None ->
  init_surface working_surface (Some t) (Some b) degree num = Err TypeError.
Proof.
  intros HD HN H; unfold init_surface; rewrite HD, HN.
  assert (E : forall a, opt_eqb a a = true) by (intros [a|]; cbn; [apply Z.eqb_refl|reflexivity]); rewrite !E; cbn [negb].
  unfold working_surface; cbn [bind].
  destruct (bp_degree b), degree, (bp_num b), num; try reflexivity; destruct H as [H | [H | [H | H]]]; discriminate H.
Qed.
Lemma init_surface_missing (t b : bproblem K) p q nu nv : bp_degree t = Some p -> bp_degree b = Some p -> bp_num t = Some nu -> bp_num b = Some nu ->
  1 <= p -> p + 1 <= nu -> 1 <= q -> q + 1 <= nv ->
  init_surface working_surface (Some t) (Some b) (Some q) (Some nv) =
    match bp_fit t, bp_fit b with
    | None, _ => Err AttributeError
    | Some ct, fb =>
        match c_ctrl ct, fb with
        | None, _ => Err TypeError
        | Some _, None => Err AttributeError
        | Some T, Some cb =>
            match c_ctrl cb with
            | None => Err TypeError
            | Some B => let* net := ruled_net T B nu nv in
                        match c_kv cb with
                        | None => Err TypeError
                        | Some ku => let* kv := generate_uniform q nv in Ok (mkSurf p q nu nv net ku kv)
                        end
            end
        end
    end.
Proof.
  intros Dt Db Nt Nb Hp Hu Hq Hv.
  unfold init_surface; rewrite Dt, Db, Nt, Nb; unfold opt_eqb; rewrite !Z.eqb_refl; cbn [negb].
  unfold working_surface, surf_fresh; cbn [bind].
  unfold set_degree_u; destruct (Z.ltb_spec p 1); [lia|]; cbn [bind o_degree_u o_degree_v o_num_u o_num_v o_nc_u o_nc_v o_ctrl o_ku o_kv o_dim].
  unfold set_degree_v; destruct (Z.ltb_spec q 1); [lia|]; cbn [bind o_degree_u o_degree_v o_num_u o_num_v o_nc_u o_nc_v o_ctrl o_ku o_kv o_dim].
  unfold set_num_u; cbn [o_degree_u]; destruct (Z.ltb_spec nu (p + 1)); [lia|]; cbn [bind o_degree_u o_degree_v o_num_u o_num_v o_nc_u o_nc_v o_ctrl o_ku o_kv o_dim].
  unfold set_num_v; cbn [o_degree_v]; destruct (Z.ltb_spec nv (q + 1)); [lia|]; cbn [bind].
  unfold fit_ctrl; destruct (bp_fit t) as [ct|]; [|reflexivity]; destruct (c_ctrl ct) as [T|]; [|reflexivity]; cbn [bind].
  destruct (bp_fit b) as [cb|]; [|reflexivity]; destruct (c_ctrl cb) as [B|]; [|reflexivity]; reflexivity.
Qed.
Lemma init_surface_no_ctrl (t b : bproblem K) ct cb p q nu nv : bp_degree t = Some p -> bp_degree b = Some p -> bp_num t = Some nu -> bp_num b = Some nu ->
  1 <= p -> p + 1 <= nu -> 1 <= q -> q + 1 <= nv -> bp_fit t = Some ct -> bp_fit b = Some cb -> c_ctrl ct = None \/ c_ctrl cb = None ->
  init_surface working_surface (Some t) (Some b) (Some q) (Some nv) = Err TypeError.
Proof.
  intros Dt Db Nt Nb Hp Hu Hq Hv Ft Fb H; rewrite (init_surface_missing t b p q nu nv) by assumption; rewrite Ft, Fb.
  destruct H as [->| ->]; [reflexivity|]; destruct (c_ctrl ct); reflexivity.
Qed.
Lemma init_surface_no_fit (t b : bproblem K) p q nu nv : bp_degree t = Some p -> bp_degree b = Some p -> bp_num t = Some nu -> bp_num b = Some nu ->
  1 <= p -> p + 1 <= nu -> 1 <= q -> q + 1 <= nv -> bp_fit t = None \/ bp_fit b = None /\ (exists ct T, bp_fit t = Some ct /\ c_ctrl ct = Some T) ->
  init_surface working_surface (Some t) (Some b) (Some q) (Some nv) = Err AttributeError.
Proof.
  intros Dt Db Nt Nb Hp Hu Hq Hv H; rewrite (init_surface_missing t b p q nu nv) by assumption.
  destruct H as [->|(-> & ct & T & -> & ->)]; reflexivity.
Qed.
End Missing.

(** Loading without a fit: what the reader does with None. *)
Lemma load_before (K : Num) step cd (b : bproblem K) (p : iproblem K) name d : bp_fit b = None -> ip_fit p = None ->
  (forall e, f_ropen d name = Some e -> bp_load step cd b name d = (d, Err e) /\ ip_load step cd p name d = (d, Err e)) /\
  (f_ropen d name = None -> f_files d name = None ->
     bp_load step cd b name d = (d, Err FileNotFoundError) /\ ip_load step cd p name d = (d, Err FileNotFoundError)) /\
  (forall q a n P kv, faithful cd -> kv <> [] -> f_ropen d name = None ->
     f_files d name = Some (unlines (curve_layout (tc_fmt cd) q a (join tabc (map (tc_fmt cd) kv)) n P)) ->
     bp_load step cd b name d = (d, Err AttributeError) /\ ip_load step cd p name d = (d, Err AttributeError)).
Proof.
  intros Hb Hp; unfold bp_load, ip_load; rewrite Hb, Hp; unfold read_curve_from_txt, ibind; split; [|split].
  - intros e He; unfold open_r; rewrite He; split; reflexivity.
  - intros He Hf; unfold open_r; rewrite He, Hf; split; reflexivity.
  - intros q a n P kv FA N V HF; rewrite (open_r_ok d name _ V HF).
    rewrite (curve_layout_nl cd FA) by apply join_no_nl, FA; rewrite (parse_clean_curve cd FA) by assumption; split; reflexivity.
Qed.
