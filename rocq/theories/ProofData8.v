(** Assignments to problem objects, and what is left after a history of them. *)
From Coq Require Import Reals Floats String.
From Verif Require Import Py PyLemmas Num ModelKnots ModelCurve ModelSurface ModelInit ModelParam ModelFit ModelIO ModelData SpecIO SpecData Spec
  ProofNum ProofInit ProofCurve2 ProofIO ProofData ProofData3 ProofData4.
Open Scope Z_scope.

Section Assign.
Context {K : Num}.
Notation bp := (bproblem K).

Lemma py_int_outcome s : (exists z, py_int s = Ok z) \/ py_int s = Err ValueError.
Proof.
  unfold py_int; destruct (drop_underscores _ _) as [t|]; [|right; reflexivity]; destruct (read_sign t) as [neg r].
  destruct (read_digits r) as [[|d ds] [|c q]]; eauto.
Qed.
Lemma check_degree_val (v : pyval K) :
  check_degree v = match degree_value v with Some d => Ok d | None => Err (degree_refusal v) end.
Proof.
  unfold check_degree; destruct v as [z|b|x|s|]; cbn [le_zero to_int bind degree_value degree_refusal].
  - destruct (Z.leb_spec z 0), (Z.leb_spec 1 z); try reflexivity; lia.
  - destruct b; reflexivity.
  - destruct (x <=? 0)%num; [reflexivity|]; unfold py_int_float; destruct (ntrunc x); [reflexivity|]; destruct (x =? x)%num; reflexivity.
  - reflexivity.
  - reflexivity.
Qed.
Lemma to_int_val least (v : pyval K) :
  (let* n := to_int v in if n <? least then Err ValueError else Ok n)
  = match count_value least v with Some n => Ok n | None => Err (count_refusal v) end.
Proof.
  assert (G : forall n e, e = ValueError -> (if n <? least then Err ValueError else Ok n) = match (if least <=? n then Some n else None) with Some n => Ok n | None => Err e end).
  { intros n e ->; destruct (Z.ltb_spec n least), (Z.leb_spec least n); try reflexivity; lia. }
  destruct v as [z|b|x|s|]; unfold count_value; cbn [to_int bind int_value count_refusal].
  - apply G; reflexivity.
  - apply G; reflexivity.
  - unfold py_int_float; destruct (ntrunc x); cbn [bind]; [apply G; reflexivity|]; destruct (x =? x)%num; reflexivity.
  - destruct (py_int_outcome s) as [(z & ->)| ->]; cbn [bind]; [apply G|]; reflexivity.
  - reflexivity.
Qed.
Lemma check_data_val (a : res (nd K)) :
  check_data a = match array_value a with Some d => Ok d | None => match a with Ok _ => Err ValueError | Err e => Err e | Diverge => Diverge end end.
Proof. destruct a as [[x|l|d|]|e|]; try reflexivity; cbn; destruct ((dt_cols d =? 2) || (dt_cols d =? 3)); reflexivity. Qed.
Lemma zlen_is {A} (l : list A) n : (zlen l =? Z.of_nat n) = (length l =? n)%nat.
Proof. unfold zlen; destruct (Z.eqb_spec (Z.of_nat (length l)) (Z.of_nat n)), (Nat.eqb_spec (length l) n); try reflexivity; lia. Qed.
Lemma check_point_val (a : res (nd K)) :
  check_point a = match point_value a with Some d => Ok d | None => match a with Ok _ => Err ValueError | Err e => Err e | Diverge => Diverge end end.
Proof.
  destruct a as [[x|l|d|]|e|]; try reflexivity; cbn [check_point bind point_value].
  change 2 with (Z.of_nat 2); change 3 with (Z.of_nat 3); rewrite !zlen_is.
  destruct ((length l =? 2)%nat || (length l =? 3)%nat); reflexivity.
Qed.
Lemma check_boundary_val (o : bobj K) :
  check_boundary o = match boundary_value o with Some b => Ok b | None => Err (boundary_refusal o) end.
Proof. destruct o as [[b|]| |]; try reflexivity; cbn; destruct (bp_fit b); reflexivity. Qed.

Lemma set_num_val (b : bp) v : bp_set_num b v =
  match count_value 4 v with
  | Some n => (mkBP (bp_degree b) (bp_data b) (bp_start b) (bp_end b) (Some n) (bp_adaptive b) (bp_init b) (bp_param b) (bp_fit b), Ok tt)
  | None => (b, Err (count_refusal v))
  end.
Proof.
  unfold bp_set_num; pose proof (to_int_val 4 v) as E; destruct (to_int v) as [n|e|]; cbn [bind] in *.
  - replace (n <=? 3) with (n <? 4) by (destruct (Z.leb_spec n 3), (Z.ltb_spec n 4); try reflexivity; lia).
    destruct (n <? 4), (count_value 4 v); try discriminate E; injection E as <-; reflexivity.
  - destruct (count_value 4 v); [discriminate|]; injection E as <-; reflexivity.
  - destruct (count_value 4 v); discriminate.
Qed.
Lemma iset_num_val (p : iproblem K) v : ip_set_num p v =
  match count_value 3 v with
  | Some n => (mkIP (ip_degree p) (ip_data p) (Some n) (ip_top p) (ip_bottom p) (ip_init p) (ip_param p) (ip_fit p), Ok tt)
  | None => (p, Err (count_refusal v))
  end.
Proof.
  unfold ip_set_num; pose proof (to_int_val 3 v) as E; destruct (to_int v) as [n|e|]; cbn [bind] in *.
  - destruct (n <? 3), (count_value 3 v); try discriminate E; injection E as <-; reflexivity.
  - destruct (count_value 3 v); [discriminate|]; injection E as <-; reflexivity.
  - destruct (count_value 3 v); discriminate.
Qed.
Lemma text_eqb_is s t : text_eqb s t = if list_eq_dec Ascii.ascii_dec s t then true else false.
Proof. reflexivity. Qed.
Lemma set_method_val (b : bp) v : bp_set_method b v =
  match method_value v with
  | Some m => (mkBP (bp_degree b) (bp_data b) (bp_start b) (bp_end b) (bp_num b) m (bp_init b) (bp_param b) (bp_fit b), Ok tt)
  | None => (b, Err (method_refusal v))
  end.
Proof.
  unfold bp_set_method; destruct v as [z|c|x|s|]; try reflexivity; unfold method_value; rewrite !text_eqb_is.
  destruct (list_eq_dec Ascii.ascii_dec s (txt "fixed")) as [->|N].
  - destruct (list_eq_dec _ _ _) as [E|]; [vm_compute in E; discriminate|reflexivity].
  - destruct (list_eq_dec _ _ _); reflexivity.
Qed.

(** The object after an assignment, and the outcome. *)
Lemma assign_spec cl sv (b : bp) o : assignment o = true ->
  fst (bp_step cl sv b o) =
    mkBP (newer (degree_set o) (bp_degree b)) (newer (data_set o) (bp_data b)) (newer (start_set o) (bp_start b)) (newer (end_set o) (bp_end b))
      (newer (num_set o) (bp_num b)) (match method_set o with Some m => m | None => bp_adaptive b end) (bp_init b) (bp_param b) (bp_fit b) /\
  snd (bp_step cl sv b o) =
    match o with
    | BDegree v => if degree_value v then Ok tt else Err (degree_refusal v)
    | BNum v => if count_value 4 v then Ok tt else Err (count_refusal v)
    | BMethod v => if method_value v then Ok tt else Err (method_refusal v)
    | BData a => if array_value a then Ok tt else match a with Ok _ => Err ValueError | Err e => Err e | Diverge => Diverge end
    | BStart a | BEnd a => if point_value a then Ok tt else match a with Ok _ => Err ValueError | Err e => Err e | Diverge => Diverge end
    | _ => Ok tt
    end.
Proof.
  destruct b; destruct o; intros A; try discriminate A; cbn [bp_step degree_set data_set start_set end_set num_set method_set].
  - unfold bp_set_degree; rewrite check_degree_val; destruct (degree_value v); split; reflexivity.
  - unfold bp_set_data; rewrite check_data_val; destruct (array_value a); [split; reflexivity|destruct a; split; reflexivity].
  - unfold bp_set_start; rewrite check_point_val; destruct (point_value a); [split; reflexivity|destruct a; split; reflexivity].
  - unfold bp_set_end; rewrite check_point_val; destruct (point_value a); [split; reflexivity|destruct a; split; reflexivity].
  - rewrite set_num_val; destruct (count_value 4 v); split; reflexivity.
  - rewrite set_method_val; destruct (method_value v); split; reflexivity.
Qed.

(** Methods leave the assigned attributes alone, but for the count. *)
Lemma method_keeps cl sv (b : bp) o : assignment o = false ->
  let b' := fst (bp_step cl sv b o) in
  (bp_degree b', bp_data b', bp_start b', bp_end b', bp_adaptive b') = (bp_degree b, bp_data b, bp_start b, bp_end b, bp_adaptive b) /\
  (o <> BFit -> bp_num b' = bp_num b).
Proof.
  destruct o; intros A; try discriminate A; cbn [bp_step].
  - destruct (bp_set_init cl b) as [b' r] eqn:E; destruct (set_init_keeps _ _ _ _ E) as (S & _); cbn; unfold settings in S; injection S as -> -> -> -> -> ->; split; auto.
  - destruct (bp_parameterize cl b) as [b' r] eqn:E; destruct (parameterize_keeps _ _ _ _ E) as (S & _); cbn; unfold settings in S; injection S as -> -> -> -> -> ->; split; auto.
  - destruct (bp_fit_run cl sv b) as [b' r] eqn:E; destruct (fit_cases _ _ _ _ _ E) as (b1 & r1 & _ & S & _ & _ & _ & H); cbn; split; [|congruence].
    unfold settings in S; injection S as H1 H2 H3 H4 H5 H6.
    destruct H as [(_ & -> & _)|(init & _ & _ & [(-> & _)|(c & kv & d & _ & _ & _ & _ & _ & T & _)])]; [congruence..|exact T].
Qed.

Lemma newer_assoc {A} (x y z : option A) : newer x (newer y z) = newer (newer x y) z.
Proof. destruct x; reflexivity. Qed.
Lemma latest_cons {A B} (f : A -> option B) x l : latest f (x :: l) = newer (latest f l) (f x).
Proof. cbn; destruct (latest f l); reflexivity. Qed.
Lemma newer_none {A} (x : option A) : newer x None = x.
Proof. destruct x; reflexivity. Qed.

(** One attribute through a history. *)
Lemma run_attr {S O B} (step : S -> O -> S) (get : S -> option B) (f : O -> option B) (ok : O -> Prop) :
  (forall s o, ok o -> get (step s o) = newer (f o) (get s)) ->
  forall ops s, Forall ok ops -> get (fold_left step ops s) = newer (latest f ops) (get s).
Proof.
  intros H; induction ops as [|o l IH]; intros s F; [reflexivity|]; inversion F as [|? ? F1 F2]; subst.
  cbn [fold_left]; rewrite (IH _ F2), (H s o F1), latest_cons, newer_assoc; reflexivity.
Qed.
Lemma all_true {A} (l : list A) : Forall (fun _ => True) l.
Proof. induction l; constructor; auto. Qed.

Lemma latest_run cl sv (ops : list (bp_op K)) (b : bp) :
  let b' := bp_run cl sv b ops in
  bp_degree b' = newer (latest degree_set ops) (bp_degree b) /\ bp_data b' = newer (latest data_set ops) (bp_data b) /\
  bp_start b' = newer (latest start_set ops) (bp_start b) /\ bp_end b' = newer (latest end_set ops) (bp_end b) /\
  bp_adaptive b' = (match latest method_set ops with Some m => m | None => bp_adaptive b end) /\
  (~ In BFit ops -> bp_num b' = newer (latest num_set ops) (bp_num b)).
Proof.
  assert (G : forall (b : bp) o, let b' := fst (bp_step cl sv b o) in
    bp_degree b' = newer (degree_set o) (bp_degree b) /\ bp_data b' = newer (data_set o) (bp_data b) /\
    bp_start b' = newer (start_set o) (bp_start b) /\ bp_end b' = newer (end_set o) (bp_end b) /\
    Some (bp_adaptive b') = newer (method_set o) (Some (bp_adaptive b)) /\
    (o <> BFit -> bp_num b' = newer (num_set o) (bp_num b))).
  { clear b; intros b o; cbv zeta; destruct (assignment o) eqn:A.
    - destruct (assign_spec cl sv b o A) as (-> & _); cbn; repeat split; destruct (method_set o); reflexivity.
    - destruct (method_keeps cl sv b o A) as (E & N); injection E as -> -> -> -> ->.
      destruct o; try discriminate A; repeat split; auto. }
  unfold bp_run; cbv zeta; pose (step := fun (b : bp) (o : bp_op K) => fst (bp_step cl sv b o)); fold step.
  split; [|split; [|split; [|split; [|split]]]].
  - apply (run_attr step bp_degree degree_set (fun _ => True)); [intros; apply G|apply all_true].
  - apply (run_attr step bp_data data_set (fun _ => True)); [intros; apply G|apply all_true].
  - apply (run_attr step bp_start start_set (fun _ => True)); [intros; apply G|apply all_true].
  - apply (run_attr step bp_end end_set (fun _ => True)); [intros; apply G|apply all_true].
  - assert (E : Some (bp_adaptive (fold_left step ops b)) = newer (latest method_set ops) (Some (bp_adaptive b))).
    { apply (run_attr step (fun b => Some (bp_adaptive b)) method_set (fun _ => True)); [intros; apply G|apply all_true]. }
    destruct (latest method_set ops); injection E as E; exact E.
  - intros N; apply (run_attr step bp_num num_set (fun o => o <> BFit)); [intros s o H; apply G; exact H|].
    apply Forall_forall; intros o Ho ->; exact (N Ho).
Qed.
Lemma latest_new cl sv (ops : list (bp_op K)) :
  let b := bp_run cl sv bp_new ops in
  bp_degree b = latest degree_set ops /\ bp_data b = latest data_set ops /\
  bp_start b = latest start_set ops /\ bp_end b = latest end_set ops /\
  bp_adaptive b = (match latest method_set ops with Some m => m | None => false end) /\
  (~ In BFit ops -> bp_num b = latest num_set ops).
Proof. pose proof (latest_run cl sv ops bp_new) as G; cbv zeta in *; cbn [bp_new bp_degree bp_data bp_start bp_end bp_num bp_adaptive] in G; rewrite !newer_none in G; exact G. Qed.

(** ** Interior problems *)
Definition iown (p : iproblem K) := (ip_degree p, ip_data p, ip_num p, ip_top p, ip_bottom p).
Lemma iown_set_init new (p : iproblem K) : iown (fst (ip_set_init new p)) = iown p.
Proof. unfold ip_set_init; destruct (init_surface new _ _ _ _); reflexivity. Qed.
Lemma iown_param new (p : iproblem K) : iown (fst (ip_parameterize new p)) = iown p.
Proof.
  unfold ip_parameterize; destruct (ip_init p) as [s|], (ip_fit p) as [f|];
    try (destruct (parameterize_surface_opt _ _); reflexivity).
  pose proof (iown_set_init new p) as E; destruct (ip_set_init new p) as [p' [[]|e|]]; cbn [andthen fst] in *; try exact E.
  rewrite <- E; destruct (parameterize_surface_opt _ _); reflexivity.
Qed.
Lemma iown_fit new sv (p : iproblem K) : iown (fst (ip_fit_run new sv p)) = iown p.
Proof.
  unfold ip_fit_run.
  assert (G : iown (fst (match ip_init p with None => ip_set_init new p | Some _ => (p, Ok tt) end)) = iown p)
    by (destruct (ip_init p); [reflexivity|apply iown_set_init]).
  destruct (match ip_init p with None => ip_set_init new p | Some _ => (p, Ok tt) end) as [p' [[]|e|]]; cbn [andthen fst] in *; try exact G.
  destruct (ip_init p') as [s|]; [|exact G]; destruct (ip_data p') as [data|] eqn:ED; [|exact G].
  destruct (ip_top p') as [t|] eqn:ET; [|exact G]; destruct (ip_bottom p') as [b|] eqn:EB; [|exact G].
  destruct (fit_surface sv s data (bp_param t) (bp_param b)); try exact G.
  rewrite iown_param, <- G; unfold iown; cbn; rewrite ?ED, ?ET, ?EB; reflexivity.
Qed.
Lemma iassign_spec new sv (p : iproblem K) o :
  match o with IInit | IParam | IFit => False | _ => True end ->
  fst (ip_step new sv p o) =
    mkIP (newer (idegree_set o) (ip_degree p)) (newer (idata_set o) (ip_data p)) (newer (inum_set o) (ip_num p))
      (newer (top_set o) (ip_top p)) (newer (bottom_set o) (ip_bottom p)) (ip_init p) (ip_param p) (ip_fit p) /\
  snd (ip_step new sv p o) =
    match o with
    | IDegree v => if degree_value v then Ok tt else Err (degree_refusal v)
    | INum v => if count_value 3 v then Ok tt else Err (count_refusal v)
    | IData a => if array_value a then Ok tt else match a with Ok _ => Err ValueError | Err e => Err e | Diverge => Diverge end
    | ITop b | IBottom b => if boundary_value b then Ok tt else Err (boundary_refusal b)
    | _ => Ok tt
    end.
Proof.
  destruct p; destruct o; intros A; try contradiction; cbn [ip_step idegree_set idata_set inum_set top_set bottom_set].
  - unfold ip_set_degree; rewrite check_degree_val; destruct (degree_value v); split; reflexivity.
  - unfold ip_set_data; rewrite check_data_val; destruct (array_value a); [split; reflexivity|destruct a; split; reflexivity].
  - rewrite iset_num_val; destruct (count_value 3 v); split; reflexivity.
  - unfold ip_set_top; rewrite check_boundary_val; destruct (boundary_value o); split; reflexivity.
  - unfold ip_set_bottom; rewrite check_boundary_val; destruct (boundary_value o); split; reflexivity.
Qed.
Lemma ilatest_new new sv (ops : list (ip_op K)) :
  let p := ip_run new sv ip_new ops in
  ip_degree p = latest idegree_set ops /\ ip_data p = latest idata_set ops /\ ip_num p = latest inum_set ops /\
  ip_top p = latest top_set ops /\ ip_bottom p = latest bottom_set ops.
Proof.
  assert (G : forall (p : iproblem K) o, let p' := fst (ip_step new sv p o) in
    ip_degree p' = newer (idegree_set o) (ip_degree p) /\ ip_data p' = newer (idata_set o) (ip_data p) /\
    ip_num p' = newer (inum_set o) (ip_num p) /\ ip_top p' = newer (top_set o) (ip_top p) /\ ip_bottom p' = newer (bottom_set o) (ip_bottom p)).
  { intros p o; cbv zeta.
    assert (M : iown (fst (ip_step new sv p o)) = iown p -> idegree_set o = None -> idata_set o = None -> inum_set o = None -> top_set o = None -> bottom_set o = None ->
      ip_degree (fst (ip_step new sv p o)) = newer (idegree_set o) (ip_degree p) /\ ip_data (fst (ip_step new sv p o)) = newer (idata_set o) (ip_data p) /\
      ip_num (fst (ip_step new sv p o)) = newer (inum_set o) (ip_num p) /\ ip_top (fst (ip_step new sv p o)) = newer (top_set o) (ip_top p) /\
      ip_bottom (fst (ip_step new sv p o)) = newer (bottom_set o) (ip_bottom p)).
    { unfold iown; intros E -> -> -> -> ->; injection E as -> -> -> -> ->; repeat split. }
    destruct o; try (match goal with |- context [ip_step new sv p ?o] => destruct (iassign_spec new sv p o I) as (-> & _) end; repeat split; fail).
    - apply M; try reflexivity; apply iown_set_init.
    - apply M; try reflexivity; apply iown_param.
    - apply M; try reflexivity; apply iown_fit. }
  unfold ip_run; cbv zeta; pose (step := fun (p : iproblem K) (o : ip_op K) => fst (ip_step new sv p o)); fold step.
  rewrite <- (newer_none (latest idegree_set ops)), <- (newer_none (latest idata_set ops)), <- (newer_none (latest inum_set ops)),
    <- (newer_none (latest top_set ops)), <- (newer_none (latest bottom_set ops)).
  split; [|split; [|split; [|split]]].
  - apply (run_attr step ip_degree idegree_set (fun _ => True) (fun s o _ => proj1 (G s o)) ops ip_new (all_true ops)).
  - apply (run_attr step ip_data idata_set (fun _ => True)); [intros; apply G|apply all_true].
  - apply (run_attr step ip_num inum_set (fun _ => True)); [intros; apply G|apply all_true].
  - apply (run_attr step ip_top top_set (fun _ => True)); [intros; apply G|apply all_true].
  - apply (run_attr step ip_bottom bottom_set (fun _ => True)); [intros; apply G|apply all_true].
Qed.

(** ** Parameterizing *)
Lemma bp_parameterize_all cl (b : bp) :
  (forall c, bp_fit b = Some c \/ bp_fit b = None /\ bp_init b = Some c ->
     (bp_data b = None -> bp_parameterize cl b = (b, Err TypeError)) /\
     (forall data, bp_data b = Some data ->
        bp_parameterize cl b =
          match parameterize_curve (cl_beh cl c) data with
          | Ok rows => (mkBP (bp_degree b) (bp_data b) (bp_start b) (bp_end b) (bp_num b) (bp_adaptive b) (bp_init b)
                          (Some (mkData (dt_cols data + 1) rows)) (bp_fit b), Ok tt)
          | Err e => (b, Err e)
          | Diverge => (b, Diverge)
          end)) /\
  (bp_fit b = None -> bp_init b = None -> forall b1 r, bp_set_init cl b = (b1, r) ->
     (r = Ok tt -> bp_init b1 <> None /\ bp_fit b1 = None /\ bp_parameterize cl b = bp_parameterize cl b1) /\
     (r <> Ok tt -> bp_parameterize cl b = (b, r))).
Proof.
  split.
  - intros c Hc; assert (E : forall data, bp_data b = data -> bp_parameterize cl b = finish b (let* d := parameterize_curve_opt cl (Some c) data in
      Ok (mkBP (bp_degree b) (bp_data b) (bp_start b) (bp_end b) (bp_num b) (bp_adaptive b) (bp_init b) (Some d) (bp_fit b)))).
    { intros data <-; unfold bp_parameterize; destruct Hc as [F|(F & I)]; rewrite ?F, ?I; [destruct (bp_init b)|]; reflexivity. }
    split; [intros D; rewrite (E _ D); reflexivity|intros data D; rewrite (E _ D)].
    cbn [parameterize_curve_opt]; destruct (parameterize_curve _ data); reflexivity.
  - intros F I b1 r E; destruct (set_init_keeps _ _ _ _ E) as (S & P & F1 & G & H); unfold bp_parameterize at 1 3; rewrite F, I, E; split.
    + intros ->; destruct (H eq_refl) as (c & Hc); split; [congruence|]; split; [congruence|].
      cbn [andthen]; unfold bp_parameterize; rewrite F1, F, Hc; reflexivity.
    + intros N; destruct G as [G|G]; [congruence|subst b1]; destruct r as [[]|e|]; [congruence|reflexivity..].
Qed.
Lemma ip_parameterize_all new (p : iproblem K) :
  (forall s, ip_fit p = Some s \/ ip_fit p = None /\ ip_init p = Some s ->
     (ip_data p = None -> ip_parameterize new p = (p, Err TypeError)) /\
     (forall data, ip_data p = Some data ->
        ip_parameterize new p =
          match parameterize_surface (beh_of_surf s) data with
          | Ok rows => (mkIP (ip_degree p) (ip_data p) (ip_num p) (ip_top p) (ip_bottom p) (ip_init p)
                          (Some (mkData (dt_cols data + 2) rows)) (ip_fit p), Ok tt)
          | Err e => (p, Err e)
          | Diverge => (p, Diverge)
          end)) /\
  (ip_fit p = None -> ip_init p = None ->
     match init_surface new (ip_top p) (ip_bottom p) (ip_degree p) (ip_num p) with
     | Ok s => ip_parameterize new p =
         ip_parameterize new (mkIP (ip_degree p) (ip_data p) (ip_num p) (ip_top p) (ip_bottom p) (Some s) (ip_param p) None)
     | Err e => ip_parameterize new p = (p, Err e)
     | Diverge => ip_parameterize new p = (p, Diverge)
     end).
Proof.
  split.
  - intros s Hs; assert (E : forall data, ip_data p = data -> ip_parameterize new p = finish p (let* d := parameterize_surface_opt (Some s) data in
      Ok (mkIP (ip_degree p) (ip_data p) (ip_num p) (ip_top p) (ip_bottom p) (ip_init p) (Some d) (ip_fit p)))).
    { intros data <-; unfold ip_parameterize; destruct Hs as [F|(F & I)]; rewrite ?F, ?I; [destruct (ip_init p)|]; reflexivity. }
    split; [intros D; rewrite (E _ D); reflexivity|intros data D; rewrite (E _ D)].
    cbn [parameterize_surface_opt]; destruct (parameterize_surface _ data); reflexivity.
  - intros F I; unfold ip_parameterize, ip_set_init; rewrite F, I; destruct (init_surface _ _ _ _ _); cbn [bind finish andthen]; reflexivity.
Qed.
End Assign.
